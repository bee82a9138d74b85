(** * The hand-written model of the decoder when it writes into its own input *)
From Verif Require Import CSem Lib CLang C_Base64 Model_Base64 Refine Proof_Term Refine_Base64Dec.

Section base64.
  Context {W : Type} (sc : bool)
          (ext : Z -> list val -> mem -> W -> outcome (val * mem * W)) (fuel : nat).
  Local Notation run f := (call sc ext fuel f).
  Implicit Types (m : mem) (w : W) (o : list Z).

  Lemma inpl d i j o s :
    (let! b0 := load d i in
     let! v0 := load base64_index b0 in
     let! b1 := load d (i + 1) in
     let! v1 := load base64_index b1 in
     let! b2 := load d (i + 2) in
     let! v2 := load base64_index b2 in
     let! b3 := load d (i + 3) in
     let! v3 := load base64_index b3 in
     let n := Z.lor (Z.lor (Z.lor (u32 (Z.shiftl v0 18)) (u32 (Z.shiftl v1 12)))
                           (u32 (Z.shiftl v2 6))) v3 in
     let! out := store o j (u8 (Z.shiftr n 16)) in
     let! out := store out (j + 1) (u8 (Z.land (Z.shiftr n 8) 255)) in
     let! out := store out (j + 2) (u8 (Z.land n 255)) in
     Ok (Next (u64 (i + 4), j + 3, out))) = Ok (Next s) ->
    forall L, 0 <= i <= L -> i mod 4 = 0 -> 0 <= j <= i -> i < L -> L < 2 ^ 64 -> L mod 4 = 0 -> len o = len d ->
    (forall k, i <= k -> load o k = load d k) ->
    let '(i', j', o') := s in
    (0 <= i' <= L /\ i' mod 4 = 0 /\ 0 <= j' <= i') /\ len o' = len d /\
    (forall k, i' <= k -> load o' k = load d k).
  Proof.
    intros E L Hi Hi4 Hj Hc HL HL4 Hlo Hsame. cbv zeta in E.
    do 8 (apply bind_ok_inv in E as (? & _ & E)).
    apply bind_ok_inv in E as (? & E1 & E). apply bind_ok_inv in E as (? & E2 & E).
    apply bind_ok_inv in E as (? & E3 & E). injection E as <-.
    pose proof (store_range _ _ _ _ E1). pose proof (store_range _ _ _ _ E2).
    pose proof (store_range _ _ _ _ E3). rewrite u64_small by lia.
    repeat split; try lia. intros k Hk.
    rewrite (load_store_other _ _ k _ _ E3), (load_store_other _ _ k _ _ E2),
      (load_store_other _ _ k _ _ E1) by lia. apply Hsame. lia.
  Qed.

  Ltac load_hook o p ::=
    match goal with E : store _ _ _ = Ok o |- _ => rewrite (load_store_other _ _ p _ _ E) by (first [lia|rng]) end.
  Lemma ref_decode_in_place m w b d n mx :
    m !! b = Some (ints 8 d) -> bytes d ->
    is_u64 n -> is_u64 mx -> (length d < fuel)%nat ->
    run c_Base64_decode [VPtr (TInt IChar) (BObj b) 0; VInt U64 n; VPtr (TInt U8) (BObj b) 0;
                         VInt U64 mx] m w
    = let! '(s, o) := Base64_decode d n d mx in Ok (VInt I32 s, <[b := ints 8 o]> m, w).
  Proof.
    intros Hd Hbd Hn Hmx Hf. pose proof (decode_nd d n d mx) as Hnd.
    pose proof index_bytes as Ht. revert Hnd.
    unfold c_Base64_decode, Base64_decode. cbv zeta. intros Hnd. bounds.
    change c_Base64_decode_base64_index with base64_index.
    go_to_and.
    lazymatch goal with
    | |- bind (eval _ _ _ ?e ?s) _ = bind (bind ?M _) _ =>
        assert (eval sc ext fuel e s = let! p := M in Ok (VInt I32 (b2z p), s)) as ->
    end.
    { rewrite <- (bind_ret (eval _ _ _ _ _)). go. }
    rewrite !bind_assoc. revert Hnd.
    destruct (if 0 <? n then _ else _) as [pad| |]; [|done..]. cbn [bind]. intros Hnd.
    destruct pad; go.
    all: try (cbn [bind]; by rewrite list_insert_id).
    all: cbn [b2z].
    all: match goal with |- context [VInt IBool ?bz :: VInt U32 ?q :: _] =>
      set (L := u64 (u64 (u64 (n + 3) / 4 - q) * 4)) in *;
      set (OL := u64 (u64 (L / 4 * 3) + q)) in *;
      assert (0 <= L < 2 ^ 64 /\ L mod 4 = 0) as HL
        by (subst L; generalize (u64 (n + 3) / 4 - q); intros x; unfold u64; lia);
      assert (OL = L / 4 * 3 + q) as HO by (subst OL; unfold u64; lia);
      clearbody OL L;
      sim_while (fun '(i, j, o) =>
          ([VPtr (TInt IChar) (BObj b) 0; VInt U64 n; VPtr (TInt U8) (BObj b) 0; VInt U64 mx;
            VInt I32 0; VPtr (TInt U8) (BObj b) 0; VInt IBool bz; VInt U32 q; VInt U64 L;
            VInt U64 OL; VInt U64 j; VInt U64 i], <[b := ints 8 o]> m, w))
        (fun '(i, j, o) =>
          ([VPtr (TInt IChar) (BObj b) 0; VInt U64 n; VPtr (TInt U8) (BObj b) 0; VInt U64 mx;
            VInt I32 0; VPtr (TInt U8) (BObj b) 0; VInt IBool bz; VInt U32 q; VInt U64 L;
            VInt U64 OL; VInt U64 j; VInt U64 i], <[b := ints 8 o]> m, w))
        (fun '(i, j, o) => 0 <= i <= L /\ i mod 4 = 0 /\ 0 <= j <= i /\ len o = len d /\
           (forall k, i <= k -> load o k = load d k))
      end.
    - by rewrite list_insert_id.
    - repeat split; try lia; done.
    - lia.
    - intros E. apply Hnd. rewrite E. done.
    - intros [[i j] o'] (Hi & Hi4 & Hj & Hlo & Hsame) Hc.
      pose proof (Hsame i ltac:(lia)). pose proof (Hsame (i + 1) ltac:(lia)).
      pose proof (Hsame (i + 2) ltac:(lia)). pose proof (Hsame (i + 3) ltac:(lia)). go_body.
    - intros [[i j] o'] (Hi & Hi4 & Hj & _) Hc. go_body.
    - intros [[i j] o'] [[i' j'] o''] (Hi & Hi4 & Hj & Hlo & Hsame) Hc E. cbv beta iota in E.
      apply Z.ltb_lt in Hc. 
      destruct (inpl _ _ _ _ _ E L) as ((? & ? & ?) & ? & ?); [lia..|done|]. repeat split; try lia; done.
    - clear Hnd. both.
      lazymatch goal with E : cwhile _ _ _ _ = _ |- _ =>
        eapply (cwhile_inv
          (fun '(i, j, o) => (0 <= i <= L /\ i mod 4 = 0 /\ 0 <= j <= i) /\ len o = len d /\
             (forall k, i <= k -> load o k = load d k))
          (fun '(i, j, o) => len o = len d /\ (forall k, L <= k -> load o k = load d k))) in E;
        [|repeat split; try lia; done
         |intros [[i j] o] [[i' j'] o'] ((? & ? & ?) & ? & ?) Hc E';
          apply Z.ltb_lt in Hc; apply (inpl _ _ _ _ _ E' L); [lia..|done]
         |intros [[? ?] ?] [[i j] o] ? ? E'; cbv beta iota zeta in E';
          repeat match type of E' with bind _ _ = _ => apply bind_ok_inv in E' as (? & _ & E') end; done
         |intros [[i j] o] ((? & ? & ?) & ? & ?) Hc; apply Z.ltb_ge in Hc; split; [done|];
          intros; match goal with H : _ |- _ => apply H; lia end];
        destruct E as [Hlo Hsame]
      end.
      pose proof (Hsame L ltac:(lia)). pose proof (Hsame (L + 1) ltac:(lia)).
      pose proof (Hsame (L + 2) ltac:(lia)).
      go.
    - by rewrite list_insert_id.
    - repeat split; try lia; done.
    - lia.
    - intros E. apply Hnd. rewrite E. done.
    - intros [[i j] o'] (Hi & Hi4 & Hj & Hlo & Hsame) Hc.
      pose proof (Hsame i ltac:(lia)). pose proof (Hsame (i + 1) ltac:(lia)).
      pose proof (Hsame (i + 2) ltac:(lia)). pose proof (Hsame (i + 3) ltac:(lia)). go_body.
    - intros [[i j] o'] (Hi & Hi4 & Hj & _) Hc. go_body.
    - intros [[i j] o'] [[i' j'] o''] (Hi & Hi4 & Hj & Hlo & Hsame) Hc E. cbv beta iota in E.
      apply Z.ltb_lt in Hc. 
      destruct (inpl _ _ _ _ _ E L) as ((? & ? & ?) & ? & ?); [lia..|done|]. repeat split; try lia; done.
    - clear Hnd. both.
      lazymatch goal with E : cwhile _ _ _ _ = _ |- _ =>
        eapply (cwhile_inv
          (fun '(i, j, o) => (0 <= i <= L /\ i mod 4 = 0 /\ 0 <= j <= i) /\ len o = len d /\
             (forall k, i <= k -> load o k = load d k))
          (fun '(i, j, o) => len o = len d /\ (forall k, L <= k -> load o k = load d k))) in E;
        [|repeat split; try lia; done
         |intros [[i j] o] [[i' j'] o'] ((? & ? & ?) & ? & ?) Hc E';
          apply Z.ltb_lt in Hc; apply (inpl _ _ _ _ _ E' L); [lia..|done]
         |intros [[? ?] ?] [[i j] o] ? ? E'; cbv beta iota zeta in E';
          repeat match type of E' with bind _ _ = _ => apply bind_ok_inv in E' as (? & _ & E') end; done
         |intros [[i j] o] ((? & ? & ?) & ? & ?) Hc; apply Z.ltb_ge in Hc; split; [done|];
          intros; match goal with H : _ |- _ => apply H; lia end];
        destruct E as [Hlo Hsame]
      end.
      pose proof (Hsame L ltac:(lia)). pose proof (Hsame (L + 1) ltac:(lia)).
      pose proof (Hsame (L + 2) ltac:(lia)).
      go.
  Qed.
End base64.

Lemma encode_in_place_refuted : exists d n mx s r,
  bytes d /\ is_u64 n /\ is_u64 mx /\
  Base64_encode d n d mx = Ok (s, r) /\
  call true no_ext 100 c_Base64_encode
    [VPtr (TInt IChar) (BObj 0) 0; VInt U64 n; VPtr (TInt IChar) (BObj 0) 0; VInt U64 mx] [ints 8 d] tt
  <> Ok (VInt I32 s, [ints 8 r], tt).
Proof.
  exists [77; 97; 110; 0; 0; 0], 3, 5. vm_compute. do 2 eexists.
  repeat (split; [repeat constructor; try done|]); try done.
Qed.
