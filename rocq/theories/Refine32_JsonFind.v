(** * [Json_findByKey] on a target with a 32-bit [size_t] *)
From Verif Require Import CSem Lib CLang C_Json C_Size32 Model_Json Proof_SortEnd Proof_Term
  Refine Refine_Cipher Refine_Sort Refine_Json Refine32_Cipher Refine32_Json Refine32_Base64.

Lemma Json_findByKey_32 o n key value mx :
  0 <= n < 2 ^ 32 -> 0 <= mx < 2 ^ 32 -> len key < 2 ^ 32 ->
  Json_findByKey o n key value mx
  =
    let! key_size := strlen key in
      let max_search_size :=
      if key_size <? n then u32 (n - key_size) else 0 in
      let! '(index, success) :=
      cwhile (S (S (length o)))
        (fun '(index, success) => index <? max_search_size)
        (fun '(index, success) =>
           let! eq := strncmp_eq o index key 0 (Z.to_nat key_size) in
           if (eq : bool) then
             let! c := load o (u32 (index + key_size)) in
             Ok (Break (index, if c =? 34 then true else success))
           else Ok (Next (u32 (index + 1), success)))
        (0, false) in
    if (success : bool) then
          let! index :=
        cwhile (S (S (length o)))
          (fun index => index <? n)
          (fun index =>
             let! c := load o index in
             if c =? 34 then Ok (Break index) else Ok (Next (u32 (index + 1))))
          (u32 (index + u32 (key_size + 1))) in
          let index := u32 (index + 1) in
      let! '(value, _, _, success) :=
        cwhile (S (S (length o)))
          (fun '(value, value_size, index, success) =>
             (index <? n) && (value_size <? mx))
          (fun '(value, value_size, index, success) =>
             let! c := load o index in
             let! value := store value value_size c in
             if c =? 34 then
               let! value := store value value_size 0 in
               Ok (Break (value, value_size, index, true))
             else Ok (Next (value, u32 (value_size + 1), u32 (index + 1), success)))
          (value, 0, index, false) in
      Ok (success, value)
    else Ok (false, value).
Proof.
  intros Hn Hmx Hk. unfold Json_findByKey.
  destruct (strlen key) as [ks| |] eqn:E; [|done..]. cbn [bind]. pose proof (strlen_bound key ks E).
  assert (u32 (u64 (ks + 1)) = u32 (ks + 1)) as Eks by (by rewrite (u64_small (ks + 1)) by lia).
  rewrite Eks. set (ms := if ks <? n then _ else 0).
  assert (0 <= ms < 2 ^ 32 /\ (0 < ms -> ms + ks = n)) as Hms.
  { subst ms. destruct (Z.ltb_spec ks n); [|lia]. rewrite u32_small by lia. lia. }
  clearbody ms.
  apply (cwhile_agree (fun '(i, s) => 0 <= i <= ms) (fun '(i, s) => True)).
  - lia.
  - by intros [i s].
  - intros [i s] Hi Hc. by rewrite (u64_small (i + ks)), (u32_small (i + ks)) by lia.
  - intros [i s] [i' s'] Hi Hc Eb. apply bind_ok_inv in Eb as ([] & _ & Eb).
    + apply bind_ok_inv in Eb as (? & _ & Eb). done.
    + injection Eb as <- <-. rewrite u32_small by lia. lia.
  - by intros [i s] [i' s'].
  - by intros [i s].
  - intros [i s] _. destruct s; [|done].
    apply (cwhile_agree (fun i => True) (fun i => True)); try done.
    intros j _. apply (cwhile_agree (fun '(v, l, i, s) => 0 <= l <= mx) (fun '(v, l, i, s) => True)).
    + lia.
    + by intros [[[v' l] i'] s].
    + intros [[[v' l] i'] s] Hl Hc. apply andb_true_iff in Hc as [_ Hc]. apply Z.ltb_lt in Hc.
      by rewrite u64_small, (u32_small (l + 1)) by lia.
    + intros [[[v' l] i'] s] [[[v2 l2] i2] s2] Hl Hc Eb.
      apply andb_true_iff in Hc as [_ Hc]. apply Z.ltb_lt in Hc.
      apply bind_ok_inv in Eb as (c & _ & Eb). apply bind_ok_inv in Eb as (v3 & _ & Eb).
      destruct (c =? 34); [by apply bind_ok_inv in Eb as (? & _ & Eb)|].
      injection Eb as <- <- <- <-. rewrite u64_small by lia. lia.
    + by intros [[[v' l] i'] s] [[[v2 l2] i2] s2].
    + by intros [[[v' l] i'] s].
    + by intros [[[v' l] i'] s].
Qed.

Section json.
  Context {W : Type} (sc : bool)
          (ext : Z -> list val -> mem -> W -> outcome (val * mem * W)) (fuel : nat).
  Local Notation run f := (call sc ext fuel f).
  Local Notation str_at b := (VPtr (TInt IChar) (BObj b) 0).
  Implicit Types (m : mem) (w : W) (o : list Z).

  Lemma ref32_Json_findByKey m w b o n b1 k b2 v mx :
    m !! b = Some (ints 8 o) -> m !! b1 = Some (ints 8 k) -> m !! b2 = Some (ints 8 v) ->
    b <> b1 -> b <> b2 -> b1 <> b2 -> is_u32 n -> is_u32 mx ->
    bytes o -> len k < 2 ^ 32 ->
    Json_findByKey o n k v mx <> Diverge -> (S (length o) < fuel)%nat ->
    run c32_Json_findByKey [str_at b; VInt U32 n; str_at b1; str_at b2; VInt U32 mx] m w
    = let! '(r, v) := Json_findByKey o n k v mx in Ok (VInt IBool (b2z r), <[b2 := ints 8 v]> m, w).
  Proof.
    intros Hb Hb1 Hb2 Hn1 Hn2 Hn3 Hn Hmx Hbo Hlk Hnd Hf. rewrite Json_findByKey_32 in * by done. revert Hnd.
    unfold c32_Json_findByKey. bounds. intros Hnd. go.
    2:{ rewrite loop_skip; [|lia|go_body]. cbn [cwhile]. change (0 <? 0) with false. cbn [bind].
        go. cbn [bind b2z]. by rewrite list_insert_id. }
    rewrite ?E in Hnd. cbn [bind] in Hnd. rewrite ?Heqb0 in Hnd. revert Hnd.
    set (ms := u32 (n - n0)). intros Hnd. assert (0 <= ms < 2 ^ 32) by (unfold ms; rng).
    clearbody ms.
    sim_while (fun '(i, s) => ([str_at b; VInt U32 n; str_at b1; str_at b2; VInt U32 mx;
                                VInt IBool (b2z s); VInt U32 n0; VInt U32 ms; VInt U32 i], m, w))
      (fun '(i, s) => ([str_at b; VInt U32 n; str_at b1; str_at b2; VInt U32 mx;
                                VInt IBool (b2z s); VInt U32 n0; VInt U32 ms; VInt U32 i], m, w))
      (fun '(i, s) => 0 <= i <= len o).
    - done.
    - pose proof (len_nonneg o). lia.
    - lia.
    - intros E'. apply Hnd. rewrite E'. done.
    - intros [i s] Hi Hc. apply Z.ltb_lt in Hc. go_body.
    - intros [i s] Hi Hc. go_body.
    - intros [i s] [i' s'] Hi Hc E'. apply bind_ok_inv in E' as ([] & Ee & E').
      + by apply bind_ok_inv in E' as (? & ? & ?).
      + apply strncmp_false_inv in Ee. injection E' as <- <-. rng.
    - both. destruct b0.
      2:{ go. cbn [bind b2z]. by rewrite list_insert_id. }
      go. cbn [bind] in *. set (start := u32 (z + _)) in *.
      assert (0 <= start < 2 ^ 32) by (unfold start; rng). clearbody start.
      sim_while (fun i => ([str_at b; VInt U32 n; str_at b1; str_at b2; VInt U32 mx;
                             VInt IBool 0; VInt U32 n0; VInt U32 ms; VInt U32 i], m, w))
        (fun i => ([str_at b; VInt U32 n; str_at b1; str_at b2; VInt U32 mx;
                             VInt IBool 0; VInt U32 n0; VInt U32 ms; VInt U32 i], m, w))
        (fun i => 0 <= i < 2 ^ 32).
      + done.
      + done.
      + lia.
      + intros E'. apply Hnd. rewrite E'. done.
      + intros i Hi Hc. apply Z.ltb_lt in Hc. go_body.
      + intros i Hi Hc. apply Z.ltb_ge in Hc. go_body.
      + intros i i' Hi Hc E'. apply bind_ok_inv in E' as (c & Ec & E').
        destruct (c =? 34); [done|]. injection E' as <-. rng.
      + both. go. cbn [bind] in *. set (next := u32 (r + _)) in *.
        assert (0 <= next < 2 ^ 32) by (unfold next; rng). clearbody next.
        sim_while (fun '(v, l, i, s) => ([str_at b; VInt U32 n; str_at b1; str_at b2; VInt U32 mx;
                             VInt IBool (b2z s); VInt U32 n0; VInt U32 ms; VInt U32 i; VInt U32 l],
                             <[b2 := ints 8 v]> m, w))
          (fun '(v, l, i, s) => ([str_at b; VInt U32 n; str_at b1; str_at b2; VInt U32 mx;
                             VInt IBool (b2z s); VInt U32 n0; VInt U32 ms; VInt U32 i; VInt U32 l],
                             <[b2 := ints 8 v]> m, w))
          (fun '(v, l, i, s) => 0 <= i < 2 ^ 32 /\ 0 <= l < 2 ^ 32).
        * cbn. by rewrite list_insert_id.
        * lia.
        * lia.
        * intros E'. apply Hnd. rewrite E'. done.
        * intros [[[v' l] i] s] [Hi Hl] Hc. apply andb_true_iff in Hc as [Hc1 Hc2].
          apply Z.ltb_lt in Hc1, Hc2. go_body.
          rewrite store_ok by lia. by destruct sc.
        * intros [[[v' l] i] s] [Hi Hl] Hc. apply andb_false_iff in Hc. go_body.
        * intros [[[v' l] i] s] [[[v2 l2] i2] s2] [Hi Hl] Hc E'.
          apply bind_ok_inv in E' as (c & Ec & E'). apply bind_ok_inv in E' as (v3 & Ev & E').
          destruct (c =? 34); [by apply bind_ok_inv in E' as (? & ? & ?)|].
          injection E' as <- <- <- <-. rng.
        * both. go.
  Qed.
End json.
