(** * The hand-written model of [Chacha20_crypt] against the C text *)
From Verif Require Import CSem Lib CLang C_Utils C_Crypto Model_Utils Model_Crypto Refine Refine_Utils
  Refine_Chacha Refine_ChachaBlock.

Ltac head_hook X ::=
  lazymatch X with
  | call _ _ _ c_Block _ _ _ =>
      erewrite ref_Block; [| look | look | look | assumption | assumption | lia];
      rewrite bind_assoc; both
  end.

(** [s] is the unchanged [po] followed by something as long as [ro] *)
Definition split_at (po ro s : list Z) : Prop := exists t, s = po ++ t /\ len t = len ro.

Lemma load_app_left (a t : list Z) i : 0 <= i < len a -> load (a ++ t) i = load a i.
Proof.
  intros Hi. unfold load, len in *. destruct (Z.leb_spec 0 i); [|done].
  by rewrite lookup_app_l by lia.
Qed.
Lemma store_app_right (a t : list Z) i x :
  0 <= i -> store (a ++ t) (len a + i) x = let! t := store t i x in Ok (a ++ t).
Proof.
  intros Hi. unfold store. rewrite len_app. pose proof (len_nonneg a).
  destruct (Z.ltb_spec i (len t)).
  - replace (_ && _) with true by lia. replace (_ && _) with true by lia. cbn [bind].
    rewrite insert_app_r_alt by (unfold len; lia). do 3 f_equal. unfold len. lia.
  - replace (_ && _) with false by lia. replace (_ && _) with false by lia. done.
Qed.
Lemma split_store po ro t i x s :
  len t = len ro -> 0 <= i -> store (po ++ t) (len po + i) x = Ok s -> split_at po ro s.
Proof.
  intros Ht Hi H. rewrite store_app_right in H by done. apply bind_ok_inv in H as (t' & E & H).
  injection H as <-. exists t'. split; [done|]. apply store_inv in E as [_ ->]. by rewrite len_insert.
Qed.

Lemma split_step po ro (ks : list Z) p i r k s s' :
  0 <= r -> 0 <= k -> split_at po ro s ->
  (let! a := load s (p + k) in let! b := load ks i in
   store s (len po + r + k) (u8 (Z.lxor a b))) = Ok s' -> split_at po ro s'.
Proof.
  intros Hr Hk (u & -> & Hu) H. apply bind_ok_inv in H as (? & _ & H).
  apply bind_ok_inv in H as (? & _ & H). rewrite <- Z.add_assoc in H.
  apply (split_store po ro) in H; [done|done|lia].
Qed.

Section crypt.
  Context {W : Type} (sc : bool)
          (ext : Z -> list val -> mem -> W -> outcome (val * mem * W)) (fuel : nat).
  Local Notation run f := (call sc ext fuel f).
  Implicit Types (m : mem) (w : W) (o : list Z).
  Local Notation at8 b p := (VPtr (TInt U8) (BObj b) p).

  (** [plaintext] and [result] in one object *)
  Lemma ref_Chacha20_crypt m w b o p r bk key bn nonce n inc :
    m !! b = Some (ints 8 o) -> m !! bk = Some (ints 8 key) -> m !! bn = Some (ints 8 nonce) ->
    b <> bk -> b <> bn -> bytes key -> bytes nonce -> is_u32 n -> is_u32 inc ->
    (64 < fuel)%nat -> (Z.to_nat (n / 64) < fuel)%nat ->
    run c_Chacha20_crypt [at8 b p; VInt U32 n; at8 bk 0; at8 bn 0; VInt U32 inc; at8 b r] m w
    = let! o := Chacha20_crypt o p n key nonce inc r in Ok (VUndef, <[b := ints 8 o]> m, w).
  Proof.
    intros Hb Hk Hn N1 N2 Bk Bn Hln Hi Hf Hf2. unfold c_Chacha20_crypt, Chacha20_crypt.
    bounds. go.
    change BLOCK_SIZE with 64.
    let z := eval compute in (replicate 64 0) in change (replicate 64 0) with z.
    rewrite (u32_small (n / 64)) by lia.
    sim_for (fun j o => ([at8 b p; VInt U32 n; at8 bk 0; at8 bn 0; VInt U32 inc; at8 b r;
                          VInt U32 (n / 64); VInt U32 (n mod 64); VInt U32 j],
                         <[b := ints 8 o]> m, w)) (fun _ _ => True).
    - by rewrite list_insert_id.
    - lia.
    - done.
    - lia.
    - intros j s Hj _. go_body.
      rewrite insert_length.
      sim_for (fun i s => ([at8 b p; VInt U32 n; at8 bk 0; at8 bn 0; VInt U32 inc; at8 b r;
                            VInt U32 (n / 64); VInt U32 (n mod 64); VInt U32 j;
                            at8 (length m) 0; VInt U8 i],
                           <[b := ints 8 s]> m ++ [ints 8 r0], w)) (fun _ _ => True).
      + rewrite insert_last by (by rewrite insert_length). done.
      + done.
      + done.
      + lia.
      + intros i t Hi' _. go_body.
      + done.
      + intros t _. go_body.
      + both. go.
    - done.
    - intros s _. go_body.
    - rewrite (Z.eqb_sym (n mod 64) 0). both. go. rewrite insert_length.
      sim_for (fun i s => ([at8 b p; VInt U32 n; at8 bk 0; at8 bn 0; VInt U32 inc; at8 b r;
                            VInt U32 (n / 64); VInt U32 (n mod 64);
                            at8 (length m) 0; VInt U32 i],
                           <[b := ints 8 s]> m ++ [ints 8 r1], w)) (fun _ _ => True).
      + rewrite insert_last by (by rewrite insert_length). done.
      + lia.
      + done.
      + lia.
      + intros i t Hi' _. go_body.
      + done.
      + intros t _. go_body.
      + both. go. memn. done.
  Qed.

  (** [plaintext] and [result] in different objects, both large enough *)
  Lemma ref_Chacha20_crypt_apart m w bp po br ro p r bk key bn nonce n inc :
    m !! bp = Some (ints 8 po) -> m !! br = Some (ints 8 ro) ->
    m !! bk = Some (ints 8 key) -> m !! bn = Some (ints 8 nonce) ->
    bp <> br -> br <> bk -> br <> bn -> bytes key -> bytes nonce -> is_u32 n -> is_u32 inc ->
    0 <= p -> p + n <= len po -> 0 <= r -> r + n <= len ro ->
    (64 < fuel)%nat -> (Z.to_nat (n / 64) < fuel)%nat ->
    run c_Chacha20_crypt [at8 bp p; VInt U32 n; at8 bk 0; at8 bn 0; VInt U32 inc; at8 br r] m w
    = let! o := Chacha20_crypt (po ++ ro) p n key nonce inc (len po + r) in
      Ok (VUndef, <[br := ints 8 (drop (length po) o)]> m, w).
  Proof.
    intros Hp Hr Hk Hn N0 N1 N2 Bk Bn Hln Hi Hp0 Hpn Hr0 Hrn Hf Hf2.
    unfold c_Chacha20_crypt, Chacha20_crypt.
    bounds. go.
    change BLOCK_SIZE with 64.
    let z := eval compute in (replicate 64 0) in change (replicate 64 0) with z.
    rewrite (u32_small (n / 64)) by lia.
    sim_for (fun j o => ([at8 bp p; VInt U32 n; at8 bk 0; at8 bn 0; VInt U32 inc; at8 br r;
                          VInt U32 (n / 64); VInt U32 (n mod 64); VInt U32 j],
                         <[br := ints 8 (drop (length po) o)]> m, w)) (fun _ => split_at po ro).
    - rewrite drop_app. by rewrite list_insert_id.
    - lia.
    - by exists ro.
    - lia.
    - intros j _ Hj (t & -> & Ht). rewrite drop_app. go_body.
      rewrite insert_length.
      sim_for (fun i s => ([at8 bp p; VInt U32 n; at8 bk 0; at8 bn 0; VInt U32 inc; at8 br r;
                            VInt U32 (n / 64); VInt U32 (n mod 64); VInt U32 j;
                            at8 (length m) 0; VInt U8 i],
                           <[br := ints 8 (drop (length po) s)]> m ++ [ints 8 r0], w))
        (fun _ => split_at po ro).
      + rewrite drop_app, insert_last by (by rewrite insert_length). done.
      + done.
      + by exists t.
      + lia.
      + intros i _ Hi' (u & -> & Hu). rewrite drop_app.
        assert (0 <= u32 (u32 (j * 64) + i) < n) as Hk' by (unfold u32; lia).
        rewrite load_app_left, <- Z.add_assoc by lia.
        go_body.
        rewrite store_app_right, store_ok by lia. cbn [bind]. rewrite drop_app. go.
      + intros i u s' Hi' Hu H.
        apply (split_step po ro) in H; [done|lia|unfold u32; lia|done].
      + intros t' _. go_body.
      + both. go.
    - intros j s s' Hj Hs H. apply bind_ok_inv in H as (ks & _ & H).
      apply (cfor_inv (fun _ => split_at po ro)) in H; [done|done|lia|]. clear - Hj Hr0.
      intros i u s' Hi' Hu H.
      apply (split_step po ro) in H; [done|lia|unfold u32; lia|done].
    - intros s _. go_body.
    - rewrite (Z.eqb_sym (n mod 64) 0). 
      both. assert (split_at po ro r0) as Hs.
      { apply (cfor_inv (fun _ => split_at po ro)) in E; [done|by exists ro|lia|].
        clear - Hr0. intros j s s' Hj Hs H. apply bind_ok_inv in H as (ks & _ & H).
        apply (cfor_inv (fun _ => split_at po ro)) in H; [done|done|lia|]. clear - Hj Hr0.
        intros i u s' Hi' Hu H.
        apply (split_step po ro) in H; [done|lia|unfold u32; lia|done]. }
      destruct Hs as (t & -> & Ht). rewrite drop_app.
      go; [|cbn [bind]; by rewrite drop_app].
      rewrite insert_length.
      sim_for (fun i s => ([at8 bp p; VInt U32 n; at8 bk 0; at8 bn 0; VInt U32 inc; at8 br r;
                            VInt U32 (n / 64); VInt U32 (n mod 64);
                            at8 (length m) 0; VInt U32 i],
                           <[br := ints 8 (drop (length po) s)]> m ++ [ints 8 r0], w))
        (fun _ => split_at po ro).
      + rewrite drop_app, insert_last by (by rewrite insert_length). done.
      + lia.
      + by exists t.
      + lia.
      + intros i _ Hi' (u & -> & Hu). rewrite drop_app.
        assert (0 <= u32 (u32 (n / 64 * 64) + i) < n) as Hk' by (unfold u32; lia).
        rewrite load_app_left, <- Z.add_assoc by lia.
        go_body.
        rewrite store_app_right, store_ok by lia. cbn [bind]. rewrite drop_app. go.
      + intros i u s' Hi' Hu H.
        apply (split_step po ro) in H; [done|lia|unfold u32; lia|done].
      + intros u _. go_body.
      + both. go. memn. done.
  Qed.
End crypt.
