(** * Proofs for [Props_Layout.v]: the functions of the library, and several objects in one array *)
From Verif Require Import Drive_Front C_Base64 C_Crypto.
From Verif Require Import CSem Lib CLang Spec_Layout Spec_Base64 Drive_SortText Refine
  Proof_EvalOrder Proof_Fuel Proof_Layout Proof_TextBase64
  Spec_Cipher Spec_ChaCha Proof_ChaChaCrypt Proof_TextCrypto.
Local Open Scope Z_scope.

Lemma follows_none {W} j ext : follows (W := W) j no_ext ext.
Proof. intros f vs m1 m2 w v m1' w' _ _ H. discriminate. Qed.

Lemma cells_bytes_move j cs : cells_bytes (map (moved_cell j) cs) = cells_bytes cs.
Proof.
  induction cs as [|c cs IH]; [done|]. cbn [map cells_bytes]. rewrite cell_byte_move, IH. done.
Qed.
Lemma read_bytes_move j m1 m2 n o k l : holds j m1 m2 ->
  read_bytes m1 (BObj n) o k = Ok l ->
  read_bytes m2 (BObj (fst (j n))) (Z.of_nat (snd (j n)) + o) k = Ok l.
Proof.
  intros HH H. unfold read_bytes in *. cbn [block] in *.
  destruct (m1 !! n) as [cs|] eqn:X; [|discriminate]. cbn [bind] in H.
  destruct (HH _ _ X) as (ds & -> & pre & post & -> & <-). cbn [bind].
  destruct (in_range cs o k) eqn:R; [|discriminate].
  rewrite (in_range_part pre cs (map (moved_cell j) cs) post o k (map_length _ _) R), slice_part by exact R.
  rewrite cells_bytes_move. exact H.
Qed.
Lemma follows_bytes {T} j cmp n : follows (W := T) j (byte_cmp cmp n) (byte_cmp cmp n).
Proof.
  intros f vs m1 m2 w v m1' w' HH HA H. unfold byte_cmp in H.
  destruct vs as [|[| ? a i| | |] [|[| ? b k| | |] [|]]]; try discriminate.
  destruct (read_bytes m1 a i n) as [x| |] eqn:X; cbn [bind] in H; try discriminate.
  destruct (read_bytes m1 b k n) as [y| |] eqn:Y; cbn [bind] in H; try discriminate.
  destruct (cmp w x y) as [w2 c] eqn:C. injection H as <- <- <-. split; [done|].
  exists m2. refine (conj _ (conj eq_refl (conj HH _))).
  - cbn [map]. rewrite !move_ptr. unfold byte_cmp.
    assert (forall b o l, read_bytes m1 b o n = Ok l ->
      read_bytes m2 (match b with BObj n => BObj (fst (j n)) | BData _ _ => b end)
        (match b with BObj n => Z.of_nat (snd (j n)) | BData _ _ => 0 end + o) n = Ok l) as R.
    { intros [q|q1 q2] o l; [apply read_bytes_move; exact HH|]. cbn [Z.add]. done. }
    rewrite (R _ _ _ X), (R _ _ _ Y). cbn [bind]. rewrite C. done.
  - intros q ds Hq. exists ds. auto.
Qed.

(** ** The functions of the library *)

Lemma program_layout {W} sc ext1 ext2 fuel f l x st d args lay m1 m2 (w : W) v m1' w' :
  (forall f vs m w v m' w', ext1 f vs m w = Ok (v, m', w') ->
     map (@length cell) m' = map (@length cell) m) ->
  In (f, l) c_program -> In (x, st, d) l ->
  length lay = length m1 -> holds (placed lay (length m2)) m1 m2 ->
  apart (placed lay (length m2)) m1 -> follows (placed lay (length m2)) ext1 ext2 ->
  call sc ext1 fuel d args m1 w = Ok (v, m1', w') ->
  exists m2',
    call sc ext2 fuel d (map (moved (placed lay (length m2))) args) m2 w
    = Ok (moved (placed lay (length m2)) v, m2', w') /\
    length m1' = length m1 /\ length m2' = length m2 /\
    holds (placed lay (length m2')) m1' m2' /\ apart (placed lay (length m2')) m1' /\
    untouched (placed lay (length m2)) m1 m2 m2'.
Proof.
  intros Hext H1 H2 HL HH HA HF H.
  pose proof (sizes_program _ _ _ _ _ _ _ _ _ _ _ _ _ _ Hext H1 H2 H) as HS.
  destruct (call_layout _ _ _ _ _ _ _ _ _ _ _ _ _ HL HH HA HF H) as (m2' & E & HH' & HU & L).
  assert (length m1' = length m1) as L1.
  { rewrite <- (map_length (@length cell) m1'), HS, map_length. done. }
  assert (length m2' = length m2) as L2 by lia.
  exists m2'. rewrite L2. refine (conj E (conj L1 (conj eq_refl (conj HH' (conj _ HU))))).
  intros n k b y (cs & A & B & C) (ds & A' & B' & C').
  assert (forall n cs, m1' !! n = Some cs -> exists cs', m1 !! n = Some cs' /\ length cs' = length cs) as Q.
  { intros q es Hq. apply (f_equal (fun l => l !! q)) in HS.
    rewrite !(list_lookup_fmap (@length cell)), Hq in HS.
    destruct (m1 !! q) as [fs|]; [|discriminate]. injection HS as HS. eauto. }
  destruct (Q _ _ A) as (cs' & X & Y). destruct (Q _ _ A') as (ds' & X' & Y').
  apply (HA n k b y); [exists cs'|exists ds']; rewrite ?Y, ?Y'; auto.
Qed.

(** ** Several objects in one array *)

Lemma lookup_write {A} (l x : list A) o k : (o + length x <= length l)%nat ->
  write l (Z.of_nat o) x !! k
  = if decide (o <= k < o + length x)%nat then x !! (k - o)%nat else l !! k.
Proof.
  intros L. unfold write. rewrite Nat2Z.id.
  destruct (decide (k < o)%nat) as [H|H].
  - rewrite lookup_app_l by (rewrite take_length; lia). rewrite lookup_take by lia.
    destruct (decide _); [lia|done].
  - rewrite lookup_app_r by (rewrite take_length; lia). rewrite take_length.
    replace (k - o `min` length l)%nat with (k - o)%nat by lia.
    destruct (decide _) as [I|I].
    + rewrite lookup_app_l by lia. done.
    + rewrite lookup_app_r by lia. rewrite lookup_drop. f_equal. lia.
Qed.
Lemma length_write {A} (l x : list A) o : (o + length x <= length l)%nat ->
  length (write l (Z.of_nat o) x) = length l.
Proof. intros L. unfold write. rewrite !app_length, take_length, drop_length. lia. Qed.

Notation within l := (fun p => (fst p + length (snd p) <= length l)%nat).
Lemma length_writes {A} (ps : list (nat * list A)) l : Forall (within l) ps ->
  length (writes ps l) = length l.
Proof.
  revert l. induction ps as [|[o x] ps IH]; intros l HF; cbn [writes]; [done|].
  pose proof (Forall_inv HF) as H. cbn [fst snd] in H. apply Forall_inv_tail in HF.
  rewrite IH; rewrite length_write by exact H; [done|]. exact HF.
Qed.
Lemma writes_out {A} (ps : list (nat * list A)) l k : Forall (within l) ps ->
  (forall o x, In (o, x) ps -> ~ (o <= k < o + length x)%nat) -> writes ps l !! k = l !! k.
Proof.
  revert l. induction ps as [|[o x] ps IH]; intros l HF HN; cbn [writes]; [done|].
  pose proof (Forall_inv HF) as H. cbn [fst snd] in H. apply Forall_inv_tail in HF.
  rewrite IH; [|rewrite length_write by exact H; exact HF|intros; apply HN; right; done].
  rewrite lookup_write by exact H. destruct (decide _); [|done]. destruct (HN o x); [left; done|lia].
Qed.
Lemma writes_in {A} (ps : list (nat * list A)) l k i o x : Forall (within l) ps ->
  ps !! i = Some (o, x) -> (o <= k < o + length x)%nat ->
  (forall i' o' x', ps !! i' = Some (o', x') -> (o' <= k < o' + length x')%nat -> i' = i) ->
  writes ps l !! k = x !! (k - o)%nat.
Proof.
  revert l i. induction ps as [|[o' x'] ps IH]; intros l i HF Hi Hk HU; [done|]. cbn [writes].
  pose proof (Forall_inv HF) as H. cbn [fst snd] in H. apply Forall_inv_tail in HF.
  destruct i as [|i].
  - injection Hi as -> ->. rewrite writes_out.
    + rewrite lookup_write by exact H. destruct (decide _); [done|lia].
    + rewrite length_write by exact H. exact HF.
    + intros q y Hq Hk'. apply elem_of_list_In, elem_of_list_lookup in Hq as [i' Hq].
      pose proof (HU (S i') q y Hq Hk'). discriminate.
  - apply (IH _ i); auto.
    + rewrite length_write by exact H. exact HF.
    + intros i' q y Hq Hk'. pose proof (HU (S i') q y Hq Hk'). congruence.
Qed.

Lemma in_some (ps : list (nat * list Z)) k :
  (exists i o x, ps !! i = Some (o, x) /\ (o <= k < o + length x)%nat) \/
  (forall o x, In (o, x) ps -> ~ (o <= k < o + length x)%nat).
Proof.
  induction ps as [|[o x] ps [(i & o' & x' & Hi & Hk)|H]].
  - right. intros o x [].
  - left. exists (S i), o', x'. auto.
  - destruct (decide (o <= k < o + length x)%nat) as [I|I].
    + left. exists 0%nat, o, x. auto.
    + right. intros o' x' [E|Hi]; [injection E as <- <-; exact I|exact (H _ _ Hi)].
Qed.

(** the objects of [m1] are the parts [ps] of object [b] of [m]; the rest of [m] is not used *)
Lemma array_layout {W} sc ext1 ext2 fuel f l x st d args b a ps qs m (w : W) v w' :
  (forall f vs m w v m' w', ext1 f vs m w = Ok (v, m', w') ->
     map (@length cell) m' = map (@length cell) m) ->
  In (f, l) c_program -> In (x, st, d) l ->
  m !! b = Some (ints 8 a) ->
  parts ps a -> separate ps -> map fst qs = map fst ps ->
  follows (in_array b ps m) ext1 ext2 ->
  call sc ext1 fuel d args (map (fun p => ints 8 (snd p)) ps) w
  = Ok (v, map (fun p => ints 8 (snd p)) qs, w') ->
  call sc ext2 fuel d (map (moved (in_array b ps m)) args) m w
  = Ok (moved (in_array b ps m) v, <[b := ints 8 (writes qs a)]> m, w').
Proof.
  intros Hext H1 H2 Hb HP HS Hq HF H. unfold in_array in *.
  set (lay := map (fun p => (b, fst p)) ps) in *. set (j := placed lay (length m)) in *.
  set (m1 := map (fun p => ints 8 (snd p)) ps) in *.
  set (m1' := map (fun p : nat * list Z => ints 8 (snd p)) qs) in *.
  assert (length lay = length m1) as HL by (unfold lay, m1; rewrite !map_length; done).
  assert (forall n p, ps !! n = Some p -> j n = (b, fst p)) as Hj.
  { intros n p Hn. unfold j, placed, lay. rewrite (list_lookup_fmap (fun p => (b, fst p))), Hn. done. }
  assert (forall n cs, m1 !! n = Some cs -> exists p, ps !! n = Some p /\ cs = ints 8 (snd p)) as Hm1.
  { intros n cs Hn. unfold m1 in Hn. rewrite (list_lookup_fmap (fun p => ints 8 (snd p))) in Hn.
    destruct (ps !! n) as [p|]; [|discriminate]. injection Hn as <-. eauto. }
  assert (forall z : list Z, map (moved_cell j) (ints 8 z) = ints 8 z) as Hints.
  { intros z. unfold ints. change (map ?g ?l) with (g <$> l). rewrite <- list_fmap_compose.
    apply list_fmap_ext. intros; reflexivity. }
  assert (holds j m1 m) as HH.
  { intros n cs Hn. destruct (Hm1 _ _ Hn) as ([o y] & Hp & ->). rewrite (Hj _ _ Hp). cbn [fst snd].
    exists (ints 8 a). split; [exact Hb|]. destruct (HP _ _ _ Hp) as (pre & post & -> & <-).
    exists (ints 8 pre), (ints 8 post). rewrite Hints. unfold ints. rewrite !fmap_app, fmap_length. done. }
  assert (apart j m1) as HA.
  { intros n k q y (cs & Hn & _ & Ho) (ds & Hk & _ & Ho').
    destruct (Hm1 _ _ Hn) as ([o1 x1] & Hp & ->). destruct (Hm1 _ _ Hk) as ([o2 x2] & Hp' & ->).
    rewrite (Hj _ _ Hp) in Ho. rewrite (Hj _ _ Hp') in Ho'. unfold ints in *. rewrite !fmap_length in *.
    cbn [fst snd] in *. exact (HS _ _ _ _ _ _ _ Hp Hp' Ho Ho'). }
  destruct (program_layout _ _ _ _ _ _ _ _ _ _ _ _ _ _ _ _ _ Hext H1 H2 HL HH HA HF H)
    as (m2' & EC & _ & L2 & HH' & _ & HU).
  rewrite L2 in HH'. fold j in HH', EC, HU. rewrite EC. clear EC.
  pose proof (sizes_program _ _ _ _ _ _ _ _ _ _ _ _ _ _ Hext H1 H2 H) as HZ.
  assert (forall n o y, qs !! n = Some (o, y) -> exists z, ps !! n = Some (o, z) /\ length z = length y) as Hqp.
  { intros n o y Hn. apply (f_equal (fun l => l !! n)) in HZ. apply (f_equal (fun l => l !! n)) in Hq.
    unfold m1', m1 in HZ. rewrite !(list_lookup_fmap (@length cell)),
      !(list_lookup_fmap (fun p => ints 8 (snd p))), Hn in HZ.
    rewrite !(list_lookup_fmap fst), Hn in Hq. destruct (ps !! n) as [[o' z]|]; [|discriminate].
    cbn in HZ, Hq. unfold ints in HZ. rewrite !fmap_length in HZ. injection HZ as HZ.
    injection Hq as ->. eauto. }
  assert (Forall (within a) qs) as HW.
  { apply Forall_lookup. intros n [o y] Hn. destruct (Hqp _ _ _ Hn) as (z & Hz & E). cbn [fst snd].
    destruct (HP _ _ _ Hz) as (pre & post & -> & <-). rewrite !app_length. lia. }
  f_equal. f_equal. f_equal. apply list_eq. intros q.
  destruct (decide (q = b)) as [->|Dq].
  - rewrite list_lookup_insert by (apply lookup_lt_Some in Hb; exact Hb).
    destruct (HU _ _ Hb) as (ds & X & Y & Z). rewrite X. f_equal.
    apply list_eq. intros k. unfold ints at 1. rewrite list_lookup_fmap.
    destruct (in_some qs k) as [(i & o & y & Hi & Hk)|Hout].
    + rewrite (writes_in qs a k i o y HW Hi Hk).
      * assert (m1' !! i = Some (ints 8 y)) as Hm1' by
          (unfold m1'; rewrite (list_lookup_fmap (fun p => ints 8 (snd p))), Hi; done).
        destruct (HH' _ _ Hm1') as (ds' & X' & HPt). destruct (Hqp _ _ _ Hi) as (z & Hz & _).
        rewrite (Hj _ _ Hz) in X', HPt. cbn [fst snd] in X', HPt. rewrite X in X'. injection X' as <-.
        apply part_lookup in HPt as [_ HPt].
        destruct (y !! (k - o)%nat) as [c|] eqn:Yk; [|apply lookup_ge_None in Yk; lia].
        specialize (HPt (k - o)%nat (CI 8 c)). replace (o + (k - o))%nat with k in HPt by lia.
        rewrite HPt; [done|]. unfold ints. rewrite list_lookup_fmap, Yk. done.
      * intros i' o' y' Hi' Hk'. destruct (Hqp _ _ _ Hi) as (z & Hz & E).
        destruct (Hqp _ _ _ Hi') as (z' & Hz' & E').
        apply (HS i' i o' o z' z k Hz' Hz); lia.
    + rewrite writes_out; [|exact HW|exact Hout]. rewrite Z.
      * unfold ints. rewrite list_lookup_fmap. done.
      * intros n (cs & Hn & _ & Ho). destruct (Hm1 _ _ Hn) as ([o z] & Hp & ->).
        rewrite (Hj _ _ Hp) in Ho. cbn [fst snd] in Ho. unfold ints in Ho. rewrite fmap_length in Ho.
        assert (exists y, qs !! n = Some (o, y) /\ length z = length y) as (y & Hy & E).
        { assert (is_Some (qs !! n)) as [[o' y] Hy].
          { apply lookup_lt_is_Some. apply (f_equal length) in Hq. rewrite !map_length in Hq.
            apply lookup_lt_Some in Hp. lia. }
          destruct (Hqp _ _ _ Hy) as (z' & Hz' & E). rewrite Hp in Hz'. injection Hz' as <- <-. eauto. }
        apply (Hout o y); [|lia]. apply elem_of_list_In, elem_of_list_lookup. eauto.
  - rewrite list_lookup_insert_ne by done.
    destruct (m !! q) as [ds|] eqn:X.
    + destruct (HU _ _ X) as (ds' & -> & Y & Z). f_equal. apply list_eq. intros k. apply Z.
      intros n (cs & Hn & Hf & _). destruct (Hm1 _ _ Hn) as ([o z] & Hp & ->).
      rewrite (Hj _ _ Hp) in Hf. cbn [fst] in Hf. congruence.
    + apply lookup_ge_None in X. apply lookup_ge_None. lia.
Qed.

Lemma write_same {A} (pre x post : list A) :
  write (pre ++ x ++ post) (Z.of_nat (length pre)) x = pre ++ x ++ post.
Proof.
  unfold write. rewrite Nat2Z.id, take_app, <- drop_drop, drop_app, drop_app. done.
Qed.
Lemma no_ext_sizes {W} f vs (m : mem) (w : W) v m' w' :
  no_ext f vs m w = Ok (v, m', w') -> map (@length cell) m' = map (@length cell) m.
Proof. discriminate. Qed.

Lemma encode_array {W} sc ext fuel m (w : W) b a o data p result max_len :
  m !! b = Some (ints 8 a) -> parts [(o, data); (p, result)] a ->
  separate [(o, data); (p, result)] ->
  bytes data -> len data < 2 ^ 62 -> is_u64 max_len -> len data < Z.of_nat fuel ->
  len (base64 data) <= max_len -> len (base64 data) < len result ->
  call sc ext fuel c_Base64_encode
    [VPtr (TInt IChar) (BObj b) (Z.of_nat o); VInt U64 (len data);
     VPtr (TInt IChar) (BObj b) (Z.of_nat p); VInt U64 max_len] m w
  = Ok (VInt I32 0, <[b := ints 8 (write a (Z.of_nat p)
          (base64 data ++ 0 :: drop (S (length (base64 data))) result))]> m, w).
Proof.
  intros Hb HP HS HB HL HM HF HE HR.
  pose proof (text_encode sc no_ext fuel [ints 8 data; ints 8 result] w 0 1 data [] result max_len) as T.
  rewrite app_nil_r in T. specialize (T eq_refl eq_refl ltac:(lia) HB (Forall_nil_2 _) HL HM HF HE HR).
  cbn [insert list_insert] in T.
  assert (exists f l x st, In (f, l) c_program /\ In (x, st, c_Base64_encode) l) as (f & l & x & st & H1 & H2).
  { do 4 eexists. split; [do 2 right; left; reflexivity|]. unfold funs_base64_c.
    repeat (first [left; reflexivity|right]). }
  epose proof (array_layout sc no_ext ext fuel f l x st _ _ b a [(o, data); (p, result)] [(o, data); (p, base64 data ++ 0 :: drop (S (length (base64 data))) result)] m w _ _
    no_ext_sizes H1 H2 Hb HP HS eq_refl (follows_none _ _) T) as Q.
  destruct (HP 0%nat o data eq_refl) as (pre & post & -> & <-). cbn [writes] in Q.
  rewrite write_same in Q. unfold in_array, placed in Q.
  cbn [map moved lookup list_lookup fst snd] in Q. rewrite !Z.add_0_r in Q. exact Q.
Qed.

Lemma chacha20_array {W} sc ext fuel m (w : W) b a o data k key i nonce p result inc :
  m !! b = Some (ints 8 a) ->
  parts [(o, data); (k, key); (i, nonce); (p, result)] a ->
  separate [(o, data); (k, key); (i, nonce); (p, result)] ->
  parameters key nonce -> bytes data -> bytes result -> length result = length data ->
  is_u32 (len data) -> is_u32 inc -> 64 < Z.of_nat fuel -> len data / 64 < Z.of_nat fuel ->
  call sc ext fuel c_Chacha20_crypt
    [VPtr (TInt U8) (BObj b) (Z.of_nat o); VInt U32 (len data); VPtr (TInt U8) (BObj b) (Z.of_nat k);
     VPtr (TInt U8) (BObj b) (Z.of_nat i); VInt U32 inc; VPtr (TInt U8) (BObj b) (Z.of_nat p)] m w
  = Ok (VUndef, <[b := ints 8 (write a (Z.of_nat p) (chacha20 key nonce inc data))]> m, w).
Proof.
  intros Hb HP HS HK HB HB' HL HN HI HF HF'.
  assert (slice data 0 (len data) = data) as Sd by apply slice_all.
  pose proof (text_chacha20 sc no_ext fuel [ints 8 data; ints 8 key; ints 8 nonce; ints 8 result] w
    0 data 0 3 result 0 1 key 2 nonce (len data) inc eq_refl eq_refl eq_refl eq_refl
    ltac:(lia) ltac:(lia) HK HB HB' HN HI ltac:(lia) ltac:(lia) ltac:(lia)
    ltac:(unfold len; lia) ltac:(lia) HF HF') as T.
  rewrite Sd in T. cbn [insert list_insert] in T.
  assert (exists f l x st, In (f, l) c_program /\ In (x, st, c_Chacha20_crypt) l) as (f & l & x & st & H1 & H2).
  { do 4 eexists. split; [do 13 right; left; reflexivity|]. unfold funs_chacha20_c.
    repeat (first [left; reflexivity|right]). }
  assert (write result 0 (chacha20 key nonce inc data) = chacha20 key nonce inc data) as Wr.
  { pose proof (length_chacha20 key nonce inc data) as Z. unfold write.
    change (Z.to_nat 0) with 0%nat. cbn [take app Nat.add].
    rewrite (drop_ge result) by lia. apply app_nil_r. }
  rewrite Wr in T.
  epose proof (array_layout sc no_ext ext fuel f l x st _ _ b a
    [(o, data); (k, key); (i, nonce); (p, result)] [(o, data); (k, key); (i, nonce); (p, chacha20 key nonce inc data)] m w _ _
    no_ext_sizes H1 H2 Hb HP HS eq_refl (follows_none _ _) T) as Q.
  cbn [writes] in Q.
  assert (write a (Z.of_nat o) data = a) as E1.
  { destruct (HP 0%nat o data eq_refl) as (pre & post & -> & <-). apply write_same. }
  assert (write a (Z.of_nat k) key = a) as E2.
  { destruct (HP 1%nat k key eq_refl) as (pre & post & -> & <-). apply write_same. }
  assert (write a (Z.of_nat i) nonce = a) as E3.
  { destruct (HP 2%nat i nonce eq_refl) as (pre & post & -> & <-). apply write_same. }
  rewrite E1, E2, E3 in Q. unfold in_array, placed in Q.
  cbn [map moved lookup list_lookup fst snd] in Q. rewrite !Z.add_0_r in Q. exact Q.
Qed.
