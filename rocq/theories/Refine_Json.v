(** * The hand-written model of json.c against the C text *)
From Verif Require Import CSem Lib CLang C_Json Model_Json Proof_SortEnd Proof_Term
  Refine Refine_Cipher Refine_Sort.

(** ** The string functions *)

Lemma cells_from_obj m b o p : m !! b = Some (ints 8 o) -> 0 <= p <= len o ->
  cells_from m (BObj b) p = Ok (ints 8 (drop (Z.to_nat p) o)).
Proof.
  intros Hb Hp. unfold cells_from. rewrite (block_obj _ _ _ Hb). cbn [bind].
  rewrite len_ints. replace ((0 <=? p) && (p <=? len o)) with true by lia.
  unfold ints. by rewrite fmap_drop.
Qed.
Lemma cells_from_data m l : cells_from m (BData 8 l) 0 = Ok (ints 8 l).
Proof.
  unfold cells_from. cbn [block bind]. pose proof (len_nonneg (CI 8 <$> l)).
  replace ((0 <=? 0) && (0 <=? len (CI 8 <$> l))) with true by lia.
  change (Z.to_nat 0) with O. by rewrite drop_0.
Qed.
Lemma lib_strlen_data m l t :
  lib LStrlen [VPtr t (BData 8 l) 0] m = let! n := strlen l in Ok (VInt U64 n, m).
Proof. unfold lib. rewrite cells_from_data. cbn [bind]. by rewrite cstrlen_ints. Qed.
Lemma lib_strcpy m t t' a o p b s :
  m !! a = Some (ints 8 o) -> m !! b = Some (ints 8 s) -> a <> b ->
  lib LStrcpy [VPtr t (BObj a) p; VPtr t' (BObj b) 0] m
  = let! o := strcpy o p s in Ok (VPtr (TInt IChar) (BObj a) p, <[a := ints 8 o]> m).
Proof.
  intros Ha Hb Hne. unfold lib, strcpy. pose proof (len_nonneg s).
  rewrite (cells_from_obj m b s 0) by (done || lia). change (Z.to_nat 0) with O. rewrite drop_0.
  cbn [bind]. rewrite cstrlen_ints. destruct (strlen s); [cbn [bind]|done..].
  unfold copy, memcpy. rewrite (block_obj _ _ _ Ha), (block_obj _ _ _ Hb). cbn [bind].
  rewrite !in_range_ints, !slice_ints, !byte_ints, write_ints. destruct (_ && _); [|done].
  cbn [same_blk]. destruct (Nat.eqb_spec a b); done.
Qed.
Lemma lib_strcpy_data m t t' a o p s :
  m !! a = Some (ints 8 o) ->
  lib LStrcpy [VPtr t (BObj a) p; VPtr t' (BData 8 s) 0] m
  = let! o := strcpy o p s in Ok (VPtr (TInt IChar) (BObj a) p, <[a := ints 8 o]> m).
Proof.
  intros Ha. unfold lib, strcpy. rewrite cells_from_data.
  cbn [bind]. rewrite cstrlen_ints. destruct (strlen s); [cbn [bind]|done..].
  unfold copy, memcpy. rewrite (block_obj _ _ _ Ha), block_data. cbn [bind].
  rewrite !in_range_ints, !slice_ints, !byte_ints, write_ints. destruct (_ && _); done.
Qed.
Lemma strcpy_oob o p s n : strlen s = Ok n -> ptr o p <> Ok tt -> strcpy o p s = UB OutOfBounds.
Proof.
  intros Hs Hp. unfold strcpy, memcpy. rewrite Hs. cbn [bind]. pose proof (strlen_bound s n Hs).
  rewrite ptr_ok in Hp. unfold in_range. by replace ((0 <=? p) && _ && _ && _) with false by lia.
Qed.

(** the sign [strcmp] and [strncmp] return *)
Definition str_sign (o : list Z) (p : Z) (s : list Z) : outcome Z :=
  ccompare true (S (length (drop (Z.to_nat p) o))) (ints 8 (drop (Z.to_nat p) o)) (ints 8 s).
Definition strn_sign (o : list Z) (p : Z) (s : list Z) (n : nat) : outcome Z :=
  ccompare true n (ints 8 (drop (Z.to_nat p) o)) (ints 8 s).

Lemma load_drop (o : list Z) p : 0 <= p ->
  match drop (Z.to_nat p) o with
  | [] => load o p = UB OutOfBounds
  | c :: r => load o p = Ok c /\ r = drop (Z.to_nat (p + 1)) o
  end.
Proof.
  intros Hp. unfold load. destruct (Z.leb_spec 0 p); [|lia].
  destruct (drop (Z.to_nat p) o) as [|c r] eqn:E.
  - replace (o !! Z.to_nat p) with (@None Z); [done|]. symmetry.
    apply lookup_ge_None. apply (f_equal length) in E. rewrite drop_length in E. cbn in E. lia.
  - rewrite <- (Nat.add_0_r (Z.to_nat p)), <- lookup_drop, E. split; [done|].
    replace (Z.to_nat (p + 1)) with (Z.to_nat p + 1)%nat by lia. rewrite <- drop_drop, E. done.
Qed.
Lemma ccompare_str n o p s : 0 <= p -> (length (drop (Z.to_nat p) o) < n)%nat ->
  (let! r := ccompare true n (ints 8 (drop (Z.to_nat p) o)) (ints 8 s) in Ok (r =? 0)) = strcmp_eq o p s.
Proof.
  revert n p. induction s as [|d s IH]; intros n p Hp Hn; destruct n as [|n]; try lia.
  - cbn. by destruct (ints 8 _).
  - pose proof (load_drop o p Hp) as Hl. destruct (drop (Z.to_nat p) o) as [|c r] eqn:E.
    + cbn [strcmp_eq]. by rewrite Hl.
    + destruct Hl as [Hl ->]. cbn [strcmp_eq]. rewrite Hl. cbn [ints fmap list_fmap ccompare bind cell_byte].
      change (8 =? 8) with true. cbv iota. cbn [bind].
      destruct (Z.eqb_spec c d); [|by destruct (c <? d)]. cbn [andb].
      destruct (Z.eqb_spec c 0); [done|]. apply IH; [lia|]. cbn in Hn. lia.
Qed.
Lemma ccompare_strn n o p s q : 0 <= p -> 0 <= q ->
  (let! r := ccompare true n (ints 8 (drop (Z.to_nat p) o)) (ints 8 (drop (Z.to_nat q) s)) in
   Ok (r =? 0)) = strncmp_eq o p s q n.
Proof.
  revert p q. induction n as [|n IH]; intros p q Hp Hq; [done|]. cbn [strncmp_eq].
  pose proof (load_drop o p Hp) as Hl. destruct (drop (Z.to_nat p) o) as [|c r] eqn:E.
  - by rewrite Hl.
  - destruct Hl as [-> ->]. cbn [bind].
    pose proof (load_drop s q Hq) as Hl. destruct (drop (Z.to_nat q) s) as [|d r'] eqn:E'.
    + rewrite Hl. done.
    + destruct Hl as [-> ->]. cbn [ints fmap list_fmap ccompare bind cell_byte].
      change (8 =? 8) with true. cbv iota. cbn [bind].
      destruct (Z.eqb_spec c d); [|by destruct (c <? d)]. cbn [andb].
      destruct (Z.eqb_spec c 0); [done|]. apply IH; lia.
Qed.
Lemma str_sign_eq o p s : 0 <= p ->
  strcmp_eq o p s = let! r := str_sign o p s in Ok (r =? 0).
Proof. intros. unfold str_sign. rewrite ccompare_str; [done|done|lia]. Qed.
Lemma strn_sign_eq o p s n : 0 <= p ->
  strncmp_eq o p s 0 n = let! r := strn_sign o p s n in Ok (r =? 0).
Proof. intros. rewrite <- ccompare_strn by lia. change (Z.to_nat 0) with O. by rewrite drop_0. Qed.
Lemma lib_strcmp m t t' a o p s :
  m !! a = Some (ints 8 o) -> 0 <= p <= len o ->
  lib LStrcmp [VPtr t (BObj a) p; VPtr t' (BData 8 s) 0] m
  = let! r := str_sign o p s in Ok (VInt I32 r, m).
Proof.
  intros Ha Hp. unfold lib. rewrite (cells_from_obj m a o p), cells_from_data by done. cbn [bind].
  unfold str_sign. by replace (length (ints 8 (drop (Z.to_nat p) o)))
    with (length (drop (Z.to_nat p) o)) by (unfold ints; by rewrite fmap_length).
Qed.
Lemma lib_strncmp m t t' a o p b s n :
  m !! a = Some (ints 8 o) -> m !! b = Some (ints 8 s) -> 0 <= p <= len o ->
  lib LStrncmp [VPtr t (BObj a) p; VPtr t' (BObj b) 0; VInt U64 n] m
  = let! r := strn_sign o p s (Z.to_nat n) in Ok (VInt I32 r, m).
Proof.
  intros Ha Hb Hp. unfold lib. pose proof (len_nonneg s).
  rewrite (cells_from_obj m a o p), (cells_from_obj m b s 0) by (done || lia). cbn [bind cast fits].
  change (Z.to_nat 0) with O. by rewrite drop_0.
Qed.
Lemma strcmp_oob o p s : s <> [] -> ptr o p <> Ok tt -> strcmp_eq o p s = UB OutOfBounds.
Proof.
  intros Hs Hp. rewrite ptr_ok in Hp. destruct s as [|d s]; [done|]. cbn [strcmp_eq].
  destruct (load o p) as [c| |] eqn:E.
  - apply load_range in E. lia.
  - by rewrite (load_oob_kind _ _ _ E).
  - by apply load_not_div in E.
Qed.

Lemma ptr_ub o p k : ptr o p = UB k -> k = OutOfBounds /\ ptr o p <> Ok tt.
Proof. unfold ptr. destruct (_ && _); [done|]. by intros [= <-]. Qed.

Lemma char_quote sc z : is_byte z -> (char_val sc z =? 34) = (z =? 34).
Proof. unfold is_byte, char_val, s8. destruct sc; lia. Qed.

Ltac head_hook X ::=
  lazymatch X with
  | check_ptr (snd (fst (?E, ?M, ?w))) ?b ?p =>
      change (check_ptr (snd (fst (E, M, w))) b p) with (check_ptr M b p)
  | check_ptr _ (BObj ?b) _ => erewrite check_ptr_ptr; [|look]
  | ptr ?o 0 => rewrite (ptr_0 o); cbn [bind]
  | ptr ?o ?p => let H := fresh "Hp" in let k := fresh "k" in
      first [rewrite (proj2 (ptr_ok o p)) by lia |
      destruct (ptr o p) as [[]|k|] eqn:H;
      [apply ptr_ok in H
      |apply ptr_ub in H as [-> H]; cbn [bind];
       first [erewrite strcpy_oob; [reflexivity|first [eassumption|reflexivity]|exact H]
             |rewrite strcmp_oob; [reflexivity|done|exact H]]
      |by apply ptr_nd in H]]; cbn [bind]
  | truth (VInt _ (b2z (char_val ?sc ?z =? 34))) => rewrite (char_quote sc z) by done
  | lib LStrlen [VPtr _ (BObj ?b) 0] _ => erewrite lib_strlen; [|look]
  | lib LStrlen [VPtr _ (BData _ _) 0] _ => rewrite lib_strlen_data
  | strlen ?o =>
      first [let r := eval vm_compute in (strlen o) in
             lazymatch r with Ok ?n => change (strlen o) with (@Ok Z n) end; cbn [bind] |
      match goal with H : strlen o = Ok _ |- _ => rewrite H end; cbn [bind] |
      let n := fresh "n" in let E := fresh "E" in
      destruct (strlen o) as [n| |] eqn:E; cbn [bind]; try reflexivity;
      pose proof (strlen_bound o n E)]
  | lib LStrcpy [VPtr _ (BObj ?a) _; VPtr _ (BObj ?b) 0] _ =>
      erewrite lib_strcpy; [|look|look|ne_tac]
  | lib LStrcpy [VPtr _ (BObj ?a) _; VPtr _ (BData _ _) 0] _ =>
      erewrite lib_strcpy_data; [|look]
  | strcpy _ _ _ => both; memn
  | lib LStrcmp [VPtr _ (BObj ?a) _; VPtr _ (BData _ _) 0] _ =>
      erewrite lib_strcmp; [|look|lia]
  | str_sign ?o ?p ?s => rewrite (str_sign_eq o p s) by lia; both; cbn [bind]
  | lib LStrncmp [VPtr _ (BObj ?a) _; VPtr _ (BObj ?b) 0; _] _ =>
      erewrite lib_strncmp; [|look|look|lia]
  | strn_sign ?o ?p ?s ?n => rewrite (strn_sign_eq o p s n) by lia; both; cbn [bind]
  end.

Section json.
  Context {W : Type} (sc : bool)
          (ext : Z -> list val -> mem -> W -> outcome (val * mem * W)) (fuel : nat).
  Local Notation run f := (call sc ext fuel f).
  Local Notation str_at b := (VPtr (TInt IChar) (BObj b) 0).
  Implicit Types (m : mem) (w : W) (o : list Z).

  Lemma ref_Json_startString m w b o n :
    m !! b = Some (ints 8 o) -> is_u64 n ->
    run c_Json_startString [str_at b; VInt U64 n] m w
    = let! '(r, o) := Json_startString o n in Ok (VInt IBool (b2z r), <[b := ints 8 o]> m, w).
  Proof.
    intros Hb Hn. unfold c_Json_startString, Json_startString, MINIMAL_SIZE, lit_open. bounds. go.
    cbn [bind b2z]. by rewrite list_insert_id.
  Qed.
  Lemma ref_Json_endString m w b o n :
    m !! b = Some (ints 8 o) -> is_u64 n -> len o < 2 ^ 64 ->
    run c_Json_endString [str_at b; VInt U64 n] m w
    = let! '(r, o) := Json_endString o n in Ok (VInt IBool (b2z r), <[b := ints 8 o]> m, w).
  Proof.
    intros Hb Hn Hl. unfold c_Json_endString, Json_endString, MINIMAL_SIZE, lit_close. bounds. go.
    cbn [bind b2z]. by rewrite list_insert_id.
  Qed.
  Lemma ref_Json_addData m w b o n b1 k b2 v :
    m !! b = Some (ints 8 o) -> m !! b1 = Some (ints 8 k) -> m !! b2 = Some (ints 8 v) ->
    b <> b1 -> b <> b2 -> is_u64 n -> len o < 2 ^ 64 ->
    run c_Json_addData [str_at b; VInt U64 n; str_at b1; str_at b2] m w
    = let! '(r, o) := Json_addData o n k v in Ok (VInt IBool (b2z r), <[b := ints 8 o]> m, w).
  Proof.
    intros Hb Hb1 Hb2 Hn1 Hn2 Hn Hl.
    unfold c_Json_addData, Json_addData, lit_quote, lit_comma, lit_colon. bounds. go.
    - cbn [bind]. rewrite Heqb1. go.
    - cbn [bind]. rewrite Heqb1. cbn [bind b2z]. by rewrite list_insert_id.
  Qed.
End json.
