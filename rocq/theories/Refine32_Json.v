(** * [json.c] on a target with a 32-bit [size_t] *)
From Verif Require Import CSem Lib CLang C_Json C_Size32 Model_Json Proof_SortEnd Proof_Term
  Refine Refine_Cipher Refine_Sort Refine_Json Refine32_Cipher.

Lemma lib_strncmp32 m t t' a o p b s n :
  m !! a = Some (ints 8 o) -> m !! b = Some (ints 8 s) -> 0 <= p <= len o ->
  lib LStrncmp [VPtr t (BObj a) p; VPtr t' (BObj b) 0; VInt U32 n] m
  = let! r := strn_sign o p s (Z.to_nat n) in Ok (VInt I32 r, m).
Proof. exact (lib_strncmp m t t' a o p b s n). Qed.

Ltac head_hook X ::=
  lazymatch X with
  | to_type _ _ _ => hook32 X
  | check_ptr (snd (fst (?E, ?M, ?w))) ?b ?p =>
      change (check_ptr (snd (fst (E, M, w))) b p) with (check_ptr M b p)
  | check_ptr _ (BObj ?b) _ => erewrite check_ptr_ptr; [|look]
  | ptr ?o 0 => rewrite (ptr_0 o); cbn [bind]
  | ptr ?o ?p => let H := fresh "Hp" in let k := fresh "k" in
      first [rewrite (proj2 (ptr_ok o p)) by lia |
      destruct (ptr o p) as [[]|k|] eqn:H;
      [apply ptr_ok in H
      |apply ptr_ub in H as [-> H]; cbn [bind];
       first [erewrite strcpy_oob; [reflexivity|first [eassumption|reflexivity]|exact H]
             |rewrite strcmp_oob; [reflexivity|done|exact H]]
      |by apply ptr_nd in H]]; cbn [bind]
  | truth (VInt _ (b2z (char_val ?sc ?z =? 34))) => rewrite (char_quote sc z) by done
  | lib LStrlen [VPtr _ (BObj ?b) 0] _ => erewrite lib_strlen; [|look]
  | lib LStrlen [VPtr _ (BData _ _) 0] _ => rewrite lib_strlen_data
  | strlen ?o =>
      first [let r := eval vm_compute in (strlen o) in
             lazymatch r with Ok ?n => change (strlen o) with (@Ok Z n) end; cbn [bind] |
      match goal with H : strlen o = _ |- _ => rewrite H end; cbn [bind] |
      let n := fresh "n" in let E := fresh "E" in
      destruct (strlen o) as [n| |] eqn:E; cbn [bind]; try reflexivity;
      pose proof (strlen_bound o n E)]
  | lib LStrcpy [VPtr _ (BObj ?a) _; VPtr _ (BObj ?b) 0] _ =>
      erewrite lib_strcpy; [|look|look|ne_tac]
  | lib LStrcpy [VPtr _ (BObj ?a) _; VPtr _ (BData _ _) 0] _ =>
      erewrite lib_strcpy_data; [|look]
  | strcpy _ _ _ => both; memn
  | lib LStrcmp [VPtr _ (BObj ?a) _; VPtr _ (BData _ _) 0] _ =>
      erewrite lib_strcmp; [|look|lia]
  | str_sign ?o ?p ?s => rewrite (str_sign_eq o p s) by lia; both; cbn [bind]
  | lib LStrncmp [VPtr _ (BObj ?a) _; VPtr _ (BObj ?b) 0; _] _ =>
      erewrite lib_strncmp32; [|look|look|lia]
  | strn_sign ?o ?p ?s ?n => rewrite (strn_sign_eq o p s n) by lia; both; cbn [bind]
  end.

(** the models with the sums at the narrower type *)
(** json.c:91-103, as [Json_endString] *)
Definition endString32 (o : list Z) (n : Z) : outcome (bool * list Z) :=
  let! index := strlen o in
  if u32 (MINIMAL_SIZE + index) <=? n then
    let! o := strcpy o index lit_close in Ok (true, o)
  else Ok (false, o).
Lemma Json_endString_32 o n : len o < 2 ^ 32 - 1 -> Json_endString o n = endString32 o n.
Proof.
  intros Hl. unfold Json_endString, endString32, MINIMAL_SIZE. destruct (strlen o) as [i| |] eqn:E; [|done..].
  cbn [bind]. pose proof (strlen_bound o i E). by rewrite u64_small, u32_small by lia.
Qed.
Lemma strcmp_eq_end o i s : len o <= i -> s <> [] -> strcmp_eq o i s = UB OutOfBounds.
Proof.
  intros Hi Hs. destruct s as [|d s]; [done|]. cbn [strcmp_eq]. by rewrite load_oob by lia.
Qed.
(** json.c:54-88, as [Json_addData] *)
Definition addData32 (o : list Z) (n : Z) (k v : list Z) : outcome (bool * list Z) :=
  let! index := strlen o in
  let! key_len := strlen k in
  let! value_len := strlen v in
  let total_size := u32 (u32 (u32 (5 + key_len) + value_len) + 1) in
  let! quote := strcmp_eq o (u32 (index - 1)) lit_quote in
  let! '(o, index) :=
    if (quote : bool) then
      let! o := strcpy o index lit_comma in Ok (o, u32 (index + 1))
    else Ok (o, index) in
  if u32 (total_size + index) <=? n then
    let! o := strcpy o index lit_quote in
    let index := u32 (index + 1) in
    let! o := strcpy o index k in
    let index := u32 (index + key_len) in
    let! o := strcpy o index lit_colon in
    let index := u32 (index + 3) in
    let! o := strcpy o index v in
    let index := u32 (index + value_len) in
    let! o := strcpy o index lit_quote in
    Ok (true, o)
  else Ok (false, o).
Lemma Json_addData_32 o n k v :
  len o + len k + len v < 2 ^ 32 - 16 -> Json_addData o n k v = addData32 o n k v.
Proof.
  intros Hl. unfold Json_addData, addData32. bounds.
  destruct (strlen o) as [i| |] eqn:E; [|done..]. cbn [bind]. pose proof (strlen_bound o i E).
  destruct (strlen k) as [lk| |] eqn:Ek; [|done..]. cbn [bind]. pose proof (strlen_bound k lk Ek).
  destruct (strlen v) as [lv| |] eqn:Ev; [|done..]. cbn [bind]. pose proof (strlen_bound v lv Ev).
  destruct (decide (i = 0)) as [->|Hi].
  { change (u64 (0 - 1)) with (2 ^ 64 - 1). change (u32 (0 - 1)) with (2 ^ 32 - 1).
    by rewrite !strcmp_eq_end by (first [done|lia]). }
  smalls.
  destruct (strcmp_eq o (i - 1) lit_quote) as [[]| |]; [| |done..]; cbn [bind].
  - destruct (strcpy o i lit_comma) as [o'| |]; [|done..]. cbn [bind]. smalls.
    reflexivity.
  - smalls. reflexivity.
Qed.

Section json.
  Context {W : Type} (sc : bool)
          (ext : Z -> list val -> mem -> W -> outcome (val * mem * W)) (fuel : nat).
  Local Notation run f := (call sc ext fuel f).
  Local Notation str_at b := (VPtr (TInt IChar) (BObj b) 0).
  Implicit Types (m : mem) (w : W) (o : list Z).

  Lemma ref32_Json_startString m w b o n :
    m !! b = Some (ints 8 o) -> is_u32 n ->
    run c32_Json_startString [str_at b; VInt U32 n] m w
    = let! '(r, o) := Json_startString o n in Ok (VInt IBool (b2z r), <[b := ints 8 o]> m, w).
  Proof.
    intros Hb Hn. unfold c32_Json_startString, Json_startString, MINIMAL_SIZE, lit_open. bounds. go.
    cbn [bind b2z]. by rewrite list_insert_id.
  Qed.
  Lemma ref32_endString m w b o n :
    m !! b = Some (ints 8 o) -> is_u32 n -> len o < 2 ^ 32 ->
    run c32_Json_endString [str_at b; VInt U32 n] m w
    = let! '(r, o) := endString32 o n in Ok (VInt IBool (b2z r), <[b := ints 8 o]> m, w).
  Proof.
    intros Hb Hn Hl. unfold c32_Json_endString, endString32, MINIMAL_SIZE, lit_close. bounds. go.
    cbn [bind b2z]. by rewrite list_insert_id.
  Qed.
  Lemma ref32_Json_endString m w b o n :
    m !! b = Some (ints 8 o) -> is_u32 n -> len o < 2 ^ 32 - 1 ->
    run c32_Json_endString [str_at b; VInt U32 n] m w
    = let! '(r, o) := Json_endString o n in Ok (VInt IBool (b2z r), <[b := ints 8 o]> m, w).
  Proof. intros Hb Hn Hl. rewrite Json_endString_32 by done. apply ref32_endString; [done..|lia]. Qed.
  Lemma ref32_addData m w b o n b1 k b2 v :
    m !! b = Some (ints 8 o) -> m !! b1 = Some (ints 8 k) -> m !! b2 = Some (ints 8 v) ->
    b <> b1 -> b <> b2 -> is_u32 n -> len o < 2 ^ 32 -> len k < 2 ^ 32 -> len v < 2 ^ 32 ->
    run c32_Json_addData [str_at b; VInt U32 n; str_at b1; str_at b2] m w
    = let! '(r, o) := addData32 o n k v in Ok (VInt IBool (b2z r), <[b := ints 8 o]> m, w).
  Proof.
    intros Hb Hb1 Hb2 Hn1 Hn2 Hn Hlo Hlk Hlv.
    unfold c32_Json_addData, addData32, lit_quote, lit_comma, lit_colon. bounds. go.
    - cbn [bind]. rewrite Heqb1. go.
    - cbn [bind]. rewrite Heqb1. cbn [bind b2z]. by rewrite list_insert_id.
  Qed.
  Lemma ref32_Json_addData m w b o n b1 k b2 v :
    m !! b = Some (ints 8 o) -> m !! b1 = Some (ints 8 k) -> m !! b2 = Some (ints 8 v) ->
    b <> b1 -> b <> b2 -> is_u32 n -> len o + len k + len v < 2 ^ 32 - 16 ->
    run c32_Json_addData [str_at b; VInt U32 n; str_at b1; str_at b2] m w
    = let! '(r, o) := Json_addData o n k v in Ok (VInt IBool (b2z r), <[b := ints 8 o]> m, w).
  Proof.
    intros Hb Hb1 Hb2 Hn1 Hn2 Hn Hl. rewrite Json_addData_32 by done.
    pose proof (len_nonneg o). pose proof (len_nonneg k). pose proof (len_nonneg v).
    apply ref32_addData; first [done|lia].
  Qed.
End json.
