(** * The C text of base64.c encodes and decodes *)
From Verif Require Import CSem Lib CLang C_Base64 Model_Base64 Spec_Base64 Proof_Base64 Refine Refine_Base64
  Refine_Base64Dec Refine_Base64Place Drive_TextRun Proof_TextQueue.

Local Notation chars b := (VPtr (TInt IChar) (BObj b) 0).
Local Notation octets b := (VPtr (TInt U8) (BObj b) 0).

Section base64.
  Context {W : Type} (sc : bool)
          (ext : Z -> list val -> mem -> W -> outcome (val * mem * W)) (fuel : nat).
  Implicit Types (m : mem) (w : W).

  Lemma text_encode m w bd br data rest result max_len :
    m !! bd = Some (ints 8 (data ++ rest)) -> m !! br = Some (ints 8 result) -> bd <> br ->
    bytes data -> bytes rest -> len data < 2 ^ 62 -> is_u64 max_len ->
    len (data ++ rest) < Z.of_nat fuel ->
    len (base64 data) <= max_len -> len (base64 data) < len result ->
    call sc ext fuel c_Base64_encode [chars bd; VInt U64 (len data); chars br; VInt U64 max_len] m w
    = Ok (VInt I32 0, <[br := ints 8 (base64 data ++ 0 :: drop (S (length (base64 data))) result)]> m, w).
  Proof.
    intros Hd Hr Hne Hb Hb' Hl Hm Hf H1 H2. unfold len in Hf.
    rewrite (ref_encode sc ext fuel m w bd (data ++ rest) (len data) br result max_len); try done.
    - rewrite encode_success; try done. unfold is_u64 in Hm. lia.
    - by apply Forall_app.
    - unfold is_u64, len in *. lia.
    - lia.
  Qed.

  Lemma text_encode_safe m w bd br data rest result max_len :
    m !! bd = Some (ints 8 (data ++ rest)) -> m !! br = Some (ints 8 result) -> bd <> br ->
    bytes data -> bytes rest -> len data < 2 ^ 62 -> is_u64 max_len ->
    len (data ++ rest) < Z.of_nat fuel -> max_len < len result ->
    exists st result',
      call sc ext fuel c_Base64_encode [chars bd; VInt U64 (len data); chars br; VInt U64 max_len] m w
      = Ok (VInt I32 st, <[br := ints 8 result']> m, w) /\
      (st = 0 <-> len (base64 data) <= max_len) /\ (st = 0 \/ st = 1) /\
      len result' = len result /\
      drop (Z.to_nat (max_len + 1)) result' = drop (Z.to_nat (max_len + 1)) result.
  Proof.
    intros Hd Hr Hne Hb Hb' Hl Hm Hf H1. unfold len in Hf. pose proof Hm as Hm'. unfold is_u64 in Hm'.
    destruct (encode_safe data rest result max_len Hb Hl ltac:(lia) H1) as (st & r' & E & H).
    exists st, r'. split; [|done].
    rewrite (ref_encode sc ext fuel m w bd (data ++ rest) (len data) br result max_len); try done.
    - by rewrite E.
    - by apply Forall_app.
    - unfold is_u64, len in *. lia.
    - lia.
  Qed.

  Lemma text_decode_safe m w bi bo inb n out max_len :
    m !! bi = Some (ints 8 inb) -> m !! bo = Some (ints 8 out) ->
    bytes inb -> 0 <= n <= len inb -> n < 2 ^ 61 -> 0 <= max_len <= len out -> max_len < 2 ^ 64 ->
    (n mod 4 = 1 -> 5 <= n -> n + 1 <= len inb) -> len inb < Z.of_nat fuel ->
    exists st out',
      call sc ext fuel c_Base64_decode [chars bi; VInt U64 n; octets bo; VInt U64 max_len] m w
      = Ok (VInt I32 st, <[bo := ints 8 out']> m, w) /\
      (st = 0 \/ st = 1) /\ len out' = len out /\
      drop (Z.to_nat max_len) out' = drop (Z.to_nat max_len) out.
  Proof.
    intros Hi Ho Hb Hn Hn' Hm Hm' Hp Hf. unfold len in Hf.
    destruct (decode_safe inb n out max_len Hb Hn Hn' Hm Hp) as (st & o' & E & H).
    exists st, o'. split; [|done].
    destruct (decide (bi = bo)) as [->|Hne].
    - assert (out = inb) as ->.
      { rewrite Hi in Ho. injection Ho as Ho. by apply (f_equal (fmap byte_of)) in Ho; rewrite !bytes_back in Ho. }
      rewrite (ref_decode_in_place sc ext fuel m w bo inb n max_len); try done; [by rewrite E|unfold is_u64; lia..|lia].
    - rewrite (ref_decode sc ext fuel m w bi inb n bo out max_len); try done; [by rewrite E|unfold is_u64; lia..|lia].
  Qed.

  (** encode from [bd] to [br], decode from [br] to [bo], where [bo] may be [br] *)
  Lemma text_roundtrip m w bd br bo data result out max_res max_out :
    m !! bd = Some (ints 8 data) -> m !! br = Some (ints 8 result) -> m !! bo = Some (ints 8 out) ->
    bd <> br -> bytes data -> bytes result -> 3 <= len data < 2 ^ 59 ->
    len (base64 data) <= max_res < len result -> max_res < 2 ^ 64 ->
    len data <= max_out <= len out -> max_out < 2 ^ 64 -> len result < Z.of_nat fuel ->
    exists m1 m2 tail,
      call sc ext fuel c_Base64_encode [chars bd; VInt U64 (len data); chars br; VInt U64 max_res] m w
      = Ok (VInt I32 0, m1, w) /\
      call sc ext fuel c_Base64_decode [chars br; VInt U64 (len (base64 data)); octets bo; VInt U64 max_out] m1 w
      = Ok (VInt I32 0, m2, w) /\
      m2 !! bo = Some (ints 8 (data ++ tail)) /\
      same_but [br; bo] m m2.
  Proof.
    intros Hd Hr Ho Hne Hb Hbr Hl Hmr Hmr' Hmo Hmo' Hf.
    pose proof (len_base64 data Hb) as H64. pose proof (len_nonneg (base64 data)).
    set (text := base64 data ++ 0 :: drop (S (length (base64 data))) result).
    assert (bytes text) as Ht.
    { apply Forall_app. split; [apply bytes_base64|]. apply Forall_cons_2; [done|]. by apply Forall_drop. }
    assert (length text = length result) as Hlt.
    { unfold text. rewrite app_length. cbn [length]. rewrite drop_length. unfold len in *. lia. }
    assert (bytes (0 :: drop (S (length (base64 data))) result)) as Hrest.
    { apply Forall_cons_2; [done|]. by apply Forall_drop. }
    pose proof (text_encode m w bd br data [] result max_res) as He. rewrite app_nil_r in He.
    exists (<[br := ints 8 text]> m).
    assert (<[br:=ints 8 text]> m !! br = Some (ints 8 text)) as Htm.
    { apply list_lookup_insert. by eapply lookup_lt_Some. }
    destruct (decide (br = bo)) as [<-|Hro].
    - assert (out = result) as ->.
      { rewrite Hr in Ho. injection Ho as Ho. by apply (f_equal (fmap byte_of)) in Ho; rewrite !bytes_back in Ho. }
      exists (<[br := ints 8 (data ++ drop (length data) text)]> m), (drop (length data) text). split; [|split; [|split]].
      + apply He; try done; [constructor|lia|unfold is_u64; lia|unfold len in *; lia|lia..].
      + rewrite (ref_decode_in_place sc ext fuel _ w br text); try done;
          [|unfold is_u64, len in *; lia..|unfold len in *; lia].
        unfold text at 1. rewrite decode_base64; [|done|lia|done|unfold len in *; lia]. cbn [bind].
        by rewrite list_insert_insert.
      + apply list_lookup_insert. by eapply lookup_lt_Some.
      + split; [apply insert_length|]. intros c Hc. rewrite not_elem_of_cons in Hc. by rewrite list_lookup_insert_ne by naive_solver.
    - exists (<[bo := ints 8 (data ++ drop (length data) out)]> (<[br := ints 8 text]> m)), (drop (length data) out). split; [|split; [|split]].
      + apply He; try done; [constructor|lia|unfold is_u64; lia|unfold len in *; lia|lia..].
      + rewrite (ref_decode sc ext fuel _ w br text _ bo out); try done;
          [|by rewrite list_lookup_insert_ne|unfold is_u64, len in *; lia..|unfold len in *; lia].
        unfold text at 1. rewrite decode_base64; [|done|lia|done|unfold len in *; lia]. done.
      + apply list_lookup_insert. rewrite insert_length. by eapply lookup_lt_Some.
      + split; [by rewrite !insert_length|]. intros c Hc. rewrite !not_elem_of_cons in Hc. by rewrite !list_lookup_insert_ne by naive_solver.
  Qed.
End base64.
