(** * The C text of utils.c and bit_manipulation.c *)
From Verif Require Import CSem Lib CLang C_Utils Model_Utils Spec_Utils Drive_UtilsText
  Proof_Utils Refine Refine_Utils Proof_TextCrypto.

Local Notation at8 b p := (VPtr (TInt U8) (BObj b) p).
Local Notation at32 b p := (VPtr (TInt U32) (BObj b) p).
Local Notation filled n := (replicate n 0).

Lemma bytes_in_order big n v : bytes (in_order big n v).
Proof. destruct big; [apply bytes_be_bytes|apply bytes_le_bytes]. Qed.
Lemma length_in_order big n v : length (in_order big n v) = n.
Proof.
  destruct big; cbn [in_order]; [pose proof (len_be_bytes n v)|pose proof (len_le_bytes n v)];
    unfold len in *; lia.
Qed.
Lemma value_in_order big n v : value_of big (in_order big n v) = v mod 256 ^ Z.of_nat n.
Proof. destruct big; [apply be_value_bytes|apply le_value_bytes]. Qed.
Lemma in_order_value big bs : bytes bs -> in_order big (length bs) (value_of big bs) = bs.
Proof. intros H. destruct big; [by apply be_bytes_value|by apply le_bytes_value]. Qed.
Lemma load_mid (pre : list Z) x post : load (pre ++ x :: post) (len pre) = Ok x.
Proof.
  pose proof (len_nonneg pre). pose proof (len_nonneg post).
  rewrite load_ok by (rewrite len_app, len_cons; lia). f_equal.
  unfold get, len. rewrite Nat2Z.id. by rewrite list_lookup_total_middle.
Qed.
Lemma store_mid (pre : list Z) x y post : store (pre ++ x :: post) (len pre) y = Ok (pre ++ y :: post).
Proof.
  pose proof (len_nonneg pre). pose proof (len_nonneg post).
  rewrite store_ok by (rewrite len_app, len_cons; lia). f_equal.
  unfold len. rewrite Nat2Z.id. replace (length pre) with (length pre + 0)%nat by lia.
  by rewrite insert_app_r.
Qed.

Section utils.
  Context {W : Type} (sc : bool)
          (ext : Z -> list val -> mem -> W -> outcome (val * mem * W)) (fuel : nat).
  Implicit Types (m : mem) (w : W).

  Lemma text_serialize n big t ser des m w b pre old post v :
    In (n, big, t, ser, des) codecs -> m !! b = Some (ints 8 (pre ++ old ++ post)) ->
    length old = n -> 0 <= v < 2 ^ CLang.width t ->
    call sc ext fuel ser [at8 b (len pre); VInt t v] m w
    = Ok (VUndef, <[b := ints 8 (pre ++ in_order big n v ++ post)]> m, w).
  Proof.
    intros Hin Hb Hn Hv.
    cbn in Hin; repeat destruct Hin as [Hin|Hin]; [..|done]; injection Hin as <- <- <- <- <-; cbn in Hv;
    [ rewrite (ref_serialize8 sc ext fuel m w b _ _ v Hb) by (unfold is_byte; lia)
    | rewrite (ref_serialize16BE sc ext fuel m w b _ _ v Hb)
    | rewrite (ref_serialize24BE sc ext fuel m w b _ _ v Hb)
    | rewrite (ref_serialize32BE sc ext fuel m w b _ _ v Hb)
    | rewrite (ref_serialize16LE sc ext fuel m w b _ _ v Hb)
    | rewrite (ref_serialize24LE sc ext fuel m w b _ _ v Hb)
    | rewrite (ref_serialize32LE sc ext fuel m w b _ _ v Hb) ];
    [ pose proof (serialize_all pre post old (filled 2) (filled 3) (filled 4) v) as S
    | pose proof (serialize_all pre post (filled 1) old (filled 3) (filled 4) v) as S
    | pose proof (serialize_all pre post (filled 1) (filled 2) old (filled 4) v) as S
    | pose proof (serialize_all pre post (filled 1) (filled 2) (filled 3) old v) as S
    | pose proof (serialize_all pre post (filled 1) old (filled 3) (filled 4) v) as S
    | pose proof (serialize_all pre post (filled 1) (filled 2) old (filled 4) v) as S
    | pose proof (serialize_all pre post (filled 1) (filled 2) (filled 3) old v) as S ];
    destruct S as (S1 & S2 & S3 & S4 & S5 & S6 & S7); try (unfold len; rewrite ?Hn; done);
    rewrite ?S1, ?S2, ?S3, ?S4, ?S5, ?S6, ?S7; done.
  Qed.
  Lemma text_deserialize n big t ser des m w b pre x post :
    In (n, big, t, ser, des) codecs -> m !! b = Some (ints 8 (pre ++ x ++ post)) ->
    length x = n -> bytes (pre ++ x ++ post) ->
    call sc ext fuel des [at8 b (len pre)] m w = Ok (VInt t (value_of big x), m, w).
  Proof.
    intros Hin Hb Hn Hx. pose proof Hx as Hx0.
    apply Forall_app in Hx0 as [_ Hx0]. apply Forall_app in Hx0 as [Hx0 _].
    assert (forall k, bytes (filled k)) as Hf.
    { intros k. apply Forall_replicate. unfold is_byte. lia. }
    cbn in Hin; repeat destruct Hin as [Hin|Hin]; [..|done]; injection Hin as <- <- <- <- <-;
    [ rewrite (ref_deserialize8 sc ext fuel m w b _ _ Hb)
    | rewrite (ref_deserialize16BE sc ext fuel m w b _ _ Hb) by done
    | rewrite (ref_deserialize24BE sc ext fuel m w b _ _ Hb) by done
    | rewrite (ref_deserialize32BE sc ext fuel m w b _ _ Hb) by done
    | rewrite (ref_deserialize16LE sc ext fuel m w b _ _ Hb) by done
    | rewrite (ref_deserialize24LE sc ext fuel m w b _ _ Hb) by done
    | rewrite (ref_deserialize32LE sc ext fuel m w b _ _ Hb) by done ];
    [ pose proof (deserialize_all pre post x (filled 2) (filled 3) (filled 4)) as S
    | pose proof (deserialize_all pre post (filled 1) x (filled 3) (filled 4)) as S
    | pose proof (deserialize_all pre post (filled 1) (filled 2) x (filled 4)) as S
    | pose proof (deserialize_all pre post (filled 1) (filled 2) (filled 3) x) as S
    | pose proof (deserialize_all pre post (filled 1) x (filled 3) (filled 4)) as S
    | pose proof (deserialize_all pre post (filled 1) (filled 2) x (filled 4)) as S
    | pose proof (deserialize_all pre post (filled 1) (filled 2) (filled 3) x) as S ];
    destruct S as (S1 & S2 & S3 & S4 & S5 & S6 & S7); try (unfold len; rewrite ?Hn; done);
    try (repeat apply Forall_app_2; first [exact Hx0|apply Hf]; fail);
    rewrite ?S1, ?S2, ?S3, ?S4, ?S5, ?S6, ?S7; done.
  Qed.
  Lemma text_codec_round n big t ser des m w b pre old post v :
    In (n, big, t, ser, des) codecs -> m !! b = Some (ints 8 (pre ++ old ++ post)) ->
    length old = n -> bytes (pre ++ old ++ post) -> 0 <= v < 2 ^ CLang.width t ->
    (let! '(_, m, w) := call sc ext fuel ser [at8 b (len pre); VInt t v] m w in
     call sc ext fuel des [at8 b (len pre)] m w)
    = Ok (VInt t (v mod 256 ^ Z.of_nat n), <[b := ints 8 (pre ++ in_order big n v ++ post)]> m, w).
  Proof.
    intros Hin Hb Hn Hx Hv. rewrite (text_serialize n big t ser des m w b pre old post v) by done.
    cbn [bind]. apply Forall_app in Hx as [H1 Hx]. apply Forall_app in Hx as [_ H2].
    rewrite (text_deserialize n big t ser des _ w b pre (in_order big n v) post);
      [by rewrite value_in_order|done| |apply length_in_order|].
    - apply list_lookup_insert. by eapply lookup_lt_Some.
    - repeat apply Forall_app_2; try done. apply bytes_in_order.
  Qed.
  (** reading and writing back changes nothing *)
  Lemma text_codec_back n big t ser des m w b pre x post :
    In (n, big, t, ser, des) codecs -> m !! b = Some (ints 8 (pre ++ x ++ post)) ->
    length x = n -> bytes (pre ++ x ++ post) ->
    (let! '(v, m, w) := call sc ext fuel des [at8 b (len pre)] m w in
     call sc ext fuel ser [at8 b (len pre); v] m w) = Ok (VUndef, m, w).
  Proof.
    intros Hin Hb Hn Hx. rewrite (text_deserialize n big t ser des m w b pre x post) by done.
    cbn [bind].
    assert (bytes x) as Hx0.
    { apply Forall_app in Hx as [_ Hx]. by apply Forall_app in Hx as [Hx _]. }
    pose proof (value_in_order big n (value_of big x)) as Ev.
    subst n. rewrite in_order_value in Ev by done.
    rewrite (text_serialize (length x) big t ser des m w b pre x post); [|done|done|done|].
    - rewrite in_order_value by done. by rewrite list_insert_id.
    - rewrite Ev. pose proof (Z.mod_pos_bound (value_of big x) (256 ^ Z.of_nat (length x)) ltac:(lia)).
      cbn in Hin. repeat destruct Hin as [Hin|Hin]; [..|done]; injection Hin as E1 _ <- _ _; rewrite <- E1 in *;
      cbn [CLang.width]; split; try lia; eapply Z.lt_le_trans; try apply H; vm_compute; congruence.
  Qed.

  Lemma text_blob keep ser des m w b pre old post b' spre s spost :
    In (keep, ser, des) blob_functions ->
    m !! b = Some (ints 8 (pre ++ old ++ post)) -> m !! b' = Some (ints 8 (spre ++ s ++ spost)) ->
    b <> b' -> len old = len s -> len s < 2 ^ 31 -> len s < Z.of_nat fuel ->
    call sc ext fuel ser [at8 b (len pre); at8 b' (len spre); VInt U32 (len s)] m w
    = Ok (VUndef, <[b := ints 8 (pre ++ (if keep then s else reverse s) ++ post)]> m, w) /\
    call sc ext fuel des [at8 b' (len spre); at8 b (len pre); VInt U32 (len s)] m w
    = Ok (VUndef, <[b := ints 8 (pre ++ (if keep then s else reverse s) ++ post)]> m, w).
  Proof.
    intros Hin Hb Hb' Hne Hl H31 Hf. pose proof (len_nonneg s).
    assert (is_u32 (len s)) as Hu by (unfold is_u32; lia).
    assert (Z.to_nat (len s) < fuel)%nat as Hf' by lia.
    cbn in Hin. destruct Hin as [[= <- <- <-]|[[= <- <- <-]|[]]].
    - rewrite (ref_serializeBlobBE sc ext fuel m w b _ _ b' _ _ _ Hb Hb' Hne Hu Hf').
      rewrite (ref_deserializeBlobBE sc ext fuel m w b' _ _ b _ _ _ Hb' Hb) by done.
      by rewrite serializeBlobBE_ok, deserializeBlobBE_ok.
    - rewrite (ref_serializeBlobLE sc ext fuel m w b _ _ b' _ _ _ Hb Hb' Hne Hu Hf').
      rewrite (ref_deserializeBlobLE sc ext fuel m w b' _ _ b _ _ _ Hb' Hb) by done.
      by rewrite serializeBlobLE_ok, deserializeBlobLE_ok.
  Qed.
  Lemma text_swap m w b a x c y d :
    m !! b = Some (ints 8 (a ++ x ++ c ++ y ++ d)) -> len x = len y -> len x < 2 ^ 32 ->
    len x < Z.of_nat fuel ->
    call sc ext fuel c_Utils_swapElements
      [at8 b (len a); at8 b (len a + len x + len c); VInt U32 (len x)] m w
    = Ok (VUndef, <[b := ints 8 (a ++ y ++ c ++ x ++ d)]> m, w).
  Proof.
    intros Hb Hl H32 Hf. pose proof (len_nonneg x).
    rewrite (ref_swapElements sc ext fuel m w b _ _ _ _ Hb) by (unfold is_u32; lia).
    by rewrite (proj1 (swap_disjoint a x c y d Hl)).
  Qed.
  Lemma text_swap_same m w b a x c :
    m !! b = Some (ints 8 (a ++ x ++ c)) -> len x < 2 ^ 32 -> len x < Z.of_nat fuel ->
    call sc ext fuel c_Utils_swapElements [at8 b (len a); at8 b (len a); VInt U32 (len x)] m w
    = Ok (VUndef, m, w).
  Proof.
    intros Hb H32 Hf. pose proof (len_nonneg x).
    rewrite (ref_swapElements sc ext fuel m w b _ _ _ _ Hb) by (unfold is_u32; lia).
    rewrite swap_same. cbn [bind]. by rewrite list_insert_id.
  Qed.

  Lemma text_parse m w b s rest b' pre old post :
    m !! b = Some (ints 8 (s ++ rest)) -> m !! b' = Some (ints 32 (pre ++ old :: post)) ->
    bytes (s ++ rest) -> len s <= 10 -> (10 < fuel)%nat ->
    exists ok v,
      call sc ext fuel c_Utils_stringToUint32
        [VPtr (TInt IChar) (BObj b) 0; VInt U8 (len s); at32 b' (len pre)] m w
      = Ok (VInt IBool (b2z ok), <[b' := ints 32 (pre ++ v :: post)]> m, w) /\
      (ok = true <-> Forall is_digit s /\ decimal s <= 2 ^ 32 - 1) /\
      (ok = true -> v = decimal s).
  Proof.
    intros Hb Hb' Hx Hl Hf. pose proof (len_nonneg s). pose proof (len_nonneg pre). pose proof (len_nonneg post).
    destruct (parse_ok sc s rest) as (ok & v & E & Hiff & Hv);
      [by apply Forall_app in Hx as [? _]|done|].
    exists ok, v. split; [|done].
    rewrite (ref_stringToUint32 sc ext fuel m w b _ b' _ (len pre) (len s) Hb Hb');
      [|rewrite len_app, len_cons; lia|done|unfold is_byte; lia|lia].
    rewrite E. cbn [bind]. do 3 f_equal. unfold len. rewrite Nat2Z.id.
    replace (length pre) with (length pre + 0)%nat by lia. by rewrite insert_app_r.
  Qed.
  Lemma text_pow10 m w b pre old post e :
    m !! b = Some (ints 32 (pre ++ old :: post)) -> 0 <= e < 256 ->
    call sc ext fuel c_Utils_quickUint32Pow10 [VInt U8 e; at32 b (len pre)] m w
    = if e <? 10 then Ok (VInt IBool 1, <[b := ints 32 (pre ++ 10 ^ e :: post)]> m, w)
      else Ok (VInt IBool 0, m, w).
  Proof.
    intros Hb He.
    rewrite (ref_quickUint32Pow10 sc ext fuel m w b _ _ e old Hb (load_mid _ _ _)) by (unfold is_byte; lia).
    destruct (Z.ltb_spec e 10).
    - rewrite pow10_ok by lia. cbn [bind]. by rewrite store_mid.
    - rewrite pow10_fail by lia. cbn [bind]. rewrite store_mid. cbn [bind b2z]. by rewrite list_insert_id.
  Qed.

  Lemma text_reflect m w d n : is_u32 d -> 0 <= n <= 32 -> n < Z.of_nat fuel ->
    exists r, call sc ext fuel c_BitManipulation_reflect [VInt U32 d; VInt U8 n] m w
              = Ok (VInt U32 r, m, w) /\ 0 <= r < 2 ^ n /\
      forall k, 0 <= k -> Z.testbit r k = mirror_bit n d k.
  Proof.
    intros Hd Hn Hf. destruct (reflect_ok d n Hd Hn) as (r & E & Hr). exists r.
    rewrite (ref_reflect sc ext fuel m w d n) by (unfold is_byte; lia). by rewrite E.
  Qed.
  Lemma text_rotl32 m w d n : is_u32 d -> is_u32 n ->
    if (1 <=? n) && (n <=? 31) then
      exists r, call sc ext fuel c_BitManipulation_rotl32 [VInt U32 d; VInt U32 n] m w
                = Ok (VInt U32 r, m, w) /\ is_u32 r /\
        forall k, 0 <= k -> Z.testbit r k = rotl_bit n d k
    else call sc ext fuel c_BitManipulation_rotl32 [VInt U32 d; VInt U32 n] m w = UB BadShift.
  Proof.
    intros Hd Hn. rewrite ref_rotl32. unfold is_u32 in Hn. destruct (_ && _) eqn:E.
    - destruct (rotl32_ok d n) as (r & Er & Hr); [done|lia|]. exists r. by rewrite Er.
    - destruct (Z.eq_dec n 0) as [->|]; [by rewrite rotl32_zero|]. rewrite rotl32_wide by lia. done.
  Qed.
  Lemma text_bit f change m w b pre old post d n :
    In (f, change) bit_functions -> m !! b = Some (ints 32 (pre ++ old :: post)) ->
    is_u32 d -> 0 <= n < 256 ->
    if n <? 32 then
      exists r, call sc ext fuel f [VInt U32 d; VInt U8 n; at32 b (len pre)] m w
                = Ok (VInt IBool 1, <[b := ints 32 (pre ++ r :: post)]> m, w) /\ is_u32 r /\
        forall k, 0 <= k -> Z.testbit r k = if k =? n then change (Z.testbit d k) else Z.testbit d k
    else call sc ext fuel f [VInt U32 d; VInt U8 n; at32 b (len pre)] m w = Ok (VInt IBool 0, m, w).
  Proof.
    intros Hin Hb Hd Hn. cbn in Hin.
    destruct Hin as [[= <- <-]|[[= <- <-]|[[= <- <-]|[]]]];
    [ rewrite (ref_setBit sc ext fuel m w b _ _ old d n Hb (load_mid _ _ _)) by (unfold is_byte; lia)
    | rewrite (ref_clearBit sc ext fuel m w b _ _ old d n Hb (load_mid _ _ _)) by (unfold is_byte; lia)
    | rewrite (ref_toggleBit sc ext fuel m w b _ _ old d n Hb (load_mid _ _ _)) by (unfold is_byte; lia) ];
    (destruct (Z.ltb_spec n 32);
     [|destruct (bit_ops_fail d n false old) as (_ & F1 & F2 & F3); [lia|];
       rewrite ?F1, ?F2, ?F3; cbn [bind]; rewrite store_mid; cbn [bind b2z]; by rewrite list_insert_id]);
    [ destruct (setBit_ok d n old) as (r & E & Hr) | destruct (clearBit_ok d n old) as (r & E & Hr)
    | destruct (toggleBit_ok d n old) as (r & E & Hr) ]; try done; try lia;
    exists r; rewrite E; cbn [bind]; rewrite store_mid; done.
  Qed.
  Lemma text_bitSet m w b pre old post d n :
    m !! b = Some (ints 8 (pre ++ b2z old :: post)) -> 0 <= n < 256 ->
    call sc ext fuel c_BitManipulation_bitSet [VInt U32 d; VInt U8 n; VPtr (TInt IBool) (BObj b) (len pre)] m w
    = if n <? 32 then Ok (VInt IBool 1, <[b := ints 8 (pre ++ b2z (Z.testbit d n) :: post)]> m, w)
      else Ok (VInt IBool 0, m, w).
  Proof.
    intros Hb Hn.
    rewrite (ref_bitSet sc ext fuel m w b _ _ old d n Hb (load_mid _ _ _)) by (unfold is_byte; lia).
    destruct (Z.ltb_spec n 32).
    - rewrite bitSet_ok by lia. cbn [bind]. by rewrite store_mid.
    - destruct (bit_ops_fail d n old 0) as (-> & _); [lia|]. cbn [bind]. rewrite store_mid.
      cbn [bind b2z]. by rewrite list_insert_id.
  Qed.
  Lemma text_char_classes m w c : is_byte c ->
    exists u l a, call sc ext fuel c_Utils_isUpperChar [VInt IChar (char_val sc c)] m w = Ok (VInt IBool (b2z u), m, w) /\
      call sc ext fuel c_Utils_isLowerChar [VInt IChar (char_val sc c)] m w = Ok (VInt IBool (b2z l), m, w) /\
      call sc ext fuel c_Utils_isAlpha [VInt IChar (char_val sc c)] m w = Ok (VInt IBool (b2z a), m, w) /\
      (u = true <-> is_upper c) /\ (l = true <-> is_lower c) /\ (a = true <-> is_upper c \/ is_lower c).
  Proof.
    intros Hc. rewrite ref_isUpperChar, ref_isLowerChar, ref_isAlpha by done. eexists _, _, _.
    do 3 (split; [done|]). split; [by apply isUpper_ok|]. split; [by apply isLower_ok|by apply isAlpha_ok].
  Qed.
End utils.
