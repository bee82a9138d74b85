(** * Lib: lemmas about the C semantics, loops, byte lists and bits *)
From Verif Require Export CSem.

#[export] Set Default Goal Selector "!".
Ltac Zify.zify_post_hook ::= Z.div_mod_to_equations.

(** ** Lists indexed by [Z] *)

Definition get {A} `{Inhabited A} (o : list A) (i : Z) : A := o !!! Z.to_nat i.

Lemma len_nonneg {A} (l : list A) : 0 <= len l.
Proof. unfold len; lia. Qed.
Lemma len_nil {A} : len (@nil A) = 0.
Proof. reflexivity. Qed.
Lemma len_cons {A} (x : A) l : len (x :: l) = len l + 1.
Proof. unfold len; cbn; lia. Qed.
Lemma len_app {A} (l k : list A) : len (l ++ k) = len l + len k.
Proof. unfold len; rewrite app_length; lia. Qed.
Lemma len_insert {A} (l : list A) i x : len (<[i:=x]> l) = len l.
Proof. unfold len; rewrite insert_length; lia. Qed.
Lemma len_replicate {A} n (x : A) : len (replicate n x) = Z.of_nat n.
Proof. unfold len; rewrite replicate_length; lia. Qed.
Lemma len_take {A} (l : list A) n : len (take n l) = Z.min (Z.of_nat n) (len l).
Proof. unfold len; rewrite take_length; lia. Qed.
Lemma len_drop {A} (l : list A) n : len (drop n l) = Z.max 0 (len l - Z.of_nat n).
Proof. unfold len; rewrite drop_length; lia. Qed.
Lemma len_map {A B} (f : A -> B) l : len (map f l) = len l.
Proof. unfold len; rewrite map_length; lia. Qed.
Lemma len_fmap {A B} (f : A -> B) (l : list A) : len (f <$> l) = len l.
Proof. unfold len; rewrite fmap_length; lia. Qed.
Lemma len_rev {A} (l : list A) : len (rev l) = len l.
Proof. unfold len; rewrite rev_length; lia. Qed.
Lemma len_reverse {A} (l : list A) : len (reverse l) = len l.
Proof. unfold len; rewrite reverse_length; lia. Qed.
Lemma len_0_inv {A} (l : list A) : len l = 0 -> l = [].
Proof. destruct l; [done|]. rewrite len_cons. pose proof (len_nonneg l). lia. Qed.
Lemma length_len {A} (l : list A) : length l = Z.to_nat (len l).
Proof. unfold len; lia. Qed.

Section get.
  Context {A} `{Inhabited A}.
  Implicit Types (l k : list A) (x : A).

  Lemma get_lookup l i x : 0 <= i -> l !! Z.to_nat i = Some x -> get l i = x.
  Proof. intros _ E. unfold get. by apply list_lookup_total_correct. Qed.
  Lemma lookup_get l i : 0 <= i < len l -> l !! Z.to_nat i = Some (get l i).
  Proof. intros Hi. unfold get. apply list_lookup_lookup_total_lt. unfold len in Hi; lia. Qed.
  Lemma get_ext l k :
    len l = len k -> (forall i, 0 <= i < len l -> get l i = get k i) -> l = k.
  Proof.
    intros Hl Hg. apply list_eq_same_length with (length l); [unfold len in *; lia|done|].
    intros i x y Hi Hx Hy. specialize (Hg (Z.of_nat i)).
    unfold get in Hg. rewrite Nat2Z.id in Hg.
    rewrite (list_lookup_total_correct _ _ _ Hx), (list_lookup_total_correct _ _ _ Hy) in Hg.
    apply Hg. unfold len; lia.
  Qed.
  Lemma get_insert_eq l i x : 0 <= i < len l -> get (<[Z.to_nat i:=x]> l) i = x.
  Proof. intros. unfold get. apply list_lookup_total_insert. unfold len in *; lia. Qed.
  Lemma get_insert_ne l i j x :
    0 <= i -> 0 <= j -> i <> j -> get (<[Z.to_nat i:=x]> l) j = get l j.
  Proof. intros. unfold get. apply list_lookup_total_insert_ne. lia. Qed.
  Lemma get_insert l i j x :
    0 <= i < len l -> 0 <= j ->
    get (<[Z.to_nat i:=x]> l) j = if i =? j then x else get l j.
  Proof.
    intros. destruct (Z.eqb_spec i j) as [->|].
    - by apply get_insert_eq.
    - apply get_insert_ne; lia.
  Qed.
  Lemma get_app_l l k i : 0 <= i < len l -> get (l ++ k) i = get l i.
  Proof.
    intros Hi. apply get_lookup; [lia|]. rewrite lookup_app_l by (unfold len in Hi; lia).
    by apply lookup_get.
  Qed.
  Lemma get_app_r l k i : len l <= i < len l + len k -> get (l ++ k) i = get k (i - len l).
  Proof.
    intros Hi. pose proof (len_nonneg l). apply get_lookup; [lia|].
    rewrite lookup_app_r by (unfold len in Hi; lia).
    replace (Z.to_nat i - length l)%nat with (Z.to_nat (i - len l)) by (unfold len; lia).
    apply lookup_get. lia.
  Qed.
  Lemma get_app l k i :
    0 <= i < len l + len k ->
    get (l ++ k) i = if i <? len l then get l i else get k (i - len l).
  Proof.
    intros. destruct (Z.ltb_spec i (len l)); [apply get_app_l; lia|apply get_app_r; lia].
  Qed.
  Lemma get_cons x l i :
    0 <= i < len l + 1 -> get (x :: l) i = if i =? 0 then x else get l (i - 1).
  Proof.
    intros Hi. destruct (Z.eqb_spec i 0) as [->|Hn]; [done|].
    apply get_lookup; [lia|].
    replace (Z.to_nat i) with (S (Z.to_nat (i - 1))) by lia. cbn.
    apply lookup_get. lia.
  Qed.
  Lemma get_0 x l : get (x :: l) 0 = x.
  Proof. done. Qed.
  Lemma get_take l n i : 0 <= i < Z.of_nat n -> i < len l -> get (take n l) i = get l i.
  Proof.
    intros. apply get_lookup; [lia|]. rewrite lookup_take by lia. apply lookup_get. lia.
  Qed.
  Lemma get_drop l n i : 0 <= i -> i + Z.of_nat n < len l -> get (drop n l) i = get l (i + Z.of_nat n).
  Proof.
    intros. apply get_lookup; [lia|]. rewrite lookup_drop.
    replace (n + Z.to_nat i)%nat with (Z.to_nat (i + Z.of_nat n)) by lia.
    apply lookup_get. lia.
  Qed.
  Lemma get_replicate n x i : 0 <= i < Z.of_nat n -> get (replicate n x) i = x.
  Proof. intros. apply get_lookup; [lia|]. apply lookup_replicate_2. lia. Qed.
  Lemma get_reverse l i : 0 <= i < len l -> get (reverse l) i = get l (len l - 1 - i).
  Proof.
    intros Hi. apply get_lookup; [lia|]. rewrite reverse_lookup by (unfold len in Hi; lia).
    replace (length l - S (Z.to_nat i))%nat with (Z.to_nat (len l - 1 - i)) by (unfold len; lia).
    apply lookup_get. lia.
  Qed.
End get.

Lemma get_fmap {A B} `{Inhabited A} `{Inhabited B} (f : A -> B) (l : list A) i :
  0 <= i < len l -> get (f <$> l) i = f (get l i).
Proof.
  intros Hi. apply get_lookup; [lia|]. rewrite list_lookup_fmap, lookup_get by done. done.
Qed.
Lemma get_map {A B} `{Inhabited A} `{Inhabited B} (f : A -> B) (l : list A) i :
  0 <= i < len l -> get (map f l) i = f (get l i).
Proof. apply get_fmap. Qed.

Lemma Forall_get {A} `{Inhabited A} (P : A -> Prop) l i :
  Forall P l -> 0 <= i < len l -> P (get l i).
Proof. intros HF Hi. eapply Forall_lookup_1; [done|]. by apply lookup_get. Qed.
Lemma Forall_get_2 {A} `{Inhabited A} (P : A -> Prop) l :
  (forall i, 0 <= i < len l -> P (get l i)) -> Forall P l.
Proof.
  intros Hg. apply Forall_lookup_2. intros i x Hx.
  pose proof (lookup_lt_Some _ _ _ Hx).
  specialize (Hg (Z.of_nat i)). unfold get in Hg. rewrite Nat2Z.id in Hg.
  rewrite (list_lookup_total_correct _ _ _ Hx) in Hg. apply Hg. unfold len; lia.
Qed.

(** ** Memory accesses *)

Section mem.
  Context {A} `{Inhabited A}.
  Implicit Types (o : list A) (x : A).

  Lemma load_ok o i : 0 <= i < len o -> load o i = Ok (get o i).
  Proof.
    intros Hi. unfold load. destruct (Z.leb_spec 0 i); [|lia]. by rewrite lookup_get.
  Qed.
  Lemma load_inv o i x : load o i = Ok x -> 0 <= i < len o /\ x = get o i.
  Proof.
    unfold load. destruct (Z.leb_spec 0 i); [|done].
    destruct (o !! Z.to_nat i) eqn:E; [|done]. intros [= ->].
    split; [|symmetry; by apply get_lookup].
    apply lookup_lt_Some in E. unfold len; lia.
  Qed.
  Lemma load_oob o i : i < 0 \/ len o <= i -> load o i = UB OutOfBounds.
  Proof.
    intros Hi. unfold load. destruct (Z.leb_spec 0 i); [|done].
    rewrite lookup_ge_None_2; [done|]. unfold len in Hi; lia.
  Qed.
  Lemma store_ok o i x : 0 <= i < len o -> store o i x = Ok (<[Z.to_nat i:=x]> o).
  Proof.
    intros Hi. unfold store.
    destruct (Z.leb_spec 0 i), (Z.ltb_spec i (len o)); cbn; try lia; done.
  Qed.
  Lemma store_inv o i x o' :
    store o i x = Ok o' -> 0 <= i < len o /\ o' = <[Z.to_nat i:=x]> o.
  Proof.
    unfold store.
    destruct (Z.leb_spec 0 i), (Z.ltb_spec i (len o)); cbn; try done. by intros [= ->].
  Qed.
  Lemma store_oob o i x : i < 0 \/ len o <= i -> store o i x = UB OutOfBounds.
  Proof.
    intros Hi. unfold store.
    destruct (Z.leb_spec 0 i), (Z.ltb_spec i (len o)); cbn; try done; lia.
  Qed.
End mem.

(** ** Slices and writes *)

Lemma in_range_true {A} (o : list A) off n :
  in_range o off n = true <-> 0 <= off /\ 0 <= n /\ off + n <= len o.
Proof. unfold in_range. lia. Qed.
Lemma in_range_false {A} (o : list A) off n :
  in_range o off n = false <-> off < 0 \/ n < 0 \/ len o < off + n.
Proof. unfold in_range. lia. Qed.

Lemma len_slice {A} (o : list A) off n :
  0 <= off -> 0 <= n -> off + n <= len o -> len (slice o off n) = n.
Proof. intros. unfold slice. rewrite len_take, len_drop. lia. Qed.
Lemma len_write {A} (o xs : list A) off :
  0 <= off -> off + len xs <= len o -> len (write o off xs) = len o.
Proof.
  intros. unfold write. rewrite !len_app, len_take, len_drop.
  unfold len in *. lia.
Qed.

Section slice.
  Context {A} `{Inhabited A}.
  Implicit Types (o xs : list A).

  Lemma get_slice o off n i :
    0 <= off -> 0 <= i < n -> off + n <= len o -> get (slice o off n) i = get o (off + i).
  Proof.
    intros. unfold slice.
    rewrite get_take; [|lia|rewrite len_drop; lia].
    rewrite get_drop by lia. f_equal. lia.
  Qed.
  Lemma get_write o xs off i :
    0 <= off -> off + len xs <= len o -> 0 <= i < len o ->
    get (write o off xs) i =
      if (off <=? i) && (i <? off + len xs) then get xs (i - off) else get o i.
  Proof.
    intros Ho Hl Hi. unfold write. pose proof (len_nonneg xs).
    assert (Ht : len (take (Z.to_nat off) o) = off) by (rewrite len_take; lia).
    assert (Hd : len (drop (Z.to_nat off + length xs) o) = len o - off - len xs)
      by (rewrite len_drop; unfold len in *; lia).
    rewrite get_app by (rewrite len_app; lia). rewrite Ht.
    destruct (Z.ltb_spec i off).
    { rewrite get_take by lia. destruct (Z.leb_spec off i); [lia|]. done. }
    destruct (Z.leb_spec off i); [|lia]. cbn [andb].
    rewrite get_app by lia.
    destruct (Z.ltb_spec (i - off) (len xs)), (Z.ltb_spec i (off + len xs)); try lia; [done|].
    rewrite get_drop by (unfold len in *; lia). f_equal. unfold len in *; lia.
  Qed.
  Lemma slice_all o : slice o 0 (len o) = o.
  Proof. unfold slice. cbn. apply take_ge. unfold len; lia. Qed.
  Lemma slice_write_same o xs off :
    0 <= off -> off + len xs <= len o -> slice (write o off xs) off (len xs) = xs.
  Proof.
    intros. pose proof (len_nonneg xs). apply get_ext.
    - rewrite len_slice; [done|lia|lia|]. rewrite len_write; lia.
    - rewrite len_slice by (rewrite ?len_write; lia). intros i Hi.
      rewrite get_slice by (rewrite ?len_write; lia).
      rewrite get_write by lia.
      destruct (Z.leb_spec off (off + i)), (Z.ltb_spec (off + i) (off + len xs)); cbn; try lia.
      f_equal. lia.
  Qed.
  Lemma slice_write_disjoint o xs off p n :
    0 <= off -> off + len xs <= len o -> 0 <= p -> 0 <= n -> p + n <= len o ->
    p + n <= off \/ off + len xs <= p ->
    slice (write o off xs) p n = slice o p n.
  Proof.
    intros. pose proof (len_nonneg xs). apply get_ext.
    - rewrite !len_slice; rewrite ?len_write; lia.
    - rewrite len_slice by (rewrite ?len_write; lia). intros i Hi.
      rewrite !get_slice by (rewrite ?len_write; lia).
      rewrite get_write by lia.
      destruct (Z.leb_spec off (p + i)), (Z.ltb_spec (p + i) (off + len xs)); cbn; try lia; done.
  Qed.
  Lemma write_nil o off : 0 <= off <= len o -> write o off [] = o.
  Proof.
    intros. unfold write. cbn. rewrite Nat.add_0_r. apply take_drop.
  Qed.
  Lemma write_insert o off x :
    0 <= off < len o -> write o off [x] = <[Z.to_nat off := x]> o.
  Proof.
    intros. apply get_ext.
    - rewrite len_write, len_insert; cbn; rewrite ?len_cons, ?len_nil; lia.
    - intros i Hi. rewrite len_write in Hi by (rewrite ?len_cons, ?len_nil; lia).
      rewrite get_write by (rewrite ?len_cons, ?len_nil; lia).
      rewrite get_insert by lia. rewrite len_cons, len_nil.
      destruct (Z.eqb_spec off i) as [->|].
      + destruct (Z.leb_spec i i), (Z.ltb_spec i (i + (0 + 1))); cbn; try lia.
        rewrite Z.sub_diag. done.
      + destruct (Z.leb_spec off i), (Z.ltb_spec i (off + (0 + 1))); cbn; try lia; done.
  Qed.
End slice.

Lemma memcpy_ok dst d src s n :
  0 <= n -> 0 <= d -> d + n <= len dst -> 0 <= s -> s + n <= len src ->
  memcpy dst d src s n = Ok (write dst d (slice src s n)).
Proof.
  intros. unfold memcpy. rewrite !(proj2 (in_range_true _ _ _)) by lia. done.
Qed.
Lemma memcpy_inv dst d src s n o :
  memcpy dst d src s n = Ok o ->
  0 <= n /\ 0 <= d /\ d + n <= len dst /\ 0 <= s /\ s + n <= len src /\
  o = write dst d (slice src s n).
Proof.
  unfold memcpy. destruct (in_range dst d n) eqn:E1, (in_range src s n) eqn:E2; cbn; try done.
  apply in_range_true in E1, E2. intros [= <-]. repeat split; lia.
Qed.
Lemma memcpy_within_ok o d s n :
  0 <= n -> 0 <= d -> d + n <= len o -> 0 <= s -> s + n <= len o ->
  d + n <= s \/ s + n <= d ->
  memcpy_within o d s n = Ok (write o d (slice o s n)).
Proof.
  intros. unfold memcpy_within. rewrite !(proj2 (in_range_true _ _ _)) by lia. cbn.
  destruct (Z.leb_spec (d + n) s), (Z.leb_spec (s + n) d); cbn; try lia; done.
Qed.
Lemma memcmp_eq_ok a i b j n :
  0 <= n -> 0 <= i -> i + n <= len a -> 0 <= j -> j + n <= len b ->
  memcmp_eq a i b j n = Ok (bool_decide (slice a i n = slice b j n)).
Proof.
  intros. unfold memcmp_eq. rewrite !(proj2 (in_range_true _ _ _)) by lia. done.
Qed.

(** ** Integer conversions *)

Lemma u8_small x : 0 <= x < 2 ^ 8 -> u8 x = x.
Proof. apply Z.mod_small. Qed.
Lemma u16_small x : 0 <= x < 2 ^ 16 -> u16 x = x.
Proof. apply Z.mod_small. Qed.
Lemma u32_small x : 0 <= x < 2 ^ 32 -> u32 x = x.
Proof. apply Z.mod_small. Qed.
Lemma u64_small x : 0 <= x < 2 ^ 64 -> u64 x = x.
Proof. apply Z.mod_small. Qed.
Lemma u8_range x : 0 <= u8 x < 2 ^ 8.
Proof. apply Z.mod_pos_bound. lia. Qed.
Lemma u16_range x : 0 <= u16 x < 2 ^ 16.
Proof. apply Z.mod_pos_bound. lia. Qed.
Lemma u32_range x : 0 <= u32 x < 2 ^ 32.
Proof. apply Z.mod_pos_bound. lia. Qed.
Lemma u64_range x : 0 <= u64 x < 2 ^ 64.
Proof. apply Z.mod_pos_bound. lia. Qed.
Lemma s32_small x : - 2 ^ 31 <= x < 2 ^ 31 -> s32 x = x.
Proof. intros. unfold s32. rewrite Z.mod_small; lia. Qed.
Lemma s8_small x : - 2 ^ 7 <= x < 2 ^ 7 -> s8 x = x.
Proof. intros. unfold s8. rewrite Z.mod_small; lia. Qed.
Lemma ck32_ok x : - 2 ^ 31 <= x < 2 ^ 31 -> ck32 x = Ok x.
Proof.
  intros. unfold ck32. destruct (Z.leb_spec (- 2 ^ 31) x), (Z.ltb_spec x (2 ^ 31)); cbn; try lia.
  done.
Qed.
Lemma ck32_inv x y : ck32 x = Ok y -> y = x /\ - 2 ^ 31 <= x < 2 ^ 31.
Proof.
  unfold ck32. destruct (Z.leb_spec (- 2 ^ 31) x), (Z.ltb_spec x (2 ^ 31)); cbn; try done.
  intros [= ->]. lia.
Qed.
Lemma umod_ok a b : b <> 0 -> umod a b = Ok (a mod b).
Proof. intros. unfold umod. destruct (Z.eqb_spec b 0); [lia|done]. Qed.

(** ** Bits *)

Lemma land_ones_mod x n : 0 <= n -> Z.land x (2 ^ n - 1) = x mod 2 ^ n.
Proof. intros. rewrite <- Z.land_ones by lia. f_equal. rewrite Z.ones_equiv. lia. Qed.
Lemma land_255 x : Z.land x 255 = x mod 2 ^ 8.
Proof. apply (land_ones_mod x 8). lia. Qed.
Lemma land_63 x : Z.land x 63 = x mod 2 ^ 6.
Proof. apply (land_ones_mod x 6). lia. Qed.
Lemma land_15 x : Z.land x 15 = x mod 2 ^ 4.
Proof. apply (land_ones_mod x 4). lia. Qed.
Lemma land_3 x : Z.land x 3 = x mod 2 ^ 2.
Proof. apply (land_ones_mod x 2). lia. Qed.
Lemma land_1 x : Z.land x 1 = x mod 2.
Proof. apply (land_ones_mod x 1). lia. Qed.

Lemma lor_add_disjoint a b n :
  0 <= n -> 0 <= b < 2 ^ n -> a mod 2 ^ n = 0 -> Z.lor a b = a + b.
Proof.
  intros Hn Hb Ha.
  assert (Hl : Z.land a b = 0).
  { apply Z.bits_inj'. intros i Hi. rewrite Z.land_spec, Z.bits_0.
    destruct (Z.lt_ge_cases i n).
    - replace a with (a / 2 ^ n * 2 ^ n) by lia.
      rewrite Z.mul_pow2_bits_low by lia. done.
    - assert (Z.testbit b i = false) as ->; [|apply andb_false_r].
      destruct (Z.eq_dec b 0) as [->|]; [apply Z.bits_0|].
      apply Z.bits_above_log2; [lia|].
      apply Z.log2_lt_pow2; [lia|]. apply Z.lt_le_trans with (2 ^ n); [lia|].
      apply Z.pow_le_mono_r; lia. }
  rewrite Z.add_nocarry_lxor by done. symmetry. by apply Z.lxor_lor.
Qed.
Lemma lor_shiftl_add a b n :
  0 <= n -> 0 <= b < 2 ^ n -> Z.lor (Z.shiftl a n) b = a * 2 ^ n + b.
Proof.
  intros. rewrite Z.shiftl_mul_pow2 by lia. apply lor_add_disjoint with n; try lia.
  apply Z_mod_mult.
Qed.
Lemma testbit_small x n i : 0 <= x < 2 ^ n -> n <= i -> Z.testbit x i = false.
Proof.
  intros Hx Hi. destruct (Z.lt_ge_cases n 0).
  { rewrite Z.pow_neg_r in Hx by lia. lia. }
  destruct (Z.eq_dec x 0) as [->|]; [apply Z.bits_0|].
  apply Z.bits_above_log2; [lia|].
  apply Z.log2_lt_pow2; [lia|]. apply Z.lt_le_trans with (2 ^ n); [lia|].
  apply Z.pow_le_mono_r; lia.
Qed.
Lemma testbit_bound x n :
  0 <= n -> 0 <= x -> (forall i, n <= i -> Z.testbit x i = false) -> x < 2 ^ n.
Proof.
  intros Hn Hx Hb. destruct (Z.lt_ge_cases x (2 ^ n)) as [|Hge]; [done|].
  assert (0 < x) by (pose proof (Z.pow_pos_nonneg 2 n); lia).
  assert (n <= Z.log2 x) by (apply Z.log2_le_pow2; lia).
  specialize (Hb (Z.log2 x)). rewrite Z.bit_log2 in Hb by lia. discriminate Hb. lia.
Qed.
Lemma lxor_bound a b n :
  0 <= n -> 0 <= a < 2 ^ n -> 0 <= b < 2 ^ n -> 0 <= Z.lxor a b < 2 ^ n.
Proof.
  intros. assert (0 <= Z.lxor a b) by (apply Z.lxor_nonneg; lia). split; [done|].
  apply testbit_bound; [lia|done|]. intros i Hi.
  rewrite Z.lxor_spec, (testbit_small a n), (testbit_small b n) by lia. done.
Qed.
Lemma lor_bound a b n :
  0 <= n -> 0 <= a < 2 ^ n -> 0 <= b < 2 ^ n -> 0 <= Z.lor a b < 2 ^ n.
Proof.
  intros. assert (0 <= Z.lor a b) by (apply Z.lor_nonneg; lia). split; [done|].
  apply testbit_bound; [lia|done|]. intros i Hi.
  rewrite Z.lor_spec, (testbit_small a n), (testbit_small b n) by lia. done.
Qed.
Lemma land_bound a b n : 0 <= n -> 0 <= a < 2 ^ n -> 0 <= Z.land a b < 2 ^ n.
Proof.
  intros. assert (0 <= Z.land a b) by (apply Z.land_nonneg; lia). split; [done|].
  apply testbit_bound; [lia|done|]. intros i Hi.
  rewrite Z.land_spec, (testbit_small a n) by lia. done.
Qed.

(** ** Loops *)

Lemma cfor_empty {S} a b (body : Z -> S -> outcome S) s : b <= a -> cfor a b body s = Ok s.
Proof. intros. unfold cfor. replace (Z.to_nat (b - a)) with O by lia. done. Qed.
Lemma cfor_step {S} a b (body : Z -> S -> outcome S) s :
  a < b -> cfor a b body s = bind (body a s) (fun s => cfor (a + 1) b body s).
Proof.
  intros. unfold cfor.
  replace (Z.to_nat (b - a)) with (Datatypes.S (Z.to_nat (b - (a + 1)))) by lia. done.
Qed.
Lemma cfor_rule {S} (P : Z -> S -> Prop) a b (body : Z -> S -> outcome S) s :
  a <= b -> P a s ->
  (forall i s, a <= i < b -> P i s -> exists s', body i s = Ok s' /\ P (i + 1) s') ->
  exists s', cfor a b body s = Ok s' /\ P b s'.
Proof.
  intros Hab. unfold cfor. remember (Z.to_nat (b - a)) as n eqn:En.
  revert a s Hab En. induction n as [|n IH]; intros a s Hab En HP Hb; cbn.
  - exists s. split; [done|]. by replace b with a by lia.
  - destruct (Hb a s) as (s' & -> & HP'); [lia|done|]. cbn.
    apply IH; [lia|lia|done|]. intros i t Hi. apply Hb. lia.
Qed.
(** partial correctness: whatever the loop returns satisfies the invariant *)
Lemma cfor_inv {S} (P : Z -> S -> Prop) a b (body : Z -> S -> outcome S) s s' :
  cfor a b body s = Ok s' -> P a s -> a <= b ->
  (forall i s s', a <= i < b -> P i s -> body i s = Ok s' -> P (i + 1) s') -> P b s'.
Proof.
  intros Hf HP Hab. unfold cfor in Hf. remember (Z.to_nat (b - a)) as n eqn:En.
  revert a s Hab En HP Hf. induction n as [|n IH]; intros a s Hab En HP Hf Hb; cbn in Hf.
  - injection Hf as ->. by replace b with a by lia.
  - destruct (body a s) as [t| |] eqn:Et; cbn in Hf; try done.
    apply (IH (a + 1) t); [lia|lia| |done|].
    + apply (Hb a s); [lia|done|done].
    + intros i u v Hi. apply Hb. lia.
Qed.
Lemma cfor_split {S} a c b (body : Z -> S -> outcome S) s :
  a <= c <= b -> cfor a b body s = bind (cfor a c body s) (fun s => cfor c b body s).
Proof.
  intros H. remember (Z.to_nat (c - a)) as n eqn:En.
  revert a s H En. induction n as [|n IH]; intros a s H En.
  - replace c with a by lia. rewrite (cfor_empty a a) by lia. done.
  - rewrite (cfor_step a b), (cfor_step a c) by lia.
    destruct (body a s) as [t| |]; cbn; try done. apply IH; lia.
Qed.
Lemma cfor_ext {S} a b (f g : Z -> S -> outcome S) s :
  (forall i s, a <= i < b -> f i s = g i s) -> cfor a b f s = cfor a b g s.
Proof.
  unfold cfor. remember (Z.to_nat (b - a)) as n eqn:En.
  revert a s En. induction n as [|n IH]; intros a s En H; cbn; [done|].
  rewrite H by lia. destruct (g a s) as [t| |]; cbn; try done.
  apply IH; [lia|]. intros i t' Hi. apply H. lia.
Qed.

Lemma cford_empty {S} a b (body : Z -> S -> outcome S) s : a < b -> cford a b body s = Ok s.
Proof. intros. unfold cford. replace (Z.to_nat (a + 1 - b)) with O by lia. done. Qed.
Lemma cford_step {S} a b (body : Z -> S -> outcome S) s :
  b <= a -> cford a b body s = bind (body a s) (fun s => cford (a - 1) b body s).
Proof.
  intros. unfold cford.
  replace (Z.to_nat (a + 1 - b)) with (Datatypes.S (Z.to_nat (a - 1 + 1 - b))) by lia. done.
Qed.
Lemma cford_rule {S} (P : Z -> S -> Prop) a b (body : Z -> S -> outcome S) s :
  b <= a + 1 -> P a s ->
  (forall i s, b <= i <= a -> P i s -> exists s', body i s = Ok s' /\ P (i - 1) s') ->
  exists s', cford a b body s = Ok s' /\ P (b - 1) s'.
Proof.
  intros Hab. unfold cford. remember (Z.to_nat (a + 1 - b)) as n eqn:En.
  revert a s Hab En. induction n as [|n IH]; intros a s Hab En HP Hb; cbn.
  - exists s. split; [done|]. by replace (b - 1) with a by lia.
  - destruct (Hb a s) as (s' & -> & HP'); [lia|done|]. cbn.
    apply IH; [lia|lia|done|]. intros i t Hi. apply Hb. lia.
Qed.
Lemma cford_inv {S} (P : Z -> S -> Prop) a b (body : Z -> S -> outcome S) s s' :
  cford a b body s = Ok s' -> P a s -> b <= a + 1 ->
  (forall i s s', b <= i <= a -> P i s -> body i s = Ok s' -> P (i - 1) s') -> P (b - 1) s'.
Proof.
  intros Hf HP Hab. unfold cford in Hf. remember (Z.to_nat (a + 1 - b)) as n eqn:En.
  revert a s Hab En HP Hf. induction n as [|n IH]; intros a s Hab En HP Hf Hb; cbn in Hf.
  - injection Hf as ->. by replace (b - 1) with a by lia.
  - destruct (body a s) as [t| |] eqn:Et; cbn in Hf; try done.
    apply (IH (a - 1) t); [lia|lia| |done|].
    + apply (Hb a s); [lia|done|done].
    + intros i u v Hi. apply Hb. lia.
Qed.

(** total correctness of [while] with a measure *)
Lemma cwhile_rule {S} (P Q : S -> Prop) (mu : S -> Z) fuel cond
    (body : S -> outcome (ctl S)) s :
  P s -> 0 <= mu s < Z.of_nat fuel ->
  (forall s, P s -> cond s = true ->
     (exists s', body s = Ok (Next s') /\ P s' /\ 0 <= mu s' < mu s) \/
     (exists s', body s = Ok (Break s') /\ Q s')) ->
  (forall s, P s -> cond s = false -> Q s) ->
  exists s', cwhile fuel cond body s = Ok s' /\ Q s'.
Proof.
  intros HP Hmu Hbody Hend. revert s HP Hmu.
  induction fuel as [|fuel IH]; intros s HP Hmu; [lia|]. cbn.
  destruct (cond s) eqn:Ec; [|eauto].
  destruct (Hbody s HP Ec) as [(s' & -> & HP' & Hm)|(s' & -> & HQ)]; cbn.
  - apply IH; [done|lia].
  - eauto.
Qed.
(** partial correctness *)
Lemma cwhile_inv {S} (P Q : S -> Prop) fuel cond (body : S -> outcome (ctl S)) s s' :
  cwhile fuel cond body s = Ok s' -> P s ->
  (forall s t, P s -> cond s = true -> body s = Ok (Next t) -> P t) ->
  (forall s t, P s -> cond s = true -> body s = Ok (Break t) -> Q t) ->
  (forall s, P s -> cond s = false -> Q s) -> Q s'.
Proof.
  intros Hf HP Hn Hb He. revert s HP Hf.
  induction fuel as [|fuel IH]; intros s HP Hf; [done|]. cbn in Hf.
  destruct (cond s) eqn:Ec.
  - destruct (body s) as [[t|t]| |] eqn:Et; cbn in Hf; try done.
    + eapply IH; [|done]. eauto.
    + injection Hf as <-. eauto.
  - injection Hf as <-. eauto.
Qed.

Lemma bind_ok_inv {A B} (e : outcome A) (k : A -> outcome B) b :
  bind e k = Ok b -> exists a, e = Ok a /\ k a = Ok b.
Proof. destruct e; cbn; try done. eauto. Qed.
Lemma bind_bind {A B C} (e : outcome A) (f : A -> outcome B) (g : B -> outcome C) :
  bind (bind e f) g = bind e (fun a => bind (f a) g).
Proof. destruct e; done. Qed.

(** ** Strings *)

(** [s] is the string (without its NUL) that the object [o] starts with *)
Definition is_cstring (o s : list Z) : Prop :=
  exists rest, o = s ++ 0 :: rest /\ Forall (fun c => c <> 0) s.

Lemma strlen_cstring o s : is_cstring o s -> strlen o = Ok (len s).
Proof.
  intros (rest & -> & Hs). unfold strlen.
  assert (strlen_nat (s ++ 0 :: rest) = Some (length s)) as ->; [|done].
  induction Hs as [|c s Hc Hs IH]; [done|]. cbn.
  destruct (Z.eqb_spec c 0); [done|]. by rewrite IH.
Qed.
Lemma strlen_inv o n : strlen o = Ok n -> exists s, is_cstring o s /\ n = len s.
Proof.
  unfold strlen. destruct (strlen_nat o) as [k|] eqn:E; [|done]. intros [= <-].
  cut (exists s, is_cstring o s /\ k = length s).
  { intros (s & Hs & ->). eauto. }
  revert k E. induction o as [|c o IH]; intros k E; [done|]. cbn in E.
  destruct (Z.eqb_spec c 0) as [->|Hc].
  - injection E as <-. exists []. split; [|done]. exists o. split; [done|constructor].
  - destruct (strlen_nat o) as [k'|] eqn:E'; [|done]. injection E as <-.
    destruct (IH k' eq_refl) as (s & (rest & -> & Hs) & ->).
    exists (c :: s). split; [|done]. exists rest. split; [done|]. by constructor.
Qed.

(** closes the concrete cases shown beside the theorems *)
Ltac ex :=
  repeat match goal with
    | |- _ /\ _ => split
    | |- Forall _ [] => constructor
    | |- Forall _ (_ :: _) => constructor
    | |- bytes _ => unfold bytes
    end;
  try (vm_compute; reflexivity);
  try (unfold is_byte, is_u16, is_u32, is_u64, is_s32; cbn; lia);
  try (vm_compute; lia);
  try (vm_compute; intuition congruence).

(** a decidable fact about a small range, by computation *)
Lemma check_range (f : Z -> bool) n :
  forallb f (map Z.of_nat (seq 0 (Z.to_nat n))) = true -> forall i, 0 <= i < n -> f i = true.
Proof.
  intros H i Hi. rewrite forallb_forall in H. apply H.
  apply in_map_iff. exists (Z.to_nat i). split; [lia|]. apply in_seq. lia.
Qed.

(** apply the loop rules to the loop in the goal; the last goal is after the loop *)
Tactic Notation "while_rule" uconstr(P) uconstr(Q) uconstr(mu) ident(st) ident(HQ) :=
  match goal with |- context [cwhile ?f ?c ?b ?s] =>
    let E := fresh "E" in
    destruct (@cwhile_rule _ P Q mu f c b s) as (st & E & HQ);
    [ | | | | rewrite E; clear E] end.
Tactic Notation "for_rule" uconstr(P) ident(st) ident(HQ) :=
  match goal with |- context [cfor ?a ?b ?body ?s] =>
    let E := fresh "E" in
    destruct (@cfor_rule _ P a b body s) as (st & E & HQ);
    [ | | | rewrite E; clear E] end.
Tactic Notation "ford_rule" uconstr(P) ident(st) ident(HQ) :=
  match goal with |- context [cford ?a ?b ?body ?s] =>
    let E := fresh "E" in
    destruct (@cford_rule _ P a b body s) as (st & E & HQ);
    [ | | | rewrite E; clear E] end.
