(** * Proofs about utils.c and bit_manipulation.c *)
From Verif Require Import Lib Model_Utils Spec_Utils.

(** ** Memory in context: [pre ++ old ++ post] *)

Lemma write_app {A} (pre old post new : list A) :
  len new = len old -> write (pre ++ old ++ post) (len pre) new = pre ++ new ++ post.
Proof.
  intros H. unfold write. f_equal.
  - rewrite <- length_len. apply take_app.
  - f_equal. unfold len in *. rewrite Nat2Z.id.
    replace (length new) with (length old) by lia.
    rewrite <- drop_drop, drop_app, drop_app. done.
Qed.
Lemma slice_app {A} (pre x post : list A) : slice (pre ++ x ++ post) (len pre) (len x) = x.
Proof.
  unfold slice, len. rewrite !Nat2Z.id, drop_app, take_app. done.
Qed.
Lemma store_app {A} (pre post : list A) x y i :
  i = len pre -> store (pre ++ x :: post) i y = Ok (pre ++ y :: post).
Proof.
  intros ->. unfold store. pose proof (len_nonneg pre). pose proof (len_nonneg post).
  rewrite len_app, len_cons.
  destruct (Z.leb_spec 0 (len pre)), (Z.ltb_spec (len pre) (len pre + (len post + 1))); cbn; try lia.
  unfold len. rewrite Nat2Z.id. by rewrite insert_app_r_alt, Nat.sub_diag by lia.
Qed.
Lemma load_app {A} (pre post : list A) x i : i = len pre -> load (pre ++ x :: post) i = Ok x.
Proof.
  intros ->. unfold load. pose proof (len_nonneg pre).
  destruct (Z.leb_spec 0 (len pre)); [|lia].
  unfold len. rewrite Nat2Z.id. by rewrite list_lookup_middle.
Qed.

(** ** C01 *)

Lemma is_digit_char sc c :
  is_byte c -> (48 <=? char_val sc c) && (char_val sc c <=? 57) = true <-> is_digit c.
Proof.
  unfold is_byte, is_digit, char_val. intros Hc. destruct sc; [|lia].
  unfold s8. lia.
Qed.
Lemma digit_value sc c :
  is_digit c -> s8 (s8 (char_val sc c) - s8 48) = c - 48.
Proof.
  unfold is_digit, char_val. intros. destruct sc; unfold s8; lia.
Qed.

Lemma pow10_ok e r : 0 <= e <= 9 -> Utils_quickUint32Pow10 e r = Ok (true, 10 ^ e).
Proof.
  intros. assert (e = 0 \/ e = 1 \/ e = 2 \/ e = 3 \/ e = 4 \/ e = 5 \/ e = 6 \/ e = 7 \/ e = 8
    \/ e = 9) as Hc by lia.
  repeat (destruct Hc as [->|Hc]; [reflexivity|]). by subst.
Qed.
Lemma pow10_fail e r : 10 <= e -> Utils_quickUint32Pow10 e r = Ok (false, r).
Proof.
  intros. unfold Utils_quickUint32Pow10, MAX_UINT32_POW_10_EXPONENT.
  destruct (Z.ltb_spec e 10); [lia|done].
Qed.

Lemma decimal_snoc s c : decimal (s ++ [c]) = 10 * decimal s + (c - 48).
Proof. unfold decimal. rewrite fold_left_app. done. Qed.
Lemma decimal_bound s : Forall is_digit s -> 0 <= decimal s < 10 ^ len s.
Proof.
  induction s as [|c s IH] using rev_ind; intros Hs; [by vm_compute|].
  apply Forall_app in Hs as [Hs Hc]. inversion_clear Hc as [|? ? Hc1 _]; rename Hc1 into Hc. specialize (IH Hs).
  rewrite decimal_snoc, len_app, len_cons. rewrite (@len_nil Z). unfold is_digit in Hc.
  pose proof (len_nonneg s). replace (len s + (0 + 1)) with (Z.succ (len s)) by lia.
  rewrite Z.pow_succ_r by lia. lia.
Qed.
Lemma take_snoc_get (s : list Z) i :
  0 <= i < len s -> take (Z.to_nat (i + 1)) s = take (Z.to_nat i) s ++ [get s i].
Proof.
  intros Hi. replace (Z.to_nat (i + 1)) with (S (Z.to_nat i)) by lia.
  apply take_S_r. by apply lookup_get.
Qed.
Lemma get_app_bytes (s rest : list Z) i :
  0 <= i < len s -> load (s ++ rest) i = Ok (get s i).
Proof.
  intros. rewrite load_ok; [|rewrite len_app; pose proof (len_nonneg rest); lia].
  f_equal. by apply get_app_l.
Qed.

(** the loop utils.c:56-70 on at most 9 characters *)
Lemma parse_loop sc (s rest : list Z) n :
  bytes s -> 0 <= n <= 9 -> n <= len s ->
  exists i v ok,
    cwhile (S (Z.to_nat n))
      (fun '(i, integer, success) => (i <? n) && success)
      (fun '(i, integer, success) =>
         let! c := load (s ++ rest) i in
         let ch := char_val sc c in
         if (48 <=? ch) && (ch <=? 57) then
           let digit := s8 (s8 ch - s8 48) in
           let unsigned_power := u8 (u32 (n - u32 (i + 1))) in
           let! '(success, result) := Utils_quickUint32Pow10 unsigned_power 0 in
           Ok (Next (u8 (i + 1), u32 (integer + u32 (u32 digit * result)), success))
         else Ok (Next (i, integer, false)))
      (0, 0, true) = Ok (i, v, ok) /\
    (ok = true <-> Forall is_digit (take (Z.to_nat n) s)) /\
    (ok = true -> v = decimal (take (Z.to_nat n) s)) /\
    (ok = false -> 0 <= i < n /\ Forall is_digit (take (Z.to_nat i) s) /\
                   ~ is_digit (get s i) /\ v = decimal (take (Z.to_nat i) s) * 10 ^ (n - i)).
Proof.
  intros Hb Hn Hl.
  destruct (cwhile_rule
    (fun '(i, v, ok) =>
       0 <= i <= n /\
       (Forall is_digit (take (Z.to_nat i) s) /\
                  v = decimal (take (Z.to_nat i) s) * 10 ^ (n - i)) /\
       (ok = false -> i < n /\ ~ is_digit (get s i)))
    (fun '(i, v, ok) =>
       (ok = true <-> Forall is_digit (take (Z.to_nat n) s)) /\
       (ok = true -> v = decimal (take (Z.to_nat n) s)) /\
       (ok = false -> 0 <= i < n /\ Forall is_digit (take (Z.to_nat i) s) /\
                   ~ is_digit (get s i) /\ v = decimal (take (Z.to_nat i) s) * 10 ^ (n - i)))
    (fun '(i, v, ok) => if (ok : bool) then n - i else 0)
    (S (Z.to_nat n))
    (fun '(i, integer, success) => (i <? n) && success)
    (fun '(i, integer, success) =>
         let! c := load (s ++ rest) i in
         let ch := char_val sc c in
         if (48 <=? ch) && (ch <=? 57) then
           let digit := s8 (s8 ch - s8 48) in
           let unsigned_power := u8 (u32 (n - u32 (i + 1))) in
           let! '(success, result) := Utils_quickUint32Pow10 unsigned_power 0 in
           Ok (Next (u8 (i + 1), u32 (integer + u32 (u32 digit * result)), success))
         else Ok (Next (i, integer, false)))
    (0, 0, true)) as ([[i v] ok] & -> & HQ); [..|by exists i, v, ok].
  - split; [lia|]. split; [|done]. split; [constructor|]. change (0 = 0 * 10 ^ (n - 0)). lia.
  - lia.
  - intros [[i v] ok] [Hi HP] Hc. left.
    assert (ok = true) as -> by (destruct ok; lia). destruct HP as [[HF Hv] _].
    assert (i < n) by lia.
    rewrite get_app_bytes by lia. cbn [bind]. cbv zeta.
    pose proof (Forall_get _ _ i Hb ltac:(lia)) as Hbyte.
    destruct ((48 <=? char_val sc (get s i)) && (char_val sc (get s i) <=? 57)) eqn:Ed.
    + apply is_digit_char in Ed; [|done].
      rewrite digit_value by done.
      rewrite (u32_small (i + 1)), (u32_small (n - (i + 1))), (u8_small (n - (i + 1))) by lia.
      rewrite pow10_ok by lia. cbn [bind].
      eexists. split; [reflexivity|].
      assert (Hd : 0 <= get s i - 48 <= 9) by (unfold is_digit in Ed; lia).
      assert (HF' : Forall is_digit (take (Z.to_nat (i + 1)) s)).
      { rewrite take_snoc_get by lia. apply Forall_app. split; [done|]. by constructor. }
      pose proof (decimal_bound _ HF') as Hdb.
      rewrite len_take in Hdb. replace (Z.min _ _) with (i + 1) in Hdb by lia.
      assert (Hp : 0 < 10 ^ (n - (i + 1))) by (apply Z.pow_pos_nonneg; lia).
      assert (Hpp : 10 ^ (i + 1) * 10 ^ (n - (i + 1)) = 10 ^ n)
        by (rewrite <- Z.pow_add_r by lia; f_equal; lia).
      assert (Hn9 : 10 ^ n <= 10 ^ 9) by (apply Z.pow_le_mono_r; lia).
      assert (Hnew : v + (get s i - 48) * 10 ^ (n - (i + 1)) =
                decimal (take (Z.to_nat (i + 1)) s) * 10 ^ (n - (i + 1))).
      { rewrite take_snoc_get by lia. rewrite decimal_snoc, Hv.
        replace (n - i) with (Z.succ (n - (i + 1))) by lia.
        rewrite Z.pow_succ_r by lia. ring. }
      pose proof (decimal_bound _ HF) as Hdb0.
      rewrite (u32_small (get s i - 48)) by lia.
      assert (0 <= v) by (rewrite Hv; apply Z.mul_nonneg_nonneg; [lia|apply Z.pow_nonneg; lia]).
      assert (v + (get s i - 48) * 10 ^ (n - (i + 1)) < 10 ^ 9) by (rewrite Hnew; nia).
      assert (0 <= (get s i - 48) * 10 ^ (n - (i + 1))) by nia.
      rewrite (u32_small ((get s i - 48) * _)) by lia.
      rewrite u32_small by lia. rewrite u8_small by lia.
      repeat split; try lia; try done.
    + eexists. split; [reflexivity|]. split; [|lia]. split; [lia|]. split; [done|]. intros _.
      split; [lia|]. intros Hd. apply (is_digit_char sc) in Hd; [congruence|done].
  - intros [[i v] ok] [Hi HP] Hc. destruct ok.
    + destruct HP as [[HF ->] _]. assert (i = n) as -> by lia.
      split; [done|]. split; [|done]. intros _. rewrite Z.sub_diag. lia.
    + destruct HP as [[HF0 Hv0] [Hlt Hnd]]; [done|]. split; [|split; [done|intros _; repeat split; (done || lia)]]. split; [done|]. intros HF. destruct Hnd.
      rewrite <- (get_take s (Z.to_nat n) i) by lia. apply Forall_get; [done|].
      rewrite len_take. lia.
Qed.

Lemma parse_ok sc (s rest : list Z) :
  bytes s -> len s <= 10 ->
  exists ok v,
    Utils_stringToUint32 sc (s ++ rest) (len s) = Ok (ok, v) /\
    (ok = true <-> Forall is_digit s /\ decimal s <= 2 ^ 32 - 1) /\
    (ok = true -> v = decimal s).
Proof.
  intros Hb Hl. pose proof (len_nonneg s) as H0.
  unfold Utils_stringToUint32, MAX_UINT32_POW_10_EXPONENT.
  destruct (Z.eqb_spec (len s) 10) as [H10|Hn].
  - replace (u8 (len s - 1)) with 9 by (rewrite H10; reflexivity).
    destruct (parse_loop sc s rest 9 Hb) as (i & v & ok & E & Hok & Hv & _); [lia|lia|].
    cbv beta iota zeta in E |- *. rewrite E. clear E. cbn [bind andb].
    assert (Hs : s = take (Z.to_nat 9) s ++ [get s 9]).
    { rewrite <- take_snoc_get by lia. symmetry. apply take_ge. unfold len in H10. lia. }
    pose proof (Forall_get _ _ 9 Hb ltac:(lia)) as Hbyte.
    assert (HF : Forall is_digit s <-> Forall is_digit (take (Z.to_nat 9) s) /\ is_digit (get s 9)).
    { rewrite Hs at 1. rewrite Forall_app. split; intros [? ?]; split; try done.
      - by inversion_clear H1.
      - by constructor. }
    assert (Hd : decimal s = 10 * decimal (take (Z.to_nat 9) s) + (get s 9 - 48)).
    { rewrite Hs at 1. apply decimal_snoc. }
    destruct ok.
    + assert (HF9 : Forall is_digit (take (Z.to_nat 9) s)) by (by apply Hok).
      rewrite Hv by done.
      change (10 - 1) with 9. rewrite get_app_bytes by lia. cbn [bind]. cbv zeta.
      destruct ((48 <=? char_val sc (get s 9)) && (char_val sc (get s 9) <=? 57)) eqn:Ed.
      * apply is_digit_char in Ed; [|done]. rewrite digit_value by done.
        pose proof (decimal_bound _ HF9) as Hdb. rewrite len_take in Hdb.
        replace (Z.min _ _) with 9 in Hdb by lia. change (10 ^ 9) with 1000000000 in Hdb.
        unfold is_digit in Ed.
        rewrite (u32_small (get s 9 - 48)) by lia.
        change (UINT32_MAX / 10) with 429496729. change (UINT32_MAX mod 10) with 5.
        remember (decimal (take (Z.to_nat 9) s)) as D eqn:ED.
        destruct ((429496729 <? D) || (D =? 429496729) && (5 <? get s 9 - 48)) eqn:Eo.
        -- do 2 eexists. split; [reflexivity|]. split; [|done].
           split; [done|]. intros [_ Hle]. lia.
        -- do 2 eexists. split; [reflexivity|].
           assert (decimal s <= 2 ^ 32 - 1) by lia.
           split; [split; [intros _; split; [|done]; apply HF; done|done]|].
           intros _. rewrite (u32_small (D * 10)), u32_small by lia. lia.
      * do 2 eexists. split; [reflexivity|]. split; [|done]. split; [done|].
        intros [HFs _]. apply HF in HFs as [_ Hds].
        apply (is_digit_char sc) in Hds; [congruence|done].
    + do 2 eexists. split; [reflexivity|]. split; [|done].
      split; [done|]. intros [HFs _]. apply HF in HFs as [HFs _]. by apply Hok.
  - destruct (parse_loop sc s rest (len s) Hb) as (i & v & ok & E & Hok & Hv & _); [lia|lia|].
    cbv beta iota zeta in E |- *. rewrite E. clear E. cbn [bind andb].
    rewrite take_ge in Hok, Hv by (unfold len; lia).
    do 2 eexists. split; [reflexivity|]. split; [|done].
    rewrite Hok. split; [|by intros [? _]]. intros HF. split; [done|].
    pose proof (decimal_bound s HF). assert (10 ^ len s <= 10 ^ 9) by (apply Z.pow_le_mono_r; lia).
    lia.
Qed.

(** what a failed call leaves in [*integer] *)
Lemma parse_fail sc (s rest : list Z) v :
  bytes s -> len s <= 10 -> Utils_stringToUint32 sc (s ++ rest) (len s) = Ok (false, v) ->
  exists d t, s = d ++ t /\ Forall is_digit d /\ len d <= Z.min (len s) 9 /\
    (len d < Z.min (len s) 9 -> ~ is_digit (get t 0)) /\
    v = decimal d * 10 ^ (Z.min (len s) 9 - len d).
Proof.
  intros Hb Hl. pose proof (len_nonneg s) as H0.
  assert (Hfin : forall n i v', n = Z.min (len s) 9 ->
    0 <= i < n /\ Forall is_digit (take (Z.to_nat i) s) /\
    ~ is_digit (get s i) /\ v' = decimal (take (Z.to_nat i) s) * 10 ^ (n - i) ->
    exists d t, s = d ++ t /\ Forall is_digit d /\ len d <= Z.min (len s) 9 /\
    (len d < Z.min (len s) 9 -> ~ is_digit (get t 0)) /\
    v' = decimal d * 10 ^ (Z.min (len s) 9 - len d)).
  { intros n i v' -> (Hi & HF & Hnd & ->). exists (take (Z.to_nat i) s), (drop (Z.to_nat i) s).
    rewrite take_drop, len_take. replace (Z.min (Z.of_nat (Z.to_nat i)) (len s)) with i by lia.
    repeat split; try done; [lia|]. intros _. rewrite get_drop by lia.
    by replace (0 + Z.of_nat (Z.to_nat i)) with i by lia. }
  unfold Utils_stringToUint32, MAX_UINT32_POW_10_EXPONENT.
  destruct (Z.eqb_spec (len s) 10) as [H10|Hn].
  - replace (u8 (len s - 1)) with 9 by (rewrite H10; reflexivity).
    destruct (parse_loop sc s rest 9 Hb) as (i & v' & ok & E & Hok & Hv & Hf); [lia|lia|].
    cbv beta iota zeta in E |- *. rewrite E. clear E. cbn [bind andb].
    destruct ok; [|intros [= <-]; apply (Hfin 9 i); [lia|by apply Hf]].
    assert (HF9 : Forall is_digit (take (Z.to_nat 9) s)) by (by apply Hok).
    intros Hr. assert (v = v') as ->.
    { revert Hr. change (10 - 1) with 9. rewrite get_app_bytes by lia. cbn [bind]. cbv zeta.
      destruct (_ && _); [|congruence]. destruct (_ || _); congruence. }
    exists (take (Z.to_nat 9) s), (drop (Z.to_nat 9) s).
    rewrite take_drop, len_take, Hv by done.
    replace (Z.min (Z.of_nat (Z.to_nat 9)) (len s)) with 9 by lia.
    replace (Z.min (len s) 9) with 9 by lia. repeat split; try done; try lia.
  - destruct (parse_loop sc s rest (len s) Hb) as (i & v' & ok & E & Hok & Hv & Hf); [lia|lia|].
    cbv beta iota zeta in E |- *. rewrite E. clear E. cbn [bind andb].
    intros [= -> <-]. apply (Hfin (len s) i); [lia|by apply Hf].
Qed.

Lemma parse_long sc c rest n :
  is_byte c -> 10 < n <= 255 ->
  Utils_stringToUint32 sc (c :: rest) n = Ok (false, 0).
Proof.
  intros Hc Hn. unfold Utils_stringToUint32, MAX_UINT32_POW_10_EXPONENT.
  destruct (Z.eqb_spec n 10); [lia|]. cbv zeta.
  replace (Z.to_nat n) with (S (Z.to_nat (n - 1))) by lia.
  cbn [cwhile]. replace (0 <? n) with true by lia. cbn [andb].
  change (load (c :: rest) 0) with (Ok c). cbn [bind].
  destruct ((48 <=? char_val sc c) && (char_val sc c <=? 57)) eqn:Ed.
  - rewrite (u32_small (0 + 1)), (u32_small (n - _)), (u8_small (n - _)) by lia.
    rewrite pow10_fail by lia. cbn [bind]. rewrite andb_false_r. cbn [bind andb].
    by rewrite Z.mul_0_r.
  - cbn [bind]. rewrite andb_false_r. done.
Qed.

(** ** C02 *)

Lemma byte_of_mod v k : 0 <= k -> byte_of v k = (v / 2 ^ k) mod 256.
Proof.
  intros. unfold byte_of, u8. rewrite land_255, Z.shiftr_div_pow2 by lia.
  rewrite Z.mod_mod by lia. done.
Qed.

Ltac explode l H :=
  lazymatch type of H with
  | len l = 0 => apply len_0_inv in H; subst l
  | len l = ?n =>
      let x := fresh "x" in let l' := fresh "l" in
      destruct l as [|x l'];
      [exfalso; vm_compute in H; lia
      |rewrite len_cons in H;
       let m := eval vm_compute in (n - 1) in
       let H' := fresh in
       assert (H' : len l' = m) by lia; clear H; explode l' H']
  end.

Lemma app_cons_assoc {A} (l k : list A) x : l ++ x :: k = (l ++ [x]) ++ k.
Proof. by rewrite <- app_assoc. Qed.

(** store/load at [len pre + k] *)
Lemma store_at {A} (pre mid post : list A) x y k :
  k = len mid -> store (pre ++ mid ++ x :: post) (len pre + k) y = Ok (pre ++ mid ++ y :: post).
Proof.
  intros ->. rewrite !app_assoc. apply store_app. by rewrite len_app.
Qed.
Lemma load_at {A} (pre mid post : list A) x k :
  k = len mid -> load (pre ++ mid ++ x :: post) (len pre + k) = Ok x.
Proof.
  intros ->. rewrite !app_assoc. apply load_app. by rewrite len_app.
Qed.

Section fixed.
  Context (pre post : list Z).

  Lemma st0 {x} y {t} : store (pre ++ x :: t) (len pre) y = Ok (pre ++ y :: t).
  Proof. by apply store_app. Qed.
  Lemma st1 {a x} y {t} : store (pre ++ a :: x :: t) (len pre + 1) y = Ok (pre ++ a :: y :: t).
  Proof. exact (store_at pre [a] t x y 1 eq_refl). Qed.
  Lemma st2 {a b x} y {t} :
    store (pre ++ a :: b :: x :: t) (len pre + 2) y = Ok (pre ++ a :: b :: y :: t).
  Proof. exact (store_at pre [a; b] t x y 2 eq_refl). Qed.
  Lemma st3 {a b c x} y {t} :
    store (pre ++ a :: b :: c :: x :: t) (len pre + 3) y = Ok (pre ++ a :: b :: c :: y :: t).
  Proof. exact (store_at pre [a; b; c] t x y 3 eq_refl). Qed.
  Lemma ld0 {x} {t : list Z} : load (pre ++ x :: t) (len pre) = Ok x.
  Proof. by apply load_app. Qed.
  Lemma ld1 {a x} {t : list Z} : load (pre ++ a :: x :: t) (len pre + 1) = Ok x.
  Proof. exact (load_at pre [a] t x 1 eq_refl). Qed.
  Lemma ld2 {a b x} {t : list Z} : load (pre ++ a :: b :: x :: t) (len pre + 2) = Ok x.
  Proof. exact (load_at pre [a; b] t x 2 eq_refl). Qed.
  Lemma ld3 {a b c x} {t : list Z} :
    load (pre ++ a :: b :: c :: x :: t) (len pre + 3) = Ok x.
  Proof. exact (load_at pre [a; b; c] t x 3 eq_refl). Qed.
End fixed.

Ltac ser := 
  repeat (rewrite ?st0, ?st1, ?st2, ?st3, ?ld0, ?ld1, ?ld2, ?ld3; cbn [bind app]).
Ltac ser_bytes :=
  cbn [le_bytes reverse rev_append app];
  rewrite ?byte_of_mod by lia; repeat f_equal;
  rewrite ?Z.div_div by lia; try (f_equal; lia); try done.

Lemma serialize8_ok pre old post v :
  len old = 1 -> Utils_serialize8 (pre ++ old ++ post) (len pre) v
    = Ok (pre ++ le_bytes 1 v ++ post).
Proof.
  intros H. explode old H. unfold Utils_serialize8. cbn [app]. ser.
  unfold le_bytes. rewrite byte_of_mod by lia. change (2 ^ 0) with 1. by rewrite Z.div_1_r.
Qed.

Lemma byte0 v : byte_of v 0 = v mod 256.
Proof. rewrite byte_of_mod by lia. change (2 ^ 0) with 1. by rewrite Z.div_1_r. Qed.
Lemma byte8 v : byte_of v 8 = v / 256 mod 256.
Proof. by rewrite byte_of_mod by lia. Qed.
Lemma byte16 v : byte_of v 16 = v / 256 / 256 mod 256.
Proof. rewrite byte_of_mod by lia. by rewrite Z.div_div by lia. Qed.
Lemma byte24 v : byte_of v 24 = v / 256 / 256 / 256 mod 256.
Proof. rewrite byte_of_mod by lia. by rewrite !Z.div_div by lia. Qed.

Ltac serialize_tac H old :=
  explode old H; cbn [app]; ser; rewrite ?byte0, ?byte8, ?byte16, ?byte24; reflexivity.

Lemma serialize16BE_ok pre old post v :
  len old = 2 -> Utils_serialize16BE (pre ++ old ++ post) (len pre) v
    = Ok (pre ++ be_bytes 2 v ++ post).
Proof. intros H. unfold Utils_serialize16BE. serialize_tac H old. Qed.
Lemma serialize24BE_ok pre old post v :
  len old = 3 -> Utils_serialize24BE (pre ++ old ++ post) (len pre) v
    = Ok (pre ++ be_bytes 3 v ++ post).
Proof. intros H. unfold Utils_serialize24BE. serialize_tac H old. Qed.
Lemma serialize32BE_ok pre old post v :
  len old = 4 -> Utils_serialize32BE (pre ++ old ++ post) (len pre) v
    = Ok (pre ++ be_bytes 4 v ++ post).
Proof. intros H. unfold Utils_serialize32BE. serialize_tac H old. Qed.
Lemma serialize16LE_ok pre old post v :
  len old = 2 -> Utils_serialize16LE (pre ++ old ++ post) (len pre) v
    = Ok (pre ++ le_bytes 2 v ++ post).
Proof. intros H. unfold Utils_serialize16LE. serialize_tac H old. Qed.
Lemma serialize24LE_ok pre old post v :
  len old = 3 -> Utils_serialize24LE (pre ++ old ++ post) (len pre) v
    = Ok (pre ++ le_bytes 3 v ++ post).
Proof. intros H. unfold Utils_serialize24LE. serialize_tac H old. Qed.
Lemma serialize32LE_ok pre old post v :
  len old = 4 -> Utils_serialize32LE (pre ++ old ++ post) (len pre) v
    = Ok (pre ++ le_bytes 4 v ++ post).
Proof. intros H. unfold Utils_serialize32LE. serialize_tac H old. Qed.

Lemma deserialize8_ok pre bs post :
  len bs = 1 -> Utils_deserialize8 (pre ++ bs ++ post) (len pre) = Ok (le_value bs).
Proof.
  intros H. explode bs H. unfold Utils_deserialize8. cbn [app]. ser. cbn [le_value]. f_equal. lia.
Qed.

Lemma or2 a b : is_byte a -> is_byte b ->
  u16 (Z.lor (u16 (Z.shiftl (u16 a) 8)) (u16 b)) = b + 256 * (a + 256 * 0).
Proof.
  unfold is_byte. intros. rewrite (u16_small a), (u16_small b) by lia.
  rewrite (u16_small (Z.shiftl a 8)) by (rewrite Z.shiftl_mul_pow2; lia).
  rewrite lor_shiftl_add by lia. rewrite u16_small; lia.
Qed.
Lemma or3 a b c : is_byte a -> is_byte b -> is_byte c ->
  Z.lor (Z.lor (u32 (Z.shiftl (u32 a) 16)) (u32 (Z.shiftl (u32 b) 8))) (u32 c)
  = c + 256 * (b + 256 * (a + 256 * 0)).
Proof.
  unfold is_byte. intros. rewrite (u32_small a), (u32_small b), (u32_small c) by lia.
  rewrite (u32_small (Z.shiftl a 16)) by (rewrite Z.shiftl_mul_pow2; lia).
  rewrite (u32_small (Z.shiftl b 8)) by (rewrite Z.shiftl_mul_pow2; lia).
  rewrite lor_shiftl_add by (rewrite ?Z.shiftl_mul_pow2; lia).
  rewrite Z.shiftl_mul_pow2 by lia. rewrite lor_add_disjoint with (n := 8) by lia. lia.
Qed.
Lemma or4 a b c d : is_byte a -> is_byte b -> is_byte c -> is_byte d ->
  Z.lor (Z.lor (Z.lor (u32 (Z.shiftl (u32 a) 24)) (u32 (Z.shiftl (u32 b) 16)))
    (u32 (Z.shiftl (u32 c) 8))) (u32 d)
  = d + 256 * (c + 256 * (b + 256 * (a + 256 * 0))).
Proof.
  unfold is_byte. intros.
  rewrite (u32_small a), (u32_small b), (u32_small c), (u32_small d) by lia.
  rewrite (u32_small (Z.shiftl a 24)) by (rewrite Z.shiftl_mul_pow2; lia).
  rewrite (u32_small (Z.shiftl b 16)) by (rewrite Z.shiftl_mul_pow2; lia).
  rewrite (u32_small (Z.shiftl c 8)) by (rewrite Z.shiftl_mul_pow2; lia).
  rewrite lor_shiftl_add by (rewrite ?Z.shiftl_mul_pow2; lia).
  rewrite !Z.shiftl_mul_pow2 by lia.
  rewrite (lor_add_disjoint _ (c * 2 ^ 8) 16) by lia.
  rewrite lor_add_disjoint with (n := 8) by lia. lia.
Qed.

Ltac inv_forall :=
  repeat match goal with H : Forall _ (_ :: _) |- _ => inversion_clear H end.
Ltac deserialize_tac H bs Hb :=
  explode bs H; cbn [app]; ser; unfold bytes in Hb; inv_forall;
  f_equal; first [rewrite or2 by done | rewrite or3 by done | rewrite or4 by done]; reflexivity.

Lemma deserialize16BE_ok pre bs post :
  bytes bs -> len bs = 2 -> Utils_deserialize16BE (pre ++ bs ++ post) (len pre) = Ok (be_value bs).
Proof. intros Hb H. unfold Utils_deserialize16BE. deserialize_tac H bs Hb. Qed.
Lemma deserialize24BE_ok pre bs post :
  bytes bs -> len bs = 3 -> Utils_deserialize24BE (pre ++ bs ++ post) (len pre) = Ok (be_value bs).
Proof. intros Hb H. unfold Utils_deserialize24BE. deserialize_tac H bs Hb. Qed.
Lemma deserialize32BE_ok pre bs post :
  bytes bs -> len bs = 4 -> Utils_deserialize32BE (pre ++ bs ++ post) (len pre) = Ok (be_value bs).
Proof. intros Hb H. unfold Utils_deserialize32BE. deserialize_tac H bs Hb. Qed.
Lemma deserialize16LE_ok pre bs post :
  bytes bs -> len bs = 2 -> Utils_deserialize16LE (pre ++ bs ++ post) (len pre) = Ok (le_value bs).
Proof. intros Hb H. unfold Utils_deserialize16LE. deserialize_tac H bs Hb. Qed.
Lemma deserialize24LE_ok pre bs post :
  bytes bs -> len bs = 3 -> Utils_deserialize24LE (pre ++ bs ++ post) (len pre) = Ok (le_value bs).
Proof. intros Hb H. unfold Utils_deserialize24LE. deserialize_tac H bs Hb. Qed.
Lemma deserialize32LE_ok pre bs post :
  bytes bs -> len bs = 4 -> Utils_deserialize32LE (pre ++ bs ++ post) (len pre) = Ok (le_value bs).
Proof. intros Hb H. unfold Utils_deserialize32LE. deserialize_tac H bs Hb. Qed.

(** values and bytes are in bijection *)
Lemma len_le_bytes n v : len (le_bytes n v) = Z.of_nat n.
Proof.
  revert v. induction n as [|n IH]; intros v; [done|]. cbn [le_bytes]. rewrite len_cons, IH. lia.
Qed.
Lemma bytes_le_bytes n v : bytes (le_bytes n v).
Proof.
  revert v. induction n as [|n IH]; intros v; [constructor|]. cbn [le_bytes].
  constructor; [|apply IH]. unfold is_byte. lia.
Qed.
Lemma le_value_bytes n v : le_value (le_bytes n v) = v mod 256 ^ Z.of_nat n.
Proof.
  revert v. induction n as [|n IH]; intros v.
  - cbn [le_bytes le_value]. rewrite Z.mod_1_r. done.
  - cbn [le_bytes le_value]. rewrite IH.
    replace (Z.of_nat (S n)) with (1 + Z.of_nat n) by lia.
    rewrite Z.pow_add_r, Z.pow_1_r by lia.
    assert (0 < 256 ^ Z.of_nat n) by (apply Z.pow_pos_nonneg; lia).
    rewrite Z.rem_mul_r by lia. done.
Qed.
Lemma le_bytes_value bs : bytes bs -> le_bytes (length bs) (le_value bs) = bs.
Proof.
  induction 1 as [|b bs Hb _ IH]; [done|]. cbn [length le_bytes le_value]. unfold is_byte in Hb.
  f_equal; [lia|]. rewrite <- IH at 3. f_equal. lia.
Qed.
Lemma bytes_reverse l : bytes l -> bytes (reverse l).
Proof. unfold bytes. rewrite Forall_reverse. done. Qed.
Lemma be_value_bytes n v : be_value (be_bytes n v) = v mod 256 ^ Z.of_nat n.
Proof. unfold be_value, be_bytes. rewrite reverse_involutive. apply le_value_bytes. Qed.
Lemma be_bytes_value bs : bytes bs -> be_bytes (length bs) (be_value bs) = bs.
Proof.
  intros Hb. unfold be_value, be_bytes. rewrite <- (reverse_length bs).
  rewrite le_bytes_value by (by apply bytes_reverse). apply reverse_involutive.
Qed.
Lemma len_be_bytes n v : len (be_bytes n v) = Z.of_nat n.
Proof. unfold be_bytes. rewrite len_reverse. apply len_le_bytes. Qed.
Lemma bytes_be_bytes n v : bytes (be_bytes n v).
Proof. apply bytes_reverse, bytes_le_bytes. Qed.

(** ** C03 *)

(** [body] copies byte [i] of [src] (from [q]) to the place [p + f i] *)
Lemma get_fill_in_context (pre old post new d : list Z) :
  len d = len (pre ++ old ++ post) -> len new = len old ->
  (forall j, 0 <= j < len d ->
     get d j = if (len pre <=? j) && (j <? len pre + len old) then get new (j - len pre)
               else get (pre ++ old ++ post) j) ->
  d = pre ++ new ++ post.
Proof.
  intros Hd Hn Hg. rewrite <- (write_app pre old post new Hn).
  pose proof (len_nonneg pre). pose proof (len_nonneg old). pose proof (len_nonneg post).
  rewrite !len_app in Hd.
  apply get_ext.
  - rewrite len_write; rewrite ?len_app; lia.
  - intros j Hj. rewrite Hg by done. rewrite get_write; rewrite ?len_app; try lia.
    rewrite Hn. done.
Qed.

Lemma load_mid (pre s post : list Z) i :
  0 <= i < len s -> load (pre ++ s ++ post) (len pre + i) = Ok (get s i).
Proof.
  intros. pose proof (len_nonneg pre). pose proof (len_nonneg post).
  rewrite load_ok by (rewrite !len_app; lia).
  rewrite get_app_r by (rewrite !len_app; lia).
  rewrite get_app_l by lia. do 2 f_equal. lia.
Qed.

Lemma blob_copy (pre old post spre s spost : list Z) :
  len old = len s ->
  cfor 0 (len s) (fun i dst => let! v := load (spre ++ s ++ spost) (len spre + i) in
                               store dst (len pre + i) v) (pre ++ old ++ post)
  = Ok (pre ++ s ++ post).
Proof.
  intros Hl. pose proof (len_nonneg pre). pose proof (len_nonneg post). pose proof (len_nonneg s).
  destruct (cfor_rule (fun i d =>
      len d = len (pre ++ old ++ post) /\
      forall j, 0 <= j < len d ->
       get d j = if (len pre <=? j) && (j <? len pre + i) then get s (j - len pre)
                 else get (pre ++ old ++ post) j) 0 (len s)
    (fun i dst => let! v := load (spre ++ s ++ spost) (len spre + i) in
                  store dst (len pre + i) v) (pre ++ old ++ post))
    as (d & -> & Hd & Hg); [lia| | |].
  - split; [done|]. intros j Hj.
    replace ((len pre <=? j) && (j <? len pre + 0)) with false by lia. done.
  - intros i d Hi [Hd Hg]. rewrite load_mid by lia. cbn [bind].
    rewrite !len_app in Hd. rewrite store_ok by lia. eexists. split; [reflexivity|].
    rewrite len_insert, !len_app. split; [lia|]. intros j Hj.
    rewrite get_insert by lia. destruct (Z.eqb_spec (len pre + i) j) as [<-|].
    + replace (_ && _) with true by lia. f_equal. lia.
    + rewrite Hg by lia.
      destruct ((len pre <=? j) && (j <? len pre + i)) eqn:E.
      * by replace ((len pre <=? j) && (j <? len pre + (i + 1))) with true by lia.
      * by replace ((len pre <=? j) && (j <? len pre + (i + 1))) with false by lia.
  - f_equal. apply get_fill_in_context with old; [done|lia|]. rewrite Hl. done.
Qed.

Lemma blob_reverse (pre old post spre s spost : list Z) :
  len old = len s -> len s < 2 ^ 31 ->
  exists j, cford (len s - 1) 0
    (fun i '(dst, j) =>
       let! v := load (spre ++ s ++ spost) (len spre + i) in
       let! dst := store dst (len pre + j) v in
       let! j := ck32 (j + 1) in Ok (dst, j)) (pre ++ old ++ post, 0)
  = Ok (pre ++ reverse s ++ post, j).
Proof.
  intros Hl H31.
  pose proof (len_nonneg pre). pose proof (len_nonneg post). pose proof (len_nonneg s).
  destruct (cford_rule (fun i '(d, j) =>
      len d = len (pre ++ old ++ post) /\ j = len s - 1 - i /\
      forall k, 0 <= k < len d ->
       get d k = if (len pre <=? k) && (k <? len pre + j) then get (reverse s) (k - len pre)
                 else get (pre ++ old ++ post) k) (len s - 1) 0
    (fun i '(dst, j) =>
       let! v := load (spre ++ s ++ spost) (len spre + i) in
       let! dst := store dst (len pre + j) v in
       let! j := ck32 (j + 1) in Ok (dst, j)) (pre ++ old ++ post, 0))
    as ([d j] & -> & Hd & Hj & Hg); [lia| | |].
  - split; [done|]. split; [lia|]. intros k Hk.
    replace ((len pre <=? k) && (k <? len pre + 0)) with false by lia. done.
  - intros i [d j] Hi (Hd & Hj & Hg). rewrite load_mid by lia. cbn [bind].
    rewrite !len_app in Hd. rewrite store_ok by lia. cbn [bind].
    rewrite ck32_ok by lia. eexists. split; [reflexivity|].
    cbv beta iota. rewrite len_insert, !len_app. split; [lia|]. split; [lia|]. intros k Hk.
    rewrite get_insert by lia. destruct (Z.eqb_spec (len pre + j) k) as [<-|].
    + replace (_ && _) with true by lia. rewrite get_reverse by lia. f_equal. lia.
    + rewrite Hg by lia.
      destruct ((len pre <=? k) && (k <? len pre + j)) eqn:E.
      * by replace ((len pre <=? k) && (k <? len pre + (j + 1))) with true by lia.
      * by replace ((len pre <=? k) && (k <? len pre + (j + 1))) with false by lia.
  - exists j. do 2 f_equal. apply get_fill_in_context with old; [done|rewrite len_reverse; lia|].
    intros k Hk. rewrite Hg by done. replace j with (len old) by lia. done.
Qed.

Lemma serializeBlobBE_ok pre old post spre s spost :
  len old = len s ->
  Utils_serializeBlobBE (pre ++ old ++ post) (len pre) (spre ++ s ++ spost) (len spre) (len s)
  = Ok (pre ++ s ++ post).
Proof. apply blob_copy. Qed.
Lemma deserializeBlobBE_ok pre old post spre s spost :
  len old = len s ->
  Utils_deserializeBlobBE (spre ++ s ++ spost) (len spre) (pre ++ old ++ post) (len pre) (len s)
  = Ok (pre ++ s ++ post).
Proof. apply blob_copy. Qed.
Lemma serializeBlobLE_ok pre old post spre s spost :
  len old = len s -> len s < 2 ^ 31 ->
  Utils_serializeBlobLE (pre ++ old ++ post) (len pre) (spre ++ s ++ spost) (len spre) (len s)
  = Ok (pre ++ reverse s ++ post).
Proof.
  intros Hl Hs. unfold Utils_serializeBlobLE. pose proof (len_nonneg s).
  rewrite s32_small by lia. rewrite ck32_ok by lia. cbn [bind].
  destruct (blob_reverse pre old post spre s spost Hl Hs) as [j ->]. done.
Qed.
Lemma deserializeBlobLE_ok pre old post spre s spost :
  len old = len s -> len s < 2 ^ 31 ->
  Utils_deserializeBlobLE (spre ++ s ++ spost) (len spre) (pre ++ old ++ post) (len pre) (len s)
  = Ok (pre ++ reverse s ++ post).
Proof.
  intros Hl Hs. unfold Utils_deserializeBlobLE. pose proof (len_nonneg s).
  rewrite s32_small by lia. rewrite ck32_ok by lia. cbn [bind].
  destruct (blob_reverse pre old post spre s spost Hl Hs) as [j ->]. done.
Qed.
Lemma serializeBlobLE_2_31 buf p src q :
  Utils_serializeBlobLE buf p src q (2 ^ 31) = UB SignedOverflow /\
  Utils_deserializeBlobLE buf p src q (2 ^ 31) = UB SignedOverflow.
Proof. by unfold Utils_serializeBlobLE, Utils_deserializeBlobLE. Qed.
Lemma serializeBlobLE_big buf p src q size :
  2 ^ 31 < size < 2 ^ 32 ->
  Utils_serializeBlobLE buf p src q size = Ok buf /\
  Utils_deserializeBlobLE src q buf p size = Ok buf.
Proof.
  intros Hs. unfold Utils_serializeBlobLE, Utils_deserializeBlobLE.
  replace (s32 size) with (size - 2 ^ 32) by (unfold s32; lia).
  rewrite ck32_ok by lia. cbn [bind].
  rewrite !cford_empty by lia. done.
Qed.

(** ** C04 *)

Lemma swap_loop m first second size :
  0 <= size -> 0 <= first -> first + size <= len m -> 0 <= second -> second + size <= len m ->
  first + size <= second \/ second + size <= first \/ first = second ->
  exists m', Utils_swapElements m first second size = Ok m' /\ len m' = len m /\
    forall j, 0 <= j < len m ->
      get m' j = if (first <=? j) && (j <? first + size) then get m (second + (j - first))
                 else if (second <=? j) && (j <? second + size) then get m (first + (j - second))
                 else get m j.
Proof.
  intros Hs Hf Hf' He He' Hd. unfold Utils_swapElements.
  destruct (cford_rule (fun i m' =>
      len m' = len m /\
      forall j, 0 <= j < len m ->
      get m' j = if (first + i <? j) && (j <? first + size) then get m (second + (j - first))
                 else if (second + i <? j) && (j <? second + size) then get m (first + (j - second))
                 else get m j) (size - 1) 0
    (fun index m =>
       let! temp := load m (first + index) in
       let! v := load m (second + index) in
       let! m := store m (first + index) v in
       store m (second + index) temp) m) as (m' & -> & Hm & Hg); [lia| | |].
  - split; [done|]. intros j Hj.
    replace ((first + (size - 1) <? j) && (j <? first + size)) with false by lia.
    replace ((second + (size - 1) <? j) && (j <? second + size)) with false by lia. done.
  - intros i m1 Hi [Hm Hg].
    rewrite !load_ok by lia. cbn [bind]. rewrite store_ok by lia. cbn [bind].
    rewrite store_ok by (rewrite len_insert; lia). eexists. split; [reflexivity|].
    rewrite !len_insert. split; [done|]. intros j Hj.
    rewrite get_insert by (rewrite ?len_insert; lia).
    destruct (Z.eqb_spec (second + i) j) as [<-|].
    + rewrite Hg by lia.
      replace ((first + i <? first + i) && _) with false by lia.
      replace ((second + i <? first + i) && (first + i <? second + size)) with false by lia.
      destruct ((first + (i - 1) <? second + i) && (second + i <? first + size)) eqn:E.
      * replace first with second by lia. f_equal. lia.
      * replace ((second + (i - 1) <? second + i) && (second + i <? second + size)) with true by lia.
        f_equal. lia.
    + rewrite get_insert by lia. destruct (Z.eqb_spec (first + i) j) as [<-|].
      * rewrite Hg by lia.
        replace ((first + i <? second + i) && (second + i <? first + size)) with false by lia.
        replace ((second + i <? second + i) && (second + i <? second + size)) with false by lia.
        replace ((first + (i - 1) <? first + i) && (first + i <? first + size)) with true by lia.
        f_equal. lia.
      * rewrite Hg by lia.
        replace (first + (i - 1) <? j) with (first + i <? j) by lia.
        replace (second + (i - 1) <? j) with (second + i <? j) by lia. done.
  - exists m'. split; [done|]. split; [done|]. intros j Hj. rewrite Hg by done.
    replace (first + (0 - 1) <? j) with (first <=? j) by lia.
    replace (second + (0 - 1) <? j) with (second <=? j) by lia. done.
Qed.

(** swapping, as whole-memory equations *)
Lemma swap_write m first second size :
  0 <= size -> 0 <= first -> first + size <= len m -> 0 <= second -> second + size <= len m ->
  first + size <= second \/ second + size <= first \/ first = second ->
  Utils_swapElements m first second size
  = Ok (write (write m first (slice m second size)) second (slice m first size)).
Proof.
  intros Hs Hf Hf' He He' Hd.
  destruct (swap_loop m first second size) as (m' & -> & Hm & Hg); try done. f_equal.
  assert (Hl1 : len (slice m second size) = size) by (apply len_slice; lia).
  assert (Hl2 : len (slice m first size) = size) by (apply len_slice; lia).
  assert (Hl3 : len (write m first (slice m second size)) = len m) by (apply len_write; lia).
  apply get_ext.
  - rewrite len_write; lia.
  - intros j Hj. rewrite Hg by lia. rewrite get_write by lia. rewrite Hl2.
    destruct ((second <=? j) && (j <? second + size)) eqn:E2.
    + rewrite get_slice by lia.
      destruct ((first <=? j) && (j <? first + size)) eqn:E1; f_equal; lia.
    + rewrite get_write by lia. rewrite Hl1.
      destruct ((first <=? j) && (j <? first + size)) eqn:E1; [|done].
      rewrite get_slice by lia. f_equal; lia.
Qed.

Lemma swap_disjoint (a x b y c : list Z) :
  len x = len y ->
  Utils_swapElements (a ++ x ++ b ++ y ++ c) (len a) (len a + len x + len b) (len x)
    = Ok (a ++ y ++ b ++ x ++ c) /\
  Utils_swapElements (a ++ x ++ b ++ y ++ c) (len a + len x + len b) (len a) (len x)
    = Ok (a ++ y ++ b ++ x ++ c).
Proof.
  intros Hl. pose proof (len_nonneg a). pose proof (len_nonneg x). pose proof (len_nonneg b).
  pose proof (len_nonneg c).
  assert (E1 : slice (a ++ x ++ b ++ y ++ c) (len a) (len x) = x) by apply slice_app.
  assert (E2 : slice (a ++ x ++ b ++ y ++ c) (len a + len x + len b) (len x) = y).
  { replace (a ++ x ++ b ++ y ++ c) with ((a ++ x ++ b) ++ y ++ c) by (by rewrite <- !app_assoc).
    replace (len a + len x + len b) with (len (a ++ x ++ b)) by (rewrite !len_app; lia).
    rewrite Hl. apply slice_app. }
  split; (rewrite swap_write by (rewrite ?len_app; lia)); rewrite E1, E2; f_equal.
  - rewrite write_app by lia.
    replace (a ++ y ++ b ++ y ++ c) with ((a ++ y ++ b) ++ y ++ c) by (by rewrite <- !app_assoc).
    replace (len a + len x + len b) with (len (a ++ y ++ b)) by (rewrite !len_app; lia).
    rewrite write_app by lia. by rewrite <- !app_assoc.
  - replace (a ++ x ++ b ++ y ++ c) with ((a ++ x ++ b) ++ y ++ c) by (by rewrite <- !app_assoc).
    replace (len a + len x + len b) with (len (a ++ x ++ b)) by (rewrite !len_app; lia).
    rewrite write_app by lia. rewrite <- !app_assoc. by rewrite write_app by lia.
Qed.
Lemma swap_same (a x c : list Z) :
  Utils_swapElements (a ++ x ++ c) (len a) (len a) (len x) = Ok (a ++ x ++ c).
Proof.
  pose proof (len_nonneg a). pose proof (len_nonneg x). pose proof (len_nonneg c).
  rewrite swap_write by (rewrite ?len_app; lia). by rewrite slice_app, !write_app.
Qed.

(** ** C05 *)

Lemma isUpper_ok c : is_byte c -> Utils_isUpperChar c = true <-> is_upper c.
Proof.
  unfold is_byte, Utils_isUpperChar, is_upper, UPPER_A_ASCII, UPPER_Z_ASCII. intros.
  rewrite u8_small by lia. lia.
Qed.
Lemma isLower_ok c : is_byte c -> Utils_isLowerChar c = true <-> is_lower c.
Proof.
  unfold is_byte, Utils_isLowerChar, is_lower, LOWER_A_ASCII, LOWER_Z_ASCII. intros.
  rewrite u8_small by lia. lia.
Qed.
Lemma isAlpha_ok c : is_byte c -> Utils_isAlpha c = true <-> is_upper c \/ is_lower c.
Proof.
  intros H. unfold Utils_isAlpha. by rewrite orb_true_iff, isUpper_ok, isLower_ok.
Qed.
(** the argument may also be passed as a negative [char] value *)
Lemma char_class_signed c :
  is_byte c ->
  Utils_isUpperChar (s8 c) = Utils_isUpperChar c /\
  Utils_isLowerChar (s8 c) = Utils_isLowerChar c /\
  Utils_isAlpha (s8 c) = Utils_isAlpha c.
Proof.
  intros H. unfold Utils_isAlpha, Utils_isUpperChar, Utils_isLowerChar.
  replace (u8 (s8 c)) with (u8 c); [done|]. unfold u8, s8, is_byte in *. lia.
Qed.

(** ** C06 *)

Lemma land_31 x : Z.land 31 x = x mod 32.
Proof. rewrite Z.land_comm. apply (land_ones_mod x 5). lia. Qed.
Lemma shl32_one k : 0 <= k < 32 -> shl32 1 k = Ok (2 ^ k).
Proof.
  intros. unfold shl32. replace ((0 <=? k) && (k <? 32)) with true by lia. f_equal.
  rewrite Z.shiftl_1_l. apply u32_small. split; [apply Z.pow_nonneg; lia|].
  apply Z.pow_lt_mono_r; lia.
Qed.
Lemma pow2_u32 k : 0 <= k < 32 -> is_u32 (2 ^ k).
Proof.
  intros. split; [apply Z.pow_nonneg; lia|]. apply Z.pow_lt_mono_r; lia.
Qed.

Lemma land_1_testbit x : (Z.land x 1 =? 1) = Z.testbit x 0.
Proof. rewrite land_1, Z.bit0_odd, Zmod_odd. destruct (Z.odd x); done. Qed.

Lemma reflect_general data n :
  is_u32 data -> 0 <= n <= 255 ->
  exists r, BitManipulation_reflect data n = Ok r /\ is_u32 r /\
    forall k, 0 <= k < 32 -> Z.testbit r k = true <->
      exists j, 0 <= j < n /\ Z.testbit data j = true /\ (n - 1 - j) mod 32 = k.
Proof.
  intros Hd Hn. unfold BitManipulation_reflect.
  destruct (cfor_rule (fun i '(r, t) =>
      t = Z.shiftr data i /\ is_u32 r /\
      forall k, 0 <= k < 32 -> Z.testbit r k = true <->
      exists j, 0 <= j < i /\ Z.testbit data j = true /\ (n - 1 - j) mod 32 = k) 0 n
      (fun bit '(reflection, temp_data) =>
         let! reflection :=
           if Z.land temp_data 1 =? 1 then
             let! one := shl32 1 (Z.land 31 (u32 (u32 (n - 1) - bit))) in
             Ok (Z.lor reflection one)
           else Ok reflection in
         Ok (reflection, Z.shiftr temp_data 1)) (0, data))
    as ([r t] & -> & Ht & Hr & Hk); [lia| | |].
  - split; [by rewrite Z.shiftr_0_r|]. split; [by unfold is_u32|].
    intros k Hk. rewrite Z.bits_0. split; [done|]. intros (j & Hj & _). lia.
  - intros i [r t] Hi (-> & Hr & Hk). rewrite land_1_testbit.
    rewrite Z.shiftr_spec by lia. rewrite Z.add_0_l.
    destruct (Z.testbit data i) eqn:Eb.
    + rewrite (u32_small (n - 1)), u32_small by lia. rewrite land_31.
      rewrite shl32_one by lia. cbn [bind]. eexists. split; [reflexivity|].
      cbv beta iota. rewrite Z.shiftr_shiftr by lia. split; [done|].
      split; [apply lor_bound; [lia|done|apply pow2_u32; lia]|].
      intros k Hk32. rewrite Z.lor_spec, orb_true_iff, Hk by done.
      rewrite Z.pow2_bits_eqb by lia.
      split.
      * intros [(j & ? & ? & ?)|He]; [by exists j; split; [lia|]|].
        exists i. split; [lia|]. split; [done|]. lia.
      * intros (j & ? & ? & ?). destruct (Z.eq_dec j i) as [->|].
        -- right. lia.
        -- left. exists j. split; [lia|done].
    + cbn [bind]. eexists. split; [reflexivity|].
      cbv beta iota. rewrite Z.shiftr_shiftr by lia. split; [done|]. split; [done|].
      intros k Hk32. rewrite Hk by done.
      split; intros (j & ? & ? & ?); exists j; (split; [|done]); [lia|].
      assert (j <> i) by (intros ->; congruence). lia.
  - cbn [bind]. eauto.
Qed.

Lemma reflect_ok data n :
  is_u32 data -> 0 <= n <= 32 ->
  exists r, BitManipulation_reflect data n = Ok r /\ 0 <= r < 2 ^ n /\
    forall k, 0 <= k -> Z.testbit r k = mirror_bit n data k.
Proof.
  intros Hd Hn. destruct (reflect_general data n) as (r & -> & Hr & Hk); [done|lia|].
  exists r. split; [done|].
  assert (Hm : forall k, 0 <= k -> Z.testbit r k = mirror_bit n data k).
  { intros k Hk0. unfold mirror_bit. destruct (Z.lt_ge_cases k 32).
    - apply eq_true_iff_eq. rewrite Hk by lia. rewrite andb_true_iff. split.
      + intros (j & ? & Hj & ?). split; [lia|]. replace (n - 1 - k) with j by lia. done.
      + intros [? ?]. exists (n - 1 - k). split; [lia|]. split; [done|]. lia.
    - rewrite testbit_small with (n := 32) by done.
      replace (k <? n) with false by lia. done. }
  split; [|done]. destruct Hr as [Hr0 _]. split; [done|].
  apply testbit_bound; [lia|done|]. intros i Hi. rewrite Hm by lia.
  unfold mirror_bit. replace (i <? n) with false by lia. done.
Qed.

Lemma reflect_wide data n :
  is_u32 data -> 32 <= n <= 255 ->
  exists r, BitManipulation_reflect data n = Ok r /\ is_u32 r /\
    forall k, 0 <= k < 32 -> Z.testbit r k = Z.testbit data ((n - 1 - k) mod 32).
Proof.
  intros Hd Hn. destruct (reflect_general data n) as (r & -> & Hr & Hk); [done|lia|].
  exists r. split; [done|]. split; [done|]. intros k Hk32.
  apply eq_true_iff_eq. rewrite Hk by lia. split.
  - intros (j & ? & Hj & ?).
    destruct (Z.lt_ge_cases j 32).
    + replace ((n - 1 - k) mod 32) with j by lia. done.
    + rewrite testbit_small with (n := 32) in Hj by done. done.
  - intros ?. exists ((n - 1 - k) mod 32). split; [lia|]. split; [done|]. lia.
Qed.

Lemma bits_ext a b : 0 <= a -> 0 <= b -> (forall k, 0 <= k -> Z.testbit a k = Z.testbit b k) -> a = b.
Proof. intros _ _ H. apply Z.bits_inj'. done. Qed.

Lemma reflect_involutive data n r :
  is_u32 data -> 0 <= n <= 32 ->
  BitManipulation_reflect data n = Ok r ->
  BitManipulation_reflect r n = Ok (data mod 2 ^ n).
Proof.
  intros Hd Hn E. destruct (reflect_ok data n) as (r' & E' & Hr & Hk); [done|lia|].
  rewrite E in E'. injection E' as <-.
  assert (Hru : is_u32 r).
  { split; [lia|]. assert (2 ^ n <= 2 ^ 32) by (apply Z.pow_le_mono_r; lia). lia. }
  destruct (reflect_ok r n) as (r2 & -> & Hr2 & Hk2); [done|lia|]. f_equal.
  apply Z.bits_inj'. intros k Hk0. rewrite Hk2 by done. unfold mirror_bit.
  destruct (Z.ltb_spec k n).
  - cbn [andb]. rewrite Hk by lia. unfold mirror_bit.
    replace (n - 1 - k <? n) with true by lia. cbn [andb].
    rewrite Z.mod_pow2_bits_low by lia. f_equal. lia.
  - cbn [andb]. rewrite Z.mod_pow2_bits_high by lia. done.
Qed.

(** ** C07 *)

Lemma land_pow2_eqb x n : 0 <= n -> negb (Z.land x (2 ^ n) =? 0) = Z.testbit x n.
Proof.
  intros Hn. destruct (Z.testbit x n) eqn:E.
  - destruct (Z.eqb_spec (Z.land x (2 ^ n)) 0) as [H|]; [|done].
    apply (f_equal (fun z => Z.testbit z n)) in H.
    rewrite Z.land_spec, Z.pow2_bits_true, E, Z.bits_0 in H by lia. done.
  - destruct (Z.eqb_spec (Z.land x (2 ^ n)) 0) as [|H]; [done|]. exfalso. apply H.
    apply Z.bits_inj'. intros k Hk. rewrite Z.land_spec, Z.bits_0, Z.pow2_bits_eqb by lia.
    destruct (Z.eqb_spec n k) as [<-|]; [by rewrite E|]. apply andb_false_r.
Qed.
Lemma bitSet_ok data n old :
  0 <= n <= 31 -> BitManipulation_bitSet data n old = Ok (true, Z.testbit data n).
Proof.
  intros. unfold BitManipulation_bitSet, MAX_BIT_SHIFT. replace (n <=? 31) with true by lia.
  rewrite shl32_one by lia. cbn [bind]. rewrite land_pow2_eqb by lia. done.
Qed.
Lemma setBit_ok data n old :
  is_u32 data -> 0 <= n <= 31 ->
  exists r, BitManipulation_setBit data n old = Ok (true, r) /\ is_u32 r /\
    forall k, 0 <= k -> Z.testbit r k = if k =? n then true else Z.testbit data k.
Proof.
  intros. unfold BitManipulation_setBit, MAX_BIT_SHIFT. replace (n <=? 31) with true by lia.
  rewrite shl32_one by lia. cbn [bind]. eexists. split; [reflexivity|].
  split; [apply lor_bound; [lia|done|apply pow2_u32; lia]|].
  intros k Hk. rewrite Z.lor_spec, Z.pow2_bits_eqb, (Z.eqb_sym n k) by lia.
  destruct (k =? n); [apply orb_true_r|apply orb_false_r].
Qed.
Lemma u32_testbit x k : 0 <= k < 32 -> Z.testbit (u32 x) k = Z.testbit x k.
Proof. intros. unfold u32. apply Z.mod_pow2_bits_low. lia. Qed.
Lemma clearBit_ok data n old :
  is_u32 data -> 0 <= n <= 31 ->
  exists r, BitManipulation_clearBit data n old = Ok (true, r) /\ is_u32 r /\
    forall k, 0 <= k -> Z.testbit r k = if k =? n then false else Z.testbit data k.
Proof.
  intros. unfold BitManipulation_clearBit, MAX_BIT_SHIFT. replace (n <=? 31) with true by lia.
  rewrite shl32_one by lia. cbn [bind]. eexists. split; [reflexivity|].
  split; [by apply land_bound|].
  intros k Hk. rewrite Z.land_spec. destruct (Z.lt_ge_cases k 32).
  - rewrite u32_testbit, Z.lnot_spec, Z.pow2_bits_eqb, (Z.eqb_sym n k) by lia.
    destruct (k =? n); cbn [negb]; [apply andb_false_r|apply andb_true_r].
  - rewrite testbit_small with (n := 32) by done. by destruct (k =? n).
Qed.
Lemma toggleBit_ok data n old :
  is_u32 data -> 0 <= n <= 31 ->
  exists r, BitManipulation_toggleBit data n old = Ok (true, r) /\ is_u32 r /\
    forall k, 0 <= k -> Z.testbit r k = if k =? n then negb (Z.testbit data k) else Z.testbit data k.
Proof.
  intros. unfold BitManipulation_toggleBit, MAX_BIT_SHIFT. replace (n <=? 31) with true by lia.
  rewrite shl32_one by lia. cbn [bind]. eexists. split; [reflexivity|].
  split; [apply lxor_bound; [lia|done|apply pow2_u32; lia]|].
  intros k Hk. rewrite Z.lxor_spec, Z.pow2_bits_eqb, (Z.eqb_sym n k) by lia.
  destruct (k =? n), (Z.testbit data k); done.
Qed.
Lemma bit_ops_fail data n oldb old :
  31 < n ->
  BitManipulation_bitSet data n oldb = Ok (false, oldb) /\
  BitManipulation_setBit data n old = Ok (false, old) /\
  BitManipulation_clearBit data n old = Ok (false, old) /\
  BitManipulation_toggleBit data n old = Ok (false, old).
Proof.
  intros. unfold BitManipulation_bitSet, BitManipulation_setBit, BitManipulation_clearBit,
    BitManipulation_toggleBit, MAX_BIT_SHIFT.
  replace (n <=? 31) with false by lia. done.
Qed.

(** ** C08 *)

Lemma rotl32_ok data n :
  is_u32 data -> 1 <= n <= 31 ->
  exists r, BitManipulation_rotl32 data n = Ok r /\ is_u32 r /\
    forall k, 0 <= k -> Z.testbit r k = rotl_bit n data k.
Proof.
  intros Hd Hn. unfold BitManipulation_rotl32, shl32, shr32.
  replace ((0 <=? n) && (n <? 32)) with true by lia. cbn [bind].
  rewrite (u32_small (32 - n)) by lia.
  replace ((0 <=? 32 - n) && (32 - n <? 32)) with true by lia. cbn [bind].
  assert (H1 : is_u32 (Z.shiftr data (32 - n))).
  { unfold is_u32 in *. rewrite Z.shiftr_div_pow2 by lia.
    assert (0 < 2 ^ (32 - n)) by (apply Z.pow_pos_nonneg; lia).
    split; [apply Z.div_pos; lia|]. apply Z.div_lt_upper_bound; [lia|]. nia. }
  eexists. split; [reflexivity|].
  assert (Hu : is_u32 (Z.lxor (u32 (Z.shiftl data n)) (Z.shiftr data (32 - n)))).
  { apply lxor_bound; [lia|apply u32_range|done]. }
  split; [done|]. intros k Hk. unfold rotl_bit.
  destruct (Z.ltb_spec k 32).
  - rewrite Z.lxor_spec, u32_testbit, Z.shiftl_spec, Z.shiftr_spec by lia.
    destruct (Z.lt_ge_cases k n).
    + rewrite (Z.testbit_neg_r data (k - n)) by lia.
      rewrite xorb_false_l. cbn [andb]. f_equal. lia.
    + rewrite (testbit_small data 32 (k + (32 - n))) by (done || lia).
      rewrite xorb_false_r. cbn [andb]. f_equal. lia.
  - by rewrite testbit_small with (n := 32).
Qed.
Lemma rotl32_spec data n r :
  is_u32 data -> 1 <= n <= 31 -> BitManipulation_rotl32 data n = Ok r ->
  is_u32 r /\ forall k, 0 <= k -> Z.testbit r k = rotl_bit n data k.
Proof.
  intros Hd Hn E. destruct (rotl32_ok data n Hd Hn) as (r' & E' & H).
  rewrite E in E'. by injection E' as <-.
Qed.
Lemma rotl32_compose data m n r1 r2 :
  is_u32 data -> 1 <= m <= 31 -> 1 <= n <= 31 ->
  BitManipulation_rotl32 data m = Ok r1 -> BitManipulation_rotl32 r1 n = Ok r2 ->
  if (m + n =? 32) then r2 = data
  else BitManipulation_rotl32 data ((m + n) mod 32) = Ok r2.
Proof.
  intros Hd Hm Hn E1 E2.
  destruct (rotl32_spec data m r1) as [Hu1 H1]; [done..|].
  destruct (rotl32_spec r1 n r2) as [Hu2 H2]; [done..|].
  assert (H : forall k, 0 <= k -> Z.testbit r2 k = rotl_bit ((m + n) mod 32) data k).
  { intros k Hk. rewrite H2 by done. unfold rotl_bit.
    destruct (Z.ltb_spec k 32); [|done]. cbn [andb]. rewrite H1 by lia.
    unfold rotl_bit. replace ((k - n) mod 32 <? 32) with true by lia. cbn [andb].
    f_equal. rewrite Zminus_mod_idemp_l, Zminus_mod_idemp_r. f_equal. lia. }
  destruct (Z.eqb_spec (m + n) 32) as [Hs|Hs].
  - apply Z.bits_inj'. intros k Hk. rewrite H by done. rewrite Hs. unfold rotl_bit.
    destruct (Z.ltb_spec k 32).
    + cbn [andb]. f_equal. change (32 mod 32) with 0. lia.
    + cbn [andb]. symmetry. by apply testbit_small with 32.
  - destruct (rotl32_ok data ((m + n) mod 32)) as (r & -> & Hr & Hk); [done|lia|]. f_equal.
    apply Z.bits_inj'. intros k Hk0. by rewrite Hk, H.
Qed.
Lemma rotl32_zero data : BitManipulation_rotl32 data 0 = UB BadShift.
Proof. done. Qed.
Lemma rotl32_wide data n : 32 <= n -> BitManipulation_rotl32 data n = UB BadShift.
Proof.
  intros. unfold BitManipulation_rotl32, shl32.
  replace ((0 <=? n) && (n <? 32)) with false by lia. done.
Qed.

(** ** Assembled statements *)

Lemma serialize_all pre post o1 o2 o3 o4 v :
  len o1 = 1 -> len o2 = 2 -> len o3 = 3 -> len o4 = 4 ->
  Utils_serialize8 (pre ++ o1 ++ post) (len pre) v = Ok (pre ++ be_bytes 1 v ++ post) /\
  Utils_serialize16BE (pre ++ o2 ++ post) (len pre) v = Ok (pre ++ be_bytes 2 v ++ post) /\
  Utils_serialize24BE (pre ++ o3 ++ post) (len pre) v = Ok (pre ++ be_bytes 3 v ++ post) /\
  Utils_serialize32BE (pre ++ o4 ++ post) (len pre) v = Ok (pre ++ be_bytes 4 v ++ post) /\
  Utils_serialize16LE (pre ++ o2 ++ post) (len pre) v = Ok (pre ++ le_bytes 2 v ++ post) /\
  Utils_serialize24LE (pre ++ o3 ++ post) (len pre) v = Ok (pre ++ le_bytes 3 v ++ post) /\
  Utils_serialize32LE (pre ++ o4 ++ post) (len pre) v = Ok (pre ++ le_bytes 4 v ++ post).
Proof.
  intros. rewrite serialize8_ok, serialize16BE_ok, serialize24BE_ok, serialize32BE_ok,
    serialize16LE_ok, serialize24LE_ok, serialize32LE_ok by done. done.
Qed.
Lemma deserialize_all pre post b1 b2 b3 b4 :
  bytes (b1 ++ b2 ++ b3 ++ b4) ->
  len b1 = 1 -> len b2 = 2 -> len b3 = 3 -> len b4 = 4 ->
  Utils_deserialize8 (pre ++ b1 ++ post) (len pre) = Ok (be_value b1) /\
  Utils_deserialize16BE (pre ++ b2 ++ post) (len pre) = Ok (be_value b2) /\
  Utils_deserialize24BE (pre ++ b3 ++ post) (len pre) = Ok (be_value b3) /\
  Utils_deserialize32BE (pre ++ b4 ++ post) (len pre) = Ok (be_value b4) /\
  Utils_deserialize16LE (pre ++ b2 ++ post) (len pre) = Ok (le_value b2) /\
  Utils_deserialize24LE (pre ++ b3 ++ post) (len pre) = Ok (le_value b3) /\
  Utils_deserialize32LE (pre ++ b4 ++ post) (len pre) = Ok (le_value b4).
Proof.
  unfold bytes. rewrite !Forall_app. intros (B1&B2&B3&B4) H1 H2 H3 H4.
  rewrite deserialize8_ok, deserialize16BE_ok, deserialize24BE_ok, deserialize32BE_ok,
    deserialize16LE_ok, deserialize24LE_ok, deserialize32LE_ok by done.
  explode b1 H1. done.
Qed.

Lemma roundtrip_value pre post o1 o2 o3 o4 v :
  len o1 = 1 -> len o2 = 2 -> len o3 = 3 -> len o4 = 4 ->
  (exists m, Utils_serialize8 (pre ++ o1 ++ post) (len pre) v = Ok m /\
             Utils_deserialize8 m (len pre) = Ok (v mod 2 ^ 8)) /\
  (exists m, Utils_serialize16BE (pre ++ o2 ++ post) (len pre) v = Ok m /\
             Utils_deserialize16BE m (len pre) = Ok (v mod 2 ^ 16)) /\
  (exists m, Utils_serialize24BE (pre ++ o3 ++ post) (len pre) v = Ok m /\
             Utils_deserialize24BE m (len pre) = Ok (v mod 2 ^ 24)) /\
  (exists m, Utils_serialize32BE (pre ++ o4 ++ post) (len pre) v = Ok m /\
             Utils_deserialize32BE m (len pre) = Ok (v mod 2 ^ 32)) /\
  (exists m, Utils_serialize16LE (pre ++ o2 ++ post) (len pre) v = Ok m /\
             Utils_deserialize16LE m (len pre) = Ok (v mod 2 ^ 16)) /\
  (exists m, Utils_serialize24LE (pre ++ o3 ++ post) (len pre) v = Ok m /\
             Utils_deserialize24LE m (len pre) = Ok (v mod 2 ^ 24)) /\
  (exists m, Utils_serialize32LE (pre ++ o4 ++ post) (len pre) v = Ok m /\
             Utils_deserialize32LE m (len pre) = Ok (v mod 2 ^ 32)).
Proof.
  intros H1 H2 H3 H4.
  destruct (serialize_all pre post o1 o2 o3 o4 v H1 H2 H3 H4)
    as (-> & -> & -> & -> & -> & -> & ->).
  destruct (deserialize_all pre post (be_bytes 1 v) (be_bytes 2 v) (be_bytes 3 v) (be_bytes 4 v))
    as (D1 & D2 & D3 & D4 & _); [|by rewrite len_be_bytes..|].
  { unfold bytes. rewrite !Forall_app. by repeat split; apply bytes_be_bytes. }
  destruct (deserialize_all pre post (le_bytes 1 v) (le_bytes 2 v) (le_bytes 3 v) (le_bytes 4 v))
    as (_ & _ & _ & _ & D5 & D6 & D7); [|by rewrite len_le_bytes..|].
  { unfold bytes. rewrite !Forall_app. by repeat split; apply bytes_le_bytes. }
  rewrite be_value_bytes in D1, D2, D3, D4. rewrite le_value_bytes in D5, D6, D7.
  repeat split; eexists; split; [reflexivity| | reflexivity| | reflexivity| | reflexivity|
    | reflexivity| | reflexivity| | reflexivity|]; done.
Qed.

Lemma roundtrip_buffer pre post b1 b2 b3 b4 :
  bytes (b1 ++ b2 ++ b3 ++ b4) ->
  len b1 = 1 -> len b2 = 2 -> len b3 = 3 -> len b4 = 4 ->
  (exists v, Utils_deserialize8 (pre ++ b1 ++ post) (len pre) = Ok v /\
     Utils_serialize8 (pre ++ b1 ++ post) (len pre) v = Ok (pre ++ b1 ++ post)) /\
  (exists v, Utils_deserialize16BE (pre ++ b2 ++ post) (len pre) = Ok v /\
     Utils_serialize16BE (pre ++ b2 ++ post) (len pre) v = Ok (pre ++ b2 ++ post)) /\
  (exists v, Utils_deserialize24BE (pre ++ b3 ++ post) (len pre) = Ok v /\
     Utils_serialize24BE (pre ++ b3 ++ post) (len pre) v = Ok (pre ++ b3 ++ post)) /\
  (exists v, Utils_deserialize32BE (pre ++ b4 ++ post) (len pre) = Ok v /\
     Utils_serialize32BE (pre ++ b4 ++ post) (len pre) v = Ok (pre ++ b4 ++ post)) /\
  (exists v, Utils_deserialize16LE (pre ++ b2 ++ post) (len pre) = Ok v /\
     Utils_serialize16LE (pre ++ b2 ++ post) (len pre) v = Ok (pre ++ b2 ++ post)) /\
  (exists v, Utils_deserialize24LE (pre ++ b3 ++ post) (len pre) = Ok v /\
     Utils_serialize24LE (pre ++ b3 ++ post) (len pre) v = Ok (pre ++ b3 ++ post)) /\
  (exists v, Utils_deserialize32LE (pre ++ b4 ++ post) (len pre) = Ok v /\
     Utils_serialize32LE (pre ++ b4 ++ post) (len pre) v = Ok (pre ++ b4 ++ post)).
Proof.
  intros Hb H1 H2 H3 H4.
  destruct (deserialize_all pre post b1 b2 b3 b4 Hb H1 H2 H3 H4)
    as (-> & -> & -> & -> & -> & -> & ->).
  pose proof Hb as Hb'. unfold bytes in Hb'. rewrite !Forall_app in Hb'.
  destruct Hb' as (B1 & B2 & B3 & B4).
  assert (L1 : length b1 = 1%nat) by (unfold len in *; lia).
  assert (L2 : length b2 = 2%nat) by (unfold len in *; lia).
  assert (L3 : length b3 = 3%nat) by (unfold len in *; lia).
  assert (L4 : length b4 = 4%nat) by (unfold len in *; lia).
  repeat split; eexists; (split; [reflexivity|]).
  - rewrite (proj1 (serialize_all pre post b1 b2 b3 b4 _ H1 H2 H3 H4)), <- L1.
    by rewrite be_bytes_value.
  - rewrite serialize16BE_ok, <- L2 by done. by rewrite be_bytes_value.
  - rewrite serialize24BE_ok, <- L3 by done. by rewrite be_bytes_value.
  - rewrite serialize32BE_ok, <- L4 by done. by rewrite be_bytes_value.
  - rewrite serialize16LE_ok, <- L2 by done. by rewrite le_bytes_value.
  - rewrite serialize24LE_ok, <- L3 by done. by rewrite le_bytes_value.
  - rewrite serialize32LE_ok, <- L4 by done. by rewrite le_bytes_value.
Qed.

(** each blob deserializer undoes its serializer *)
Lemma blob_roundtrip pre old post spre s spost dpre dold dpost :
  len old = len s -> len dold = len s -> len s < 2 ^ 31 ->
  (exists m, Utils_serializeBlobBE (pre ++ old ++ post) (len pre)
               (spre ++ s ++ spost) (len spre) (len s) = Ok m /\
     Utils_deserializeBlobBE m (len pre) (dpre ++ dold ++ dpost) (len dpre) (len s)
       = Ok (dpre ++ s ++ dpost)) /\
  (exists m, Utils_serializeBlobLE (pre ++ old ++ post) (len pre)
               (spre ++ s ++ spost) (len spre) (len s) = Ok m /\
     Utils_deserializeBlobLE m (len pre) (dpre ++ dold ++ dpost) (len dpre) (len s)
       = Ok (dpre ++ s ++ dpost)).
Proof.
  intros H1 H2 H3. rewrite serializeBlobBE_ok, serializeBlobLE_ok by done.
  split; eexists; (split; [reflexivity|]).
  - by apply deserializeBlobBE_ok.
  - rewrite <- (len_reverse s). rewrite deserializeBlobLE_ok by (rewrite len_reverse; lia).
    by rewrite reverse_involutive.
Qed.

Lemma swap_twice (a x b y c : list Z) :
  len x = len y ->
  exists m, Utils_swapElements (a ++ x ++ b ++ y ++ c) (len a) (len a + len x + len b) (len x) = Ok m /\
    Utils_swapElements m (len a) (len a + len x + len b) (len x) = Ok (a ++ x ++ b ++ y ++ c).
Proof.
  intros H. destruct (swap_disjoint a x b y c H) as [-> _]. eexists. split; [reflexivity|].
  rewrite H. by apply (swap_disjoint a y b x c).
Qed.

Lemma rotl32_inverse data n r :
  is_u32 data -> 1 <= n <= 31 ->
  BitManipulation_rotl32 data n = Ok r -> BitManipulation_rotl32 r (32 - n) = Ok data.
Proof.
  intros Hd Hn E. destruct (rotl32_spec _ _ _ Hd Hn E) as [Hr _].
  destruct (rotl32_ok r (32 - n)) as (r2 & E2 & _); [done|lia|].
  pose proof (rotl32_compose data n (32 - n) r r2 Hd Hn ltac:(lia) E E2) as H.
  replace (n + (32 - n) =? 32) with true in H by lia. by subst.
Qed.
