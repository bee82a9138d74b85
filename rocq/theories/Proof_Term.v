(** * Every function of the library ends, whatever its arguments *)
From Verif Require Import Lib Model_Utils Model_Base64 Model_Containers Model_Sort Model_SortState
  Model_Crypto Model_Crc Model_CrcVariants Model_Json Spec_Crc Drive_Crc Proof_SortEnd.

Lemma ub_nd {A} k : @UB A k <> Diverge.
Proof. done. Qed.
Lemma shl32_nd x n : shl32 x n <> Diverge.
Proof. unfold shl32. by destruct (_ && _). Qed.
Lemma shr32_nd x n : shr32 x n <> Diverge.
Proof. unfold shr32. by destruct (_ && _). Qed.
Lemma umod_nd a b : umod a b <> Diverge.
Proof. unfold umod. by destruct (_ =? _). Qed.
Lemma memcmp_nd a i b j n : memcmp_eq a i b j n <> Diverge.
Proof. unfold memcmp_eq. by destruct (_ && _). Qed.
Lemma strlen_nd o : strlen o <> Diverge.
Proof. unfold strlen. by destruct (strlen_nat o). Qed.
Lemma strcpy_nd d i s : strcpy d i s <> Diverge.
Proof. apply bind_nd; [apply strlen_nd|]. intros. apply memcpy_nd. Qed.
Lemma strcmp_nd a i b : strcmp_eq a i b <> Diverge.
Proof.
  revert i. induction b as [|d b IH]; intros i; cbn; [done|]. apply bind_nd; [apply load_nd|].
  intros c _. destruct (c =? d); [|done]. by destruct (c =? 0).
Qed.
Lemma strncmp_nd a i b j n : strncmp_eq a i b j n <> Diverge.
Proof.
  revert i j. induction n as [|n IH]; intros i j; cbn; [done|]. apply bind_nd; [apply load_nd|].
  intros c _. apply bind_nd; [apply load_nd|]. intros d _. destruct (c =? d); [|done]. by destruct (c =? 0).
Qed.
Lemma deref_nd {A} (p : option A) : deref p <> Diverge.
Proof. by destruct p. Qed.

Create HintDb nd.
Global Hint Resolve ub_nd shl32_nd shr32_nd umod_nd memcmp_nd strlen_nd strcpy_nd strcmp_nd strncmp_nd deref_nd
  ok_nd ck32_nd load_nd store_nd memcpy_nd memcpy_within_nd swap_nd call_cmp_nd : nd.

(** binds, loops with a counter, and case distinctions *)
Ltac nd1 := match goal with
  | |- bind _ _ <> Diverge => apply bind_nd; [|intros ? ?]
  | |- cfor _ _ _ _ <> Diverge => apply cfor_nd; intros ? ? ?
  | |- cford _ _ _ _ <> Diverge => apply cford_nd; intros ? ? ?
  | |- Ok _ <> Diverge => apply ok_nd
  | |- (match ?x with (_, _) => _ end) <> Diverge => destruct x
  | |- (if ?b then _ else _) <> Diverge => destruct b
  | |- (match ?x with Some _ => _ | None => _ end) <> Diverge => destruct x
  | _ => solve [eauto with nd nocore]
  end.
Ltac nd := repeat nd1.
Ltac inv := repeat match goal with
  | H : bind _ _ = Ok _ |- _ => apply bind_ok_inv in H as (? & ? & H)
  | H : ck32 _ = Ok _ |- _ => apply ck32_inv in H as [-> ?]
  end.
Lemma load_bounds {A} (o : list A) i x : load o i = Ok x -> 0 <= i < len o.
Proof.
  unfold load, len. destruct (Z.leb_spec 0 i); [|done]. destruct (o !! _) eqn:E; [|done].
  apply lookup_lt_Some in E. lia.
Qed.

(** ** utils.c, bit_manipulation.c *)
Lemma pow10_nd e r : Utils_quickUint32Pow10 e r <> Diverge.
Proof. unfold Utils_quickUint32Pow10. nd. Qed.
Global Hint Resolve pow10_nd : nd.
Lemma string_nd sc o n : is_byte n -> Utils_stringToUint32 sc o n <> Diverge.
Proof.
  intros Hn. unfold is_byte in Hn. unfold Utils_stringToUint32. cbv zeta.
  set (length := if n =? MAX_UINT32_POW_10_EXPONENT then u8 (n - 1) else n).
  assert (0 <= length < 2 ^ 8) as Hl.
  { subst length. unfold u8. destruct (_ =? _); lia. }
  apply bind_nd.
  - apply (cwhile_nd (fun '(i, _, s) => 0 <= i <= length)
      (fun '(i, _, s) => if (s : bool) then length - i else 0)).
    + lia.
    + lia.
    + intros [[i x] s] Hi Hc. apply andb_true_iff in Hc as [Hc ->]. apply Z.ltb_lt in Hc. split.
      * nd.
      * intros [[i' x'] s'] E. inv.
        match type of E with context [if ?b then _ else _] => destruct b end; inv.
        -- destruct x1 as [s1 r1]. injection E as <- <- <-.
           unfold u8. rewrite Z.mod_small by lia. destruct s1; lia.
        -- injection E as <- <- <-. lia.
  - intros ? _. nd.
Qed.
Lemma ser_nd o p v :
  Utils_serialize8 o p v <> Diverge /\ Utils_serialize16BE o p v <> Diverge /\
  Utils_serialize24BE o p v <> Diverge /\ Utils_serialize32BE o p v <> Diverge /\
  Utils_serialize16LE o p v <> Diverge /\ Utils_serialize24LE o p v <> Diverge /\
  Utils_serialize32LE o p v <> Diverge.
Proof.
  unfold Utils_serialize8, Utils_serialize16BE, Utils_serialize24BE, Utils_serialize32BE, Utils_serialize16LE,
    Utils_serialize24LE, Utils_serialize32LE. repeat split; nd.
Qed.
Lemma des_nd o p :
  Utils_deserialize8 o p <> Diverge /\ Utils_deserialize16BE o p <> Diverge /\
  Utils_deserialize24BE o p <> Diverge /\ Utils_deserialize32BE o p <> Diverge /\
  Utils_deserialize16LE o p <> Diverge /\ Utils_deserialize24LE o p <> Diverge /\
  Utils_deserialize32LE o p <> Diverge.
Proof.
  unfold Utils_deserialize8, Utils_deserialize16BE, Utils_deserialize24BE, Utils_deserialize32BE,
    Utils_deserialize16LE, Utils_deserialize24LE, Utils_deserialize32LE. repeat split; nd.
Qed.
Lemma blob_nd a p b q n :
  Utils_serializeBlobBE a p b q n <> Diverge /\ Utils_deserializeBlobBE a p b q n <> Diverge /\
  Utils_serializeBlobLE a p b q n <> Diverge /\ Utils_deserializeBlobLE a p b q n <> Diverge.
Proof.
  unfold Utils_serializeBlobBE, Utils_deserializeBlobBE, Utils_serializeBlobLE, Utils_deserializeBlobLE.
  repeat split; nd.
Qed.
Lemma reflect_nd d n : BitManipulation_reflect d n <> Diverge.
Proof. unfold BitManipulation_reflect. nd. Qed.
Lemma rotl_nd d n : BitManipulation_rotl32 d n <> Diverge.
Proof. unfold BitManipulation_rotl32. nd. Qed.
Global Hint Resolve reflect_nd rotl_nd : nd.
Lemma bits_nd d n b o :
  BitManipulation_reflect d n <> Diverge /\ BitManipulation_bitSet d n b <> Diverge /\
  BitManipulation_setBit d n o <> Diverge /\ BitManipulation_clearBit d n o <> Diverge /\
  BitManipulation_toggleBit d n o <> Diverge /\ BitManipulation_rotl32 d n <> Diverge.
Proof.
  unfold BitManipulation_bitSet, BitManipulation_setBit, BitManipulation_clearBit, BitManipulation_toggleBit.
  repeat split; nd.
Qed.

(** ** base64.c *)
Lemma encode_nd d n r mx : Base64_encode d n r mx <> Diverge.
Proof.
  unfold Base64_encode. cbv zeta. destruct (_ <? _); [done|]. apply bind_nd.
  - apply (cwhile_nd (fun '(_, _, _, inp, _, _) => 0 <= inp) (fun '(_, _, _, inp, _, _) => Z.max 0 (len d - inp))).
    + lia.
    + unfold len. lia.
    + intros [[[[[s c] ip] inp] pos] res] Hi _. split; [nd|].
      intros [[[[[s' c'] ip'] inp'] pos'] res'] E.
      match type of E with context [if ?b then _ else _] => destruct b end; inv; [done|].
      injection E as <- <- <- <- <- <-.
      repeat match goal with H : load d _ = Ok _ |- _ => apply load_bounds in H end. lia.
  - intros ? _. nd.
Qed.
Lemma decode_nd i n o mx : Base64_decode i n o mx <> Diverge.
Proof.
  unfold Base64_decode. cbv zeta. apply bind_nd; [nd|]. intros pad _.
  set (l := u64 (u64 (u64 (n + 3) / 4 - if pad then 1 else 0) * 4)).
  assert (l mod 4 = 0 /\ 0 <= l < 2 ^ 64) as Hl.
  { subst l. unfold u64. split; [|lia]. generalize (((n + 3) mod 2 ^ 64 / 4 - (if pad then 1 else 0)) mod 2 ^ 64) as x.
    intros x. lia. }
  destruct (_ || _); [done|]. apply bind_nd.
  - apply (cwhile_nd (fun '(k, _, _) => 0 <= k /\ k mod 4 = 0) (fun '(k, _, _) => Z.max 0 (len i - k))).
    + done.
    + unfold len. lia.
    + intros [[k j] out] Hk Hc. apply Z.ltb_lt in Hc. split; [nd|].
      intros [[k' j'] out'] E. inv. injection E as <- <- <-.
      repeat match goal with H : load i _ = Ok _ |- _ => apply load_bounds in H end.
      unfold u64. rewrite Z.mod_small by lia. lia.
  - intros ? _. nd.
Qed.

(** ** queue.c, priority_queue.c, map.c, scheduler.c *)
Lemma queue_nd q c e b el :
  Queue_init q c e b <> Diverge /\ Queue_full q <> Diverge /\ Queue_empty q <> Diverge /\
  Queue_enqueue q el <> Diverge /\ Queue_dequeue q el <> Diverge /\ Queue_front q el <> Diverge /\
  Queue_rear q el <> Diverge.
Proof.
  unfold Queue_init, Queue_enqueue, Queue_dequeue, Queue_front, Queue_rear, Queue_full, Queue_empty.
  repeat split; nd.
Qed.
Lemma highest_nd q : GetHighestPriorityIndex q <> Diverge.
Proof. unfold GetHighestPriorityIndex. nd. Qed.
Lemma lowest_nd q : GetLowestPriorityIndex q <> Diverge.
Proof. unfold GetLowestPriorityIndex. nd. Qed.
Lemma shift_nd e f c b p : PQ_shift e f c b p <> Diverge.
Proof. unfold PQ_shift. nd. Qed.
Global Hint Resolve highest_nd lowest_nd shift_nd : nd.
Lemma pq_nd q c e it el :
  PriorityQueue_init q c e it <> Diverge /\ PriorityQueue_empty q <> Diverge /\
  PriorityQueue_enqueue q it <> Diverge /\ PriorityQueue_dequeue q el <> Diverge.
Proof.
  unfold PriorityQueue_init, PriorityQueue_empty, PriorityQueue_enqueue, PriorityQueue_dequeue.
  repeat split; nd.
Qed.
Lemma getindex_nd m k n : Map_GetIndex m k n <> Diverge.
Proof.
  unfold Map_GetIndex. apply bind_nd; [|intros ? _; nd].
  apply (cwhile_nd (fun '(i, _) => 0 <= i) (fun '(i, _) => Z.max 0 (n - i))).
  - lia.
  - lia.
  - intros [i x] Hi Hc. apply Z.ltb_lt in Hc. split; [nd|]. intros [i' x'] E. inv.
    match type of E with context [if ?b then _ else _] => destruct b end; [done|].
    injection E as <- <-. lia.
Qed.
Global Hint Resolve getindex_nd : nd.
Lemma map_nd m ks vs k v mx key value :
  Map_init m ks vs k v mx <> Diverge /\ Map_insert m key value <> Diverge /\ Map_getValue m key value <> Diverge.
Proof. unfold Map_init, Map_insert, Map_getValue. repeat split; nd. Qed.
Lemma sched_init_nd t n : Scheduler_init t n <> Diverge.
Proof. unfold Scheduler_init. nd. Qed.
Lemma addTask_nd t n x : is_u32 n -> Scheduler_addTask t n x <> Diverge.
Proof.
  intros Hn. unfold is_u32 in Hn. unfold Scheduler_addTask. apply bind_nd; [|intros ? _; nd].
  apply (cwhile_nd (fun '(i, l, _) => 0 <= i /\ len l = len t) (fun '(i, l, _) => Z.max 0 (len t - i))).
  - done.
  - unfold len. lia.
  - intros [[i l] s] [Hi Hl] Hc. apply Z.ltb_lt in Hc. split; [nd|]. intros [[i' l'] s'] E. inv.
    apply load_bounds in H. destruct (t_function x0); [|inv; done]. injection E as <- <- <-.
    unfold u32. rewrite Z.mod_small by lia. lia.
Qed.
Lemma sched_run_nd {W} (exec : Z -> W * list SchedulerTask_t -> W * list SchedulerTask_t) w t n :
  Scheduler_run exec w t n <> Diverge.
Proof. unfold Scheduler_run. nd. Qed.

(** ** crypto *)
Lemma caesar_nd m s : CaesarCipher_encrypt m s <> Diverge /\ CaesarCipher_decrypt m s <> Diverge.
Proof. unfold CaesarCipher_encrypt, CaesarCipher_decrypt. split; nd. Qed.
Lemma vernam_nd sc m k n : VernamCipher_encrypt m k n <> Diverge /\ VernamCipher_decrypt sc m k n <> Diverge.
Proof. unfold VernamCipher_encrypt, VernamCipher_decrypt. split; nd. Qed.
Lemma quarter_nd x a b c d : QuarterRound x a b c d <> Diverge.
Proof. unfold QuarterRound. nd. Qed.
Global Hint Resolve quarter_nd : nd.
Lemma block_nd k c n o : Block k c n o <> Diverge.
Proof.
  unfold Block, chacha_init, chacha_double_round. pose proof (fun p => des_nd k p) as Hk.
  pose proof (fun p => des_nd n p) as Hn.
  assert (forall p, Utils_deserialize32LE k p <> Diverge) by (intros; apply Hk).
  assert (forall p, Utils_deserialize32LE n p <> Diverge) by (intros; apply Hn).
  assert (forall o p v, Utils_serialize32LE o p v <> Diverge) by (intros; apply ser_nd).
  clear Hk Hn. nd.
Qed.
Global Hint Resolve block_nd : nd.
Lemma crypt_nd m p n key nonce inc r : Chacha20_crypt m p n key nonce inc r <> Diverge.
Proof. unfold Chacha20_crypt. nd. Qed.

(** ** crc *)
Lemma calc_nd p t :
  Crc8Base_tableCalculator p t <> Diverge /\ Crc16Base_tableCalculator p t <> Diverge /\
  Crc32Base_tableCalculator p t <> Diverge.
Proof. unfold Crc8Base_tableCalculator, Crc16Base_tableCalculator, Crc32Base_tableCalculator. repeat split; nd. Qed.
Lemma input_nd r c : crc_input r c <> Diverge.
Proof. unfold crc_input. nd. Qed.
Global Hint Resolve input_nd : nd.
Lemma base8_nd t d n i x ro ri fx : Crc8Base t d n i x ro ri fx <> Diverge.
Proof. unfold Crc8Base. nd. Qed.
Lemma base16_nd t d n i x ro ri fx : Crc16Base t d n i x ro ri fx <> Diverge.
Proof. unfold Crc16Base. nd. Qed.
Lemma base32_nd t d n i x ro ri fx : Crc32Base t d n i x ro ri fx <> Diverge.
Proof. unfold Crc32Base. nd. Qed.
Lemma crc_nd V d n f l : In V crc_variants -> run V d n f l <> Diverge.
Proof.
  intros H. cbv [crc_variants] in H.
  repeat (destruct H as [<-|H]; [first [apply base8_nd|apply base16_nd|apply base32_nd]|]). done.
Qed.

(** ** sort/*.c with a comparator that has a state *)
Section state.
  Context {T : Type} (cmp : T -> list Z -> list Z -> T * bool).

  Lemma call_state_nd es t a i b j : call_cmp_state cmp es t a i b j <> Diverge.
  Proof. unfold call_cmp_state. by destruct (_ && _). Qed.
  Local Hint Resolve call_state_nd : nd.

  Lemma bubble_state_nd t m base n es : BubbleSort_state cmp t m base n es <> Diverge.
  Proof.
    unfold BubbleSort_state. apply bind_nd; [|intros ? _; nd].
    apply (cwhile_nd (fun '(t, m, sw, i) => 0 <= i /\ (sw = true -> i = 0 \/ i < n))
      (fun '(t, m, sw, i) => if (sw : bool) then Z.max n 0 + 1 - i else 0)).
    - lia.
    - lia.
    - intros [[[t' m'] sw] i] [Hi Hs] ->. specialize (Hs eq_refl). split; [nd|].
      intros [[[t2 m2] s2] i2] E. inv. destruct x1 as [[t3 m3] s3]. inv. injection E as <- <- <- <-.
      destruct (Z.le_gt_cases (n - i - 1) 0) as [Hle|Hgt].
      + rewrite cfor_empty in H1 by lia. injection H1 as <- <- <-. lia.
      + destruct s3; lia.
  Qed.
  Lemma selection_state_nd t m base n es : SelectionSort_state cmp t m base n es <> Diverge.
  Proof. unfold SelectionSort_state. nd. Qed.
  Lemma insertion_state_nd t m el base n es : InsertionSort_state cmp t m el base n es <> Diverge.
  Proof.
    unfold InsertionSort_state. apply cfor_nd. intros i [[t' m'] el'] Hi. nd.
    apply (cwhile_nd (fun '(t, m, j, c) => -1 <= j) (fun '(t, m, j, c) => j + 1)).
    - lia.
    - lia.
    - intros [[[t2 m2] j] c] Hj Hc. apply andb_true_iff in Hc as [Hc _]. apply Z.leb_le in Hc. split; [nd|].
      intros [[[t3 m3] j3] c3] E. inv. destruct x3. injection E as <- <- <- <-. lia.
  Qed.
  Lemma heapify_state_nd t m base n i es : 0 <= i -> Heapify_state cmp t m base n i es <> Diverge.
  Proof.
    intros Hi. unfold Heapify_state. apply bind_nd; [|intros ? _; nd].
    apply (cwhile_nd (fun '(t, m, k, c) => 0 <= k)
      (fun '(t, m, k, c) => if (c : bool) then Z.max 0 (n - k) + 1 else 0)).
    - lia.
    - lia.
    - intros [[[t' m'] k] c] Hk ->. split; [nd|]. intros [[[t2 m2] k2] c2] E. inv.
      repeat (inv; match type of E with (match ?x with (_, _) => _ end) = _ => destruct x end; inv).
      match type of E with (if negb (?g =? k) then _ else _) = _ => destruct (Z.eqb_spec g k) as [Eg|Eg] end;
        cbn [negb] in E.
      + injection E as <- <- <- <-. lia.
      + inv. injection E as <- <- <- <-. revert Eg.
        repeat match goal with |- context [if ?b && _ then _ else _] =>
          destruct b eqn:?; cbn [andb] end;
        repeat match goal with |- context [if ?b then _ else _] => destruct b eqn:? end; lia.
  Qed.
  Lemma heap_state_nd t m base n es : HeapSort_state cmp t m base n es <> Diverge.
  Proof.
    unfold HeapSort_state. nd.
    - apply heapify_state_nd. lia.
    - apply heapify_state_nd. lia.
  Qed.
End state.

(** ** json.c *)
Lemma json_build_nd b n k v :
  Json_startString b n <> Diverge /\ Json_addData b n k v <> Diverge /\ Json_endString b n <> Diverge.
Proof. unfold Json_startString, Json_addData, Json_endString. repeat split; nd. Qed.

Lemma strncmp_false_inv a i b j n : strncmp_eq a i b j n = Ok false -> 0 <= i < len a.
Proof. destruct n; cbn; [done|]. intros H. inv. by eapply load_bounds. Qed.

Lemma find_nd b n k v mx : n < 2 ^ 32 \/ len b < 2 ^ 32 -> is_u64 n -> is_u64 mx ->
  Json_findByKey b n k v mx <> Diverge.
Proof.
  intros Hb Hn Hm. unfold is_u64 in *. unfold Json_findByKey. apply bind_nd; [nd|]. intros ks Eks. cbv zeta.
  assert (0 <= ks) as Hks.
  { unfold strlen in Eks. destruct (strlen_nat k); [|done]. injection Eks as <-. lia. }
  set (ms := if ks <? n then u32 (n - ks) else 0).
  assert (0 <= ms < 2 ^ 32) as Hms by (subst ms; unfold u32; destruct (ks <? n); lia).
  apply bind_nd.
  - apply (cwhile_nd (fun '(i, _) => 0 <= i) (fun '(i, _) => Z.max 0 (len b - i))).
    + lia.
    + unfold len. lia.
    + intros [i s] Hi Hc. apply Z.ltb_lt in Hc. split; [nd|]. intros [i' s'] E. inv.
      destruct x; [inv; done|]. injection E as <- <-. apply strncmp_false_inv in H.
      unfold u32. rewrite Z.mod_small by lia. lia.
  - intros [i s] _. destruct s; [|done]. apply bind_nd.
    + apply (cwhile_nd (fun i => 0 <= i) (fun i => Z.max 0 (len b - i))).
      * unfold u32. lia.
      * unfold len, u32. lia.
      * intros j Hj Hc. apply Z.ltb_lt in Hc. split; [nd|]. intros j' E. inv. apply load_bounds in H.
        destruct (x =? 34); [done|]. injection E as <-. unfold u32. rewrite Z.mod_small by lia. lia.
    + intros j _. apply bind_nd; [|intros ? _; nd].
      apply (cwhile_nd (fun '(_, sz, i, _) => 0 <= i /\ 0 <= sz) (fun '(_, _, i, _) => Z.max 0 (len b - i))).
      * unfold u32. lia.
      * unfold len, u32. lia.
      * intros [[[val sz] l] s] Hj Hc. apply andb_true_iff in Hc as [Hc Hc2].
        apply Z.ltb_lt in Hc, Hc2. split; [nd|]. intros [[[val' sz'] l'] s'] E. inv. apply load_bounds in H.
        destruct (x =? 34); [inv; done|]. injection E as <- <- <- <-.
        unfold u32, u64. rewrite !Z.mod_small by lia. lia.
Qed.

(** beyond 4 GiB the 32-bit index wraps and the search for the next quote may go round for ever *)
Lemma cwhile_diverges {S} (P : S -> Prop) fuel cond (body : S -> outcome (ctl S)) s : P s ->
  (forall s, P s -> cond s = true /\ exists s', body s = Ok (Next s') /\ P s') ->
  cwhile fuel cond body s = Diverge.
Proof.
  intros HP H. revert s HP. induction fuel as [|f IH]; intros s HP; [done|]. cbn.
  destruct (H s HP) as (-> & s' & -> & HP'). cbn. by apply IH.
Qed.
Lemma quote_loop fuel b n i : 2 ^ 32 <= n -> 2 ^ 32 <= len b -> 0 <= i < 2 ^ 32 ->
  (forall j, 0 <= j < 2 ^ 32 -> get b j <> 34) ->
  cwhile fuel (fun index => index <? n)
    (fun index =>
       let! c := load b index in
       if c =? 34 then Ok (Break index) else Ok (Next (u32 (index + 1)))) i = Diverge.
Proof.
  intros Hn Hb Hi H. apply (cwhile_diverges (fun i => 0 <= i < 2 ^ 32)); [done|].
  intros j Hj. split; [lia|]. rewrite load_ok by lia. cbn [bind].
  destruct (Z.eqb_spec (get b j) 34) as [E|E]; [by specialize (H j Hj)|].
  eexists. split; [done|]. unfold u32. lia.
Qed.
Lemma find_diverges pre v mx : len pre = 2 ^ 32 - 2 -> Forall (fun c => c <> 97 /\ c <> 34) pre ->
  Json_findByKey (pre ++ [97; 98; 34]) (len pre + 3) [97; 98; 0] v mx = Diverge.
Proof.
  intros Hl Hp. remember (pre ++ [97; 98; 34]) as b eqn:Eb.
  assert (len b = 2 ^ 32 + 1) as Hb by (subst b; rewrite len_app; change (len [97; 98; 34]) with 3; lia).
  assert (forall i, 0 <= i < len pre -> get b i <> 97 /\ get b i <> 34) as Hg.
  { intros i Hi. subst b. rewrite get_app_l by done.
    eapply (Forall_lookup_1 _ _ _ _ Hp). by apply lookup_get. }
  assert (get b (len pre) = 97 /\ get b (len pre + 1) = 98 /\ get b (len pre + 2) = 34) as (G0 & G1 & G2).
  { subst b. change (len [97; 98; 34]) with 3 in *.
    rewrite !get_app_r by (change (len [97; 98; 34]) with 3; lia).
    replace (len pre - len pre) with 0 by lia. replace (len pre + 1 - len pre) with 1 by lia.
    replace (len pre + 2 - len pre) with 2 by lia. done. }
  unfold Json_findByKey. change (strlen [97; 98; 0]) with (@Ok Z 2). cbn [bind].
  replace (2 <? len pre + 3) with true by lia.
  assert (u32 (len pre + 3 - 2) = 2 ^ 32 - 1) as -> by (unfold u32; lia).
  match goal with |- bind ?e _ = _ => assert (e = Ok (len pre, true)) as -> end.
  { match goal with |- cwhile _ ?c ?f _ = _ => set (cd := c); set (bd := f) end.
    destruct (cwhile_rule (fun '(i, s) => 0 <= i <= len pre /\ s = false)
      (fun st => st = (len pre, true)) (fun '(i, _) => len pre - i) (S (S (length b))) cd bd (0, false))
      as (st & -> & ->).
    - lia.
    - unfold len in *. lia.
    - intros [i s] [Hi ->] _. subst bd. cbn beta iota. change (Z.to_nat 2) with 2%nat.
      cbn [strncmp_eq]. rewrite load_ok by lia.
      destruct (Z.eq_dec i (len pre)) as [->|Hne].
      + right. rewrite u64_small by lia. rewrite (load_ok b (len pre + 2)) by lia.
        rewrite (load_ok b (len pre + 1)) by lia. rewrite G0, G1, G2. cbn. eauto.
      + left. destruct (Hg i) as [H97 _]; [lia|]. change (load [97; 98; 0] 0) with (@Ok Z 97). cbn [bind].
        destruct (Z.eqb_spec (get b i) 97); [done|]. cbn [bind]. eexists. split; [done|].
        unfold u32. rewrite Z.mod_small by lia. lia.
    - intros [i s] [Hi ->] Hc. subst cd. cbn beta iota in Hc. lia.
    - done. }
  cbn [bind].
  match goal with |- bind ?e _ = _ => assert (e = Diverge) as -> end; [|done].
  apply quote_loop; [lia|lia| |].
  - unfold u32. lia.
  - intros j Hj. destruct (Z.lt_ge_cases j (len pre)).
    + apply Hg. lia.
    + assert (j = len pre \/ j = len pre + 1) as [->| ->] by lia; rewrite ?G0, ?G1; lia.
Qed.
Lemma find_may_diverge : exists b n k v mx,
  n = len b /\ is_cstring k [97; 98] /\ len v = mx /\ Json_findByKey b n k v mx = Diverge.
Proof.
  assert (exists pre, len pre = 2 ^ 32 - 2 /\ Forall (fun c : Z => c <> 97 /\ c <> 34) pre) as (pre & Hl & Hp).
  { exists (replicate (Z.to_nat (2 ^ 32 - 2)) 120). rewrite len_replicate. split; [lia|].
    by apply Forall_replicate. }
  exists (pre ++ [97; 98; 34]), (len pre + 3), [97; 98; 0], [0], 1. split.
  { rewrite len_app. done. }
  split; [exists []; split; [done|]; by repeat constructor|]. split; [done|]. by apply find_diverges.
Qed.
