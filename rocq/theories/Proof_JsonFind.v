(** * Proofs about the JSON search *)
From Verif Require Import CSem Lib Model_Json Spec_Json Drive_Json Proof_Utils Proof_Json.

(** [strncmp] with the whole key *)
Lemma strncmp_prefix k2 : forall p s k1 r i j, no_nul k2 -> i = len p -> j = len k1 ->
  (length k2 <= length s)%nat ->
  strncmp_eq (p ++ s) i (k1 ++ k2 ++ r) j (length k2) = Ok (bool_decide (k2 `prefix_of` s)).
Proof.
  induction k2 as [|c k2 IH]; intros p s k1 r i j Hk -> -> Hl.
  - cbn. rewrite bool_decide_true; [done|]. apply prefix_nil.
  - destruct s as [|d s]; [cbn in Hl; lia|]. apply list.Forall_cons in Hk as [Hc Hk].
    cbn [length strncmp_eq app]. rewrite !load_app by done. cbn [bind].
    destruct (Z.eqb_spec d c) as [->|Hdc].
    + destruct (Z.eqb_spec c 0); [done|].
      change (p ++ c :: s) with (p ++ [c] ++ s). change (k1 ++ c :: k2 ++ r) with (k1 ++ [c] ++ k2 ++ r).
      rewrite (app_assoc p), (app_assoc k1).
      rewrite IH; [|done|by rewrite len_app|by rewrite len_app|cbn in Hl; lia].
      f_equal. apply bool_decide_ext. split.
      * apply prefix_cons.
      * apply prefix_cons_inv_2.
    + rewrite bool_decide_false; [done|]. intros ?%prefix_cons_inv_1. congruence.
Qed.

(** [k] at position [i] of [b] *)
Definition at_pos (k b : list Z) (i : Z) : Prop := k `prefix_of` drop (Z.to_nat i) b.

Global Instance at_pos_dec k b i : Decision (at_pos k b i).
Proof. unfold at_pos. apply _. Defined.
Lemma at_pos_split k b i : 0 <= i -> i + len k <= len b ->
  at_pos k b i <-> exists q, b = take (Z.to_nat i) b ++ k ++ q.
Proof.
  intros Hi Hl. unfold at_pos. split.
  - intros (q & Hq). exists q. rewrite <- Hq. by rewrite take_drop.
  - intros (q & Hq). exists q. rewrite Hq at 1. apply drop_app_alt.
    rewrite take_length. unfold len in *; lia.
Qed.
Lemma at_pos_app p k q : at_pos k (p ++ k ++ q) (len p).
Proof. exists q. unfold len. by rewrite Nat2Z.id, drop_app. Qed.
Lemma at_pos_len k b i : 0 <= i <= len b -> at_pos k b i -> i + len k <= len b.
Proof.
  intros Hi (q & Hq). apply (f_equal length) in Hq. rewrite drop_length, app_length in Hq.
  unfold len in *; lia.
Qed.

(** json.c:117-129 *)
Lemma search_ok k b bb kr : no_nul k -> len b < 2 ^ 32 -> len k < len b ->
  exists i found,
    cwhile (S (S (length (b ++ bb))))
      (fun '(index, success) => index <? len b - len k)
      (fun '(index, success) =>
         let! eq := strncmp_eq (b ++ bb) index (k ++ 0 :: kr) 0 (Z.to_nat (len k)) in
         if (eq : bool) then
           let! c := load (b ++ bb) (u64 (index + len k)) in
           Ok (Break (index, if c =? 34 then true else success))
         else Ok (Next (u32 (index + 1), success)))
      (0, false) = Ok (i, found) /\
    (forall j, 0 <= j < i -> ~ at_pos k b j) /\ 0 <= i <= len b - len k /\
    (if found : bool then i < len b - len k /\ at_pos k b i /\ get b (i + len k) = 34
     else i < len b - len k -> at_pos k b i /\ get b (i + len k) <> 34).
Proof.
  intros Hk H32 Hkb. pose proof (len_nonneg k). pose proof (len_nonneg bb).
  while_rule
    (fun '(i, found) => found = false /\ 0 <= i <= len b - len k /\ forall j, 0 <= j < i -> ~ at_pos k b j)
    (fun '(i, found) => (forall j, 0 <= j < i -> ~ at_pos k b j) /\ 0 <= i <= len b - len k /\
      (if found : bool then i < len b - len k /\ at_pos k b i /\ get b (i + len k) = 34
       else i < len b - len k -> at_pos k b i /\ get b (i + len k) <> 34))
    (fun '(i, _) => len b - len k - i) st HQ.
  - split; [done|]. split; [lia|]. intros. lia.
  - rewrite app_length. unfold len in *; lia.
  - intros [i f] (-> & Hi & Hj) Hc. apply Z.ltb_lt in Hc.
    assert (strncmp_eq (b ++ bb) i (k ++ 0 :: kr) 0 (Z.to_nat (len k)) = Ok (bool_decide (at_pos k b i))) as ->.
    { replace (Z.to_nat (len k)) with (length k) by (unfold len; lia).
      replace (b ++ bb) with (take (Z.to_nat i) b ++ (drop (Z.to_nat i) b ++ bb))
        by by rewrite app_assoc, take_drop.
      rewrite (strncmp_prefix k _ _ [] (0 :: kr)); [|done|rewrite len_take; lia|done|].
      - f_equal. apply bool_decide_ext. unfold at_pos. split.
        + intros (q & Hq). exists (take (length (drop (Z.to_nat i) b) - length k) q).
          apply (f_equal (take (length (drop (Z.to_nat i) b)))) in Hq.
          rewrite take_app, take_app_ge in Hq; [done|]. rewrite drop_length. unfold len in *; lia.
        + intros (q & Hq). exists (q ++ bb). by rewrite Hq, <- app_assoc.
      - rewrite app_length, drop_length. unfold len in *; lia. }
    cbn [bind]. rewrite u64_small by lia. rewrite load_ok by (rewrite len_app; lia).
    rewrite get_app_l by lia. cbn [bind].
    destruct (bool_decide_reflect (at_pos k b i)) as [Ha|Ha].
    + right. eexists. split; [done|]. cbn beta iota. split; [done|]. split; [lia|].
      destruct (Z.eqb_spec (get b (i + len k)) 34) as [E|E]; [done|]. done.
    + left. rewrite u32_small by lia. eexists. split; [done|]. split; [|lia].
      split; [done|]. split; [lia|]. intros j Hj'. destruct (decide (j = i)) as [->|]; [done|].
      apply Hj. lia.
  - intros [i f] (-> & Hi & Hj) Hc. apply Z.ltb_ge in Hc. split; [done|]. split; [lia|]. lia.
  - destruct st as [i f]. exists i, f. done.
Qed.

(** json.c:134-139 *)
Lemma quote_ok b bb i0 : len b < 2 ^ 32 -> 0 <= i0 <= len b ->
  exists i,
    cwhile (S (S (length (b ++ bb))))
      (fun index => index <? len b)
      (fun index =>
         let! c := load (b ++ bb) index in
         if c =? 34 then Ok (Break index) else Ok (Next (u32 (index + 1))))
      i0 = Ok i /\
    i0 <= i <= len b /\ (forall j, i0 <= j < i -> get b j <> 34) /\ (i < len b -> get b i = 34).
Proof.
  intros H32 Hi0. pose proof (len_nonneg bb).
  while_rule (fun i => i0 <= i <= len b /\ (forall j, i0 <= j < i -> get b j <> 34))
    (fun i => i0 <= i <= len b /\ (forall j, i0 <= j < i -> get b j <> 34) /\ (i < len b -> get b i = 34))
    (fun i => len b - i) i HQ.
  - split; [lia|]. intros; lia.
  - rewrite app_length. unfold len in *; lia.
  - intros i (Hi & Hj) Hc. apply Z.ltb_lt in Hc. rewrite load_ok by (rewrite len_app; lia).
    rewrite get_app_l by lia. cbn [bind]. destruct (Z.eqb_spec (get b i) 34) as [E|E].
    + right. eexists. split; [done|]. done.
    + left. rewrite u32_small by lia. eexists. split; [done|]. split; [|lia]. split; [lia|].
      intros j Hj'. destruct (decide (j = i)) as [->|]; [done|]. apply Hj. lia.
  - intros i (Hi & Hj) Hc. apply Z.ltb_ge in Hc. split; [done|]. split; [done|]. lia.
  - exists i. done.
Qed.

(** json.c:141-155 *)
Lemma copy_ok b bb i0 val vb : len b < 2 ^ 32 -> 0 <= i0 -> len val < 2 ^ 64 ->
  exists val' vs i found,
    cwhile (S (S (length (b ++ bb))))
        (fun '(value, value_size, index, success) =>
           (index <? len b) && (value_size <? len val))
        (fun '(value, value_size, index, success) =>
           let! c := load (b ++ bb) index in
           let! value := store value value_size c in
           if c =? 34 then
             let! value := store value value_size 0 in
             Ok (Break (value, value_size, index, true))
           else Ok (Next (value, u64 (value_size + 1), u32 (index + 1), success)))
        (val ++ vb, 0, i0, false) = Ok (val' ++ vb, vs, i, found) /\
    0 <= vs <= len val /\ i = i0 + vs /\ (i <= len b \/ vs = 0) /\
    ~ In 34 (slice b i0 vs) /\
    (if found : bool then i < len b /\ vs < len val /\ get b i = 34 /\
       val' = slice b i0 vs ++ [0] ++ drop (S (Z.to_nat vs)) val
     else (len b <= i \/ vs = len val) /\ val' = slice b i0 vs ++ drop (Z.to_nat vs) val).
Proof.
  intros H32 Hi0 H64. pose proof (len_nonneg bb). pose proof (len_nonneg val).
  while_rule (fun '(value, vs, i, found) => found = false /\ 0 <= vs <= len val /\ i = i0 + vs /\
      (i <= len b \/ vs = 0) /\ ~ In 34 (slice b i0 vs) /\
      value = (slice b i0 vs ++ drop (Z.to_nat vs) val) ++ vb)
    (fun '(value, vs, i, found) => exists val', value = val' ++ vb /\
      0 <= vs <= len val /\ i = i0 + vs /\ (i <= len b \/ vs = 0) /\ ~ In 34 (slice b i0 vs) /\
    (if found : bool then i < len b /\ vs < len val /\ get b i = 34 /\
       val' = slice b i0 vs ++ [0] ++ drop (S (Z.to_nat vs)) val
     else (len b <= i \/ vs = len val) /\ val' = slice b i0 vs ++ drop (Z.to_nat vs) val))
    (fun '(value, vs, i, found) => Z.max 0 (len b - i)) st HQ.
  - split; [done|]. split; [lia|]. split; [lia|]. split; [by right|]. split; [intros []|]. done.
  - rewrite app_length. unfold len in *; lia.
  - intros [[[value vs] i] f] (-> & Hvs & -> & Hib & Hn34 & ->) Hc.
    apply andb_true_iff in Hc as [Hc1%Z.ltb_lt Hc2%Z.ltb_lt].
    rewrite load_ok by (rewrite len_app; lia). rewrite get_app_l by lia. cbn [bind].
    assert (len (slice b i0 vs) = vs) as Hls by (rewrite len_slice; lia).
    assert (exists x, drop (Z.to_nat vs) val = x :: drop (S (Z.to_nat vs)) val) as (x & Ex).
    { destruct (lookup_lt_is_Some_2 val (Z.to_nat vs)) as (x & Hx); [unfold len in *; lia|].
      exists x. by apply drop_S. }
    rewrite Ex, <- (app_assoc (slice b i0 vs)). cbn [app].
    rewrite store_app by done. cbn [bind].
    assert (slice b i0 (vs + 1) = slice b i0 vs ++ [get b (i0 + vs)]) as Esl.
    { unfold slice. replace (Z.to_nat (vs + 1)) with (S (Z.to_nat vs)) by lia.
      apply take_S_r. rewrite lookup_drop.
      replace (Z.to_nat i0 + Z.to_nat vs)%nat with (Z.to_nat (i0 + vs)) by lia. apply lookup_get. lia. }
    destruct (Z.eqb_spec (get b (i0 + vs)) 34) as [E|E].
    + right. rewrite store_app by done. cbn [bind]. eexists. split; [done|].
      exists (slice b i0 vs ++ [0] ++ drop (S (Z.to_nat vs)) val). cbn beta iota.
      split; [by rewrite <- !app_assoc|]. split; [lia|]. split; [done|]. split; [left; lia|].
      split; [done|]. done.
    + left. rewrite u64_small, u32_small by lia. eexists. split; [done|]. split; [|lia].
      split; [done|]. split; [lia|]. split; [lia|]. split; [left; lia|].
      rewrite Esl. split.
      * rewrite in_app_iff. intros [?|[?|[]]]; done.
      * rewrite <- !app_assoc. cbn [app]. do 3 f_equal.
        by replace (Z.to_nat (vs + 1)) with (S (Z.to_nat vs)) by lia.
  - intros [[[value vs] i] f] (-> & Hvs & -> & Hib & Hn34 & ->) Hc.
    exists (slice b i0 vs ++ drop (Z.to_nat vs) val). split; [done|]. split; [done|]. split; [done|].
    split; [done|]. split; [done|]. split; [|done].
    apply andb_false_iff in Hc as [Hc%Z.ltb_ge|Hc%Z.ltb_ge]; lia.
  - destruct st as [[[value vs] i] f]. destruct HQ as (val' & -> & HQ).
    exists val', vs, i, f. done.
Qed.

(** ** The results do not depend on what lies beyond the buffers *)

Lemma search_ok' k b : no_nul k -> len b < 2 ^ 32 -> len k < len b ->
  exists i found, (forall bb kr,
    cwhile (S (S (length (b ++ bb))))
      (fun '(index, success) => index <? len b - len k)
      (fun '(index, success) =>
         let! eq := strncmp_eq (b ++ bb) index (k ++ 0 :: kr) 0 (Z.to_nat (len k)) in
         if (eq : bool) then
           let! c := load (b ++ bb) (u64 (index + len k)) in
           Ok (Break (index, if c =? 34 then true else success))
         else Ok (Next (u32 (index + 1), success)))
      (0, false) = Ok (i, found)) /\
    (forall j, 0 <= j < i -> ~ at_pos k b j) /\ 0 <= i <= len b - len k /\
    (if found : bool then i < len b - len k /\ at_pos k b i /\ get b (i + len k) = 34
     else i < len b - len k -> at_pos k b i /\ get b (i + len k) <> 34).
Proof.
  intros Hk H32 Hkb.
  destruct (search_ok k b [] [] Hk H32 Hkb) as (i & f & _ & H1 & H2 & H3).
  exists i, f. split; [|done]. intros bb kr.
  destruct (search_ok k b bb kr Hk H32 Hkb) as (i' & f' & -> & H1' & H2' & H3').
  assert (i' = i) as ->.
  { destruct (Z.lt_trichotomy i i') as [Hlt|[->|Hlt]]; [|done|].
    - exfalso. apply (H1' i); [lia|]. destruct f; [apply H3|apply H3; lia].
    - exfalso. apply (H1 i'); [lia|]. destruct f'; [apply H3'|apply H3'; lia]. }
  destruct f, f'; try done; exfalso.
  - destruct H3 as (Hi & _ & HE). by destruct (H3' Hi).
  - destruct H3' as (Hi & _ & HE). by destruct (H3 Hi).
Qed.
Lemma quote_ok' b i0 : len b < 2 ^ 32 -> 0 <= i0 <= len b ->
  exists i, (forall bb,
    cwhile (S (S (length (b ++ bb))))
      (fun index => index <? len b)
      (fun index =>
         let! c := load (b ++ bb) index in
         if c =? 34 then Ok (Break index) else Ok (Next (u32 (index + 1))))
      i0 = Ok i) /\
    i0 <= i <= len b /\ (forall j, i0 <= j < i -> get b j <> 34) /\ (i < len b -> get b i = 34).
Proof.
  intros H32 Hi0. destruct (quote_ok b [] i0 H32 Hi0) as (i & _ & H1 & H2 & H3).
  exists i. split; [|done]. intros bb.
  destruct (quote_ok b bb i0 H32 Hi0) as (i' & -> & H1' & H2' & H3'). f_equal.
  destruct (Z.lt_trichotomy i i') as [Hlt|[->|Hlt]]; [|done|]; exfalso.
  - apply (H2' i); [lia|]. apply H3; lia.
  - apply (H2 i'); [lia|]. apply H3'; lia.
Qed.

(** what the last loop makes of [val] when [w] is what is left of the buffer *)
Definition copies (w val : list Z) (r : bool) (val' : list Z) : Prop :=
  exists v, ~ In 34 v /\ len v <= len val /\
    ((r = true /\ (exists post, w = v ++ 34 :: post) /\ len v < len val /\ val' = put v val) \/
     (r = false /\ (exists post, w = v ++ post /\ (post = [] \/ len v = len val)) /\
      val' = v ++ drop (length v) val)).
Lemma split_at_quote (a b x y : list Z) : ~ In 34 a -> ~ In 34 b -> a ++ 34 :: x = b ++ 34 :: y ->
  a = b /\ x = y.
Proof.
  revert b. induction a as [|c a IH]; intros [|d b] Ha Hb HE; cbn in *.
  - by injection HE.
  - injection HE as <- _. tauto.
  - injection HE as -> _. tauto.
  - injection HE as <- HE. destruct (IH b) as [-> ->]; [tauto|tauto|done|done].
Qed.
Lemma split_no_quote (a b : list Z) y : ~ In 34 a -> a <> b ++ 34 :: y.
Proof. intros Ha ->. apply Ha. rewrite in_app_iff. right. by left. Qed.
Lemma app_same_len {A} (a b x y : list A) : a ++ x = b ++ y -> length a = length b -> a = b /\ x = y.
Proof. intros HE HL. by apply app_inj_1. Qed.

Lemma copies_fun w val r1 v1 r2 v2 : copies w val r1 v1 -> copies w val r2 v2 -> r1 = r2 /\ v1 = v2.
Proof.
  intros (a & Ha & Hla & HA) (b & Hb & Hlb & HB).
  destruct HA as [(-> & (x & Ex) & Hxl & ->)|(-> & (x & Ex & Hx) & ->)],
    HB as [(-> & (y & Ey) & Hyl & ->)|(-> & (y & Ey & Hy) & ->)].
  - destruct (split_at_quote a b x y) as [-> _]; [done|done|congruence|done].
  - exfalso. destruct Hy as [->|Hy].
    + apply (split_no_quote b a x Hb). rewrite app_nil_r in Ey. congruence.
    + assert (a ++ 34 :: x = b ++ y) as HE by congruence.
      apply (f_equal (take (length b))) in HE. rewrite take_app in HE.
      rewrite take_app_ge in HE by (unfold len in *; lia).
      destruct (length b - length a)%nat eqn:E; [unfold len in *; lia|]. cbn in HE.
      apply (split_no_quote b a _ Hb (eq_sym HE)).
  - exfalso. destruct Hx as [->|Hx].
    + apply (split_no_quote a b y Ha). rewrite app_nil_r in Ex. congruence.
    + assert (b ++ 34 :: y = a ++ x) as HE by congruence.
      apply (f_equal (take (length a))) in HE. rewrite take_app in HE.
      rewrite take_app_ge in HE by (unfold len in *; lia).
      destruct (length a - length b)%nat eqn:E; [unfold len in *; lia|]. cbn in HE.
      apply (split_no_quote a b _ Ha (eq_sym HE)).
  - assert (a = b) as ->; [|done]. rewrite Ex in Ey.
    destruct (decide (length a = length b)) as [E|E]; [by apply (app_same_len a b x y)|].
    assert (length a + length x = length b + length y)%nat as EL.
    { rewrite <- !app_length. by f_equal. }
    unfold len in *. destruct Hx as [->|Hx], Hy as [->|Hy]; cbn in *; lia.
Qed.
Lemma copies_len w val r val' : copies w val r val' -> len val' = len val.
Proof.
  intros (v & _ & Hl & [(-> & _ & Hl' & ->)|(-> & _ & ->)]).
  - apply put_len. lia.
  - rewrite len_app, len_drop. unfold len in *; lia.
Qed.

Lemma copy_ok' b i0 val : len b < 2 ^ 32 -> 0 <= i0 -> len val < 2 ^ 64 ->
  exists val' found, (forall bb vb, exists vs i,
    cwhile (S (S (length (b ++ bb))))
        (fun '(value, value_size, index, success) =>
           (index <? len b) && (value_size <? len val))
        (fun '(value, value_size, index, success) =>
           let! c := load (b ++ bb) index in
           let! value := store value value_size c in
           if c =? 34 then
             let! value := store value value_size 0 in
             Ok (Break (value, value_size, index, true))
           else Ok (Next (value, u64 (value_size + 1), u32 (index + 1), success)))
        (val ++ vb, 0, i0, false) = Ok (val' ++ vb, vs, i, found)) /\
    copies (drop (Z.to_nat i0) b) val found val'.
Proof.
  intros H32 Hi0 H64.
  assert (forall val' vs i (found : bool), 0 <= vs <= len val /\ i = i0 + vs /\ (i <= len b \/ vs = 0) /\
    ~ In 34 (slice b i0 vs) /\
    (if found then i < len b /\ vs < len val /\ get b i = 34 /\
       val' = slice b i0 vs ++ [0] ++ drop (S (Z.to_nat vs)) val
     else (len b <= i \/ vs = len val) /\ val' = slice b i0 vs ++ drop (Z.to_nat vs) val) ->
    copies (drop (Z.to_nat i0) b) val found val') as HC.
  { intros val' vs i found (Hvs & -> & Hib & Hn & HF). exists (slice b i0 vs). split; [done|].
    assert (drop (Z.to_nat i0) b = slice b i0 vs ++ drop (Z.to_nat (i0 + vs)) b) as Ed.
    { unfold slice. rewrite <- (take_drop (Z.to_nat vs) (drop (Z.to_nat i0) b)) at 1.
      rewrite drop_drop. do 2 f_equal. lia. }
    assert (length (slice b i0 vs) = Z.to_nat vs) as Hls.
    { unfold slice. rewrite take_length, drop_length. unfold len in *.
      destruct Hib as [Hib| ->]; [lia|]. cbn. done. }
    split; [unfold len in *; lia|]. destruct found.
    - left. destruct HF as (Hi & Hv & HE & ->). split; [done|]. split; [|split; [unfold len in *; lia|]].
      + exists (drop (S (Z.to_nat (i0 + vs))) b). rewrite Ed. f_equal.
        apply drop_S. rewrite <- HE. apply lookup_get. lia.
      + unfold put. by rewrite Hls.
    - right. destruct HF as (Hend & ->). split; [done|]. rewrite Hls. split; [|done].
      exists (drop (Z.to_nat (i0 + vs)) b). split; [done|]. destruct Hend as [Hend|Hend].
      + left. apply drop_ge. unfold len in *; lia.
      + right. unfold len in *; lia. }
  destruct (copy_ok b [] i0 val [] H32 Hi0 H64) as (val' & vs & i & f & _ & HF).
  apply HC in HF. exists val', f. split; [|done]. intros bb vb.
  destruct (copy_ok b bb i0 val vb H32 Hi0 H64) as (val2 & vs2 & i2 & f2 & -> & HF2).
  apply HC in HF2. destruct (copies_fun _ _ _ _ _ _ HF HF2) as [-> ->]. eauto.
Qed.

(** ** The whole search *)

Lemma first_at p k q p' q' : p ++ k ++ q = p' ++ k ++ q' -> first_occurrence p k q ->
  first_occurrence p' k q' -> p = p' /\ q = q'.
Proof.
  intros HE H1 H2. pose proof (H1 _ _ HE). pose proof (H2 _ _ (eq_sym HE)).
  destruct (app_same_len _ _ _ _ HE) as [-> HE']; [lia|]. split; [done|].
  by apply app_inv_head in HE'.
Qed.
Lemma tail_unique b k w w' : has_tail b k w -> has_tail b k w' -> w = w'.
Proof.
  intros (p & mid & -> & H1 & Hm) (p' & mid' & HE & H1' & Hm').
  destruct (first_at _ _ _ _ _ HE H1 H1') as [-> HE2]. cbn [app] in HE2. injection HE2 as HE2.
  by destruct (split_at_quote mid mid' w w').
Qed.
Lemma first_pos b k p q : b = p ++ k ++ q ->
  first_occurrence p k q <-> forall j, 0 <= j < len p -> ~ at_pos k b j.
Proof.
  intros ->. split.
  - intros HF j Hj (q' & Hq). specialize (HF (take (Z.to_nat j) (p ++ k ++ q)) q').
    rewrite <- Hq, take_drop in HF. specialize (HF eq_refl). rewrite take_length in HF.
    unfold len in Hj. lia.
  - intros HN p' q' HE. destruct (decide (length p' < length p)%nat) as [Hlt|]; [|lia].
    exfalso. apply (HN (len p')); [unfold len; lia|]. rewrite HE. apply at_pos_app.
Qed.

(** the first quoted occurrence is at [i] *)
Lemma search_found k b i : (forall j, 0 <= j < i -> ~ at_pos k b j) -> 0 <= i < len b - len k ->
  at_pos k b i -> get b (i + len k) = 34 ->
  b = take (Z.to_nat i) b ++ k ++ 34 :: drop (Z.to_nat (i + len k + 1)) b /\
  first_occurrence (take (Z.to_nat i) b) k (34 :: drop (Z.to_nat (i + len k + 1)) b).
Proof.
  intros HN Hi Ha HE. pose proof (len_nonneg k). assert (exists q, b = take (Z.to_nat i) b ++ k ++ q) as (q & Hq).
  { apply at_pos_split; [lia|lia|done]. }
  assert (q = 34 :: drop (Z.to_nat (i + len k + 1)) b) as Eq.
  { replace q with (drop (Z.to_nat (i + len k)) b).
    - replace (Z.to_nat (i + len k + 1)) with (S (Z.to_nat (i + len k))) by lia.
      apply drop_S. rewrite <- HE. apply lookup_get. lia.
    - rewrite Hq at 1. rewrite app_assoc. apply drop_app_alt. rewrite app_length, take_length.
      unfold len in *; lia. }
  rewrite <- Eq. split; [done|]. apply (first_pos b); [done|]. intros j Hj. apply HN.
  rewrite len_take in Hj. lia.
Qed.

Lemma find_core b k val : no_nul k -> len b < 2 ^ 32 -> len val < 2 ^ 64 ->
  exists r val', (forall key bb vb, is_cstring key k ->
      Json_findByKey (b ++ bb) (len b) key (val ++ vb) (len val) = Ok (r, val' ++ vb)) /\
    ((r = false /\ val' = val /\ (forall w, ~ has_tail b k w) /\
      (forall p q, b = p ++ k ++ 34 :: q -> first_occurrence p k (34 :: q) -> len b <> 2 ^ 32 - 1)) \/
     (exists w, copies w val r val' /\
       (has_tail b k w \/ (len b = 2 ^ 32 - 1 /\ w = b /\ (forall w', ~ has_tail b k w') /\
         exists p q, b = p ++ k ++ 34 :: q /\ first_occurrence p k (34 :: q))))).
Proof.
  intros Hk H32 H64. pose proof (len_nonneg k) as Hk0. pose proof (len_nonneg b) as Hb0.
  pose proof (len_nonneg val) as Hv0.
  destruct (Z.ltb_spec (len k) (len b)) as [Hkb|Hkb].
  2:{ exists false, val. split.
      - intros key bb vb Hkey. unfold Json_findByKey. rewrite (strlen_cstring key k) by done. cbn [bind].
        destruct (Z.ltb_spec (len k) (len b)); [lia|]. cbn [cwhile]. change (0 <? 0) with false. done.
      - assert (forall p q, b <> p ++ k ++ 34 :: q) as Hno.
        { intros p q ->. rewrite !len_app, len_cons in Hkb. pose proof (len_nonneg p).
          pose proof (len_nonneg q). lia. }
        left. split; [done|]. split; [done|]. split.
        + intros w (p & mid & Eb & _). by apply Hno in Eb.
        + intros p q Eb. by apply Hno in Eb. }
  destruct (search_ok' k b Hk H32 Hkb) as (i & f & HS & HN & Hi & HF).
  assert (forall key bb vb, is_cstring key k ->
    Json_findByKey (b ++ bb) (len b) key (val ++ vb) (len val)
    = if f then
        let! index := cwhile (S (S (length (b ++ bb))))
          (fun index => index <? len b)
          (fun index =>
           let! c := load (b ++ bb) index in
           if c =? 34 then Ok (Break index) else Ok (Next (u32 (index + 1))))
          (i + len k + 1) in
        let! '(value, _, _, success) :=
      cwhile (S (S (length (b ++ bb))))
        (fun '(value, value_size, index, success) =>
           (index <? len b) && (value_size <? len val))
        (fun '(value, value_size, index, success) =>
           let! c := load (b ++ bb) index in
           let! value := store value value_size c in
           if c =? 34 then
             let! value := store value value_size 0 in
             Ok (Break (value, value_size, index, true))
           else Ok (Next (value, u64 (value_size + 1), u32 (index + 1), success)))
        (val ++ vb, 0, u32 (index + 1), false) in
        Ok (success, value)
      else Ok (false, val ++ vb)) as HR.
  { intros key bb vb Hkey. unfold Json_findByKey. rewrite (strlen_cstring key k) by done. cbn [bind].
    destruct (Z.ltb_spec (len k) (len b)); [|lia]. rewrite (u32_small (len b - len k)) by lia.
    destruct Hkey as (kr & -> & _). rewrite HS. cbn [bind]. destruct f; [|done].
    rewrite (u64_small (len k + 1)), (u32_small (len k + 1)), (u32_small (i + (len k + 1))) by lia.
    by rewrite Z.add_assoc. }
  destruct f.
  2:{ exists false, val. split; [done|]. left. split; [done|]. split; [done|].
      assert (forall p q, b = p ++ k ++ 34 :: q -> ~ first_occurrence p k (34 :: q)) as Hno.
      { intros p q Eb Hf. pose proof (len_nonneg p).
        assert (len p < len b - len k).
        { rewrite Eb, !len_app, len_cons. pose proof (len_nonneg q). lia. }
        assert (i <= len p) as Hip.
        { destruct (decide (i <= len p)); [done|]. exfalso. apply (HN (len p)); [lia|].
          rewrite Eb. apply at_pos_app. }
        destruct HF as [Ha H34]; [lia|].
        assert (i = len p) as ->.
        { destruct (decide (i = len p)); [done|]. exfalso.
          apply (proj1 (first_pos b k p _ Eb) Hf i); [lia|done]. }
        apply H34. rewrite Eb, app_assoc.
        replace (len p + len k) with (len (p ++ k)) by apply len_app.
        apply get_lookup; [apply len_nonneg|]. unfold len. rewrite Nat2Z.id.
        rewrite lookup_app_r by lia. by rewrite Nat.sub_diag. }
      split.
      - intros w (p & mid & Eb & Hf & _). by apply (Hno p (mid ++ [34] ++ w)).
      - intros p q Eb Hf. by apply Hno in Eb. }
  destruct HF as (Hi' & Ha & H34).
  destruct (search_found k b i HN) as [Eb Hfirst]; [lia|done|done|].
  destruct (quote_ok' b (i + len k + 1) H32) as (i2 & HQ & Hi2 & HQn & HQe); [lia|].
  destruct (copy_ok' b (u32 (i2 + 1)) val H32) as (val' & r & HC & Hcop);
    [pose proof (u32_range (i2 + 1)); lia|done|].
  exists r, val'. split.
  { intros key bb vb Hkey. rewrite HR by done. rewrite HQ. cbn [bind].
    destruct (HC bb vb) as (vs & ii & ->). done. }
  set (i1 := i + len k + 1) in *.
  assert (~ In 34 (slice b i1 (i2 - i1))) as Hmid.
  { intros Hin. apply elem_of_list_In, elem_of_list_lookup in Hin as (j & Hj).
    pose proof (lookup_lt_Some _ _ _ Hj) as Hjl. unfold slice in Hjl. rewrite take_length, drop_length in Hjl.
    unfold slice in Hj. rewrite lookup_take in Hj by lia. rewrite lookup_drop in Hj.
    apply (HQn (i1 + Z.of_nat j)); [lia|]. apply get_lookup; [lia|].
    by replace (Z.to_nat (i1 + Z.of_nat j)) with (Z.to_nat i1 + j)%nat by lia. }
  assert (drop (Z.to_nat i1) b = slice b i1 (i2 - i1) ++ drop (Z.to_nat i2) b) as Ed.
  { unfold slice. rewrite <- (take_drop (Z.to_nat (i2 - i1)) (drop (Z.to_nat i1) b)) at 1.
    rewrite drop_drop. do 2 f_equal. lia. }
  destruct (Z.ltb_spec i2 (len b)) as [Hlt|Hge].
  - right. exists (drop (Z.to_nat (i2 + 1)) b). rewrite u32_small in Hcop by lia. split; [done|]. left.
    assert (drop (Z.to_nat i2) b = 34 :: drop (Z.to_nat (i2 + 1)) b) as Ed2.
    { replace (Z.to_nat (i2 + 1)) with (S (Z.to_nat i2)) by lia. apply drop_S.
      rewrite <- HQe by done. apply lookup_get. lia. }
    rewrite Ed, Ed2 in Eb, Hfirst.
    exists (take (Z.to_nat i) b), (slice b i1 (i2 - i1)). done.
  - assert (i2 = len b) as -> by lia.
    assert (forall w, ~ has_tail b k w) as Hnt.
    { intros w (p' & mid' & Eb' & Hf' & _). rewrite Eb in Eb'.
      destruct (first_at _ _ _ _ _ Eb' Hfirst Hf') as [_ HE]. cbn [app] in HE. injection HE as HE.
      rewrite Ed, drop_ge, app_nil_r in HE by (unfold len; lia).
      by apply (split_no_quote _ _ _ Hmid) in HE. }
    destruct (decide (len b = 2 ^ 32 - 1)) as [Hwrap|Hnw].
    + right. exists b. assert (u32 (len b + 1) = 0) as E0 by (rewrite Hwrap; done).
      rewrite E0 in Hcop. split; [done|]. right. split; [done|]. split; [done|]. split; [done|]. eauto.
    + left. rewrite u32_small in Hcop by lia. rewrite drop_ge in Hcop by (unfold len; lia).
      assert (copies [] val false val) as Hc0.
      { exists []. split; [intros []|]. split; [done|]. right. split; [done|]. split; [|done].
        exists []. split; [done|by left]. }
      destruct (copies_fun _ _ _ _ _ _ Hcop Hc0) as [-> ->]. done.
Qed.
