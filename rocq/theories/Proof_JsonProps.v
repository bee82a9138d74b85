(** * The properties of the JSON functions *)
From Verif Require Import CSem Lib Model_Json Spec_Json Drive_Json Proof_Utils Proof_Json Proof_JsonFind.

Lemma key_no_nul key k : is_cstring key k -> no_nul k.
Proof. by intros (? & _ & ?). Qed.

(** ** The search *)

Lemma find_safe b k val : no_nul k -> len b < 2 ^ 32 -> len val < 2 ^ 64 ->
  exists r val', len val' = len val /\ forall key bb vb, is_cstring key k ->
    Json_findByKey (b ++ bb) (len b) key (val ++ vb) (len val) = Ok (r, val' ++ vb).
Proof.
  intros Hk Hb Hv. destruct (find_core b k val Hk Hb Hv) as (r & val' & HR & HC).
  exists r, val'. split; [|done].
  destruct HC as [(-> & -> & _)|(w & Hw%copies_len & _)]; done.
Qed.

Lemma has_value_tail b k v : has_value b k v <-> ~ In 34 v /\ exists post, has_tail b k (v ++ 34 :: post).
Proof.
  split.
  - intros (p & mid & post & -> & Hf & Hm & Hv). split; [done|]. exists post, p, mid. done.
  - intros (Hv & post & p & mid & -> & Hf & Hm). exists p, mid, post. done.
Qed.
Lemma has_value_unique b k v v' : has_value b k v -> has_value b k v' -> v = v'.
Proof.
  rewrite !has_value_tail. intros (Hv & post & Ht) (Hv' & post' & Ht').
  pose proof (tail_unique _ _ _ _ Ht Ht') as HE. by destruct (split_at_quote _ _ _ _ Hv Hv' HE).
Qed.

Section find.
  Context (b k val key bb vb : list Z).
  Context (Hkey : is_cstring key k) (Hb : len b < 2 ^ 32) (Hv : len val < 2 ^ 64).

  Local Notation find := (Json_findByKey (b ++ bb) (len b) key (val ++ vb) (len val)).

  Lemma find_tail w r val' : has_tail b k w -> copies w val r val' -> find = Ok (r, val' ++ vb).
  Proof.
    intros Hw Hc. destruct (find_core b k val) as (r1 & v1 & HR & HC); [by eapply key_no_nul|done|done|].
    rewrite HR by done. destruct HC as [(_ & _ & HN & _)|(w1 & Hc1 & [Hw1|(_ & _ & HN & _)])].
    - by apply HN in Hw.
    - pose proof (tail_unique _ _ _ _ Hw Hw1) as <-.
      by destruct (copies_fun _ _ _ _ _ _ Hc Hc1) as [-> ->].
    - by apply HN in Hw.
  Qed.
  Lemma find_value v : has_value b k v -> len v < len val -> find = Ok (true, put v val ++ vb).
  Proof.
    intros (Hq & post & Ht)%has_value_tail Hl. apply (find_tail _ _ _ Ht).
    exists v. split; [done|]. split; [lia|]. left. eauto.
  Qed.
  Lemma find_long v : has_value b k v -> len val <= len v -> find = Ok (false, take (length val) v ++ vb).
  Proof.
    intros (Hq & post & Ht)%has_value_tail Hl. apply (find_tail _ _ _ Ht).
    assert (len (take (length val) v) = len val) as HL by (rewrite len_take; unfold len in *; lia).
    exists (take (length val) v). split.
    - intros Hin. apply Hq. rewrite <- (take_drop (length val) v), in_app_iff. by left.
    - split; [lia|]. right. split; [done|]. split.
      + exists (drop (length val) v ++ 34 :: post). split; [|by right].
        by rewrite app_assoc, take_drop.
      + rewrite drop_ge, app_nil_r; [done|]. unfold len in HL; lia.
  Qed.
  Lemma find_unterminated w : has_tail b k w -> ~ In 34 w ->
    find = Ok (false, (take (length val) w ++ drop (length w) val) ++ vb).
  Proof.
    intros Ht Hq. apply (find_tail _ _ _ Ht). exists (take (length val) w). split.
    - intros Hin. apply Hq. rewrite <- (take_drop (length val) w), in_app_iff. by left.
    - split; [rewrite len_take; unfold len; lia|]. right. split; [done|].
      destruct (decide (length w <= length val)%nat) as [Hle|Hgt].
      + rewrite take_ge by lia. split; [|done]. exists []. rewrite app_nil_r. split; [done|by left].
      + split.
        * exists (drop (length val) w). rewrite take_drop. split; [done|]. right.
          rewrite len_take. unfold len; lia.
        * f_equal. rewrite take_length. rewrite !drop_ge by lia. done.
  Qed.
  Lemma find_none : len b < 2 ^ 32 - 1 -> (forall w, ~ has_tail b k w) -> find = Ok (false, val ++ vb).
  Proof.
    intros Hb' HN. destruct (find_core b k val) as (r1 & v1 & HR & HC); [by eapply key_no_nul|done|done|].
    rewrite HR by done. destruct HC as [(-> & -> & _)|(w1 & Hc1 & [Hw1|(HE & _)])]; [done| |lia].
    by apply HN in Hw1.
  Qed.
  Lemma find_absent : ~ occurs k b -> find = Ok (false, val ++ vb).
  Proof.
    intros HN. destruct (find_core b k val) as (r1 & v1 & HR & HC); [by eapply key_no_nul|done|done|].
    rewrite HR by done. destruct HC as [(-> & -> & _)|(w1 & Hc1 & [Hw1|(_ & _ & _ & p & q & Eb & _)])]; [done| |].
    - exfalso. apply HN. destruct Hw1 as (p & mid & -> & _). by eexists _, _.
    - exfalso. apply HN. by eexists _, _.
  Qed.
  Lemma find_iff value' : len b < 2 ^ 32 - 1 ->
    find = Ok (true, value') <-> exists v, has_value b k v /\ len v < len val /\ value' = put v val ++ vb.
  Proof.
    intros Hb'. split.
    - intros HF. destruct (find_core b k val) as (r1 & v1 & HR & HC); [by eapply key_no_nul|done|done|].
      rewrite HR in HF by done. injection HF as -> <-.
      destruct HC as [(? & _)|(w1 & (v & Hv34 & _ & Hc) & [Hw1|(HE & _)])]; [done| |lia].
      destruct Hc as [(_ & (post & ->) & Hl & ->)|(? & _)]; [|done].
      exists v. split; [|done]. apply has_value_tail. eauto.
    - intros (v & Hh & Hl & ->). by apply find_value.
  Qed.
End find.

(** the search wraps round at 2^32 *)
Lemma zeros n : 0 <= n -> exists z : list Z, len z = n /\ ~ In 34 z.
Proof.
  intros Hn. exists (replicate (Z.to_nat n) 0). split.
  - rewrite len_replicate. lia.
  - intros Hin%elem_of_list_In. by apply elem_of_replicate in Hin as [? _].
Qed.
Lemma find_wrap : exists b k val val', len b = 2 ^ 32 - 1 /\ no_nul k /\
  (forall v, ~ has_value b k v) /\
  Json_findByKey b (len b) (k ++ [0]) val (len val) = Ok (true, val').
Proof.
  destruct (zeros (2 ^ 32 - 3)) as (z & Hz & Hnz); [lia|].
  exists ([97; 34] ++ z), [97], [1; 1; 1], [97; 0; 1].
  assert (len ([97; 34] ++ z) = 2 ^ 32 - 1) as Hl by (rewrite len_app, Hz; done).
  assert (no_nul [97]) as Hk by nn.
  assert (first_occurrence [] [97] (34 :: z)) as Hf by (intros p q _; cbn; lia).
  assert (forall w, ~ has_tail ([97; 34] ++ z) [97] w) as Hnt.
  { intros w (p & mid & Eb & Hf' & _). change ([97; 34] ++ z) with ([] ++ [97] ++ 34 :: z) in Eb.
    destruct (first_at _ _ _ _ _ Eb Hf Hf') as [<- HE]. injection HE as HE.
    by apply (split_no_quote _ _ _ Hnz) in HE. }
  split; [done|]. split; [done|]. split.
  { intros v (_ & post & Ht)%has_value_tail. by apply Hnt in Ht. }
  destruct (find_core ([97; 34] ++ z) [97] [1; 1; 1]) as (r & val' & HR & HC);
    [done|rewrite Hl; lia|done|].
  specialize (HR ([97] ++ [0]) [] []). rewrite !app_nil_r in HR. rewrite HR by (by exists []).
  destruct HC as [(_ & _ & _ & HA)|(w & Hc & [Ht|(_ & -> & _)])].
  - exfalso. by apply (HA [] z).
  - by apply Hnt in Ht.
  - assert (copies ([97; 34] ++ z) [1; 1; 1] true [97; 0; 1]) as Hc'.
    { exists [97]. split; [intros [?|[]]; done|]. split; [done|]. left. split; [done|].
      split; [by exists z|]. done. }
    by destruct (copies_fun _ _ _ _ _ _ Hc Hc') as [-> ->].
Qed.

(** ** Built texts *)

Definition lead (kvs : list (list Z * list Z)) : list Z :=
  [123] ++ concat (map (fun kv => pair_text kv ++ [44]) kvs).
Lemma members_cons kv kvs : members (kv :: kvs)
  = pair_text kv ++ match kvs with [] => [] | _ => [44] ++ members kvs end.
Proof. destruct kvs; cbn [members]; [by rewrite app_nil_r|done]. Qed.
Lemma json_split pre k v post : exists after,
  json_text (pre ++ (k, v) :: post) = lead pre ++ [34] ++ k ++ [34] ++ [58] ++ [34] ++ v ++ [34] ++ after.
Proof.
  assert (exists after, members (pre ++ (k, v) :: post)
    = concat (map (fun kv => pair_text kv ++ [44]) pre) ++ pair_text (k, v) ++ after) as (after & HM).
  { induction pre as [|kv pre (after & IH)].
    - cbn [app map concat]. rewrite members_cons. eauto.
    - exists after. cbn [app map concat]. rewrite members_cons.
      destruct (pre ++ (k, v) :: post) eqn:E; [by destruct pre|]. rewrite IH.
      by rewrite <- !app_assoc. }
  exists (after ++ [125]). unfold json_text, lead. rewrite HM. unfold pair_text. cbn [fst snd].
  rewrite <- !app_assoc. done.
Qed.

Lemma occurs_split_at x (k a b : list Z) : ~ In x k -> occurs k (a ++ x :: b) -> occurs k a \/ occurs k b.
Proof.
  intros Hk (p & q & HE). revert p HE. induction a as [|c a IH]; intros p HE.
  - destruct p as [|d p].
    + destruct k as [|e k].
      * left. by exists [], [].
      * cbn in HE. injection HE as <- _. exfalso. apply Hk. by left.
    + right. cbn in HE. injection HE as _ HE. by exists p, q.
  - destruct p as [|d p].
    + left. cbn [app] in HE. destruct (decide (length k <= length (c :: a))%nat) as [Hle|Hgt].
      * exists [], (drop (length k) (c :: a)). cbn [app]. 
        apply (f_equal (take (length k))) in HE. rewrite take_app in HE.
        change (c :: a ++ x :: b) with ((c :: a) ++ x :: b) in HE.
        rewrite take_app_le in HE by done. rewrite <- HE at 1. by rewrite take_drop.
      * exfalso. apply Hk. apply (f_equal (take (length k))) in HE. rewrite take_app in HE.
        change (c :: a ++ x :: b) with ((c :: a) ++ x :: b) in HE.
        rewrite take_app_ge in HE by lia.
        destruct (length k - length (c :: a))%nat eqn:E; [lia|]. rewrite <- HE. cbn [take].
        rewrite in_app_iff. right. by left.
    + cbn in HE. injection HE as -> HE. destruct (IH p HE) as [(p' & q' & ->)|?]; [|by right].
      left. by exists (d :: p'), q'.
Qed.
Definition occurs_split := occurs_split_at 34.
Lemma occurs_single (k : list Z) c : k <> [] -> occurs k [c] -> k = [c].
Proof.
  intros Hk (p & q & HE). destruct p as [|d p].
  - destruct k as [|e k]; [done|]. cbn in HE. injection HE as <- HE.
    symmetry in HE. by apply app_eq_nil in HE as [-> ->].
  - cbn in HE. injection HE as _ HE. symmetry in HE. apply app_eq_nil in HE as [_ HE].
    by apply app_eq_nil in HE as [-> _].
Qed.

(** where a key without quotes can occur in what precedes a pair: [c] is a brace or a comma *)
Lemma occurs_pairs kvs k c rest : ~ In 34 k -> k <> [] ->
  occurs k (c :: concat (map (fun kv => pair_text kv ++ [44]) kvs) ++ rest) ->
  k = [c] \/ Exists (fun kv => occurs k (fst kv) \/ occurs k (snd kv)) kvs \/
  (kvs <> [] /\ k = [58]) \/ occurs k ((if decide (kvs = []) then c else 44) :: rest).
Proof.
  intros Hq Hne. revert c. induction kvs as [|[k1 v1] kvs IH]; intros c Ho.
  - right. right. right. done.
  - cbn [map concat] in Ho. unfold pair_text in Ho at 1. cbn [fst snd] in Ho.
    rewrite <- !app_assoc in Ho. cbn [app] in Ho.
    match type of Ho with occurs k (c :: 34 :: ?x) => change (c :: 34 :: x) with ([c] ++ 34 :: x) in Ho end.
    apply occurs_split in Ho as [Ho|Ho]; [left; by apply occurs_single| |done].
    apply occurs_split in Ho as [Ho|Ho]; [right; left; constructor; by left| |done].
    match type of Ho with occurs k (58 :: 34 :: ?x) => change (58 :: 34 :: x) with ([58] ++ 34 :: x) in Ho end.
    apply occurs_split in Ho as [Ho|Ho]; [right; right; left; split; [done|by apply occurs_single]| |done].
    apply occurs_split in Ho as [Ho|Ho]; [right; left; constructor; by right| |done].
    apply IH in Ho as [->|[Ho|[(_ & ->)|Ho]]].
    + right. right. right. destruct (decide ((k1, v1) :: kvs = [])); [discriminate|]. by exists [], rest.
    + right. left. by constructor 2.
    + right. right. by left.
    + right. right. right. destruct (decide ((k1, v1) :: kvs = [])); [discriminate|]. by destruct (decide (kvs = [])).
Qed.
Lemma occurs_lead kvs k : ~ In 34 k -> k <> [] -> occurs k (lead kvs) ->
  k = [123] \/ Exists (fun kv => occurs k (fst kv) \/ occurs k (snd kv)) kvs \/
  (kvs <> [] /\ (k = [58] \/ k = [44])).
Proof.
  intros Hq Hne Ho. unfold lead in Ho. rewrite <- (app_nil_r (concat _)) in Ho.
  apply occurs_pairs in Ho as [->|[Ho|[(? & ->)|Ho]]]; [by left| | | |done|done].
  - by right; left.
  - right. right. split; [done|by left].
  - apply occurs_single in Ho; [|done]. destruct (decide (kvs = [])); [by left|].
    right. right. split; [done|by right].
Qed.

Lemma built_value pre k v post rest : ~ In 34 k -> ~ In 34 v -> k <> [] -> k <> [123] ->
  Forall (fun kv => ~ occurs k (fst kv) /\ ~ occurs k (snd kv)) pre ->
  (pre <> [] -> k <> [58] /\ k <> [44]) ->
  has_value (json_text (pre ++ (k, v) :: post) ++ rest) k v.
Proof.
  intros Hk Hv Hne Hb Hpre Hsep. destruct (json_split pre k v post) as (after & ->).
  exists (lead pre ++ [34]), [58], (after ++ rest). rewrite <- !app_assoc.
  split; [done|]. split; [|split; [|done]].
  - intros p' q' HE. destruct (decide (length p' < length (lead pre ++ [34%Z]))%nat) as [Hlt|]; [|lia].
    exfalso. rewrite app_length in Hlt. cbn [length] in Hlt.
    assert (exists r, lead pre = p' ++ r) as (r & Er).
    { exists (drop (length p') (lead pre)). apply (f_equal (take (length p'))) in HE.
      rewrite take_app, <- app_assoc, take_app_le in HE by lia. rewrite <- HE at 1. by rewrite take_drop. }
    rewrite Er, <- !app_assoc in HE. apply app_inv_head in HE.
    assert (occurs k r) as Ho.
    { destruct (occurs_split k r []) as [?|(p & q & Hn)]; [done| |done|].
      - exists [], (drop (length k) (r ++ [34])). cbn [app].
        destruct (decide (length k <= length r)%nat) as [Hle|Hgt].
        + apply (f_equal (take (length k))) in HE. rewrite take_app, take_app_le in HE by done.
          rewrite <- HE at 1. rewrite drop_app_le by done. rewrite app_assoc, take_drop. done.
        + exfalso. apply Hk. apply (f_equal (take (length k))) in HE.
          rewrite take_app, take_app_ge in HE by lia.
          destruct (length k - length r)%nat eqn:E; [lia|]. rewrite <- HE. cbn [take app].
          rewrite in_app_iff. right. by left.
      - symmetry in Hn. apply app_eq_nil in Hn as [_ Hn]. by apply app_eq_nil in Hn as [-> _]. }
    destruct (occurs_lead pre k) as [->|[He|(Hp & [->| ->])]]; [done|done| |done| | |].
    + rewrite Er. destruct Ho as (p & q & ->). exists (p' ++ p), q. by rewrite <- app_assoc.
    + apply list.Exists_exists in He as (kv & Hin & He). rewrite list.Forall_forall in Hpre.
      destruct (Hpre kv); [done|]. tauto.
    + by destruct (Hsep Hp).
    + by destruct (Hsep Hp).
  - intros [?|[]]. done.
Qed.

Lemma built_absent kvs k rest : ~ In 34 k -> k <> [] -> k <> [123] -> k <> [125] ->
  k <> [123; 125] -> k <> [58] -> k <> [44] -> no_nul k ->
  Forall (fun kv => ~ occurs k (fst kv) /\ ~ occurs k (snd kv)) kvs -> ~ occurs k rest ->
  ~ occurs k (json_text kvs ++ 0 :: rest).
Proof.
  intros Hk Hne H1 H2 H12 H3 H4 Hnn Hkv Hr Ho.
  assert (~ In 0 k) as H0.
  { intros Hin. unfold no_nul in Hnn. rewrite List.Forall_forall in Hnn. by apply (Hnn 0). }
  destruct (decide (kvs = [])) as [->|Hkvs].
  - change (json_text [] ++ 0 :: rest) with ([123; 125] ++ 0 :: rest) in Ho.
    apply (occurs_split_at 0) in Ho as [Ho|Ho]; [|done|done].
    destruct Ho as (p & q & HE). destruct p as [|d p].
    + destruct k as [|x [|y [|z k]]]; cbn [app] in HE; [done| | |].
      * injection HE as <- _. done.
      * injection HE as <- <- _. done.
      * injection HE as <- <- HE. done.
    + cbn [app] in HE. injection HE as _ HE. apply H2. apply occurs_single; [done|]. by exists p, q.
  - destruct (exists_last Hkvs) as (pre & [k1 v1] & ->).
    apply list.Forall_app in Hkv as [Hpre Hl]. apply list.Forall_cons in Hl as [[Hk1 Hv1] _].
    cbn [fst snd] in Hk1, Hv1.
    assert (json_text (pre ++ [(k1, v1)]) ++ 0 :: rest
      = 123 :: concat (map (fun kv => pair_text kv ++ [44]) pre) ++ (pair_text (k1, v1) ++ [125] ++ 0 :: rest)) as HE.
    { unfold json_text. rewrite <- !app_assoc. cbn [app]. f_equal.
      assert (members (pre ++ [(k1, v1)]) = concat (map (fun kv => pair_text kv ++ [44]) pre) ++ pair_text (k1, v1)) as ->;
        [|by rewrite <- !app_assoc]. clear.
      induction pre as [|kv pre IH]; [done|]. cbn [app map concat]. rewrite members_cons, IH.
      destruct (pre ++ [(k1, v1)]) eqn:E; [by destruct pre|]. by rewrite <- !app_assoc. }
    rewrite HE in Ho. clear HE.
    apply occurs_pairs in Ho as [->|[He|[(_ & ->)|Ho]]]; [done| |done| |done|done].
    + apply list.Exists_exists in He as (kv & Hin & He). rewrite list.Forall_forall in Hpre.
      destruct (Hpre kv); [done|]. tauto.
    + set (c := if decide (pre = []) then 123 else 44) in *.
      assert (k <> [c]) as Hc by (unfold c; by destruct (decide (pre = []))). clearbody c.
      unfold pair_text in Ho. cbn [fst snd] in Ho. rewrite <- !app_assoc in Ho. cbn [app] in Ho.
      match type of Ho with occurs k (c :: 34 :: ?x) => change (c :: 34 :: x) with ([c] ++ 34 :: x) in Ho end.
      apply occurs_split in Ho as [Ho|Ho]; [by apply occurs_single in Ho| |done].
      apply occurs_split in Ho as [Ho|Ho]; [done| |done].
      match type of Ho with occurs k (58 :: 34 :: ?x) => change (58 :: 34 :: x) with ([58] ++ 34 :: x) in Ho end.
      apply occurs_split in Ho as [Ho|Ho]; [by apply occurs_single in Ho| |done].
      apply occurs_split in Ho as [Ho|Ho]; [done| |done].
      change (125 :: 0 :: rest) with ([125] ++ 0 :: rest) in Ho.
      apply (occurs_split_at 0) in Ho as [Ho|Ho]; [by apply occurs_single in Ho|done|done].
Qed.

(** ** Bounds of the builder *)

Lemma cstring_app o s x : is_cstring o s -> is_cstring (o ++ x) s.
Proof. intros (rest & -> & Hs). exists (rest ++ x). by rewrite <- app_assoc. Qed.
Lemma cstring_len o s : is_cstring o s -> len s + 1 <= len o.
Proof. intros (rest & -> & _). rewrite len_app, len_cons. pose proof (len_nonneg rest). lia. Qed.

Lemma start_bounds buffer n : n = len buffer ->
  exists buffer', len buffer' = n /\ forall beyond,
    Json_startString (buffer ++ beyond) n = Ok (fits n [123], buffer' ++ beyond) /\
    (fits n [123] = true -> buffer' = put [123] buffer) /\ (fits n [123] = false -> buffer' = buffer).
Proof.
  intros Hn. destruct (fits n [123]) eqn:E; unfold fits in E; cbn [length] in E.
  - assert (len [123] + 1 <= len buffer) by (unfold len at 1; cbn [length]; lia).
    exists (put [123] buffer). split; [rewrite put_len; lia|]. intros beyond. split; [|done].
    pose proof (len_nonneg beyond). rewrite start_ok by (rewrite len_app; lia).
    by rewrite put_beyond_app by lia.
  - exists buffer. split; [done|]. intros beyond. split; [|done]. apply start_fail. lia.
Qed.
Lemma end_bounds buffer n s : n = len buffer -> is_cstring buffer s -> n < 2 ^ 64 - 1 ->
  exists buffer', len buffer' = n /\ forall beyond,
    Json_endString (buffer ++ beyond) n = Ok (fits n (s ++ [125]), buffer' ++ beyond) /\
    (fits n (s ++ [125]) = true -> buffer' = put (s ++ [125]) buffer) /\
    (fits n (s ++ [125]) = false -> buffer' = buffer).
Proof.
  intros Hn Hs H64. pose proof (cstring_len _ _ Hs) as Hl. pose proof (len_nonneg s).
  assert (len (s ++ [125]) = len s + 1) as Hl1 by by rewrite len_app.
  destruct (fits n (s ++ [125])) eqn:E; unfold fits in E; fold (len (s ++ [125])) in E;
    rewrite Hl1 in E.
  - exists (put (s ++ [125]) buffer). split; [rewrite put_len; lia|]. intros beyond. split; [|done].
    pose proof (len_nonneg beyond). rewrite <- put_beyond_app by lia.
    destruct (cstring_app _ _ beyond Hs) as (rest & Er & Hnn). rewrite Er. apply end_ok; [done| |lia].
    rewrite <- Er, len_app. lia.
  - exists buffer. split; [done|]. intros beyond. split; [|done].
    destruct (cstring_app _ _ beyond Hs) as (rest & Er & Hnn). rewrite Er. apply end_fail; [done|lia|lia].
Qed.
Lemma add_bounds buffer n s key k value v : n = len buffer -> is_cstring buffer s ->
  is_cstring key k -> is_cstring value v -> s <> [] -> len s + len k + len v + 8 < 2 ^ 64 ->
  ~ (ends_in_quote s = true /\ len s + 1 = n) ->
  exists r buffer', len buffer' = n /\ forall beyond,
    Json_addData (buffer ++ beyond) n key value = Ok (r, buffer' ++ beyond).
Proof.
  intros Hn Hs Hk Hv Hne H64 Hno. pose proof (cstring_len _ _ Hs) as Hl.
  assert (forall beyond, Json_addData (buffer ++ beyond) n key value = add_result s k v (buffer ++ beyond) n) as HR.
  { intros beyond. apply add_ok; [by apply cstring_app|done|done|done|done|].
    rewrite len_app. pose proof (len_nonneg beyond). lia. }
  unfold add_result in HR. destruct (fits n (s ++ separator s ++ pair_text (k, v))) eqn:E.
  - unfold fits in E. eexists true, (put _ buffer). split; [|intros beyond; rewrite HR, put_beyond_app; [done|]].
    + rewrite put_len; [done|]. unfold len in *. lia.
    + unfold len in *. lia.
  - destruct (ends_in_quote s) eqn:Eq.
    + assert (len s + 2 <= n) by (destruct (decide (len s + 1 = n)); [exfalso; auto|lia]).
      assert (len (s ++ [44]) = len s + 1) as El by by rewrite len_app.
      exists false, (put (s ++ [44]) buffer). split; [rewrite put_len; lia|]. intros beyond.
      rewrite HR, put_beyond_app by lia. rewrite len_app. pose proof (len_nonneg beyond).
      by destruct (Z.leb_spec (len s + 2) (len buffer + len beyond)); [|lia].
    + exists false, buffer. done.
Qed.
Lemma add_overrun buffer n s key k value v : n = len buffer -> is_cstring buffer s ->
  is_cstring key k -> is_cstring value v -> len s + len k + len v + 8 < 2 ^ 64 ->
  ends_in_quote s = true -> len s + 1 = n ->
  Json_addData buffer n key value = UB OutOfBounds /\
  forall x beyond, Json_addData (buffer ++ x :: beyond) n key value
    = Ok (false, s ++ [44] ++ [0] ++ beyond).
Proof.
  intros Hn Hs Hk Hv H64 Hq Hl.
  assert (s <> []) as Hne by by intros ->.
  assert (fits n (s ++ separator s ++ pair_text (k, v)) = false) as E.
  { unfold fits, separator. rewrite Hq, !app_length. unfold len in *. cbn [length]. lia. }
  split.
  - rewrite (add_ok _ _ _ s k v) by (done || lia). unfold add_result. rewrite E, Hq.
    by destruct (Z.leb_spec (len s + 2) (len buffer)); [lia|].
  - intros x beyond. rewrite (add_ok _ _ _ s k v); [|by apply cstring_app|done|done|done|lia|].
    + unfold add_result. rewrite E, Hq. rewrite len_app, len_cons. pose proof (len_nonneg beyond).
      destruct (Z.leb_spec (len s + 2) (len buffer + (len beyond + 1))); [|lia]. do 2 f_equal.
      destruct Hs as (rest & -> & _). rewrite len_app, len_cons in Hn.
      assert (rest = []) as -> by (apply len_0_inv; lia).
      rewrite <- app_assoc. cbn [app]. by rewrite put_app.
    + rewrite len_app, len_cons. pose proof (len_nonneg beyond). lia.
Qed.

(** ** Build, then find *)

Lemma build_find n buffer beyond pre k v post key val vb :
  n = len buffer -> n < 2 ^ 32 ->
  Forall (fun kv => no_nul (fst kv) /\ no_nul (snd kv)) (pre ++ (k, v) :: post) ->
  len (json_text (pre ++ (k, v) :: post)) + 1 <= n ->
  ~ In 34 k -> ~ In 34 v -> k <> [] -> k <> [123] ->
  Forall (fun kv => ~ occurs k (fst kv) /\ ~ occurs k (snd kv)) pre ->
  (pre <> [] -> k <> [58] /\ k <> [44]) ->
  is_cstring key k -> len v < len val < 2 ^ 64 ->
  exists rs buffer', json_run n (build (pre ++ (k, v) :: post)) (buffer ++ beyond) = Ok (rs, buffer') /\
    Forall (fun r => r = true) rs /\
    Json_findByKey buffer' n key (val ++ vb) (len val) = Ok (true, put v val ++ vb).
Proof.
  intros Hn H32 Hnn Hfit Hk Hv Hne Hb Hpre Hsep Hkey Hlen. eexists _, _. split.
  { apply build_ok; [done|lia|done|done]. }
  split; [apply Forall_replicate; done|].
  assert (len (put (json_text (pre ++ (k, v) :: post)) buffer) = n) as HL by (rewrite put_len; lia).
  rewrite <- HL. apply find_value with k; [done|lia|lia| |lia].
  unfold put. by apply built_value.
Qed.
Lemma build_find_absent n buffer beyond kvs k key val vb :
  n = len buffer -> n < 2 ^ 32 ->
  Forall (fun kv => no_nul (fst kv) /\ no_nul (snd kv)) kvs ->
  len (json_text kvs) + 1 <= n ->
  ~ In 34 k -> ~ In k [[]; [123]; [125]; [123; 125]; [58]; [44]] ->
  Forall (fun kv => ~ occurs k (fst kv) /\ ~ occurs k (snd kv)) kvs ->
  ~ occurs k buffer ->
  is_cstring key k -> len val < 2 ^ 64 ->
  exists rs buffer', json_run n (build kvs) (buffer ++ beyond) = Ok (rs, buffer') /\
    Forall (fun r => r = true) rs /\
    Json_findByKey buffer' n key (val ++ vb) (len val) = Ok (false, val ++ vb).
Proof.
  intros Hn H32 Hnn Hfit Hk Hne Hkvs Hbuf Hkey Hlen. cbn [In] in Hne. eexists _, _. split.
  { apply build_ok; [done|lia|done|done]. }
  split; [apply Forall_replicate; done|].
  assert (len (put (json_text kvs) buffer) = n) as HL by (rewrite put_len; lia).
  rewrite <- HL. apply find_absent with k; [done|lia|lia|].
  unfold put. apply built_absent; try (intros E; apply Hne; rewrite E; tauto); try done.
  - by eapply key_no_nul.
  - intros (p & q & HE). apply Hbuf. rewrite <- (take_drop (S (length (json_text kvs))) buffer), HE.
    exists (take (S (length (json_text kvs))) buffer ++ p), q. by rewrite <- app_assoc.
Qed.

(** ** Exact results and refutations *)

Lemma start_exact buffer n : n <= len buffer ->
  Json_startString buffer n = if fits n [123] then Ok (true, put [123] buffer) else Ok (false, buffer).
Proof.
  intros Hn. destruct (fits n [123]) eqn:E; unfold fits in E; cbn [length] in E.
  - apply start_ok. lia.
  - apply start_fail. lia.
Qed.
Lemma end_exact buffer n s : is_cstring buffer s -> n <= len buffer -> len s + 2 < 2 ^ 64 -> n < 2 ^ 64 ->
  Json_endString buffer n
  = if fits n (s ++ [125]) then Ok (true, put (s ++ [125]) buffer) else Ok (false, buffer).
Proof.
  intros (rest & -> & Hs) Hn Hs64 Hn64.
  destruct (fits n (s ++ [125])) eqn:E; unfold fits in E; rewrite app_length in E; cbn [length] in E.
  - apply end_ok; [done|unfold len in *; lia|done].
  - apply end_fail; [done|unfold len in *; lia|done].
Qed.

Lemma cstring_unique o s t : is_cstring o s -> is_cstring o t -> s = t.
Proof.
  intros (r1 & -> & Hs) (r2 & HE & Ht). revert t HE Ht.
  induction s as [|c s IH]; intros [|d t] HE Ht; [done| | |].
  - cbn in HE. injection HE as <- _. by inversion Ht.
  - cbn in HE. injection HE as -> _. by inversion Hs.
  - cbn in HE. injection HE as <- HE. f_equal. apply IH; [by inversion Hs|done|by inversion Ht].
Qed.
Ltac cstring := eexists; split; [reflexivity|repeat (apply list.Forall_cons_2; [discriminate|]); apply list.Forall_nil_2].

(** the text [{"a":"b"], of 8 characters *)
Local Notation ab := [123; 34; 97; 34; 58; 34; 98; 34].
Lemma failed_add_changes : exists buffer n key value s k v buffer',
  is_cstring buffer s /\ is_cstring key k /\ is_cstring value v /\ n = len buffer /\
  Json_addData buffer n key value = Ok (false, buffer') /\ ~ is_cstring buffer' s.
Proof.
  exists (ab ++ [0; 9; 9]), 11, [99; 0], [100; 0], ab, [99], [100], (ab ++ [44; 0; 9]).
  split; [cstring|]. split; [cstring|]. split; [cstring|]. split; [done|]. split; [by vm_compute|].
  intros H. assert (is_cstring (ab ++ [44; 0; 9]) (ab ++ [44])) as H2 by cstring.
  pose proof (cstring_unique _ _ _ H H2). done.
Qed.
Lemma comma_brace : exists n k v k2 v2 buffer buffer' s,
  n = len buffer /\
  json_run n [Start; Add k v; Add k2 v2; End] buffer = Ok ([true; true; false; true], buffer') /\
  is_cstring buffer' (s ++ [44; 125]).
Proof.
  exists 12, [97], [98], [99], [100], (replicate 12 9), (ab ++ [44; 125; 0; 9]), ab.
  split; [done|]. split; [by vm_compute|]. cstring.
Qed.
Lemma overrun_reached : exists n k v k2 v2 buffer buffer',
  n = len buffer /\ json_run n [Start; Add k v] buffer = Ok ([true; true], buffer') /\
  json_run n [Start; Add k v; Add k2 v2] buffer = UB OutOfBounds /\
  json_run n [Start; Add k v; Add k2 v2] (buffer ++ [77]) = Ok ([true; true; false], ab ++ [44] ++ [0]).
Proof.
  exists 9, [97], [98], [99], [100], (replicate 9 9), (ab ++ [0]).
  split; [done|]. split; [by vm_compute|]. split; by vm_compute.
Qed.

(** keys [ba] and [b] *)
Lemma not_found : exists n kvs k v buffer rs buffer' val,
  n = len buffer /\ NoDup (map fst kvs) /\ In (k, v) kvs /\ len v < len val /\
  json_run n (build kvs) buffer = Ok (rs, buffer') /\ Forall (fun r => r = true) rs /\
  Json_findByKey buffer' n (k ++ [0]) val (len val) = Ok (false, val).
Proof.
  exists 40, [([98; 97], [120]); ([98], [121])], [98], [121], (replicate 40 0). eexists _, _.
  exists [1; 2; 3]. split; [done|]. split; [by apply (bool_decide_unpack _); vm_compute|].
  split; [right; by left|]. split; [done|]. split; [vm_compute; reflexivity|].
  split; [by repeat constructor|]. by vm_compute.
Qed.
(** keys [ab] and [b] *)
Lemma wrong_value : exists n kvs k v v2 buffer rs buffer' val,
  n = len buffer /\ NoDup (map fst kvs) /\ In (k, v) kvs /\ len v < len val /\
  json_run n (build kvs) buffer = Ok (rs, buffer') /\ Forall (fun r => r = true) rs /\
  v2 <> v /\ Json_findByKey buffer' n (k ++ [0]) val (len val) = Ok (true, put v2 val).
Proof.
  exists 40, [([97; 98], [120]); ([98], [121])], [98], [121], [120], (replicate 40 0). eexists _, _.
  exists [1; 2; 3]. split; [done|]. split; [by apply (bool_decide_unpack _); vm_compute|].
  split; [right; by left|]. split; [done|]. split; [vm_compute; reflexivity|].
  split; [by repeat constructor|]. split; [done|]. by vm_compute.
Qed.
(** key [a] with value [b], then key [b] *)
Lemma wrong_value_2 : exists n kvs k v v2 buffer rs buffer' val,
  n = len buffer /\ NoDup (map fst kvs) /\ In (k, v) kvs /\ len v < len val /\
  In k (map snd kvs) /\
  json_run n (build kvs) buffer = Ok (rs, buffer') /\ Forall (fun r => r = true) rs /\
  v2 <> v /\ Json_findByKey buffer' n (k ++ [0]) val (len val) = Ok (true, put v2 val).
Proof.
  exists 40, [([97], [98]); ([98], [121])], [98], [121], [98], (replicate 40 0). eexists _, _.
  exists [1; 2; 3]. split; [done|]. split; [by apply (bool_decide_unpack _); vm_compute|].
  split; [right; by left|]. split; [done|]. split; [by left|]. split; [vm_compute; reflexivity|].
  split; [by repeat constructor|]. split; [done|]. by vm_compute.
Qed.
Lemma empty_key n kvs rest val key vb : is_cstring key [] -> n = len (json_text kvs ++ rest) ->
  n < 2 ^ 32 -> len val < 2 ^ 64 ->
  Json_findByKey (json_text kvs ++ rest) n key (val ++ vb) (len val) = Ok (false, val ++ vb).
Proof.
  intros Hkey Hn H32 H64.
  assert (forall p q, json_text kvs ++ rest = p ++ [] ++ 34 :: q -> ~ first_occurrence p [] (34 :: q)) as Hno.
  { intros p q HE Hf. destruct p as [|c p]; [by cbn in HE|].
    specialize (Hf [] (c :: p ++ 34 :: q) eq_refl). cbn in Hf. lia. }
  destruct (find_core (json_text kvs ++ rest) [] val) as (r & val' & HR & HC);
    [apply list.Forall_nil_2|lia|done|].
  specialize (HR key [] vb Hkey). rewrite app_nil_r in HR. rewrite Hn, HR.
  destruct HC as [(-> & -> & _)|(w & _ & [(p & mid & HE & Hf & _)|(_ & _ & _ & p & q & HE & Hf)])];
    [done| |].
  - exfalso. by apply (Hno p (mid ++ [34] ++ w)).
  - exfalso. by apply (Hno p q).
Qed.
(** an empty object written over a longer text *)
Lemma stale : exists n kvs k buffer rs buffer' v val,
  n = len buffer /\ Forall (fun kv => ~ occurs k (fst kv) /\ ~ occurs k (snd kv)) kvs /\
  json_run n (build kvs) buffer = Ok (rs, buffer') /\ Forall (fun r => r = true) rs /\
  ~ occurs k (json_text kvs) /\
  Json_findByKey buffer' n (k ++ [0]) val (len val) = Ok (true, put v val).
Proof.
  exists 13, [], [98; 97], ([123; 34; 97; 98; 97; 34; 58; 34; 99; 34; 125; 0; 0]). eexists _, _.
  exists [99], [1; 2; 3]. split; [done|]. split; [by constructor|]. split; [vm_compute; reflexivity|].
  split; [by repeat constructor|]. split; [|by vm_compute].
  intros (p & q & HE). do 3 (destruct p as [|? p]; [done|]). done.
Qed.
