(** * Proofs about the JSON builder *)
From Verif Require Import CSem Lib Model_Json Spec_Json Drive_Json Proof_Utils.

Ltac nn := unfold no_nul; repeat (apply list.Forall_cons_2; [lia|]); apply list.Forall_nil_2.

Lemma strlen_app s r : no_nul s -> strlen (s ++ 0 :: r) = Ok (len s).
Proof. intros H. apply strlen_cstring. by exists r. Qed.

Lemma strcpy_ok pre old src r i lit : lit = src ++ 0 :: r -> i = len pre -> no_nul src ->
  len src + 1 <= len old -> strcpy (pre ++ old) i lit = Ok (pre ++ src ++ 0 :: drop (S (length src)) old).
Proof.
  intros -> -> Hs Hl. unfold strcpy. rewrite strlen_app by done. cbn [bind].
  pose proof (len_nonneg pre). pose proof (len_nonneg src). pose proof (len_nonneg r).
  rewrite memcpy_ok by (rewrite ?len_app, ?len_cons; lia). f_equal.
  replace (src ++ 0 :: r) with ([] ++ (src ++ [0]) ++ r) by (cbn; by rewrite <- app_assoc).
  replace (len src + 1) with (len (src ++ [0])) by (rewrite len_app; done).
  assert (slice ([] ++ (src ++ [0]) ++ r) 0 (len (src ++ [0])) = src ++ [0]) as ->.
  { apply (slice_app []). }
  rewrite <- (take_drop (S (length src)) old) at 1.
  rewrite write_app; [|rewrite len_app, len_take; change (len [0]) with 1; unfold len in *; lia].
  by rewrite <- app_assoc.
Qed.
Lemma strcpy_oob pre old src r i lit : lit = src ++ 0 :: r -> i = len pre -> no_nul src ->
  len old < len src + 1 -> strcpy (pre ++ old) i lit = UB OutOfBounds.
Proof.
  intros -> -> Hs Hl. unfold strcpy. rewrite strlen_app by done. cbn [bind]. unfold memcpy.
  assert (in_range (pre ++ old) (len pre) (len src + 1) = false) as ->; [|done].
  apply in_range_false. rewrite len_app. lia.
Qed.

(** ** startString, endString *)

Lemma start_ok buffer n : 2 <= n <= len buffer ->
  Json_startString buffer n = Ok (true, put [123] buffer).
Proof.
  intros Hn. unfold Json_startString, MINIMAL_SIZE. destruct (Z.leb_spec 2 n); [|lia].
  pose proof (strcpy_ok [] buffer [123] [] 0 lit_open) as E. cbn [app] in E.
  rewrite E; [done|done|done|nn|unfold len in *; cbn [length] in *; lia].
Qed.
Lemma start_fail buffer n : n < 2 -> Json_startString buffer n = Ok (false, buffer).
Proof. intros Hn. unfold Json_startString, MINIMAL_SIZE. by destruct (Z.leb_spec 2 n); [lia|]. Qed.

Lemma end_ok s rest n : no_nul s -> len s + 2 <= n <= len (s ++ 0 :: rest) -> n < 2 ^ 64 ->
  Json_endString (s ++ 0 :: rest) n = Ok (true, put (s ++ [125]) (s ++ 0 :: rest)).
Proof.
  intros Hs Hn Hn64. unfold Json_endString, MINIMAL_SIZE. rewrite strlen_app by done. cbn [bind].
  pose proof (len_nonneg s). rewrite u64_small by lia. destruct (Z.leb_spec (2 + len s) n); [|lia].
  rewrite len_app in Hn.
  rewrite (strcpy_ok s (0 :: rest) [125] []); [|done|done|nn|unfold len in *; cbn [length] in *; lia]. cbn [bind].
  unfold put. rewrite app_length. cbn [length]. do 2 f_equal.
  rewrite <- app_assoc. cbn [app]. do 3 f_equal.
  replace (S (length s + 1)) with (length s + 2)%nat by lia. by rewrite drop_add_app.
Qed.
Lemma end_fail s rest n : no_nul s -> n < len s + 2 -> len s + 2 < 2 ^ 64 ->
  Json_endString (s ++ 0 :: rest) n = Ok (false, s ++ 0 :: rest).
Proof.
  intros Hs Hn Hn64. unfold Json_endString, MINIMAL_SIZE. rewrite strlen_app by done. cbn [bind].
  pose proof (len_nonneg s). rewrite u64_small by lia. by destruct (Z.leb_spec (2 + len s) n); [lia|].
Qed.

(** ** addData *)

Lemma ends_in_quote_snoc s c : ends_in_quote (s ++ [c]) = (c =? 34).
Proof. unfold ends_in_quote. by rewrite last_snoc. Qed.

Lemma strcmp_quote s c rest : c <> 0 ->
  strcmp_eq ((s ++ [c]) ++ 0 :: rest) (len s) lit_quote = Ok (c =? 34).
Proof.
  intros Hc. unfold lit_quote. cbn [strcmp_eq].
  rewrite <- app_assoc. cbn [app]. rewrite load_app by done. cbn [bind].
  destruct (Z.eqb_spec c 34) as [->|]; [|done]. cbn.
  change (s ++ 34 :: 0 :: rest) with (s ++ [34] ++ 0 :: rest). rewrite app_assoc.
  rewrite load_app; [done|]. rewrite len_app. done.
Qed.

Lemma len_pair k v : len (pair_text (k, v)) = len k + len v + 5.
Proof. unfold pair_text. cbn [fst snd]. rewrite !len_app. unfold len. cbn [length]. lia. Qed.

(** the five copies at json.c:69-83 *)
Lemma add_copies t old key value k v kr vr :
  key = k ++ 0 :: kr -> value = v ++ 0 :: vr -> no_nul k -> no_nul v ->
  len t + len (pair_text (k, v)) + 1 < 2 ^ 64 ->
  len (pair_text (k, v)) + 1 <= len old ->
  (let! buffer := strcpy (t ++ old) (len t) lit_quote in
    let index := u64 (len t + 1) in
    let! buffer := strcpy buffer index key in
    let index := u64 (index + len k) in
    let! buffer := strcpy buffer index lit_colon in
    let index := u64 (index + 3) in
    let! buffer := strcpy buffer index value in
    let index := u64 (index + len v) in
    let! buffer := strcpy buffer index lit_quote in
    Ok (true, buffer))
  = Ok (true, t ++ pair_text (k, v) ++ 0 :: drop (S (length (pair_text (k, v)))) old).
Proof.
  intros -> -> Hk Hv. rewrite len_pair. intros H64 Hl.
  pose proof (len_nonneg t). pose proof (len_nonneg k). pose proof (len_nonneg v).
  assert (forall (x : list Z) m, len (drop m x) = Z.max 0 (len x - Z.of_nat m)) as HD.
  { intros. apply len_drop. }
  rewrite (strcpy_ok t old [34] []); [|done|done|nn|unfold len in *; cbn [length] in *; lia].
  cbn [bind]. cbv zeta. rewrite (u64_small (len t + 1)) by lia.
  rewrite (app_assoc t).
  rewrite (strcpy_ok (t ++ [34]) _ k kr); [|done|by rewrite len_app|done|
    repeat rewrite ?HD, ?len_cons; unfold len in *; cbn [length]; lia].
  cbn [bind]. rewrite (u64_small (len t + 1 + len k)) by lia.
  rewrite (app_assoc (t ++ [34])).
  rewrite (strcpy_ok ((t ++ [34]) ++ k) _ [34; 58; 34] []);
    [|done|by rewrite !len_app|nn|
      repeat rewrite ?HD, ?len_cons; unfold len in *; cbn [length]; lia].
  cbn [bind]. rewrite (u64_small (len t + 1 + len k + 3)) by lia.
  rewrite (app_assoc ((t ++ [34]) ++ k)).
  rewrite (strcpy_ok (((t ++ [34]) ++ k) ++ [34; 58; 34]) _ v vr);
    [|done|by rewrite !len_app|done|
      repeat rewrite ?HD, ?len_cons; unfold len in *; cbn [length]; lia].
  cbn [bind]. rewrite (u64_small (len t + 1 + len k + 3 + len v)) by lia.
  rewrite (app_assoc (((t ++ [34]) ++ k) ++ [34; 58; 34])).
  rewrite (strcpy_ok ((((t ++ [34]) ++ k) ++ [34; 58; 34]) ++ v) _ [34] []);
    [|done|by rewrite !len_app|nn|
      repeat rewrite ?HD, ?len_cons; unfold len in *; cbn [length]; lia].
  cbn [bind]. do 2 f_equal. unfold pair_text. cbn [fst snd]. rewrite <- !app_assoc. cbn [app].
  assert (forall a b : list Z, a = b -> t ++ 34 :: k ++ 34 :: 58 :: 34 :: v ++ 34 :: 0 :: a
    = t ++ 34 :: k ++ 34 :: 58 :: 34 :: v ++ 34 :: 0 :: b) as HE by (by intros a b ->).
  apply HE. cbn [length]. rewrite !app_length. cbn [length].
  rewrite app_length. cbn [length]. cbn [drop]. rewrite !drop_drop. by f_equal.
Qed.

(** json.c:54-89 on every buffer that holds a non-empty text [s] *)
Definition add_result (s k v buffer : list Z) (n : Z) : outcome (bool * list Z) :=
  if fits n (s ++ separator s ++ pair_text (k, v))
  then Ok (true, put (s ++ separator s ++ pair_text (k, v)) buffer)
  else if ends_in_quote s then
    if len s + 2 <=? len buffer then Ok (false, put (s ++ [44]) buffer) else UB OutOfBounds
  else Ok (false, buffer).

Lemma put_app s t old : put (s ++ t) (s ++ old) = s ++ put t old.
Proof.
  unfold put. rewrite app_length, <- app_assoc. do 3 f_equal.
  replace (S (length s + length t)) with (length s + S (length t))%nat by lia.
  by rewrite drop_add_app.
Qed.

Lemma add_ok buffer key value s k v n : is_cstring buffer s -> is_cstring key k ->
  is_cstring value v -> s <> [] -> len s + len k + len v + 8 < 2 ^ 64 -> n <= len buffer ->
  Json_addData buffer n key value = add_result s k v buffer n.
Proof.
  intros (rest & -> & Hs) (kr & -> & Hk) (vr & -> & Hv) Hne H64 Hn.
  destruct (exists_last Hne) as (s0 & c & ->). clear Hne.
  assert (c <> 0) as Hc.
  { apply list.Forall_app in Hs as [_ Hs]. by inversion Hs. }
  set (s := s0 ++ [c]) in *.
  assert (len s = len s0 + 1) as Es by (unfold s; rewrite len_app; done).
  pose proof (len_nonneg s0). pose proof (len_nonneg k). pose proof (len_nonneg v).
  pose proof (len_nonneg rest).
  rewrite len_app, len_cons in Hn.
  unfold Json_addData, add_result.
  rewrite (strlen_app s), (strlen_app k), (strlen_app v) by done. cbn [bind].
  rewrite (u64_small (5 + len k)), (u64_small (5 + len k + len v)),
    (u64_small (5 + len k + len v + 1)), (u64_small (len s - 1)) by lia.
  replace (len s - 1) with (len s0) by lia.
  assert (strcmp_eq (s ++ 0 :: rest) (len s0) lit_quote = Ok (c =? 34)) as -> by by apply strcmp_quote.
  assert (ends_in_quote s = (c =? 34)) as Eq by apply ends_in_quote_snoc.
  assert (forall t, fits n (s ++ t) = (len s + len t + 1 <=? n)) as Ef.
  { intros t. unfold fits. fold (len (s ++ t)). by rewrite len_app. }
  unfold separator. rewrite Ef, Eq. cbn [bind]. rewrite (len_app s), (len_cons 0).
  destruct (c =? 34).
  - destruct (Z.leb_spec (len s + 2) (len s + (len rest + 1))) as [Hr|Hr].
    + rewrite (strcpy_ok s (0 :: rest) [44] []);
        [|done|lia|nn|change (len [44]) with 1; rewrite len_cons; lia].
      cbn [bind]. rewrite (u64_small (len s + 1)) by lia. rewrite (u64_small (_ + _)) by lia.
      rewrite (len_app [44]), len_pair. change (len [44]) with 1. cbn [length drop].
      destruct (Z.leb_spec (5 + len k + len v + 1 + (len s + 1)) n),
        (Z.leb_spec (len s + (1 + (len k + len v + 5)) + 1) n); try lia.
      * rewrite (app_assoc s [44]).
        replace (len s + 1) with (len (s ++ [44])) by (rewrite len_app; done).
        rewrite (add_copies _ _ _ _ k v kr vr); [|done|done|done|done| |].
        -- rewrite <- app_assoc, put_app, app_assoc. do 2 f_equal. unfold put.
           rewrite app_length. cbn [length drop app]. by rewrite drop_drop, <- app_assoc.
        -- rewrite len_app, len_pair. change (len [44]) with 1. lia.
        -- rewrite len_pair, len_cons, len_drop. change (Z.of_nat 1) with 1. lia.
      * rewrite put_app. unfold put. cbn [length drop app]. done.
    + rewrite (strcpy_oob s (0 :: rest) [44] []);
        [|done|lia|nn|change (len [44]) with 1; rewrite len_cons; lia].
      cbn [bind]. destruct (Z.leb_spec (len s + len ([44] ++ pair_text (k, v)) + 1) n); [|done].
      rewrite len_app, len_pair in *. change (len [44]) with 1 in *. lia.
  - cbn [bind app]. rewrite (u64_small (_ + _)) by lia. rewrite len_pair.
    destruct (Z.leb_spec (5 + len k + len v + 1 + len s) n),
      (Z.leb_spec (len s + (len k + len v + 5) + 1) n); try lia; [|done].
    rewrite (add_copies _ _ _ _ k v kr vr); [|done|done|done|done| |].
    + rewrite put_app. done.
    + rewrite len_pair. lia.
    + rewrite len_pair, len_cons. lia.
Qed.

Lemma add_empty buffer n key value k v : is_cstring buffer [] -> is_cstring key k ->
  is_cstring value v -> len buffer < 2 ^ 64 -> Json_addData buffer n key value = UB OutOfBounds.
Proof.
  intros Hs Hk Hv H64. unfold Json_addData.
  rewrite (strlen_cstring buffer []), (strlen_cstring key k), (strlen_cstring value v) by done.
  cbn [bind]. change (u64 (len [] - 1)) with (2 ^ 64 - 1). unfold lit_quote. cbn [strcmp_eq].
  rewrite load_oob by lia. done.
Qed.

(** ** Sequences of calls *)

Lemma put_cstring s o : no_nul s -> is_cstring (put s o) s.
Proof. intros Hs. by exists (drop (S (length s)) o). Qed.
Lemma put_len s o : len s + 1 <= len o -> len (put s o) = len o.
Proof. intros H. unfold put. rewrite !len_app, len_drop. unfold len in *. cbn [length]. lia. Qed.
Lemma put_beyond s o n : len s + 1 <= n -> drop (Z.to_nat n) (put s o) = drop (Z.to_nat n) o.
Proof.
  intros H. unfold put. rewrite app_assoc, drop_app_ge; rewrite app_length; cbn [length].
  - rewrite drop_drop. f_equal. unfold len in *; lia.
  - unfold len in *; lia.
Qed.
Lemma put_id s o : is_cstring o s -> put s o = o.
Proof.
  intros (rest & -> & _). unfold put. cbn [app].
  replace (S (length s)) with (length s + 1)%nat by lia. by rewrite drop_add_app.
Qed.
Lemma no_nul_app s t : no_nul (s ++ t) <-> no_nul s /\ no_nul t.
Proof. apply list.Forall_app. Qed.
Lemma separator_no_nul s : no_nul (separator s).
Proof. unfold separator. destruct (ends_in_quote s); nn. Qed.
Lemma pair_no_nul k v : no_nul k -> no_nul v -> no_nul (pair_text (k, v)).
Proof.
  intros Hk Hv. unfold pair_text. cbn [fst snd]. rewrite !no_nul_app.
  repeat split; try done; nn.
Qed.

(** a buffer of [n] bytes (and what lies beyond) holding the text [s] *)
Definition holds (n : Z) (beyond buffer s : list Z) : Prop :=
  is_cstring buffer s /\ s <> [] /\ fits n s = true /\ drop (Z.to_nat n) buffer = beyond /\
  n <= len buffer.

Lemma step_ok n beyond op buffer s : holds n beyond buffer s -> op_ok op -> n < 2 ^ 63 ->
  match text_step n op s with
  | Some (r, s') => json_step n op buffer = Ok (r, put s' buffer) /\
      holds n beyond (put s' buffer) s' /\ len (put s' buffer) = len buffer
  | None => len buffer = n -> json_step n op buffer = UB OutOfBounds
  end.
Proof.
  intros (Hs & Hne & Hf & Hd & Hl) Hop Hn.
  assert (forall t, fits n t = true <-> len t + 1 <= n) as Hfit.
  { intros t. unfold fits, len. lia. }
  assert (forall t, fits n t = false <-> n < len t + 1) as Hnfit.
  { intros t. unfold fits, len. lia. }
  assert (forall t, no_nul t -> t <> [] -> fits n t = true ->
    holds n beyond (put t buffer) t /\ len (put t buffer) = len buffer) as Hput.
  { intros t Ht Htn Hft. pose proof Hft as Hft'. apply Hfit in Hft'.
    rewrite put_len by lia. split; [|done]. split; [by apply put_cstring|].
    split; [done|]. split; [done|]. split; [by rewrite put_beyond by lia|].
    rewrite put_len; lia. }
  assert (no_nul s) as Hsn by by destruct Hs as (? & _ & ?).
  assert (put s buffer = buffer) as Hid.
  { by apply put_id. }
  destruct op as [|k v|]; cbn [text_step json_step].
  - destruct (fits n [123]) eqn:E.
    + split; [|apply Hput; [nn|done|done]].
      apply start_ok. apply Hfit in E. change (len [123]) with 1 in E. lia.
    + rewrite Hid. split; [|done]. apply start_fail. apply Hnfit in E.
      change (len [123]) with 1 in E. lia.
  - destruct Hop as (Hk & Hv & Hkv). pose proof (proj1 (Hfit s) Hf) as Hf'.
    rewrite (add_ok buffer (k ++ [0]) (v ++ [0]) s k v n); [|done|by exists []|by exists []|done|lia|done].
    unfold add_result. destruct (fits n (s ++ separator s ++ pair_text (k, v))) eqn:E.
    + split; [done|]. apply Hput; [|by destruct s|done].
      rewrite !no_nul_app. split; [done|]. split; [apply separator_no_nul|by apply pair_no_nul].
    + unfold separator. destruct (ends_in_quote s) eqn:Eq.
      * destruct (fits n (s ++ [44])) eqn:E2.
        -- pose proof (proj1 (Hfit _) E2) as E2'. rewrite len_app in E2'. change (len [44]) with 1 in E2'.
           destruct (Z.leb_spec (len s + 2) (len buffer)); [|lia].
           split; [done|]. apply Hput; [|by destruct s|done].
           rewrite no_nul_app. split; [done|nn].
        -- intros Hlen. pose proof (proj1 (Hnfit _) E2) as E2'. rewrite len_app in E2'.
           change (len [44]) with 1 in E2'. by destruct (Z.leb_spec (len s + 2) (len buffer)); [lia|].
      * rewrite app_nil_r, Hf. by rewrite Hid.
  - pose proof Hs as (rest & Eb & _). pose proof (proj1 (Hfit s) Hf) as Hf'.
    destruct (fits n (s ++ [125])) eqn:E.
    + pose proof (proj1 (Hfit _) E) as E'. rewrite len_app in E'. change (len [125]) with 1 in E'.
      split.
      * rewrite Eb. apply end_ok; [done|rewrite <- Eb; lia|lia].
      * apply Hput; [|by destruct s|done]. rewrite no_nul_app. split; [done|nn].
    + pose proof (proj1 (Hnfit _) E) as E'. rewrite len_app in E'. change (len [125]) with 1 in E'.
      rewrite Hid. split; [|done]. rewrite Eb. apply end_fail; [done|lia|lia].
Qed.

Lemma run_ok n beyond ops buffer s : holds n beyond buffer s -> Forall op_ok ops -> n < 2 ^ 63 ->
  match text_run n ops s with
  | Some (rs, s') => exists buffer', json_run n ops buffer = Ok (rs, buffer') /\
      holds n beyond buffer' s' /\ len buffer' = len buffer
  | None => len buffer = n -> json_run n ops buffer = UB OutOfBounds
  end.
Proof.
  intros Hh Hops Hn. revert buffer s Hh. induction Hops as [|op ops Hop Hops IH]; intros buffer s Hh.
  - cbn. by exists buffer.
  - cbn [text_run json_run]. pose proof (step_ok n beyond op buffer s Hh Hop Hn) as Hstep.
    destruct (text_step n op s) as [[r s']|].
    + destruct Hstep as (-> & Hh1 & Hl1). cbn [bind]. specialize (IH _ s' Hh1).
      destruct (text_run n ops s') as [[rs s'']|].
      * destruct IH as (b2 & -> & Hh2 & Hl2). cbn [bind]. exists b2. split; [done|]. split; [done|lia].
      * intros Hlen. rewrite IH by lia. done.
    + intros Hlen. rewrite Hstep by done. done.
Qed.

(** after a successful start *)
Lemma run_start n beyond ops buffer : 2 <= n -> n = len buffer -> n < 2 ^ 63 -> Forall op_ok ops ->
  match text_run n (Start :: ops) [] with
  | Some (rs, s) => exists buffer', json_run n (Start :: ops) (buffer ++ beyond) = Ok (rs, buffer' ++ beyond) /\
      is_cstring buffer' s /\ len buffer' = n
  | None => json_run n (Start :: ops) buffer = UB OutOfBounds
  end.
Proof.
  intros H2 Hn H63 Hops. pose proof (len_nonneg beyond) as Hb.
  assert (fits n [123] = true) as Hf by (unfold fits; cbn [length]; lia).
  cbn [text_run text_step json_run json_step]. rewrite Hf.
  assert (forall bb, holds n bb (put [123] (buffer ++ bb)) [123]) as Hh.
  { intros bb. pose proof (len_nonneg bb) as Hbb. split; [apply put_cstring; nn|].
    split; [done|]. split; [done|].
    assert (len [123] + 1 <= n) by (unfold len at 1; cbn [length]; lia).
    rewrite put_beyond, put_len by (rewrite ?len_app; lia). split; [|rewrite len_app; lia].
    rewrite Hn, <- length_len. by rewrite drop_app. }
  destruct (text_run n ops [123]) as [[rs s]|] eqn:E.
  - rewrite start_ok by (rewrite len_app; lia). cbn [bind].
    pose proof (run_ok n beyond ops _ _ (Hh beyond) Hops H63) as HR. rewrite E in HR.
    destruct HR as (b' & -> & (Hs & Hne & Hfs & Hd & Hl) & Hl').
    cbn [bind]. rewrite put_len in Hl' by (rewrite len_app; unfold len at 1; cbn [length]; lia).
    rewrite len_app in Hl'.
    exists (take (Z.to_nat n) b'). split.
    { do 2 f_equal. rewrite <- Hd. by rewrite take_drop. }
    split; [|rewrite len_take; lia].
    destruct Hs as (rest & -> & Hsn). exists (take (Z.to_nat n - S (length s)) rest). split; [|done].
    unfold fits in Hfs. replace (Z.to_nat n) with (length s + S (Z.to_nat n - S (length s)))%nat at 1 by lia.
    by rewrite take_add_app.
  - rewrite start_ok by lia. cbn [bind].
    pose proof (run_ok n [] ops _ _ (Hh []) Hops H63) as HR. rewrite E in HR.
    rewrite app_nil_r in HR. rewrite HR; [done|].
    rewrite put_len; [lia|]. unfold len at 1; cbn [length]; lia.
Qed.

(** ** Building a text *)

Lemma members_snoc kvs kv : kvs <> [] -> members (kvs ++ [kv]) = members kvs ++ [44] ++ pair_text kv.
Proof.
  induction kvs as [|kv1 kvs IH]; [done|]. intros _. destruct kvs as [|kv2 kvs]; [done|].
  change ((kv1 :: kv2 :: kvs) ++ [kv]) with (kv1 :: (kv2 :: kvs) ++ [kv]).
  assert (forall a x (l : list (list Z * list Z)), members (a :: x :: l) = pair_text a ++ [44] ++ members (x :: l)) as HM by done.
  rewrite HM. cbn [app] in *. rewrite HM, IH by done. by rewrite <- !app_assoc.
Qed.
Lemma members_app_len a b : len (members a) <= len (members (a ++ b)).
Proof.
  revert a. induction b as [|kv b IH]; intros a; [rewrite app_nil_r; lia|].
  replace (a ++ kv :: b) with ((a ++ [kv]) ++ b) by by rewrite <- app_assoc.
  etrans; [|apply IH]. destruct (decide (a = [])) as [->|Ha]; [apply len_nonneg|].
  rewrite members_snoc by done. rewrite !len_app. pose proof (len_nonneg (pair_text kv)).
  pose proof (len_nonneg [44]). lia.
Qed.
Lemma pair_snoc kv : exists t, pair_text kv = t ++ [34].
Proof. exists ([34] ++ fst kv ++ [34; 58; 34] ++ snd kv). unfold pair_text. by rewrite <- !app_assoc. Qed.
Lemma members_separator acc : separator ([123] ++ members acc) = if decide (acc = []) then [] else [44].
Proof.
  destruct (decide (acc = [])) as [->|Ha]; [done|].
  destruct (exists_last Ha) as (a & kv & ->).
  assert (exists t, [123] ++ members (a ++ [kv]) = t ++ [34]) as (t & ->).
  { destruct (pair_snoc kv) as (t & Et). destruct (decide (a = [])) as [->|Ha'].
    - exists ([123] ++ t). cbn [app members]. by rewrite Et.
    - rewrite members_snoc, Et by done. exists ([123] ++ members a ++ [44] ++ t). by rewrite <- !app_assoc. }
  unfold separator. by rewrite ends_in_quote_snoc.
Qed.
Lemma members_next acc kv : [123] ++ members (acc ++ [kv])
  = ([123] ++ members acc) ++ separator ([123] ++ members acc) ++ pair_text kv.
Proof.
  rewrite members_separator. destruct (decide (acc = [])) as [->|Ha]; [done|].
  rewrite members_snoc by done. by rewrite <- !app_assoc.
Qed.

Lemma text_run_end acc s : s = [123] ++ members acc -> s ++ [125] = json_text acc.
Proof. intros ->. unfold json_text. by rewrite <- app_assoc. Qed.
Lemma text_run_next acc kv s : s = [123] ++ members acc ->
  s ++ separator s ++ pair_text (fst kv, snd kv) = [123] ++ members (acc ++ [kv]).
Proof. intros ->. by rewrite <- surjective_pairing, members_next. Qed.
Lemma text_run_build n kvs acc : fits n (json_text (acc ++ kvs)) = true ->
  text_run n (map (fun kv => Add (fst kv) (snd kv)) kvs ++ [End]) ([123] ++ members acc)
  = Some (replicate (S (length kvs)) true, json_text (acc ++ kvs)).
Proof.
  revert acc. induction kvs as [|kv kvs IH]; intros acc Hf.
  - rewrite app_nil_r in *. remember ([123] ++ members acc) as s eqn:Es.
    cbn [map app text_run text_step length replicate].
    rewrite (text_run_end acc) by done. by rewrite Hf.
  - remember ([123] ++ members acc) as s eqn:Es. cbn [map app text_run text_step length].
    rewrite (text_run_next acc kv) by done.
    assert (fits n ([123] ++ members (acc ++ [kv])) = true) as ->.
    { pose proof (members_app_len (acc ++ [kv]) kvs) as HL. unfold fits, json_text in *.
      rewrite <- app_assoc in HL. cbn [app] in HL. unfold len in HL.
      cbn [app length] in Hf |- *. rewrite app_length in Hf. cbn [length] in Hf. lia. }
    replace (acc ++ kv :: kvs) with ((acc ++ [kv]) ++ kvs) in * by by rewrite <- app_assoc.
    rewrite (IH (acc ++ [kv])) by done. done.
Qed.
Lemma text_run_build_inv n kvs acc rs t :
  text_run n (map (fun kv => Add (fst kv) (snd kv)) kvs ++ [End]) ([123] ++ members acc) = Some (rs, t) ->
  Forall (fun r => r = true) rs -> t = json_text (acc ++ kvs) /\ fits n (json_text (acc ++ kvs)) = true.
Proof.
  revert acc rs t. induction kvs as [|kv kvs IH]; intros acc rs t HR Hrs.
  - remember ([123] ++ members acc) as s eqn:Es. cbn [map app text_run text_step] in HR.
    rewrite (text_run_end acc) in HR by done.
    rewrite app_nil_r. destruct (fits n (json_text acc)) eqn:Hf; injection HR as <- <-; [done|].
    by inversion Hrs.
  - remember ([123] ++ members acc) as s eqn:Es. cbn [map app text_run text_step] in HR.
    rewrite (text_run_next acc kv) in HR by done.
    destruct (fits n ([123] ++ members (acc ++ [kv]))) eqn:Hf.
    + destruct (text_run n _ ([123] ++ members (acc ++ [kv]))) as [[rs' t']|] eqn:E; [|done].
      injection HR as <- <-. apply list.Forall_cons in Hrs as [_ Hrs].
      apply IH in E as [-> Hf']; [|done].
      rewrite <- app_assoc in *. done.
    + destruct (fits n (s ++ separator s)); [|done].
      destruct (text_run n _ _) as [[rs' t']|] eqn:E; [|done]. injection HR as <- <-.
      by inversion Hrs.
Qed.

(** the bytes after the text *)
Lemma put_put s t o : put (s ++ t) (put s o) = put (s ++ t) o.
Proof.
  unfold put. f_equal. f_equal. rewrite (app_assoc s), app_length.
  replace (S (length s + length t)) with (length (s ++ [0%Z]) + length t)%nat
    by (rewrite app_length; cbn [length]; lia).
  rewrite drop_add_app by done. rewrite drop_drop. f_equal. rewrite app_length. cbn [length]. lia.
Qed.
Lemma text_step_grows n op s r s' : op <> Start -> text_step n op s = Some (r, s') ->
  exists t, s' = s ++ t.
Proof.
  intros Hop. destruct op as [|k v|]; [done| |]; cbn [text_step].
  - destruct (fits n _); [intros [= <- <-]; eauto|].
    destruct (fits n _); [intros [= <- <-]; eauto|done].
  - destruct (fits n _); intros [= <- <-]; [eauto|]. exists []. by rewrite app_nil_r.
Qed.
Lemma run_grows n beyond ops buffer s rs s' : holds n beyond buffer s -> Forall op_ok ops ->
  n < 2 ^ 63 -> Forall (fun op => op <> Start) ops -> text_run n ops s = Some (rs, s') ->
  json_run n ops buffer = Ok (rs, put s' buffer) /\ exists t, s' = s ++ t.
Proof.
  intros Hh Hops Hn Hns. revert buffer s rs s' Hh.
  induction Hops as [|op ops Hop Hops IH]; intros buffer s rs s' Hh HR.
  - cbn in HR |- *. injection HR as <- <-. split; [|exists []; by rewrite app_nil_r].
    rewrite put_id; [done|]. apply Hh.
  - apply list.Forall_cons in Hns as [Hop' Hns]. cbn [text_run json_run] in *.
    pose proof (step_ok n beyond op buffer s Hh Hop Hn) as Hstep.
    destruct (text_step n op s) as [[r s1]|] eqn:E1; [|done].
    destruct Hstep as (-> & Hh1 & Hl1). cbn [bind].
    destruct (text_run n ops s1) as [[rs2 s2]|] eqn:E2; [|done]. injection HR as <- <-.
    apply text_step_grows in E1 as (t1 & ->); [|done].
    specialize (IH Hns _ _ _ _ Hh1 E2) as [-> (t2 & ->)]. cbn [bind].
    rewrite put_put. split; [done|]. exists (t1 ++ t2). by rewrite app_assoc.
Qed.

Lemma len_members_in kvs kv : In kv kvs -> len (fst kv) + len (snd kv) + 5 <= len (members kvs).
Proof.
  induction kvs as [|kv1 kvs IH]; [done|]. intros [->|Hin].
  - destruct kvs as [|kv2 kvs]; cbn [members].
    + destruct kv as [k v]. rewrite len_pair. cbn [fst snd]. lia.
    + rewrite len_app. destruct kv as [k v]. rewrite len_pair. cbn [fst snd].
      match goal with |- _ <= _ + len ?x => pose proof (len_nonneg x) end. lia.
  - specialize (IH Hin). destruct kvs as [|kv2 kvs]; [done|].
    change (members (kv1 :: kv2 :: kvs)) with (pair_text kv1 ++ [44] ++ members (kv2 :: kvs)).
    rewrite !len_app. pose proof (len_nonneg (pair_text kv1)). pose proof (len_nonneg [44]). lia.
Qed.
Lemma len_json_text kvs : len (json_text kvs) = len (members kvs) + 2.
Proof. unfold json_text. rewrite !len_app. unfold len; cbn [length]; lia. Qed.

Lemma put_beyond_app s o beyond : len s + 1 <= len o -> put s (o ++ beyond) = put s o ++ beyond.
Proof.
  intros H. unfold put. rewrite drop_app_le by (unfold len in H; lia). by rewrite <- !app_assoc.
Qed.

Lemma build_ops_ok n kvs : Forall (fun kv => no_nul (fst kv) /\ no_nul (snd kv)) kvs ->
  len (json_text kvs) + 1 <= n -> n < 2 ^ 63 ->
  Forall op_ok (map (fun kv => Add (fst kv) (snd kv)) kvs ++ [End]).
Proof.
  intros Hkv Hf H63. rewrite len_json_text in Hf. apply Forall_app_2; [|by repeat constructor].
  apply List.Forall_map. apply list.Forall_forall. intros kv Hin%elem_of_list_In.
  pose proof (len_members_in _ _ Hin). rewrite List.Forall_forall in Hkv.
  destruct (Hkv kv Hin). cbn. split; [done|]. split; [done|]. lia.
Qed.
Lemma build_ok n kvs buffer beyond : n = len buffer -> n < 2 ^ 63 ->
  Forall (fun kv => no_nul (fst kv) /\ no_nul (snd kv)) kvs -> len (json_text kvs) + 1 <= n ->
  json_run n (build kvs) (buffer ++ beyond)
  = Ok (replicate (length kvs + 2) true, put (json_text kvs) buffer ++ beyond).
Proof.
  intros Hn H63 Hkv Hf. unfold build. pose proof (len_nonneg beyond).
  assert (2 <= n). { rewrite len_json_text in Hf. pose proof (len_nonneg (members kvs)). lia. }
  pose proof (build_ops_ok n kvs Hkv Hf H63) as Hops.
  remember (map (fun kv => Add (fst kv) (snd kv)) kvs ++ [End]) as ops eqn:Eops.
  cbn [app json_run json_step]. rewrite start_ok by (rewrite len_app; lia). cbn [bind].
  assert (len [123] + 1 <= n) as H1 by (unfold len at 1; cbn [length]; lia).
  assert (holds n beyond (put [123] (buffer ++ beyond)) [123]) as Hh.
  { split; [apply put_cstring; nn|]. split; [done|]. split; [unfold fits, len in *; cbn [length] in *; lia|].
    rewrite put_beyond, put_len by (rewrite ?len_app; lia). split; [|rewrite len_app; lia].
    rewrite Hn, <- length_len. by rewrite drop_app. }
  destruct (run_grows n beyond ops _ _ (replicate (S (length kvs)) true) (json_text kvs) Hh) as [-> _].
  - done.
  - done.
  - rewrite Eops. apply Forall_app_2; [|by repeat constructor].
    apply List.Forall_map. apply list.Forall_forall. by intros.
  - rewrite Eops. apply (text_run_build n kvs []). unfold fits. cbn [app]. unfold len in Hf. lia.
  - cbn [bind]. replace (length kvs + 2)%nat with (S (S (length kvs))) by lia.
    assert (exists t, json_text kvs = [123] ++ t) as (t & Et) by (unfold json_text; eauto).
    rewrite Et, put_put, <- Et, put_beyond_app by lia. done.
Qed.
Lemma build_only n kvs buffer rs buffer' : n = len buffer -> n < 2 ^ 63 ->
  Forall (fun kv => no_nul (fst kv) /\ no_nul (snd kv) /\ len (fst kv) + len (snd kv) + 8 < 2 ^ 63) kvs ->
  json_run n (build kvs) buffer = Ok (rs, buffer') -> Forall (fun r => r = true) rs ->
  len (json_text kvs) + 1 <= n.
Proof.
  intros Hn H63 Hkv HR Hrs. unfold build in HR.
  assert (Forall op_ok (map (fun kv => Add (fst kv) (snd kv)) kvs ++ [End])) as Hops.
  { apply Forall_app_2; [|by repeat constructor]. apply List.Forall_map.
    eapply list.Forall_impl; [exact Hkv|]. by intros. }
  remember (map (fun kv => Add (fst kv) (snd kv)) kvs ++ [End]) as ops eqn:Eops.
  cbn [app json_run json_step] in HR.
  destruct (decide (2 <= n)) as [H2|H2].
  2:{ rewrite start_fail in HR by lia. cbn [bind] in HR.
      destruct (json_run n ops buffer) as [[rs' b']| |]; cbn [bind] in HR; try done.
      injection HR as <- <-. by inversion Hrs. }
  rewrite start_ok in HR by lia. cbn [bind] in HR.
  assert (len [123] + 1 <= n) as H1 by (unfold len at 1; cbn [length]; lia).
  assert (holds n (drop (Z.to_nat n) buffer) (put [123] buffer) [123]) as Hh.
  { split; [apply put_cstring; nn|]. split; [done|]. split; [unfold fits, len in *; cbn [length] in *; lia|].
    rewrite put_beyond, put_len by lia. split; [done|lia]. }
  pose proof (run_ok n _ ops _ _ Hh Hops H63) as HR'.
  destruct (text_run n ops [123]) as [[rs' s']|] eqn:E.
  - destruct HR' as (b1 & E1 & _). rewrite E1 in HR. cbn [bind] in HR. injection HR as <- <-.
    apply list.Forall_cons in Hrs as [_ Hrs]. rewrite Eops in E.
    apply (text_run_build_inv n kvs []) in E as [_ Hf]; [|done]. unfold fits in Hf.
    unfold len. cbn [app] in Hf. lia.
  - rewrite HR' in HR; [done|]. rewrite put_len; lia.
Qed.
