(** * The C text of json.c *)
From Verif Require Import CSem Lib CLang C_Json Model_Json Spec_Json Drive_Json Drive_TextRun Drive_JsonText
  Proof_Json Proof_JsonFind Proof_JsonProps Refine Refine_Json Refine_JsonFind Proof_TextQueue Proof_TextCrypto.

Local Notation chars b := (VPtr (TInt IChar) (BObj b) 0).

Lemma strcpy_len o p s o' : strcpy o p s = Ok o' -> length o' = length o.
Proof.
  unfold strcpy. destruct (strlen s) as [n| |]; [|done..]. cbn [bind].
  unfold memcpy, in_range. destruct (_ && _) eqn:B; [|done]. intros [= <-].
  assert (len (write o p (slice s 0 (n + 1))) = len o) as L; [|unfold len in L; lia].
  apply len_write; rewrite ?len_slice; lia.
Qed.
Lemma json_step_len n op o r o' : json_step n op o = Ok (r, o') -> length o' = length o.
Proof.
  destruct op; cbn [json_step].
  - unfold Json_startString. destruct (_ <=? _); [|by intros [= _ <-]].
    destruct (strcpy o 0 lit_open) eqn:E; [|done..]. intros [= _ <-]. by eapply strcpy_len.
  - unfold Json_addData.
    repeat match goal with
    | |- (let! x := strcpy ?a ?b ?c in _) = _ -> _ =>
        destruct (strcpy a b c) eqn:?; [cbn [bind]|done..]
    | |- (let! x := strlen ?a in _) = _ -> _ => destruct (strlen a) eqn:?; [cbn [bind]|done..]
    | |- (let! x := strcmp_eq ?a ?b ?c in _) = _ -> _ =>
        destruct (strcmp_eq a b c) as [[]| |] eqn:?; [cbn [bind]|cbn [bind]|done..]
    | |- (let! _ := (let! x := strcpy ?a ?b ?c in _) in _) = _ -> _ =>
        destruct (strcpy a b c) eqn:?; [cbn [bind]|done..]
    | |- (if ?b then _ else _) = _ -> _ => destruct b
    | H : strcpy _ _ _ = Ok _ |- _ => apply strcpy_len in H
    end; intros [= _ <-]; congruence.
  - unfold Json_endString. destruct (strlen o); [cbn [bind]|done..].
    destruct (_ <=? _); [|by intros [= _ <-]].
    destruct (strcpy _ _ _) eqn:E; [|done..]. intros [= _ <-]. by eapply strcpy_len.
Qed.

Lemma json_text_bytes kvs :
  Forall (fun kv => bytes (fst kv) /\ bytes (snd kv)) kvs -> bytes (json_text kvs).
Proof.
  intros H. unfold json_text.
  assert (forall l : list Z, Forall is_byte l -> bytes l) as Hx by done.
  assert (bytes (members kvs)) as Hm.
  { induction H as [|[k v] kvs [Hk Hv] H IH]; [constructor|]. cbn [fst snd] in *.
    assert (bytes (pair_text (k, v))) as Hp.
    { unfold pair_text. cbn [fst snd].
      repeat apply Forall_app_2; try done; repeat constructor; unfold is_byte; lia. }
    destruct kvs; [done|].
    apply Forall_app_2; [done|]. constructor; [unfold is_byte; lia|done]. }
  repeat apply Forall_app_2; try done; repeat constructor; unfold is_byte; lia.
Qed.
Lemma put_bytes s o : bytes s -> bytes o -> bytes (put s o).
Proof.
  intros Hs Ho. unfold put. apply Forall_app_2; [done|]. constructor; [unfold is_byte; lia|].
  by apply Forall_drop.
Qed.

Lemma front_lt (x y : list Z) k : len (x ++ y) < k -> len x < k.
Proof. rewrite len_app. pose proof (len_nonneg y). lia. Qed.

Section json.
  Context {W : Type} (sc : bool)
          (ext : Z -> list val -> mem -> W -> outcome (val * mem * W)) (fuel : nat).
  Implicit Types (m : mem) (w : W).

  Lemma answer_b2z t r : answer (VInt t (b2z r)) = r.
  Proof. by destruct r. Qed.

  Lemma json_call_ok b n op m w o : m !! b = Some (ints 8 o) -> is_u64 n -> len o < 2 ^ 64 ->
    json_call sc ext fuel b n op m w
    = let! '(r, o) := json_step n op o in Ok (r, <[b := ints 8 o]> m, w).
  Proof.
    intros Hb Hn Hl. unfold json_call. pose proof (lookup_lt_Some _ _ _ Hb) as Hlt.
    destruct op as [|k v|]; cbn [json_step].
    - rewrite (ref_Json_startString sc ext fuel m w b o n) by done.
      destruct (Json_startString o n) as [[r o']| |]; [cbn [bind]|done..].
      rewrite answer_b2z, firstn_all2; [done|]. by rewrite insert_length.
    - rewrite (ref_Json_addData sc ext fuel _ w b o n (length m) (k ++ [0]) (length m + 1) (v ++ [0]));
        try done; try lia.
      + destruct (Json_addData _ _ _ _) as [[r o']| |]; [cbn [bind]|done..].
        rewrite answer_b2z, insert_app_l by done. by rewrite take_app_alt by (by rewrite insert_length).
      + by rewrite lookup_app_l.
      + rewrite lookup_app_r by lia. by rewrite Nat.sub_diag.
      + rewrite lookup_app_r by lia. by replace (length m + 1 - length m)%nat with 1%nat by lia.
    - rewrite (ref_Json_endString sc ext fuel m w b o n) by done.
      destruct (Json_endString o n) as [[r o']| |]; [cbn [bind]|done..].
      rewrite answer_b2z, firstn_all2; [done|]. by rewrite insert_length.
  Qed.
  Lemma json_calls_ok b n ops : is_u64 n -> forall m w o,
    m !! b = Some (ints 8 o) -> len o < 2 ^ 64 ->
    json_calls sc ext fuel b n ops m w
    = let! '(rs, o) := json_run n ops o in Ok (rs, <[b := ints 8 o]> m, w).
  Proof.
    intros Hn. induction ops as [|op ops IH]; intros m w o Hb Hl.
    - cbn [json_calls json_run bind]. by rewrite list_insert_id.
    - cbn [json_calls json_run]. rewrite (json_call_ok b n op m w o) by done.
      destruct (json_step n op o) as [[r o']| |] eqn:E; [cbn [bind]|done..].
      apply json_step_len in E. pose proof (lookup_lt_Some _ _ _ Hb).
      rewrite (IH _ w o').
      + destruct (json_run n ops o') as [[rs o'']| |]; [cbn [bind]|done..].
        by rewrite list_insert_insert.
      + by apply list_lookup_insert.
      + unfold len in *. lia.
  Qed.

  Section build.
    Context (m : mem) (w : W) (b : nat) (n : Z) (buffer beyond : list Z).
    Hypothesis (Hb : m !! b = Some (ints 8 (buffer ++ beyond))) (Hn : n = len buffer)
               (H64 : len (buffer ++ beyond) < 2 ^ 64).

    Lemma text_build kvs : n < 2 ^ 63 ->
      Forall (fun kv => no_nul (fst kv) /\ no_nul (snd kv)) kvs -> len (json_text kvs) + 1 <= n ->
      json_calls sc ext fuel b n (build kvs) m w
      = Ok (replicate (length kvs + 2) true, <[b := ints 8 (put (json_text kvs) buffer ++ beyond)]> m, w).
    Proof using All.
      intros H63 Hkv Hfit. rewrite (json_calls_ok b n _ ltac:(unfold is_u64; pose proof (len_nonneg buffer); lia) m w _ Hb H64).
      by rewrite build_ok.
    Qed.
    Lemma text_sequence ops : 2 <= n -> n < 2 ^ 63 -> Forall op_ok ops ->
      match text_run n (Start :: ops) [] with
      | Some (rs, s) => exists buffer',
          json_calls sc ext fuel b n (Start :: ops) m w
          = Ok (rs, <[b := ints 8 (buffer' ++ beyond)]> m, w) /\
          is_cstring buffer' s /\ len buffer' = n
      | None => beyond = [] ->
          json_calls sc ext fuel b n (Start :: ops) m w = UB OutOfBounds
      end.
    Proof using All.
      intros H2 H63 Hops. rewrite (json_calls_ok b n _ ltac:(unfold is_u64; lia) m w _ Hb H64).
      pose proof (run_start n beyond ops buffer H2 Hn H63 Hops) as R.
      destruct (text_run _ _ _) as [[rs s]|].
      - destruct R as (buffer' & -> & Hc & Hl). by exists buffer'.
      - intros ->. by rewrite app_nil_r, R.
    Qed.
  End build.

  Section find.
    Context (m : mem) (w : W) (b bk bv : nat) (o bb key k val vb : list Z).
    Hypothesis (Hb : m !! b = Some (ints 8 (o ++ bb))) (Hk : m !! bk = Some (ints 8 key))
               (Hv : m !! bv = Some (ints 8 (val ++ vb))).
    Hypothesis (Hn1 : b <> bk) (Hn2 : b <> bv) (Hn3 : bk <> bv).
    Hypothesis (Hbytes : bytes (o ++ bb)) (Hkey : is_cstring key k).
    Hypothesis (Ho : len o < 2 ^ 32) (Hkl : len key < 2 ^ 64) (Hvl : len (val ++ vb) < 2 ^ 64).
    Hypothesis (Hf : len (o ++ bb) + 1 < Z.of_nat fuel).
    Local Notation find := (call sc ext fuel c_Json_findByKey
      [chars b; VInt U64 (len o); chars bk; chars bv; VInt U64 (len val)] m w).

    Lemma find_text : find = let! '(r, v) := Json_findByKey (o ++ bb) (len o) key (val ++ vb) (len val) in
      Ok (VInt IBool (b2z r), <[bv := ints 8 v]> m, w).
    Proof using All.
      pose proof (len_nonneg o). pose proof (len_nonneg val). pose proof (len_nonneg vb).
      assert (len val < 2 ^ 64) by (rewrite len_app in Hvl; lia).
      destruct (find_safe o k val) as (r & val' & Hl & E); [by eapply key_no_nul|done|done|].
      apply (ref_Json_findByKey sc ext fuel m w b (o ++ bb) (len o) bk key bv (val ++ vb) (len val));
        try done; try (unfold is_u64; lia).
      - by rewrite E.
      - unfold len in *. lia.
    Qed.
    Local Notation val64 := (front_lt val vb (2 ^ 64) Hvl).
    Lemma text_find_safe : exists r val', len val' = len val /\
      find = Ok (VInt IBool (b2z r), <[bv := ints 8 (val' ++ vb)]> m, w).
    Proof using All.
      destruct (find_safe o k val) as (r & val' & Hl & E); [by eapply key_no_nul|done|apply val64|].
      exists r, val'. split; [done|]. by rewrite find_text, E.
    Qed.
    Lemma text_find m' : len o < 2 ^ 32 - 1 ->
      find = Ok (VInt IBool 1, m', w) <->
      exists v, has_value o k v /\ len v < len val /\ m' = <[bv := ints 8 (put v val ++ vb)]> m.
    Proof using All.
      intros H. rewrite find_text. pose proof val64 as H6.
      pose proof (fun v' => find_iff o k val key bb vb Hkey Ho H6 v' H) as I.
      destruct (Json_findByKey _ _ _ _ _) as [[r v']| |] eqn:E; cbn [bind].
      - split.
        + intros [= Hr <-]. destruct r; [|done].
          destruct (proj1 (I v') eq_refl) as (v & ? & ? & ->). by exists v.
        + intros (v & H1 & H2 & ->). pose proof (proj2 (I (put v val ++ vb))) as J.
          rewrite J in * by (by exists v). f_equal.
          assert (Ok (r, v') = Ok (true, put v val ++ vb)) as Q by (apply J; by exists v).
          by injection Q as -> ->.
      - split; [done|]. intros (v & H1 & H2 & ->).
        pose proof (proj2 (I (put v val ++ vb)) ltac:(by exists v)). done.
      - split; [done|]. intros (v & H1 & H2 & ->).
        pose proof (proj2 (I (put v val ++ vb)) ltac:(by exists v)). done.
    Qed.
    Lemma text_find_absent : ~ occurs k o -> find = Ok (VInt IBool 0, m, w).
    Proof using All.
      intros H. rewrite find_text, (find_absent o k val) by (done || apply val64).
      cbn [bind b2z]. by rewrite list_insert_id.
    Qed.
    Lemma text_find_long v : has_value o k v -> len val <= len v ->
      find = Ok (VInt IBool 0, <[bv := ints 8 (take (length val) v ++ vb)]> m, w).
    Proof using All.
      intros H1 H2. by rewrite find_text, (find_long o k val key bb vb Hkey Ho val64 v).
    Qed.
  End find.

  Section build_find.
    Context (m : mem) (w : W) (b bk bv : nat) (n : Z) (buffer beyond key k val vb : list Z).
    Hypothesis (Hb : m !! b = Some (ints 8 (buffer ++ beyond))) (Hk : m !! bk = Some (ints 8 key))
               (Hv : m !! bv = Some (ints 8 (val ++ vb))).
    Hypothesis (Hn1 : b <> bk) (Hn2 : b <> bv) (Hn3 : bk <> bv).
    Hypothesis (Hbytes : bytes (buffer ++ beyond)) (Hkey : is_cstring key k).
    Hypothesis (Hn : n = len buffer) (H32 : n < 2 ^ 32) (H64 : len (buffer ++ beyond) < 2 ^ 64)
               (Hkl : len key < 2 ^ 64) (Hvl : len (val ++ vb) < 2 ^ 64).
    Hypothesis (Hf : len (buffer ++ beyond) + 1 < Z.of_nat fuel).
    Local Notation find := (call sc ext fuel c_Json_findByKey
      [chars b; VInt U64 n; chars bk; chars bv; VInt U64 (len val)]).
    Local Notation strings kvs := (Forall (fun kv => (no_nul (fst kv) /\ bytes (fst kv)) /\
                                                     (no_nul (snd kv) /\ bytes (snd kv))) kvs).

    Lemma after_build kvs : strings kvs -> len (json_text kvs) + 1 <= n ->
      (let! '(rs, m, w) := json_calls sc ext fuel b n (build kvs) m w in
       let! '(r, m, w) := find m w in Ok (rs, r, m, w))
      = let! '(rs, o) := json_run n (build kvs) (buffer ++ beyond) in
        let! '(r, v) := Json_findByKey o n key (val ++ vb) (len val) in
        Ok (rs, VInt IBool (b2z r), <[bv := ints 8 v]> (<[b := ints 8 o]> m), w).
    Proof using All.
      intros Hs Hfit.
      assert (Forall (fun kv => no_nul (fst kv) /\ no_nul (snd kv)) kvs) as Hs1.
      { eapply list.Forall_impl; [exact Hs|]. cbn. tauto. }
      assert (Forall (fun kv => bytes (fst kv) /\ bytes (snd kv)) kvs) as Hs2.
      { eapply list.Forall_impl; [exact Hs|]. cbn. tauto. }
      pose proof (len_nonneg buffer). pose proof (len_nonneg beyond).
      rewrite (text_build m w b n buffer beyond Hb Hn H64 kvs ltac:(lia) Hs1 Hfit).
      rewrite build_ok by (done || lia). cbn [bind].
      pose proof (lookup_lt_Some _ _ _ Hb) as Hlt.
      pose proof (put_len (json_text kvs) buffer ltac:(lia)) as Hpl.
      apply Forall_app in Hbytes as [Hb1 Hb2].
      pose proof (find_text (<[b := ints 8 (put (json_text kvs) buffer ++ beyond)]> m) w b bk bv
        (put (json_text kvs) buffer) beyond key k val vb) as F.
      rewrite Hpl, <- Hn in F. rewrite F.
      - destruct (Json_findByKey _ _ _ _ _) as [[r v]| |]; done.
      - by apply list_lookup_insert.
      - by rewrite list_lookup_insert_ne.
      - by rewrite list_lookup_insert_ne.
      - done.
      - done.
      - done.
      - apply Forall_app_2; [|done]. apply put_bytes; [by apply json_text_bytes|done].
      - done.
      - lia.
      - done.
      - done.
      - rewrite len_app, Hpl, <- len_app. done.
    Qed.

    Lemma text_build_find pre v post : strings (pre ++ (k, v) :: post) ->
      len (json_text (pre ++ (k, v) :: post)) + 1 <= n ->
      ~ In 34 k -> ~ In 34 v -> k <> [] -> k <> [123] ->
      Forall (fun kv => ~ occurs k (fst kv) /\ ~ occurs k (snd kv)) pre ->
      (pre <> [] -> k <> [58] /\ k <> [44]) -> len v < len val ->
      exists rs m',
        (let! '(rs, m, w) := json_calls sc ext fuel b n (build (pre ++ (k, v) :: post)) m w in
         let! '(r, m, w) := find m w in Ok (rs, r, m, w)) = Ok (rs, VInt IBool 1, m', w) /\
        Forall (fun r => r = true) rs /\ m' !! bv = Some (ints 8 (put v val ++ vb)) /\
        same_but [b; bv] m m'.
    Proof using All.
      intros Hs Hfit ? ? ? ? ? ? Hlv. rewrite after_build by done.
      destruct (build_find n buffer beyond pre k v post key val vb) as (rs & buf & E1 & Hrs & E2);
        try done.
      - eapply list.Forall_impl; [exact Hs|]. cbn. tauto.
      - split; [done|]. rewrite len_app in Hvl. pose proof (len_nonneg vb). lia.
      - rewrite E1. cbn [bind]. rewrite E2. cbn [bind b2z]. eexists rs, _. split; [done|].
        split; [done|]. split.
        + apply list_lookup_insert. rewrite insert_length. by eapply lookup_lt_Some.
        + split; [by rewrite !insert_length|]. intros b' Hb'.
          rewrite !not_elem_of_cons in Hb'. destruct Hb' as (? & ? & _).
          by rewrite !list_lookup_insert_ne by congruence.
    Qed.
    Lemma text_build_absent kvs : strings kvs -> len (json_text kvs) + 1 <= n ->
      ~ In 34 k -> ~ In k [[]; [123]; [125]; [123; 125]; [58]; [44]] ->
      Forall (fun kv => ~ occurs k (fst kv) /\ ~ occurs k (snd kv)) kvs ->
      ~ occurs k buffer ->
      exists rs m',
        (let! '(rs, m, w) := json_calls sc ext fuel b n (build kvs) m w in
         let! '(r, m, w) := find m w in Ok (rs, r, m, w)) = Ok (rs, VInt IBool 0, m', w) /\
        Forall (fun r => r = true) rs /\ same_but [b] m m'.
    Proof using All.
      intros Hs Hfit ? ? ? ?. rewrite after_build by done.
      destruct (build_find_absent n buffer beyond kvs k key val vb) as (rs & buf & E1 & Hrs & E2);
        try done.
      - eapply list.Forall_impl; [exact Hs|]. cbn. tauto.
      - rewrite len_app in Hvl. pose proof (len_nonneg vb). lia.
      - rewrite E1. cbn [bind]. rewrite E2. cbn [bind b2z]. eexists rs, _. split; [done|].
        split; [done|]. split; [by rewrite !insert_length|]. intros b' Hb'.
        rewrite !not_elem_of_cons in Hb'. destruct Hb' as (? & _).
        rewrite list_insert_id; [by rewrite list_lookup_insert_ne by congruence|].
        by rewrite list_lookup_insert_ne.
    Qed.
  End build_find.
End json.

(** an earlier key ends in the key: its value is returned *)
Lemma text_confused : exists kvs k v v2 rs m m' (w : unit),
  NoDup (map fst kvs) /\ In (k, v) kvs /\ v2 <> v /\ Forall (fun r => r = true) rs /\
  m !! 1%nat = Some (ints 8 (k ++ [0])) /\ m' !! 2%nat = Some (ints 8 (v2 ++ [0])) /\
  (let! '(rs, m, w) := json_calls true no_ext 50 0 30 (build kvs) m w in
   let! '(r, m, w) := call true no_ext 50 c_Json_findByKey
                        [chars 0; VInt U64 30; chars 1; chars 2; VInt U64 2] m w in
   Ok (rs, r, m, w)) = Ok (rs, VInt IBool 1, m', w).
Proof.
  exists [([98; 97], [49]); ([97], [50])], [97], [50], [49], (replicate 4 true),
    [ints 8 (replicate 30 9); ints 8 [97; 0]; ints 8 [9; 9]],
    [ints 8 (put (json_text [([98; 97], [49]); ([97], [50])]) (replicate 30 9)); ints 8 [97; 0]; ints 8 [49; 0]], tt.
  split; [repeat constructor; cbn; rewrite ?elem_of_cons, ?elem_of_nil; naive_solver|]. split; [right; by left|]. split; [done|].
  split; [repeat constructor|]. split; [done|]. split; [done|]. vm_compute. reflexivity.
Qed.
