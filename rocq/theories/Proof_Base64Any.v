(** * The decoder on arbitrary characters *)
From Verif Require Import CSem Lib Model_Base64 Spec_Base64 Spec_Base64Any Proof_Base64.

Lemma cwhile_ext {S} (fuel : nat) (c d : S -> bool) (f g : S -> outcome (ctl S)) s :
  (forall s, c s = d s) -> (forall s, f s = g s) -> cwhile fuel c f s = cwhile fuel d g s.
Proof.
  intros Hc Hf. revert s. induction fuel as [|n IH]; intros s; [done|]. cbn. rewrite <- Hc, <- Hf.
  destruct (c s); [|done]. destruct (f s) as [[s'|s']| |]; cbn; try done.
Qed.

(** ** Characters with the same index are interchangeable *)

Definition same (a b : Z) : Prop :=
  load base64_index a = load base64_index b /\ (a =? 61) = (b =? 61).
Lemma same_get inb1 inb2 i : Forall2 same inb1 inb2 -> 0 <= i < len inb1 ->
  same (get inb1 i) (get inb2 i).
Proof.
  intros H Hi. unfold get.
  assert (Z.to_nat i < length inb1)%nat as Hn by (unfold len in Hi; lia).
  revert Hn. clear Hi. generalize (Z.to_nat i) as n. clear i.
  induction H as [|a b l1 l2 HE H IH]; intros n Hn; [cbn in Hn; lia|].
  destruct n as [|n]; [done|]. cbn. apply IH. cbn in Hn. lia.
Qed.
Lemma load_same inb1 inb2 i {B} (K1 K2 : Z -> outcome B) : Forall2 same inb1 inb2 ->
  (forall v, K1 v = K2 v) ->
  (let! b := load inb1 i in let! v := load base64_index b in K1 v)
  = (let! b := load inb2 i in let! v := load base64_index b in K2 v).
Proof.
  intros H HK. pose proof (Forall2_length _ _ _ H) as HL.
  destruct (decide (0 <= i < len inb1)) as [Hi|Hi].
  - rewrite !load_ok by (unfold len in *; lia). cbn [bind].
    destruct (same_get _ _ i H Hi) as [-> _].
    destruct (load base64_index (get inb2 i)); cbn [bind]; [apply HK|done..].
  - rewrite !load_oob by (unfold len in *; lia). done.
Qed.
Lemma pad_same inb1 inb2 i {B} (K1 K2 : bool -> outcome B) : Forall2 same inb1 inb2 ->
  (forall v, K1 v = K2 v) ->
  (let! b := load inb1 i in K1 (b =? 61)) = (let! b := load inb2 i in K2 (b =? 61)).
Proof.
  intros H HK. pose proof (Forall2_length _ _ _ H) as HL.
  destruct (decide (0 <= i < len inb1)) as [Hi|Hi].
  - rewrite !load_ok by (unfold len in *; lia). cbn [bind].
    destruct (same_get _ _ i H Hi) as [_ ->]. apply HK.
  - rewrite !load_oob by (unfold len in *; lia). done.
Qed.
Lemma bind_ext {A B} (e e' : outcome A) (k k' : A -> outcome B) :
  e = e' -> (forall a, k a = k' a) -> bind e k = bind e' k'.
Proof. intros -> H. destruct e'; cbn; done. Qed.
Lemma decode_same inb1 inb2 n out max_len : Forall2 same inb1 inb2 ->
  Base64_decode inb1 n out max_len = Base64_decode inb2 n out max_len.
Proof.
  intros H. unfold Base64_decode. apply bind_ext.
  { destruct (0 <? n); [|done]. destruct (negb (n mod 4 =? 0)); [done|].
    by apply (pad_same inb1 inb2 (n - 1) Ok Ok). }
  intros p. cbn zeta. set (q := if p then 1 else 0). generalize (u64 (u64 (u64 (n + 3) / 4 - q) * 4)).
  intros l. destruct (_ || _); [done|]. apply bind_ext.
  { rewrite (Forall2_length _ _ _ H). apply cwhile_ext; [done|]. intros [[i j] o].
    apply load_same; [done|]. intros v0. apply load_same; [done|]. intros v1.
    apply load_same; [done|]. intros v2. apply load_same; [done|]. intros v3. done. }
  intros [[i j] o]. destruct p; [|done].
  apply load_same; [done|]. intros v0. apply load_same; [done|]. intros v1.
  apply bind_ext; [done|]. intros o'. apply bind_ext.
  { destruct (_ <? n); [|done].
    by apply (pad_same inb1 inb2 (l + 2) (fun b => Ok (negb b)) (fun b => Ok (negb b))). }
  intros [|]; [|done]. destruct (max_len <? _); [done|].
  apply load_same; [done|]. done.
Qed.

(** ** What each character means *)

Lemma taken_for_idx c : is_byte c -> taken_for c (idx c).
Proof.
  intros Hc.
  set (is_alpha := fun c => existsb (fun v => c =? alphabet (Z.of_nat v)) (seq 0 64)).
  assert ((if is_alpha c then alphabet (idx c) =? c
           else if (c =? 45) || (c =? 46) then idx c =? 62
           else if (c =? 44) || (c =? 95) then idx c =? 63 else idx c =? 0) = true) as H.
  { revert c Hc. apply (check_range (fun c => if is_alpha c then alphabet (idx c) =? c
           else if (c =? 45) || (c =? 46) then idx c =? 62
           else if (c =? 44) || (c =? 95) then idx c =? 63 else idx c =? 0)). by vm_compute. }
  pose proof (idx_range c Hc) as HR. unfold taken_for, means.
  destruct (is_alpha c) eqn:EA.
  { left. left. split; [done|lia]. }
  destruct ((c =? 45) || (c =? 46)) eqn:E1; [left; right; lia|].
  destruct ((c =? 44) || (c =? 95)) eqn:E2; [left; right; lia|].
  right. split; [lia|]. intros u [(Hu & ->)|Hu]; [|lia].
  assert (is_alpha (alphabet u) = true); [|congruence].
  apply existsb_exists. exists (Z.to_nat u). unfold is_sextet in Hu. split; [apply in_seq; lia|].
  apply Z.eqb_eq. f_equal. lia.
Qed.
Lemma means_fun c u v : means c u -> means c v -> u = v.
Proof.
  assert (forall u, means c u -> u = idx c) as H; [|intros H1%H H2%H; congruence].
  clear u v. intros u [(Hu & ->)|[([-> | ->] & ->)|([-> | ->] & ->)]]; try by vm_compute.
  by rewrite idx_alphabet.
Qed.
Lemma taken_for_fun c u v : taken_for c u -> taken_for c v -> u = v.
Proof.
  intros [H1|(-> & H1)] [H2|(-> & H2)]; [by eapply means_fun| | |done]; exfalso; naive_solver.
Qed.

Lemma decode_any text vs p rest out max_len :
  bytes text -> ~ In 61 text -> Forall2 taken_for text vs ->
  4 <= len text < 2 ^ 60 -> len text mod 4 <> 1 ->
  p = [] \/ p = replicate (Z.to_nat ((- len text) mod 4)) 61 ->
  bytes rest -> 0 <= max_len <= len out ->
  Base64_decode (text ++ p ++ rest) (len text + len p) out max_len =
    let d := base64_decoded vs in
    if len d <=? max_len then Ok (0, d ++ drop (length d) out)
    else Ok (1, if (len d =? max_len + 1) && (len vs mod 4 =? 3)
                then take (length d - 1) d ++ drop (length d - 1) out else out).
Proof.
  intros HB HN HV HL HM HP HR HO.
  assert (len text = len vs) as EL by (unfold len; by rewrite (Forall2_length _ _ _ HV)).
  assert (Forall is_sextet vs /\ Forall2 same text (map alphabet vs)) as [HS HE].
  { clear -HB HN HV. induction HV as [|c v text vs Hcv HV IH]; [by repeat constructor|].
    apply list.Forall_cons in HB as [Hc HB]. destruct IH as [IH1 IH2]; [done|intros H; apply HN; by right|].
    assert (v = idx c) as -> by (eapply taken_for_fun; [done|by apply taken_for_idx]).
    split; [constructor; [by apply idx_range|done]|]. cbn [map]. constructor; [|done].
    split.
    - rewrite !index_ok; [|apply alphabet_byte; by apply idx_range|done].
      by rewrite idx_alphabet by by apply idx_range.
    - pose proof (alphabet_not_pad (idx c) (idx_range c Hc)).
      destruct (Z.eqb_spec c 61) as [->|]; [|lia]. exfalso. apply HN. by left. }
  rewrite (decode_same (text ++ p ++ rest) (map alphabet vs ++ p ++ rest)).
  2: { apply Forall2_app; [done|]. generalize (p ++ rest). intros l. induction l; by repeat constructor. }
  rewrite EL in *. by apply decode_valid.
Qed.
Lemma taken_for_total c : is_byte c -> exists v, taken_for c v /\ forall u, taken_for c u -> u = v.
Proof.
  intros Hc. exists (idx c). split; [by apply taken_for_idx|].
  intros u Hu. eapply taken_for_fun; [done|by apply taken_for_idx].
Qed.
