(** * Proof_Lex: the tokens of [CFront] are those of [Spec_Lex] *)
From Coq Require Import String Ascii.
From Verif Require Import CSem Lib CLang CFront Spec_Lex.
Local Open Scope string_scope.
Local Open Scope list_scope.
Local Open Scope Z_scope.

(** ** Strings *)
Lemma sapp_assoc a b c : (a +++ b) +++ c = a +++ b +++ c.
Proof. induction a as [|x a IH]; [reflexivity|]. cbn. by rewrite IH. Qed.
Lemma sapp_nil a : a +++ "" = a.
Proof. induction a as [|x a IH]; [reflexivity|]. cbn. by rewrite IH. Qed.
Lemma slen_app a b : String.length (a +++ b) = (String.length a + String.length b)%nat.
Proof. induction a as [|x a IH]; [reflexivity|]. cbn. by rewrite IH. Qed.
Lemma sapp_cut a b c d : a +++ b = c +++ d -> (String.length a <= String.length c)%nat ->
  exists t, c = a +++ t /\ b = t +++ d.
Proof.
  revert c. induction a as [|x a IH]; intros c H L; [by exists c|].
  destruct c as [|y c]; [cbn in L; lia|]. cbn in H. injection H as -> H.
  destruct (IH c H) as (t & -> & ->); [cbn in L; lia|]. by exists t.
Qed.
Lemma sapp_same a b c d : a +++ b = c +++ d -> String.length a = String.length c -> a = c /\ b = d.
Proof.
  intros H L. destruct (sapp_cut _ _ _ _ H) as (t & -> & ->); [lia|].
  rewrite slen_app in L. destruct t; [|cbn in L; lia]. by rewrite sapp_nil.
Qed.
Lemma sapp_inj a b d : a +++ b = a +++ d -> b = d.
Proof. intros H. by apply (sapp_same _ _ _ _ H). Qed.
Lemma chr_app c s : chr c +++ s = String c s.
Proof. reflexivity. Qed.

Lemma after_ok p s r : after p s = Some r <-> s = p +++ r.
Proof.
  revert s. induction p as [|a p IH]; intros s; cbn.
  - split; congruence.
  - destruct s as [|b s]; [split; discriminate|].
    destruct (Ascii.eqb_spec a b) as [->|N].
    + rewrite IH. split; [by intros ->|]. cbn. congruence.
    + split; [discriminate|]. cbn. congruence.
Qed.
Lemma after_none p s : after p s = None <-> ~ starts p s.
Proof.
  split.
  - intros H (r & E). apply after_ok in E. congruence.
  - intros H. destruct (after p s) as [r|] eqn:E; [|done]. destruct H. exists r. by apply after_ok.
Qed.

(** ** Characters *)
Definition inb (l : string) (c : ascii) : bool := existsb (Ascii.eqb c) (list_ascii_of_string l).
Lemma one_of_inb l c : one_of l c <-> inb l c = true.
Proof.
  unfold one_of, inb. rewrite existsb_exists. split.
  - intros H. exists c. by rewrite Ascii.eqb_refl.
  - intros (d & H & E). apply Ascii.eqb_eq in E. by subst.
Qed.
Ltac sweep := let c := fresh in intros c; destruct c as [[] [] [] [] [] [] [] []]; vm_compute; reflexivity.
Lemma is_digit_inb : forall c, is_digit c = inb "0123456789" c.
Proof. sweep. Qed.
Lemma is_name_inb : forall c, is_name c =
  inb "_abcdefghijklmnopqrstuvwxyzABCDEFGHIJKLMNOPQRSTUVWXYZ" c || inb "0123456789" c.
Proof. sweep. Qed.
Lemma exponent_inb : forall c, is_exponent c = inb "eEpP" c.
Proof. sweep. Qed.
Lemma sign_inb : forall c, is_sign c = inb "+-" c.
Proof. sweep. Qed.
Lemma octal_inb : forall c, (digit c <? 8) = inb "01234567" c.
Proof. sweep. Qed.
Lemma decimal_ok c : is_digit c = true <-> decimal c.
Proof. rewrite is_digit_inb. symmetry. apply one_of_inb. Qed.
Lemma name_ok c : is_name c = true <-> nondigit c \/ decimal c.
Proof. rewrite is_name_inb, orb_true_iff. unfold nondigit, decimal. by rewrite !one_of_inb. Qed.
Lemma exponent_ok c : is_exponent c = true <-> one_of "eEpP" c.
Proof. rewrite exponent_inb. symmetry. apply one_of_inb. Qed.
Lemma sign_ok c : is_sign c = true <-> one_of "+-" c.
Proof. rewrite sign_inb. symmetry. apply one_of_inb. Qed.
Lemma octal_ok c : (digit c <? 8) = true <-> octal c.
Proof. rewrite octal_inb. symmetry. apply one_of_inb. Qed.
Lemma blank_ok c : is_space c = true <-> blank c.
Proof.
  transitivity (inb (String " " (String "009" (String "011" (String "012" (String "013" ""))))) c = true).
  - assert (E : forall c, is_space c =
      inb (String " " (String "009" (String "011" (String "012" (String "013" ""))))) c) by sweep.
    by rewrite E.
  - rewrite <- one_of_inb. unfold one_of, blank. reflexivity.
Qed.
Lemma newline_ok c : is_newline c = true <-> c = "010"%char.
Proof. apply Ascii.eqb_eq. Qed.

(** digits and their values *)
Lemma digit_value_ok base c d : base <= 16 -> digit_value base c d <-> d = digit c /\ d < base.
Proof.
  intros B. split.
  - intros ((L & U) & G). split; [|done].
    assert (D : In d [0;1;2;3;4;5;6;7;8;9;10;11;12;13;14;15]).
    { assert (K : exists n, d = Z.of_nat n /\ (n < 16)%nat) by (exists (Z.to_nat d); lia).
      destruct K as (n & -> & K). do 16 (destruct n as [|n]; [cbn; tauto|]). lia. }
    cbn in D. repeat (destruct D as [<-|D]; [destruct G as [G|G]; cbn in G; injection G as <-; reflexivity|]).
    done.
  - intros (-> & U).
    assert (K : digit c <? 16 = true) by lia. revert U K. unfold digit_value.
    assert (G : forall c, digit c <? 16 = true ->
      0 <= digit c /\ (String.get (Z.to_nat (digit c)) "0123456789abcdef" = Some c \/
       String.get (Z.to_nat (digit c)) "0123456789ABCDEF" = Some c)).
    { clear. intros c. destruct c as [[] [] [] [] [] [] [] []]; vm_compute; intros K; try discriminate K;
        (split; [intros X; discriminate X|]); auto. }
    intros U K. destruct (G c K) as (L & O). split; [lia|done].
Qed.
Lemma digit_name c : digit c <? 16 = true -> is_name c = true.
Proof. destruct c as [[] [] [] [] [] [] [] []]; vm_compute; intros K; try discriminate K; reflexivity. Qed.

(** ** Identifiers *)
Inductive all (p : ascii -> bool) : string -> Prop :=
  | all_nil : all p ""
  | all_cons c s : p c = true -> all p s -> all p (String c s).
Lemma all_app p a b : all p (a +++ b) <-> all p a /\ all p b.
Proof.
  induction a as [|c a IH]; cbn.
  - split; [|tauto]. intros H. split; [constructor|done].
  - split.
    + inversion 1; subst. destruct IH as (IH & _). destruct IH as (Ha & Hb); [done|]. split; [by constructor|done].
    + intros (H & Hb). inversion H; subst. constructor; [done|]. by apply IH.
Qed.
Lemma all_one p c : all p (chr c) <-> p c = true.
Proof. split; [by inversion 1|]. intros. constructor; [done|constructor]. Qed.
Lemma identifier_ok x : identifier x <->
  exists c r, x = String c r /\ nondigit c /\ all is_name r.
Proof.
  split.
  - induction 1 as [c H|x c H (d & r & -> & D & A) N|x c H (d & r & -> & D & A) N].
    + exists c, "". split; [done|]. split; [done|constructor].
    + exists d, (r +++ chr c). split; [done|]. split; [done|]. apply all_app. split; [done|].
      apply all_one, name_ok. by left.
    + exists d, (r +++ chr c). split; [done|]. split; [done|]. apply all_app. split; [done|].
      apply all_one, name_ok. by right.
  - intros (c & r & -> & N & A).
    assert (G : forall r x, all is_name r -> identifier x -> identifier (x +++ r)).
    { clear. induction r as [|c r IH]; intros x A H; [by rewrite sapp_nil|].
      inversion A; subst. change (String c r) with (chr c +++ r). rewrite <- sapp_assoc.
      apply IH; [done|]. apply name_ok in H2 as [N|N].
      - by apply identifier_nondigit.
      - by apply identifier_digit. }
    apply (G r (chr c)); [done|]. by constructor.
Qed.
Lemma span_ok p s a b : span p s = (a, b) ->
  s = a +++ b /\ all p a /\ forall c r, b = String c r -> p c = false.
Proof.
  revert a b. induction s as [|c s IH]; intros a b H; cbn in H.
  - injection H as <- <-. split; [done|]. split; [constructor|discriminate].
  - destruct (p c) eqn:E.
    + destruct (span p s) as [a' b']. injection H as <- <-.
      destruct (IH a' b' eq_refl) as (-> & A & N). split; [done|]. split; [by constructor|done].
    + injection H as <- <-. split; [done|]. split; [constructor|]. intros d r K. by injection K as <- <-.
Qed.
Lemma span_longest p s a b y r : span p s = (a, b) -> s = y +++ r -> all p y ->
  (String.length y <= String.length a)%nat.
Proof.
  intros H E A. destruct (span_ok _ _ _ _ H) as (-> & Aa & N).
  destruct (Nat.le_gt_cases (String.length y) (String.length a)) as [L|L]; [done|].
  destruct (sapp_cut _ _ _ _ E) as (t & -> & ->); [lia|].
  destruct t as [|c t]; [rewrite sapp_nil in L; lia|].
  apply all_app in A as (_ & A). inversion A; subst. rewrite (N c _ eq_refl) in *. discriminate.
Qed.

(** ** Numbers *)
Inductive tail : string -> Prop :=
  | tail_end : tail ""
  | tail_char c s : is_name c = true \/ c = "."%char -> tail s -> tail (String c s)
  | tail_sign e c s : is_exponent e = true -> is_sign c = true -> tail s -> tail (String e (String c s)).
Lemma tail_app a b : tail a -> tail b -> tail (a +++ b).
Proof. induction 1; intros; cbn; [done|by constructor; auto|by apply tail_sign; auto]. Qed.
Lemma exponent_name e : is_exponent e = true -> nondigit e.
Proof.
  rewrite exponent_inb. unfold nondigit. rewrite one_of_inb.
  destruct e as [[] [] [] [] [] [] [] []]; vm_compute; intros K; try discriminate K; reflexivity.
Qed.
Lemma pp_number_tail x : pp_number x -> tail x.
Proof.
  induction 1.
  - apply tail_char; [left; apply name_ok; by right|constructor].
  - apply tail_char; [by right|]. apply tail_char; [left; apply name_ok; by right|constructor].
  - apply tail_app; [done|]. apply tail_char; [left; apply name_ok; by right|constructor].
  - apply tail_app; [done|]. apply tail_char; [left; apply name_ok; by left|constructor].
  - apply tail_app; [done|]. apply tail_sign; [by apply exponent_ok|by apply sign_ok|constructor].
  - apply tail_app; [done|]. apply tail_char; [by right|constructor].
Qed.
Lemma pp_number_app y : tail y -> forall x, pp_number x -> pp_number (x +++ y).
Proof.
  induction 1 as [|c s C T IH|e c s E S T IH]; intros x X.
  - by rewrite sapp_nil.
  - change (String c s) with (chr c +++ s). rewrite <- sapp_assoc. apply IH.
    destruct C as [C| ->]; [|by apply number_dot].
    apply name_ok in C as [C|C]; [by apply number_nondigit|by apply number_more].
  - change (String e (String c s)) with ((chr e +++ chr c) +++ s). rewrite <- sapp_assoc. apply IH.
    apply number_sign; [done|by apply exponent_ok|by apply sign_ok].
Qed.
Lemma name_point c : is_name c || Ascii.eqb c "." = true <-> is_name c = true \/ c = "."%char.
Proof. by rewrite orb_true_iff, Ascii.eqb_eq. Qed.
Lemma span_number_cons c r : span_number (String c r) =
  if is_name c || Ascii.eqb c "." then
    match r with
    | String d r' =>
        if is_exponent c && is_sign d
        then let (a, b) := span_number r' in (String c (String d a), b)
        else let (a, b) := span_number r in (String c a, b)
    | EmptyString => (String c r, "")
    end
  else ("", String c r).
Proof. reflexivity. Qed.
Lemma span_number_ok n : forall s a b, (String.length s <= n)%nat -> span_number s = (a, b) ->
  s = a +++ b /\ tail a.
Proof.
  induction n as [|n IH]; intros s a b L H.
  { destruct s; [|cbn in L; lia]. injection H as <- <-. split; [done|constructor]. }
  destruct s as [|c r]; [injection H as <- <-; split; [done|constructor]|].
  rewrite span_number_cons in H. destruct (is_name c || Ascii.eqb c ".") eqn:E.
  2:{ injection H as <- <-. split; [done|constructor]. }
  apply name_point in E. destruct r as [|d r'].
  { injection H as <- <-. split; [done|]. constructor; [done|constructor]. }
  destruct (is_exponent c && is_sign d) eqn:X.
  - apply andb_true_iff in X as (Xe & Xs). destruct (span_number r') as [a' b'] eqn:R. injection H as <- <-.
    destruct (IH r' a' b') as (-> & T); [cbn in L; lia|done|]. split; [done|]. by apply tail_sign.
  - destruct (span_number (String d r')) as [a' b'] eqn:R. injection H as <- <-.
    destruct (IH (String d r') a' b') as (E2 & T); [cbn in L |- *; lia|done|]. rewrite E2. split; [done|]. by apply tail_char.
Qed.
Lemma sign_not_name c : is_sign c = true -> is_name c = true \/ c = "."%char -> False.
Proof.
  destruct c as [[] [] [] [] [] [] [] []]; vm_compute; intros K; try discriminate K;
    intros [X|X]; discriminate X.
Qed.
Lemma span_number_longest y : tail y -> forall t, exists a, fst (span_number (y +++ t)) = y +++ a.
Proof.
  induction 1 as [|c s C T IH|e c s E S T IH]; intros t.
  - by exists (fst (span_number t)).
  - change (String c s +++ t) with (String c (s +++ t)). rewrite span_number_cons.
    rewrite (proj2 (name_point c) C). destruct (s +++ t) as [|d r'] eqn:Es.
    + exists "". destruct s; [|discriminate]. reflexivity.
    + destruct (is_exponent c && is_sign d) eqn:X.
      * destruct s as [|d' s'].
        { cbn in Es. subst t. destruct (span_number r') as [a b] eqn:R. by exists (String d a). }
        cbn in Es. injection Es as -> Es. apply andb_true_iff in X as (_ & X).
        inversion T as [|? ? D|? ? ? D]; subst; [by destruct (sign_not_name d X D)|].
        destruct (sign_not_name d X). left. apply name_ok. left. by apply exponent_name.
      * rewrite <- Es. destruct (IH t) as (a & A). destruct (span_number (s +++ t)) as [a' b'].
        exists a. cbn in A |- *. by rewrite A.
  - change (String e (String c s) +++ t) with (String e (String c (s +++ t))). rewrite span_number_cons.
    rewrite (proj2 (name_point e)) by (left; apply name_ok; left; by apply exponent_name).
    rewrite E, S. destruct (IH t) as (a & A). destruct (span_number (s +++ t)) as [a' b'].
    exists a. cbn in A |- *. by rewrite A.
Qed.

Lemma pp_number_first x : pp_number x ->
  exists c r, x = String c r /\ (decimal c \/ c = "."%char /\ exists d r', r = String d r' /\ decimal d).
Proof.
  induction 1 as [c H|c H|x c H (d & r & -> & D) N|x c H (d & r & -> & D) N|x e c H (d & r & -> & D) E N
                 |x H (d & r & -> & D)].
  - exists c, "". auto.
  - exists "."%char, (chr c). split; [done|]. right. split; [done|]. by exists c, "".
  - exists d, (r +++ chr c). split; [done|]. destruct D as [D|(-> & d' & r' & -> & D)]; [auto|].
    right. split; [done|]. by exists d', (r' +++ chr c).
  - exists d, (r +++ chr c). split; [done|]. destruct D as [D|(-> & d' & r' & -> & D)]; [auto|].
    right. split; [done|]. by exists d', (r' +++ chr c).
  - exists d, (r +++ chr e +++ chr c). split; [done|]. destruct D as [D|(-> & d' & r' & -> & D)]; [auto|].
    right. split; [done|]. by exists d', (r' +++ chr e +++ chr c).
  - exists d, (r +++ "."). split; [done|]. destruct D as [D|(-> & d' & r' & -> & D)]; [auto|].
    right. split; [done|]. by exists d', (r' +++ ".").
Qed.
(** the start of a number *)
Definition number_start (s : string) : bool :=
  match s with
  | String c r => is_digit c || Ascii.eqb c "." && starts_digit 10 r
  | EmptyString => false
  end.
Lemma digit10 c : (digit c <? 10) = is_digit c.
Proof. revert c. sweep. Qed.
Lemma number_start_ok s : number_start s = true <->
  exists c r, s = String c r /\ (decimal c \/ c = "."%char /\ exists d r', r = String d r' /\ decimal d).
Proof.
  destruct s as [|c r]; cbn; [split; [discriminate|intros (c & r & E & _); discriminate]|].
  rewrite orb_true_iff, andb_true_iff, Ascii.eqb_eq, decimal_ok. split.
  - intros H. exists c, r. split; [done|]. destruct H as [H|(-> & H)]; [auto|]. right. split; [done|].
    destruct r as [|d r']; [discriminate|]. exists d, r'. split; [done|]. apply decimal_ok. by rewrite <- digit10.
  - intros (c' & r' & E & H). injection E as <- <-. destruct H as [H|(-> & d & r' & -> & D)]; [auto|]. right.
    split; [done|]. cbn. rewrite digit10. by apply decimal_ok.
Qed.
Lemma span_number_pp s a b : number_start s = true -> span_number s = (a, b) ->
  s = a +++ b /\ pp_number a.
Proof.
  intros H E. destruct (span_number_ok (String.length s) s a b) as (Es & T); [lia|done|]. split; [done|].
  apply number_start_ok in H as (c & r & -> & H). rewrite span_number_cons in E.
  destruct H as [H|(-> & d & r' & -> & D)].
  - assert (N : is_name c = true) by (apply name_ok; by right). rewrite N in E. cbn [orb] in E.
    assert (X : is_exponent c = false).
    { apply decimal_ok in H. revert H. destruct c as [[] [] [] [] [] [] [] []]; vm_compute;
        intros K; try discriminate K; reflexivity. }
    rewrite X in E. cbn [andb] in E.
    assert (G : exists t, a = String c t /\ tail t).
    { destruct r as [|d r']; [injection E as <- <-; exists ""; split; [done|constructor]|].
      destruct (span_number (String d r')) as [a' b'] eqn:R. injection E as <- <-.
      destruct (span_number_ok (S (String.length r')) (String d r') a' b') as (_ & T'); [cbn; lia|done|].
      by exists a'. }
    destruct G as (t & -> & Tt). apply (pp_number_app t Tt (chr c)). by constructor.
  - change (is_name ".") with false in E. cbn [orb] in E. change (is_exponent ".") with false in E.
    cbn [andb Ascii.eqb] in E. change (Ascii.eqb "." ".") with true in E. cbn iota in E.
    destruct (span_number (String d r')) as [a' b'] eqn:R. injection E as <- <-.
    rewrite span_number_cons in R.
    assert (N : is_name d = true) by (apply name_ok; by right). rewrite N in R. cbn [orb] in R.
    assert (X : is_exponent d = false).
    { apply decimal_ok in D. revert D. destruct d as [[] [] [] [] [] [] [] []]; vm_compute;
        intros K; try discriminate K; reflexivity. }
    rewrite X in R. cbn [andb] in R.
    assert (G : exists t, a' = String d t /\ tail t).
    { destruct r' as [|d2 r2]; [injection R as <- <-; exists ""; split; [done|constructor]|].
      destruct (span_number (String d2 r2)) as [a2 b2] eqn:R2. injection R as <- <-.
      destruct (span_number_ok (S (String.length r2)) (String d2 r2) a2 b2) as (_ & T'); [cbn; lia|done|].
      by exists a2. }
    destruct G as (t & -> & Tt). apply (pp_number_app t Tt ("." +++ chr d)). by constructor.
Qed.

(** ** The values of constants *)
Lemma digits_app base s z : base <= 16 -> numeral base s z -> forall t, digits base 0 (s +++ t) = digits base z t.
Proof.
  intros B H. induction H as [c d D|s z c d N IH D]; intros t; apply digit_value_ok in D as (-> & D); [|done| |done].
  - cbn. replace (digit c <? base) with true by lia. f_equal. lia.
  - rewrite sapp_assoc, IH. cbn. by replace (digit c <? base) with true by lia.
Qed.
Lemma digits_ok base s : base <= 16 -> forall p z z' r, numeral base p z -> digits base z s = (z', r) ->
  exists q, s = q +++ r /\ numeral base (p +++ q) z' /\ starts_digit base r = false.
Proof.
  intros B. induction s as [|c s IH]; intros p z z' r N H; cbn in H.
  - injection H as <- <-. exists "". rewrite (sapp_nil p). auto.
  - destruct (digit c <? base) eqn:D.
    + destruct (IH (p +++ chr c) _ _ _ ltac:(apply numeral_more; [exact N|apply digit_value_ok; [done|]; split; [reflexivity|lia]]) H)
        as (q & -> & N' & S). exists (String c q). rewrite sapp_assoc in N'. auto.
    + injection H as <- <-. exists "". rewrite (sapp_nil p). auto.
Qed.
(** after the digits *)
Definition finish (z : Z) (suffix : string) : option token :=
  if String.eqb suffix "" then if z <? 2 ^ 31 then Some (Num I32 z) else None
  else if String.eqb suffix "U" || String.eqb suffix "u" then
    if z <? 2 ^ 32 then Some (Num U32 z) else None
  else None.
Lemma finish_ok z r tok : finish z r = Some tok <->
  r = "" /\ z < 2 ^ 31 /\ tok = Num I32 z \/ (r = "u" \/ r = "U") /\ z < 2 ^ 32 /\ tok = Num U32 z.
Proof.
  unfold finish. split.
  - destruct (String.eqb_spec r "") as [->|N].
    + destruct (z <? 2 ^ 31) eqn:L; [|discriminate]. intros H; injection H as <-. left. split; [done|]. split; [lia|done].
    + destruct (String.eqb_spec r "U") as [->|N1]; [|destruct (String.eqb_spec r "u") as [->|N2]; [|discriminate]];
        cbn [orb]; (destruct (z <? 2 ^ 32) eqn:L; [|discriminate]); intros H; injection H as <-; right; (split; [auto|]);
        (split; [lia|done]).
  - intros [(-> & L & ->)|([->| ->] & L & ->)]; [replace (z <? 2 ^ 31) with true by lia; reflexivity| |];
      replace (z <? 2 ^ 32) with true by lia; reflexivity.
Qed.
Lemma number_eq s : number s =
  let '(base, s) :=
    match after "0x" s, after "0X" s with
    | Some r, _ | _, Some r => (16, r)
    | None, None => (if match after "0" s with Some r => starts_digit 10 r | None => false end
                     then 8 else 10, s)
    end in
  if (base =? 8) || negb (starts_digit base s) then None
  else let '(z, suffix) := digits base 0 s in finish z suffix.
Proof. reflexivity. Qed.
Lemma numeral_first base s z : base <= 16 -> numeral base s z ->
  exists c r, s = String c r /\ digit c < base.
Proof.
  intros B. induction 1 as [c d D|s z c d N (c' & r & -> & L) D]; [|by exists c', (r +++ chr c)].
  apply digit_value_ok in D as (-> & D); [|done]. by exists c, "".
Qed.
Lemma number_app s z u : unsuffixed s z -> u = "" \/ u = "u" \/ u = "U" -> number (s +++ u) = finish z u.
Proof.
  intros H U. rewrite number_eq.
  assert (E : forall base, base <= 16 -> digits base z u = (z, u)).
  { intros base B. destruct U as [->|[->| ->]]; cbn [digits]; [done| |]; change (digit "u") with 99;
      change (digit "U") with 99; by replace (99 <? base) with false by lia. }
  destruct H as [|s z N F|p s z P N].
  - destruct U as [->|[->| ->]]; reflexivity.
  - destruct (numeral_first 10 _ _ ltac:(lia) N) as (c & r & -> & L).
    assert (C : Ascii.eqb "0" c = false).
    { destruct (Ascii.eqb_spec "0" c) as [<-|]; [|done]. by destruct F. }
    cbn [String.append after]. rewrite C. cbn [Z.eqb orb starts_digit Pos.eqb].
    replace (digit c <? 10) with true by lia. cbn [negb].
    change (String c (r +++ u)) with (String c r +++ u).
    rewrite (digits_app 10 _ _ ltac:(lia) N), E by lia. reflexivity.
  - destruct (numeral_first 16 _ _ ltac:(lia) N) as (c & r & -> & L).
    assert (G : match after "0x" ((p +++ String c r) +++ u), after "0X" ((p +++ String c r) +++ u) with
      | Some r, _ | _, Some r => (16, r)
      | None, None => (if match after "0" ((p +++ String c r) +++ u) with Some r => starts_digit 10 r | None => false end
                       then 8 else 10, (p +++ String c r) +++ u) end = (16, String c r +++ u)).
    { destruct P as [->| ->]; reflexivity. }
    rewrite G. cbn [Z.eqb orb Pos.eqb String.append starts_digit].
    replace (digit c <? 16) with true by lia. cbn [negb].
    change (String c (r +++ u)) with (String c r +++ u).
    rewrite (digits_app 16 _ _ ltac:(lia) N), E by lia. reflexivity.
Qed.
Lemma finish_constant s u z tok : unsuffixed s z -> finish z u = Some tok ->
  exists t, tok = Num t z /\ constant (s +++ u) t z.
Proof.
  intros H F. apply finish_ok in F as [(-> & L & ->)|(U & L & ->)].
  - exists I32. rewrite sapp_nil. split; [done|]. by constructor.
  - exists U32. split; [done|]. by constructor.
Qed.
Lemma number_sound s tok : number s = Some tok -> exists t z, tok = Num t z /\ constant s t z.
Proof.
  rewrite number_eq.
  assert (G : forall base p r, base = 10 \/ base = 16 -> starts_digit base r = true ->
    (forall c q z suf, r = String c q +++ suf -> numeral base (String c q) z -> starts_digit base suf = false ->
       unsuffixed (p +++ String c q) z) ->
    (let '(z, suffix) := digits base 0 r in finish z suffix) = Some tok ->
    exists t z, tok = Num t z /\ constant (p +++ r) t z).
  { intros base p r B S U H. destruct r as [|c r]; [discriminate|]. cbn in S.
    cbn [digits] in H. rewrite S in H. replace (base * 0 + digit c) with (digit c) in H by lia.
    assert (N : numeral base (chr c) (digit c)).
    { constructor. apply digit_value_ok; [lia|]. split; [done|lia]. }
    destruct (digits base (digit c) r) as [z suf] eqn:D.
    destruct (digits_ok base r ltac:(lia) _ _ _ _ N D) as (q & -> & N' & X).
    destruct (finish_constant (p +++ String c q) suf z tok) as (t & -> & K); [by eapply U|done|].
    exists t, z. split; [done|]. by rewrite sapp_assoc in K. }
  destruct (after "0x" s) as [r|] eqn:Ax; [|destruct (after "0X" s) as [r|] eqn:AX].
  - apply after_ok in Ax as ->. cbn [Z.eqb orb Pos.eqb]. destruct (starts_digit 16 r) eqn:S; [|discriminate].
    cbn [negb]. apply G; [by right|done|]. intros c q z suf _ N _. apply unsuffixed_hex; auto.
  - apply after_ok in AX as ->. cbn [Z.eqb orb Pos.eqb]. destruct (starts_digit 16 r) eqn:S; [|discriminate].
    cbn [negb]. apply G; [by right|done|]. intros c q z suf _ N _. apply unsuffixed_hex; auto.
  - destruct (match after "0" s with Some r => starts_digit 10 r | None => false end) eqn:O; [discriminate|].
    cbn [Z.eqb orb Pos.eqb]. destruct (starts_digit 10 s) eqn:S; [|discriminate]. cbn [negb].
    apply (G 10 "" s); [by left|done|]. intros c q z suf -> N X. cbn [String.append].
    destruct (Ascii.eqb_spec c "0") as [->|C].
    + cbn in O. destruct q as [|d q].
      * pose proof (digits_app 10 _ _ ltac:(lia) N "") as E. cbn in E. injection E as <-. constructor.
      * cbn in O. pose proof (digits_app 10 _ _ ltac:(lia) N "") as E. exfalso.
        assert (Q : forall s z, numeral 10 s z -> all (fun c => digit c <? 10) s).
        { clear. induction 1 as [c d D|s z c d N IH D]; apply digit_value_ok in D as (-> & D); try lia.
          - apply all_one. lia.
          - apply all_app. split; [done|]. apply all_one. lia. }
        apply Q in N. inversion N as [|? ? _ N2]; subst. inversion N2; subst. congruence.
    + apply unsuffixed_decimal; [done|]. cbn. congruence.
Qed.
Lemma number_complete s t z : constant s t z -> number s = Some (Num t z).
Proof.
  intros [s' z' U L|s' z' u U V L].
  - rewrite <- (sapp_nil s'), (number_app _ _ _ U) by auto. apply finish_ok. auto.
  - rewrite (number_app _ _ _ U) by tauto. apply finish_ok. tauto.
Qed.

(** ** Between quotes *)
Inductive raw (q : ascii) : string -> Prop :=
  | raw_end : raw q ""
  | raw_char c s : c <> q -> c <> "\"%char -> c <> "010"%char -> raw q s -> raw q (String c s)
  | raw_escape c s : raw q s -> raw q (String "\" (String c s)).
Definition is_quote (q : ascii) : Prop := q = "'"%char \/ q = """"%char.
Lemma hex_raw q c s : is_quote q -> hexadecimal c -> raw q s -> raw q (String c s).
Proof.
  intros Q H R. apply one_of_inb in H. apply raw_char; [| | |done]; intros ->; [|discriminate H|discriminate H].
  destruct Q as [->| ->]; discriminate H.
Qed.
Lemma octal_hex c : octal c -> hexadecimal c.
Proof. unfold octal, hexadecimal, one_of. cbn. tauto. Qed.
Lemma escape_raw q e : is_quote q -> escape_sequence e -> forall s, raw q s -> raw q (e +++ s).
Proof.
  intros Q. induction 1 as [| | | | |e c E IH C]; intros t T.
  6:{ change (("\x" +++ e +++ chr c) +++ t) with (("\x" +++ (e +++ chr c)) +++ t).
      replace (("\x" +++ (e +++ chr c)) +++ t) with (("\x" +++ e) +++ String c t).
      - apply IH. by apply hex_raw.
      - change (String c t) with (chr c +++ t). by rewrite !sapp_assoc. }
  all: unfold chr; cbn; apply raw_escape; repeat (apply hex_raw; [by auto using octal_hex..|]); try done.
Qed.
Lemma chars_raw q s : is_quote q -> chars q s -> raw q s.
Proof. intros Q. induction 1; [constructor|by constructor|by apply escape_raw]. Qed.
Lemma raw_unique q s : q <> "\"%char -> raw q s -> forall s' r r', raw q s' -> s +++ String q r = s' +++ String q r' -> s = s'.
Proof.
  intros Q. induction 1 as [|c s N1 N2 N3 R IH|c s R IH]; intros s' r r' H E.
  - destruct H; cbn in E; [done|congruence|congruence].
  - destruct H; cbn in E; [congruence| |congruence]. injection E as <- E. f_equal. by eapply IH.
  - destruct H; cbn in E; [congruence|congruence|]. injection E as <- E. do 2 f_equal. by eapply IH.
Qed.
Lemma escape_ok e r c : escape e r = Some c <->
  In (e, c) simple_escapes \/ e = "0"%char /\ c = "000"%char /\ starts_digit 8 r = false.
Proof.
  split.
  - unfold escape.
    destruct (Ascii.eqb_spec e "n") as [->|_]; [intros H; injection H as <-; left; cbn; tauto|].
    destruct (Ascii.eqb_spec e "0") as [->|_].
    { destruct (starts_digit 8 r) eqn:S; [discriminate|]. intros H; injection H as <-. auto. }
    destruct (Ascii.eqb_spec e "\") as [->|_]; [intros H; injection H as <-; left; cbn; tauto|].
    destruct (Ascii.eqb_spec e "'") as [->|_]; [intros H; injection H as <-; left; cbn; tauto|].
    destruct (Ascii.eqb_spec e """") as [->|_]; [intros H; injection H as <-; left; cbn; tauto|].
    destruct (Ascii.eqb_spec e "?") as [->|_]; [intros H; injection H as <-; left; cbn; tauto|]. cbn [orb].
    destruct (Ascii.eqb_spec e "a") as [->|_]; [intros H; injection H as <-; left; cbn; tauto|].
    destruct (Ascii.eqb_spec e "b") as [->|_]; [intros H; injection H as <-; left; cbn; tauto|].
    destruct (Ascii.eqb_spec e "t") as [->|_]; [intros H; injection H as <-; left; cbn; tauto|].
    destruct (Ascii.eqb_spec e "v") as [->|_]; [intros H; injection H as <-; left; cbn; tauto|].
    destruct (Ascii.eqb_spec e "f") as [->|_]; [intros H; injection H as <-; left; cbn; tauto|].
    destruct (Ascii.eqb_spec e "r") as [->|_]; [intros H; injection H as <-; left; cbn; tauto|].
    discriminate.
  - intros [H|(-> & -> & S)].
    + cbn in H. repeat (destruct H as [H|H]; [injection H as <- <-; reflexivity|]). done.
    + unfold escape. cbn [Ascii.eqb]. cbn. cbn in S. by rewrite S.
Qed.
Lemma quoted_cons q c r : quoted q (String c r) =
  if Ascii.eqb c q then Some ("", r)
  else if is_newline c then None
  else if Ascii.eqb c "\" then
    match r with
    | String e r => c ← escape e r; '(a, b) ← quoted q r; Some (String c a, b)
    | EmptyString => None
    end
  else '(a, b) ← quoted q r; Some (String c a, b).
Proof. reflexivity. Qed.
Lemma simple_one_of e c : In (e, c) simple_escapes -> one_of "'""?\abfnrtv" e.
Proof.
  intros H. cbn in H. repeat (destruct H as [H|H]; [injection H as <- <-; apply one_of_inb; reflexivity|]). done.
Qed.
Lemma quoted_sound q n : is_quote q -> forall s a b, (String.length s <= n)%nat -> quoted q s = Some (a, b) ->
  exists t, s = t +++ String q b /\ chars q t /\ spells t a.
Proof.
  intros Q. induction n as [|n IH]; intros s a b L H.
  { destruct s; [discriminate|cbn in L; lia]. }
  destruct s as [|c r]; [discriminate|]. rewrite quoted_cons in H.
  destruct (Ascii.eqb_spec c q) as [->|Nq].
  { injection H as <- <-. exists "". split; [done|]. split; constructor. }
  destruct (is_newline c) eqn:Nl; [discriminate|].
  destruct (Ascii.eqb_spec c "\") as [->|Nb].
  - destruct r as [|e r]; [discriminate|]. destruct (escape e r) as [c|] eqn:E; [|discriminate]. cbn in H.
    destruct (quoted q r) as [[a' b']|] eqn:R; [|discriminate]. cbn in H. injection H as <- <-.
    destruct (IH r a' b') as (t & -> & C & S); [cbn in L; lia|done|].
    exists (String "\" (String e t)). split; [done|]. apply escape_ok in E as [E|(-> & -> & E)].
    + split; [|by constructor]. apply (chars_escape q (chr "\" +++ chr e)); [|done].
      apply escape_simple. by apply simple_one_of in E.
    + split.
      * apply (chars_escape q (chr "\" +++ chr "0")); [|done]. apply escape_octal1. apply one_of_inb. reflexivity.
      * apply spells_zero; [|done]. intros c r -> O. cbn in E. apply octal_ok in O. congruence.
  - destruct (quoted q r) as [[a' b']|] eqn:R; [|discriminate]. cbn in H. injection H as <- <-.
    destruct (IH r a' b') as (t & -> & C & S); [cbn in L; lia|done|].
    exists (String c t). split; [done|]. split; [|by constructor]. constructor; try done.
    intros ->. discriminate Nl.
Qed.
Lemma quoted_complete q t a : is_quote q -> spells t a -> raw q t -> forall b,
  quoted q (t +++ String q b) = Some (a, b).
Proof.
  intros Q H. assert (Qb : Ascii.eqb "\" q = false) by (destruct Q as [->| ->]; reflexivity).
  induction H as [|c s v N S IH|e c s v E S IH|s v O S IH]; intros R b.
  - cbn [String.append]. rewrite quoted_cons. by rewrite Ascii.eqb_refl.
  - cbn [String.append]. rewrite quoted_cons. inversion R; subst; [|done].
    destruct (Ascii.eqb_spec c q); [done|]. destruct (is_newline c) eqn:E; [apply newline_ok in E; done|].
    destruct (Ascii.eqb_spec c "\"); [done|]. by rewrite IH.
  - cbn [String.append]. rewrite quoted_cons, Qb. change (is_newline "\") with false. rewrite Ascii.eqb_refl.
    inversion R; subst; [done|].
    rewrite (proj2 (escape_ok e (s +++ String q b) c)) by auto. cbn. by rewrite IH.
  - cbn [String.append]. rewrite quoted_cons, Qb. change (is_newline "\") with false. rewrite Ascii.eqb_refl.
    inversion R; subst; [done|].
    rewrite (proj2 (escape_ok "0" (s +++ String q b) "000")).
    + cbn. by rewrite IH.
    + right. split; [done|]. split; [done|]. destruct s as [|c s]; cbn.
      * destruct Q as [->| ->]; reflexivity.
      * destruct (digit c <? 8) eqn:D; [|done]. apply octal_ok in D. by destruct (O c s eq_refl).
Qed.

(** ** Punctuators *)
Fixpoint ordered (l : list string) : bool :=
  match l with
  | [] => true
  | o :: l => forallb (fun x => match after o x with Some (String _ _) => false | _ => true end) l && ordered l
  end.
Lemma first_op_ok l s o r : ordered l = true -> first_op l s = Some (o, r) ->
  In o l /\ s = o +++ r /\
  forall y t, In y l -> s = y +++ t -> (String.length y <= String.length o)%nat.
Proof.
  induction l as [|x l IH]; intros W H; [discriminate|]. cbn in H, W.
  apply andb_true_iff in W as (W1 & W2). destruct (after x s) as [r'|] eqn:E.
  - injection H as -> ->. apply after_ok in E. split; [by left|]. split; [done|].
    intros y t [<-|Y] Ey; [done|].
    destruct (Nat.le_gt_cases (String.length y) (String.length o)) as [L|L]; [done|]. rewrite E in Ey.
    destruct (sapp_cut _ _ _ _ Ey) as (u & -> & ->); [lia|].
    rewrite forallb_forall in W1. specialize (W1 _ Y). rewrite (proj2 (after_ok o _ u) eq_refl) in W1.
    destruct u; [rewrite sapp_nil in L; lia|discriminate].
  - destruct (IH W2 H) as (I & Es & M). split; [by right|]. split; [done|].
    intros y t [<-|Y] Ey; [apply after_ok in Ey; congruence|by eapply M].
Qed.
Lemma first_op_some l s y t : In y l -> s = y +++ t -> exists o r, first_op l s = Some (o, r).
Proof.
  intros Y E. induction l as [|x l IH]; [done|]. cbn. destruct (after x s) as [r|] eqn:A; [eauto|].
  destruct Y as [->|Y]; [|by apply IH]. apply after_ok in E. congruence.
Qed.
Lemma ops_ordered : ordered ops = true.
Proof. vm_compute. reflexivity. Qed.
Lemma ops_punctuators x : In x ops <-> In x punctuators.
Proof.
  assert (G : forall l k : list string, forallb (fun x => existsb (String.eqb x) k) l = true -> In x l -> In x k).
  { intros l k F H. rewrite forallb_forall in F. apply F in H. apply existsb_exists in H as (y & Y & E).
    apply String.eqb_eq in E. by subst. }
  split; apply G; vm_compute; reflexivity.
Qed.
(** how a punctuator starts *)
Definition op_start (c : ascii) : bool :=
  negb (is_name c || is_space c || is_newline c || Ascii.eqb c """" || Ascii.eqb c "'").
Lemma ops_start x : In x ops -> exists c r, x = String c r /\ op_start c = true.
Proof.
  intros H.
  assert (F : forallb (fun x => match x with String c _ => op_start c | _ => false end) ops = true)
    by (vm_compute; reflexivity).
  rewrite forallb_forall in F. specialize (F x H). destruct x as [|c r]; [done|]. by exists c, r.
Qed.

(** ** The longest token *)
Lemma pp_cases y t : pp_token y ->
  (identifier y /\ exists c r, y = String c r /\ nondigit c) \/
  (pp_number y /\ number_start (y +++ t) = true) \/
  (exists q b, is_quote q /\ y = in_quotes q b /\ raw q b) \/
  (exists q b, is_quote q /\ y = String "L" (in_quotes q b)) \/
  In y ops.
Proof.
  intros [x H|x H|l s L N C|l s L C|x H].
  - left. split; [done|]. apply identifier_ok in H as (c & r & -> & H & _). by exists c, r.
  - right. left. split; [done|]. apply number_start_ok. apply pp_number_first in H as (c & r & -> & H).
    exists c, (r +++ t). split; [done|]. destruct H as [H|(-> & d & r' & -> & D)]; [auto|].
    right. split; [done|]. by exists d, (r' +++ t).
  - do 2 right. assert (Q : is_quote "'") by by left. destruct L as [->| ->].
    + left. exists "'"%char, s. split; [done|]. split; [done|]. by apply chars_raw.
    + right. left. by exists "'"%char, s.
  - do 2 right. assert (Q : is_quote """") by by right. destruct L as [->| ->].
    + left. exists """"%char, s. split; [done|]. split; [done|]. by apply chars_raw.
    + right. left. by exists """"%char, s.
  - do 4 right. by apply ops_punctuators.
Qed.
Lemma nondigit_facts c : nondigit c -> is_space c = false /\ is_newline c = false /\ is_digit c = false /\
  Ascii.eqb c "." = false /\ is_name c = true /\ op_start c = false /\ ~ is_quote c.
Proof.
  unfold nondigit. rewrite one_of_inb. unfold is_quote.
  destruct c as [[] [] [] [] [] [] [] []]; vm_compute; intros K; try discriminate K;
    repeat (split; [reflexivity|]); intros [X|X]; discriminate X.
Qed.
Lemma decimal_facts c : decimal c -> is_space c = false /\ is_newline c = false /\ is_digit c = true /\
  is_name c = true /\ op_start c = false /\ ~ is_quote c /\ ~ nondigit c.
Proof.
  unfold decimal, nondigit. rewrite !one_of_inb. unfold is_quote.
  destruct c as [[] [] [] [] [] [] [] []]; vm_compute; intros K; try discriminate K;
    repeat (split; [reflexivity|]); (split; [intros [X|X]; discriminate X|intros X; discriminate X]).
Qed.
Lemma op_start_facts c : op_start c = true -> is_space c = false /\ is_newline c = false /\ is_digit c = false /\
  is_name c = false /\ Ascii.eqb c """" = false /\ Ascii.eqb c "'" = false.
Proof.
  destruct c as [[] [] [] [] [] [] [] []]; vm_compute; intros K; try discriminate K; auto 10.
Qed.
Lemma quote_facts q : is_quote q -> is_space q = false /\ is_newline q = false /\ is_digit q = false /\
  is_name q = false /\ op_start q = false /\ Ascii.eqb q "." = false.
Proof. intros [->| ->]; vm_compute; auto 10. Qed.

Lemma number_longest s a b : number_start s = true -> span_number s = (a, b) -> longest a b.
Proof.
  intros N H. destruct (span_number_pp _ _ _ N H) as (-> & A). split; [by apply pp_num|].
  intros y t E Y. pose proof (span_number_pp _ _ _ N H) as (_ & _).
  apply number_start_ok in N as (c & r & Ec & N).
  destruct (pp_cases y t Y) as [(_ & d & u & -> & D)|[(P & _)|[(q & u & Q & -> & _)|[(q & u & Q & ->)|O]]]].
  - rewrite E in Ec. injection Ec as -> _. destruct N as [N|(-> & _)].
    + by destruct (decimal_facts _ N) as (_ & _ & _ & _ & _ & _ & ?).
    + by destruct (nondigit_facts _ D) as (_ & _ & _ & ? & _).
  - destruct (span_number_longest y (pp_number_tail y P) t) as (u & U). rewrite <- E, H in U. cbn in U.
    subst a. rewrite slen_app. lia.
  - rewrite E in Ec. injection Ec as -> _. destruct N as [N|(-> & _)].
    + by destruct (decimal_facts _ N) as (_ & _ & _ & _ & _ & ? & _).
    + by destruct Q.
  - rewrite E in Ec. injection Ec as <- _. destruct N as [N|(? & _)]; [|done].
    apply decimal_ok in N. discriminate N.
  - destruct (ops_start y O) as (d & u & -> & D). pose proof E as E2. rewrite Ec in E2. injection E2 as <- E2.
    destruct N as [N|(-> & d & r' & -> & N)].
    + destruct (decimal_facts _ N) as (_ & _ & _ & _ & ? & _). congruence.
    + assert (La : (2 <= String.length a)%nat).
      { apply pp_number_first in A as (c1 & r1 & -> & A). injection Ec as -> Ec.
        destruct A as [A|(_ & d1 & r2 & -> & _)]; [|cbn; lia]. apply decimal_ok in A. discriminate A. }
      assert (u = ""); [|subst; cbn; lia]. destruct u as [|e u]; [done|]. cbn in E2. injection E2 as -> E2. exfalso.
      cbn in O. repeat (destruct O as [O|O]; [try discriminate O; injection O as <-; apply decimal_ok in N; discriminate N|]).
      done.
Qed.
Lemma identifier_longest c r a b : nondigit c -> span is_name (String c r) = (a, b) ->
  (a = "L" -> forall q u, b = String q u -> ~ is_quote q) ->
  longest a b /\ identifier a.
Proof.
  intros N H K. destruct (nondigit_facts _ N) as (F1 & F2 & F3 & F4 & F5 & F6 & F7).
  destruct (span_ok _ _ _ _ H) as (E & A & B).
  assert (I : identifier a).
  { apply identifier_ok. destruct a as [|d a].
    - cbn in E. subst b. specialize (B c r eq_refl). congruence.
    - injection E as <- ->. exists c, a. split; [done|]. split; [done|]. by inversion A. }
  split; [|done]. split; [by apply pp_identifier|]. intros y t Ey Y. rewrite <- E in Ey.
  destruct (pp_cases y t Y) as [(P & _)|[(P & Q)|[(q & u & Q & -> & _)|[(q & u & Q & ->)|O]]]].
  - apply (span_longest is_name _ a b y t H Ey). apply identifier_ok in P as (d & u & -> & D & P).
    constructor; [|done]. by apply name_ok; left.
  - rewrite <- Ey in Q. cbn in Q. rewrite F3, F4 in Q. discriminate.
  - injection Ey as -> _. done.
  - injection Ey as -> Ey. exfalso. cbn [String.append] in E. cbn [span] in H. rewrite F5, Ey in H.
    unfold in_quotes in H. cbn [String.append chr span] in H.
    destruct (quote_facts q Q) as (_ & _ & _ & G & _). rewrite G in H. injection H as <- <-.
    by eapply K.
  - destruct (ops_start y O) as (d & u & -> & D). injection Ey as <- _. congruence.
Qed.
Lemma quotes_longest q t b : is_quote q -> chars q t -> (q = "'"%char -> t <> "") -> longest (in_quotes q t) b.
Proof.
  intros Q C K. destruct (quote_facts q Q) as (F1 & F2 & F3 & F4 & F5 & F6). split.
  { destruct Q as [->| ->].
    - apply (pp_character "" t); auto.
    - apply (pp_string "" t); auto. }
  intros y u E Y. unfold in_quotes in E. rewrite !sapp_assoc in E. cbn [String.append chr] in E.
  destruct (pp_cases y u Y) as [(_ & d & v & -> & D)|[(P & N)|[(q' & v & Q' & -> & R)|[(q' & v & Q' & ->)|O]]]].
  - injection E as <- _. by destruct (nondigit_facts _ D) as (_ & _ & _ & _ & _ & _ & ?).
  - rewrite <- E in N. cbn in N. rewrite F3, F6 in N. discriminate.
  - unfold in_quotes in E. rewrite !sapp_assoc in E. cbn [String.append chr] in E. injection E as <- E.
    assert (Nb : q <> "\"%char) by (destruct Q as [->| ->]; discriminate).
    rewrite (raw_unique q t Nb (chars_raw q t Q C) v b u R E). done.
  - cbn in E. injection E as -> _. by destruct Q.
  - destruct (ops_start y O) as (d & v & -> & D). injection E as <- _. congruence.
Qed.
Lemma op_longest c r o u : op_start c = true -> number_start (String c r) = false ->
  first_op ops (String c r) = Some (o, u) -> longest o u /\ In o ops /\ String c r = o +++ u.
Proof.
  intros S N H. destruct (op_start_facts c S) as (F1 & F2 & F3 & F4 & F5 & F6).
  destruct (first_op_ok _ _ _ _ ops_ordered H) as (I & E & M). split; [|done]. split.
  { apply pp_punctuator. by apply ops_punctuators. }
  intros y t Ey Y. rewrite <- E in Ey.
  destruct (pp_cases y t Y) as [(_ & d & v & -> & D)|[(P & P')|[(q' & v & Q' & -> & R)|[(q' & v & Q' & ->)|O]]]].
  - injection Ey as <- _. destruct (nondigit_facts _ D) as (_ & _ & _ & _ & ? & _). congruence.
  - rewrite <- Ey in P'. congruence.
  - injection Ey as -> _. destruct Q' as [->| ->]; discriminate.
  - injection Ey as -> _. discriminate.
  - by eapply M.
Qed.

(** ** Comments *)
Lemma comment_nil : comment_text "".
Proof.
  intros a b E. assert (L : String.length ("" +++ "*/") = String.length (a +++ "*/" +++ b)) by by rewrite E.
  rewrite !slen_app in L. destruct b; [done|cbn in L; lia].
Qed.
Lemma end_comment_cons c r : end_comment (String c r) =
  match after "*/" (String c r) with Some r => Some r | None => end_comment r end.
Proof. reflexivity. Qed.
Lemma end_comment_sound s r : end_comment s = Some r -> exists t, s = t +++ "*/" +++ r /\ comment_text t.
Proof.
  induction s as [|c s IH]; [discriminate|]. rewrite end_comment_cons.
  destruct (after "*/" (String c s)) as [r'|] eqn:A.
  - intros H. injection H as ->. apply after_ok in A. exists "". split; [done|]. apply comment_nil.
  - intros H. destruct (IH H) as (t & -> & T). exists (String c t). split; [done|].
    intros a b E. destruct a as [|d a].
    + exfalso. apply after_none in A. apply A. exists (b +++ r).
      change (String c (t +++ "*/" +++ r)) with (String c t +++ "*/" +++ r). rewrite <- sapp_assoc, E.
      cbn [String.append]. by rewrite ?sapp_assoc.
    + injection E as <- E. by eapply T.
Qed.
Lemma end_comment_complete t s : comment_text t -> end_comment (t +++ "*/" +++ s) = Some s.
Proof.
  induction t as [|c t IH]; intros T; [reflexivity|]. cbn [String.append]. rewrite end_comment_cons.
  destruct (after "*/" (String c (t +++ String "*" (String "/" s)))) as [r|] eqn:A.
  - exfalso. apply after_ok in A. cbn in A. injection A as -> A. destruct t as [|d t]; [discriminate|].
    injection A as -> A. specialize (T "" (t +++ "*/") eq_refl). by destruct t.
  - apply IH. intros a b E. apply (T (String c a) b). cbn. by rewrite E.
Qed.

(** ** Files *)
Lemma lex_cons k c r : lex (S k) (String c r) =
  if is_space c then lex k r
  else if is_newline c then ts ← lex k r; Some (NL :: ts)
  else if number_start (String c r) then
    let '(a, r) := span_number (String c r) in t ← number a; ts ← lex k r; Some (t :: ts)
  else if is_name c then
    let '(a, r) := span is_name (String c r) in
    let next := match r with String d _ => d | EmptyString => " "%char end in
    if String.eqb a "L" && (Ascii.eqb next """" || Ascii.eqb next "'") then None
    else ts ← lex k r; Some (Id a (Ascii.eqb next "(") :: ts)
  else if Ascii.eqb c """" then '(a, r) ← quoted """" r; ts ← lex k r; Some (Str a :: ts)
  else if Ascii.eqb c "'" then
    '(a, r) ← quoted "'" r;
    match a with
    | String c EmptyString => if code c <? 128 then ts ← lex k r; Some (Num I32 (code c) :: ts) else None
    | _ => None
    end
  else
    match after "/*" (String c r), after "//" (String c r) with
    | Some r, _ => r ← end_comment r; lex k r
    | _, Some r => lex k (snd (span (fun c => negb (is_newline c)) r))
    | None, None => '(o, r) ← first_op ops (String c r); ts ← lex k r; Some (Op o :: ts)
    end.
Proof. reflexivity. Qed.
Lemma not_comment x s : (forall c r, x = String c r -> c <> "/"%char) -> x <> "" ->
  ~ starts "/*" (x +++ s) /\ ~ starts "//" (x +++ s).
Proof.
  intros H N. destruct x as [|c r]; [done|]. specialize (H c r eq_refl).
  split; intros (t & E); cbn in E; congruence.
Qed.
Lemma in_quotes_app q t r : in_quotes q t +++ r = String q (t +++ String q r).
Proof. unfold in_quotes. rewrite !sapp_assoc. reflexivity. Qed.
Lemma no_newline t : all (fun c => negb (is_newline c)) t <-> ~ In "010"%char (list_ascii_of_string t).
Proof.
  induction t as [|c t IH]; cbn; [split; [auto|constructor]|]. split.
  - inversion 1 as [|? ? C T]; subst. intros [->|I]; [discriminate C|]. by apply IH in T.
  - intros H. constructor.
    + destruct (is_newline c) eqn:E; [|done]. apply newline_ok in E. tauto.
    + apply IH. tauto.
Qed.
Lemma spells_one t c : spells t (chr c) -> t <> "".
Proof. intros H ->. inversion H. Qed.
Lemma lex_sound k : forall s ts, lex k s = Some ts -> lexed s ts.
Proof.
  induction k as [|k IH]; intros s ts H; [discriminate|].
  destruct s as [|c r]; [injection H as <-; constructor|]. rewrite lex_cons in H.
  destruct (is_space c) eqn:Sp; [apply lexed_blank; [by apply blank_ok|auto]|].
  destruct (is_newline c) eqn:Nl.
  { destruct (lex k r) as [us|] eqn:R; [|discriminate]. injection H as <-. apply newline_ok in Nl as ->.
    apply lexed_line. auto. }
  destruct (number_start (String c r)) eqn:Ns.
  { destruct (span_number (String c r)) as [a b] eqn:E.
    destruct (number a) as [t|] eqn:N; [|discriminate]. cbn in H.
    destruct (lex k b) as [us|] eqn:R; [|discriminate]. injection H as <-.
    pose proof (number_longest _ _ _ Ns E) as L. destruct (span_number_pp _ _ _ Ns E) as (-> & P).
    apply number_sound in N as (ty & z & -> & C).
    destruct (pp_number_first a P) as (d & u & -> & D).
    assert (Nd : d <> "/"%char).
    { destruct D as [D|(-> & _)]; [|done]. intros ->. apply decimal_ok in D. discriminate. }
    destruct (not_comment (String d u) b) as (C1 & C2); [intros ? ? K; by injection K as <- <-|done|].
    apply lexed_token; auto. by constructor. }
  destruct (is_name c) eqn:Na.
  { assert (N : nondigit c).
    { apply name_ok in Na as [N|N]; [done|]. exfalso. apply decimal_ok in N. cbn in Ns. rewrite N in Ns. discriminate. }
    destruct (span is_name (String c r)) as [a b] eqn:E.
    cbv zeta in H. destruct (String.eqb a "L" && _) eqn:Q; [discriminate|].
    destruct (lex k b) as [us|] eqn:R; [|discriminate]. injection H as <-.
    destruct (identifier_longest c r a b N E) as (L & I).
    { intros -> q u -> [->| ->]; discriminate Q. }
    destruct (span_ok _ _ _ _ E) as (Es & _). rewrite Es.
    assert (Fa : exists u, a = String c u).
    { apply identifier_ok in I as (d & u & -> & _). injection Es as -> _. by exists u. }
    destruct Fa as (u & ->).
    assert (Nd : c <> "/"%char). { intros ->. discriminate Na. }
    destruct (not_comment (String c u) b) as (C1 & C2); [intros ? ? K; by injection K as <- <-|done|].
    apply lexed_token; auto. apply means_identifier; [done|].
    destruct b as [|d b]; [split; [discriminate|intros (? & ?); discriminate]|].
    rewrite Ascii.eqb_eq. split; [intros ->; by exists b|]. intros (? & K). by injection K as ->. }
  destruct (Ascii.eqb_spec c """") as [->|Nq].
  { destruct (quoted """" r) as [[a b]|] eqn:E; [|discriminate]. cbn in H.
    destruct (lex k b) as [us|] eqn:R; [|discriminate]. injection H as <-.
    destruct (quoted_sound """" (String.length r) (or_intror eq_refl) r a b (Nat.le_refl _) E) as (t & -> & C & S).
    rewrite <- in_quotes_app.
    destruct (not_comment (in_quotes """" t) b) as (C1 & C2); [intros ? ? K; by injection K as <- <-|done|].
    apply lexed_token; auto.
    - apply quotes_longest; [by right|done|discriminate].
    - by constructor. }
  destruct (Ascii.eqb_spec c "'") as [->|Nq'].
  { destruct (quoted "'" r) as [[a b]|] eqn:E; [|discriminate]. cbn in H.
    destruct a as [|v [|]]; [discriminate| |discriminate].
    destruct (code v <? 128) eqn:V; [|discriminate].
    destruct (lex k b) as [us|] eqn:R; [|discriminate]. injection H as <-.
    destruct (quoted_sound "'" (String.length r) (or_introl eq_refl) r (chr v) b (Nat.le_refl _) E) as (t & -> & C & S).
    rewrite <- in_quotes_app.
    destruct (not_comment (in_quotes "'" t) b) as (C1 & C2); [intros ? ? K; by injection K as <- <-|done|].
    apply lexed_token; auto.
    - apply quotes_longest; [by left|done|]. intros _. by eapply spells_one.
    - constructor; [done|lia]. }
  destruct (after "/*" (String c r)) as [u|] eqn:A1.
  { apply after_ok in A1. rewrite A1. destruct (end_comment u) as [v|] eqn:E; [|discriminate]. cbn in H.
    apply end_comment_sound in E as (t & -> & T). apply lexed_comment; auto. }
  destruct (after "//" (String c r)) as [u|] eqn:A2.
  { apply after_ok in A2. rewrite A2. destruct (span _ u) as [t v] eqn:E. cbn in H.
    destruct (span_ok _ _ _ _ E) as (-> & T & F). apply lexed_rest; auto.
    - by apply no_newline.
    - destruct v as [|d v]; [by left|]. right. specialize (F d v eq_refl).
      apply negb_false_iff, newline_ok in F as ->. by exists v. }
  destruct (first_op ops (String c r)) as [[o b]|] eqn:E; [|discriminate]. cbn in H.
  destruct (lex k b) as [us|] eqn:R; [|discriminate]. injection H as <-.
  destruct (op_longest c r o b) as (L & I & Es); [|done|done|].
  { unfold op_start. rewrite Na, Sp, Nl. cbn [orb].
    destruct (Ascii.eqb_spec c """"); [done|]. destruct (Ascii.eqb_spec c "'"); done. }
  rewrite Es. apply lexed_token; auto.
  - rewrite <- Es. by apply after_none.
  - rewrite <- Es. by apply after_none.
  - constructor. by apply ops_punctuators.
Qed.

Lemma longest_same x r y s : longest x r -> x +++ r = y +++ s -> pp_token y ->
  (String.length x <= String.length y)%nat -> x = y /\ r = s.
Proof. intros (_ & M) E P L. apply sapp_same; [done|]. specialize (M y s E P). lia. Qed.
Lemma constant_first x t z : constant x t z -> exists c r, x = String c r /\ decimal c.
Proof.
  assert (G : forall s z, unsuffixed s z -> exists c r, s = String c r /\ decimal c).
  { clear. intros s z [|s' z' N F|p s' z' P N].
    - exists "0"%char, "". split; [done|]. apply decimal_ok. reflexivity.
    - destruct (numeral_first 10 s' z' ltac:(lia) N) as (c & r & -> & L). exists c, r. split; [done|].
      apply decimal_ok. rewrite <- digit10. lia.
    - destruct P as [->| ->]; eexists _, _; (split; [reflexivity|]); apply decimal_ok; reflexivity. }
  intros [s z' U L|s z' u U V L]; destruct (G _ _ U) as (c & r & -> & D); [by exists c, r|].
  by exists c, (r +++ u).
Qed.
Lemma in_quotes_inj q b q' b' : in_quotes q b = in_quotes q' b' -> q = q' /\ b = b'.
Proof.
  unfold in_quotes. cbn. intros H. injection H as -> H. split; [done|].
  assert (L : String.length (b +++ chr q') = String.length (b' +++ chr q')) by by rewrite H.
  rewrite !slen_app in L. apply (sapp_same _ _ _ _ H). lia.
Qed.
Lemma pp_quotes q b : is_quote q -> pp_token (in_quotes q b) -> raw q b.
Proof.
  intros Q P. destruct (quote_facts q Q) as (F1 & F2 & F3 & F4 & F5 & F6).
  destruct (pp_cases _ "" P) as [(_ & d & v & E & D)|[(_ & N)|[(q' & v & Q' & E & R)|[(q' & v & Q' & E)|O]]]].
  - injection E as <- _. by destruct (nondigit_facts _ D) as (_ & _ & _ & _ & _ & _ & ?).
  - rewrite sapp_nil in N. cbn in N. rewrite F3, F6 in N. discriminate.
  - apply in_quotes_inj in E as (-> & ->). done.
  - injection E as -> _. by destruct Q.
  - destruct (ops_start _ O) as (d & v & E & D). injection E as <- _. congruence.
Qed.
(** the text after [L] cannot start with a quote *)
Lemma lexed_quote q r ts : is_quote q -> lexed (String q r) ts ->
  exists x s, String q r = x +++ s /\ x <> "" /\ pp_token (String "L" x).
Proof.
  intros Q H. remember (String q r) as s eqn:E.
  destruct (quote_facts q Q) as (F1 & F2 & F3 & F4 & F5 & F6).
  destruct H as [|c s ts B H|s ts H|t s ts T H|t s ts T S H|x s t ts C1 C2 L M H].
  - discriminate.
  - injection E as -> ->. apply blank_ok in B. congruence.
  - injection E as <- ->. discriminate.
  - injection E as <- _. by destruct Q.
  - injection E as <- _. by destruct Q.
  - destruct M as [x r' paren I P|x r' ty z C|b r' c S V|b r' v S|x r' I].
    + exfalso. apply identifier_ok in I as (c & u & -> & I & _). injection E as -> _.
      by destruct (nondigit_facts _ I) as (_ & _ & _ & _ & _ & _ & ?).
    + exfalso. apply constant_first in C as (c & u & -> & D). injection E as -> _.
      by destruct (decimal_facts _ D) as (_ & _ & _ & _ & _ & ? & _).
    + exists (in_quotes "'" b), r'. split; [done|]. split; [done|]. destruct L as (P & _). inversion P; subst.
      * match goal with K : identifier _ |- _ => apply identifier_ok in K as (d & u & EE & D & _) end.
        injection EE as <- _. apply one_of_inb in D. discriminate D.
      * match goal with K : pp_number _ |- _ => apply pp_number_first in K as (d & u & EE & D) end.
        injection EE as <- _. destruct D as [D|(D & _)]; [|discriminate D]. apply decimal_ok in D. discriminate D.
      * match goal with K : l = "" \/ l = "L" |- _ => destruct K as [->| ->]; [|discriminate] end.
        match goal with K : "" +++ _ = _ |- _ => apply in_quotes_inj in K as (_ & ->) end.
        apply (pp_character "L" b); auto.
      * match goal with K : l = "" \/ l = "L" |- _ => destruct K as [->| ->]; discriminate end.
      * match goal with K : In _ punctuators |- _ => apply ops_punctuators, ops_start in K as (d & u & EE & D) end.
        injection EE as <- _. discriminate D.
    + exists (in_quotes """" b), r'. split; [done|]. split; [done|]. destruct L as (P & _). inversion P; subst.
      * match goal with K : identifier _ |- _ => apply identifier_ok in K as (d & u & EE & D & _) end.
        injection EE as <- _. apply one_of_inb in D. discriminate D.
      * match goal with K : pp_number _ |- _ => apply pp_number_first in K as (d & u & EE & D) end.
        injection EE as <- _. destruct D as [D|(D & _)]; [|discriminate D]. apply decimal_ok in D. discriminate D.
      * match goal with K : l = "" \/ l = "L" |- _ => destruct K as [->| ->]; discriminate end.
      * match goal with K : l = "" \/ l = "L" |- _ => destruct K as [->| ->]; [|discriminate] end.
        match goal with K : "" +++ _ = _ |- _ => apply in_quotes_inj in K as (_ & ->) end.
        apply (pp_string "L" b); auto.
      * match goal with K : In _ punctuators |- _ => apply ops_punctuators, ops_start in K as (d & u & EE & D) end.
        injection EE as <- _. discriminate D.
    + exfalso. apply ops_punctuators, ops_start in I as (c & u & -> & D). injection E as -> _. congruence.
Qed.
Lemma span_rest p t s : all p t -> (forall c r, s = String c r -> p c = false) -> span p (t +++ s) = (t, s).
Proof.
  induction 1 as [|c t C T IH]; intros N; cbn.
  - destruct s as [|c s]; [done|]. cbn. by rewrite (N c s eq_refl).
  - by rewrite C, IH.
Qed.
Lemma paren_ok s (paren : bool) : (paren = true <-> exists u, s = String "(" u) ->
  Ascii.eqb match s with "" => " "%char | String d _ => d end "(" = paren.
Proof.
  intros H. destruct s as [|d s].
  - destruct paren; [|done]. destruct (proj1 H eq_refl) as (u & E). discriminate.
  - destruct (Ascii.eqb_spec d "(") as [->|N].
    + symmetry. apply H. by exists s.
    + destruct paren; [|done]. destruct (proj1 H eq_refl) as (u & E). congruence.
Qed.
Lemma lex_complete s ts : lexed s ts -> forall k, (String.length s < k)%nat -> lex k s = Some ts.
Proof.
  induction 1 as [|c s ts B H IH|s ts H IH|t s ts T H IH|t s ts T S H IH|x s t ts C1 C2 L M H IH];
    intros k K; (destruct k as [|k]; [lia|]).
  - done.
  - rewrite lex_cons, (proj2 (blank_ok c) B). apply IH. cbn in K; lia.
  - rewrite lex_cons. change (is_space "010") with false. change (is_newline "010") with true. cbn iota.
    rewrite IH; [done|]. cbn in K; lia.
  - cbn [String.append]. rewrite lex_cons. change (after "/*" _) with (Some (t +++ String "*" (String "/" s))).
    cbn [is_space is_newline number_start is_name]. cbn -[lex end_comment String.append].
    change (String "*" (String "/" s)) with ("*/" +++ s). rewrite end_comment_complete by done. cbn.
    apply IH. rewrite !slen_app in K. cbn in K; lia.
  - cbn [String.append]. rewrite lex_cons. change (after "//" _) with (Some (t +++ s)).
    change (after "/*" (String "/" (String "/" (t +++ s)))) with (@None string).
    cbn -[lex span String.append is_newline]. rewrite span_rest.
    + cbn [snd]. apply IH. rewrite !slen_app in K. cbn in K; lia.
    + by apply no_newline.
    + intros c r E. destruct S as [->|(u & ->)]; [discriminate|]. cbn in E. injection E as <- <-. reflexivity.
  - assert (G : x <> "" -> lex k s = Some ts).
    { intros N. apply IH. rewrite slen_app in K. destruct x; [done|]. cbn in K; lia. }
    destruct M as [x s paren I P|x s ty z C|b s c S V|b s v S|x s I].
    + pose proof I as I'. apply identifier_ok in I' as (c & u & -> & N & A).
      destruct (nondigit_facts _ N) as (F1 & F2 & F3 & F4 & F5 & F6 & F7).
      change (String c u +++ s) with (String c (u +++ s)). rewrite lex_cons, F1, F2. cbn [number_start]. rewrite F3, F4, F5.
      cbn [orb andb].
      destruct (span is_name (String c (u +++ s))) as [a b] eqn:E.
      assert (X : String c u = a /\ s = b).
      { apply (longest_same _ _ a b L).
        - by destruct (span_ok _ _ _ _ E) as (<- & _).
        - apply pp_identifier, identifier_ok. destruct (span_ok _ _ _ _ E) as (Es & Aa & _).
          cbn [span] in E. rewrite F5 in E. destruct (span is_name (u +++ s)) as [a' b']. injection E as <- <-.
          exists c, a'. split; [done|]. split; [done|]. by inversion Aa.
        - eapply span_longest; [exact E|reflexivity|]. by constructor. }
      destruct X as (<- & <-). cbv zeta. rewrite G by done.
      destruct (String.eqb_spec (String c u) "L") as [EL|_].
      * assert (Q : Ascii.eqb match s with "" => " "%char | String d _ => d end """"
                    || Ascii.eqb match s with "" => " "%char | String d _ => d end "'" = false).
        { destruct s as [|d s']; [done|]. apply orb_false_iff.
          assert (Nq : ~ is_quote d).
          { intros Q. destruct (lexed_quote d s' ts Q H) as (y & r & Ey & Ny & P').
            destruct L as (_ & L). specialize (L (String "L" y) r). rewrite EL, Ey in L.
            specialize (L eq_refl P'). cbn in L. destruct y; [done|cbn in L; lia]. }
          split; apply Ascii.eqb_neq; intros ->; apply Nq; [by right|by left]. }
        rewrite Q. cbn [andb mbind option_bind]. do 3 f_equal. by apply paren_ok.
      * cbn [andb mbind option_bind]. do 3 f_equal. by apply paren_ok.
    + pose proof (constant_first _ _ _ C) as (c & u & -> & D).
      destruct (decimal_facts _ D) as (F1 & F2 & F3 & F4 & F5 & F6 & F7).
      change (String c u +++ s) with (String c (u +++ s)). rewrite lex_cons, F1, F2.
      assert (Ns : number_start (String c (u +++ s)) = true) by (cbn; by rewrite F3). rewrite Ns.
      assert (P : pp_number (String c u)).
      { destruct L as (P & _).
        destruct (pp_cases _ "" P) as [(_ & d & v & E & D')|[(P' & _)|[(q' & v & Q' & E & R)|[(q' & v & Q' & E)|O]]]];
          [|done|..].
        - injection E as <- _. done.
        - injection E as -> _. done.
        - injection E as -> _. apply decimal_ok in D. discriminate.
        - destruct (ops_start _ O) as (d & v & E & D'). injection E as <- _. congruence. }
      destruct (span_number (String c (u +++ s))) as [a b] eqn:E.
      assert (X : String c u = a /\ s = b).
      { destruct (span_number_pp _ _ _ Ns E) as (Es & Pa). apply (longest_same _ _ a b L); [done|by apply pp_num|].
        destruct (span_number_longest _ (pp_number_tail _ P) s) as (v & Ev).
        change (String c u +++ s) with (String c (u +++ s)) in Ev. rewrite E in Ev. cbn [fst] in Ev. subst a.
        rewrite slen_app. lia. }
      destruct X as (<- & <-). rewrite (number_complete _ _ _ C). cbn [mbind option_bind]. by rewrite G.
    + rewrite in_quotes_app, lex_cons. cbn [is_space is_newline number_start is_name].
      change (Ascii.eqb "'" "'") with true. change (Ascii.eqb "'" """") with false.
      change (is_space "'") with false. change (is_newline "'") with false. change (is_name "'") with false.
      change (is_digit "'" || Ascii.eqb "'" "." && starts_digit 10 (b +++ String "'" s)) with false. cbn iota.
      rewrite (quoted_complete "'" b (chr c)); [|by left|done|].
      * cbn [mbind option_bind chr]. replace (code c <? 128) with true by lia. by rewrite G.
      * apply pp_quotes; [by left|]. by destruct L.
    + rewrite in_quotes_app, lex_cons. cbn [is_space is_newline number_start is_name].
      change (Ascii.eqb """" """") with true.
      change (is_space """") with false. change (is_newline """") with false. change (is_name """") with false.
      change (is_digit """" || Ascii.eqb """" "." && starts_digit 10 (b +++ String """" s)) with false. cbn iota.
      rewrite (quoted_complete """" b v); [|by right|done|].
      * cbn [mbind option_bind]. by rewrite G.
      * apply pp_quotes; [by right|]. by destruct L.
    + apply ops_punctuators in I. destruct (ops_start x I) as (c & u & -> & D).
      destruct (op_start_facts c D) as (F1 & F2 & F3 & F4 & F5 & F6).
      apply after_none in C1, C2.
      change (String c u +++ s) with (String c (u +++ s)) in C1, C2 |- *. rewrite lex_cons, F1, F2, F4, F5, F6, C1, C2.
      destruct (number_start (String c (u +++ s))) eqn:Ns.
      * exfalso. apply number_start_ok in Ns as (c' & r' & E & Ns). injection E as <- <-.
        destruct Ns as [Ns|(-> & d & r' & E & Dd)]; [by destruct (decimal_facts _ Ns) as (_ & _ & ? & _); congruence|].
        destruct u as [|e u].
        { cbn in E. subst s. destruct L as (_ & L).
          specialize (L ("." +++ chr d) r' eq_refl (pp_num _ (number_point d Dd))). cbn in L. lia. }
        cbn in E. injection E as -> _. cbn in I.
        repeat (destruct I as [I|I]; [try discriminate I; injection I as <-; apply decimal_ok in Dd; discriminate Dd|]).
        done.
      * destruct (first_op_some ops (String c (u +++ s)) (String c u) s I eq_refl) as (o & b & E). rewrite E.
        destruct (op_longest c (u +++ s) o b D Ns E) as (Lo & Io & Es).
        assert (X : String c u = o /\ s = b).
        { apply (longest_same _ _ o b L); [done|by destruct Lo|].
          destruct (first_op_ok _ _ _ _ ops_ordered E) as (_ & _ & M). by apply (M _ s). }
        destruct X as (<- & <-). cbn [mbind option_bind]. by rewrite G.
Qed.

(** ** Joined lines *)
Lemma splice_cons a r : splice (String a r) =
  if Ascii.eqb a "\" then
    match r with
    | String b r' =>
        if is_newline b then splice r'
        else
          match r' with
          | String c r'' =>
              if Ascii.eqb b "013" && is_newline c then splice r'' else String a (splice r)
          | EmptyString => String a r
          end
    | EmptyString => String a r
    end
  else String a (splice r).
Proof. reflexivity. Qed.
Lemma splice_complete s t : joined s t -> splice s = t.
Proof.
  induction 1 as [|e s t [->| ->] J IH|c s t N J IH]; [done|exact IH|exact IH|].
  rewrite splice_cons. destruct (Ascii.eqb_spec c "\") as [->|_]; [|by rewrite IH].
  destruct s as [|b r']; [by rewrite <- IH|]. destruct (is_newline b) eqn:Eb.
  { exfalso. apply newline_ok in Eb as ->. apply N. exists (chr "010"), r'. split; [by left|done]. }
  destruct r' as [|d r'']. { rewrite <- IH. rewrite splice_cons. by destruct (Ascii.eqb b "\"). }
  destruct (Ascii.eqb_spec b "013") as [->|_]; [|by rewrite IH].
  destruct (is_newline d) eqn:Ed; [|by rewrite IH].
  exfalso. apply newline_ok in Ed as ->. apply N. exists (chr "013" +++ chr "010"), r''. split; [by right|done].
Qed.
Lemma splice_sound n : forall s, (String.length s <= n)%nat -> joined s (splice s).
Proof.
  induction n as [|n IH]; intros s L. { destruct s; [constructor|cbn in L; lia]. }
  destruct s as [|a r]; [constructor|]. rewrite splice_cons.
  assert (Plain : ~ (exists e u, line_end e /\ chr a +++ r = chr "\" +++ e +++ u) ->
    joined (String a r) (String a (splice r))).
  { intros N. apply joined_char; [done|]. apply IH. cbn in L. lia. }
  destruct (Ascii.eqb_spec a "\") as [->|Na].
  2:{ apply Plain. intros (e & u & _ & E). cbn in E. congruence. }
  destruct r as [|b r']. { apply Plain. intros (e & u & [->| ->] & E); discriminate. }
  destruct (is_newline b) eqn:Eb.
  { apply newline_ok in Eb as ->. apply (joined_line (chr "010") r'); [by left|]. apply IH. cbn in L. lia. }
  destruct r' as [|c r''].
  { assert (Es : splice (String b "") = String b "") by (rewrite splice_cons; by destruct (Ascii.eqb b "\")).
    rewrite Es in Plain. apply Plain.
    intros (e & u & [->| ->] & E); cbn in E; [|discriminate]. injection E as -> _. discriminate Eb. }
  destruct (Ascii.eqb_spec b "013") as [->|Nb].
  - destruct (is_newline c) eqn:Ec; cbn [andb].
    + apply newline_ok in Ec as ->. apply (joined_line (chr "013" +++ chr "010") r''); [by right|]. apply IH. cbn in L. lia.
    + apply Plain. intros (e & u & [->| ->] & E); cbn in E; [discriminate|]. injection E as -> _. discriminate Ec.
  - apply Plain. intros (e & u & [->| ->] & E); cbn in E; injection E as -> _; [discriminate Eb|done].
Qed.

Theorem tokens_exact s ts : tokens s = Some ts <-> exists t, joined s t /\ lexed t ts.
Proof.
  unfold tokens. split.
  - intros H. exists (splice s). split; [by apply (splice_sound (String.length s))|]. by eapply lex_sound.
  - intros (t & J & L). apply splice_complete in J as ->. apply lex_complete; [done|lia].
Qed.
Theorem lexed_unique s ts us : lexed s ts -> lexed s us -> ts = us.
Proof.
  intros H K. pose proof (lex_complete _ _ H (S (String.length s)) ltac:(lia)).
  pose proof (lex_complete _ _ K (S (String.length s)) ltac:(lia)). congruence.
Qed.
Theorem joined_unique s t u : joined s t -> joined s u -> t = u.
Proof. intros H K. apply splice_complete in H, K. congruence. Qed.
