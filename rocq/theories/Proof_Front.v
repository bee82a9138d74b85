(** * Proofs for [Props_Front.v]: the text of [/repo/Src] translates to the terms in [C_*.v] *)
From Coq Require Import String.
From Verif Require Import CSem Lib CLang CFront CSystem Drive_Front.

Lemma program_ok : program repo [] sources = Some c_program.
Proof. vm_compute. reflexivity. Qed.

Lemma run_text_ok {W} sc (ext : Z -> list val -> mem -> W -> outcome (val * mem * W)) fuel x d
    args m w :
  assoc x (functions c_program) = Some d ->
  run_text sc ext fuel repo sources x args m w = call sc ext fuel d args m w.
Proof.
  intros H. unfold run_text. rewrite program_ok.
  change (match assoc x (functions c_program) with
          | Some d => call sc ext fuel d args m w
          | None => UB BadType
          end = call sc ext fuel d args m w).
  rewrite H. reflexivity.
Qed.

Fixpoint distinct (l : list string) : bool :=
  match l with [] => true | x :: l => negb (elem x l) && distinct l end.
Lemma distinct_ok l : distinct l = true -> NoDup l.
Proof.
  induction l as [|x l IH]; cbn; intros H; constructor.
  - apply andb_prop in H as [H _]. intros Hin. unfold elem in H.
    apply negb_true_iff in H. rewrite <- not_true_iff_false in H. apply H.
    apply existsb_exists. exists x. split; [apply elem_of_list_In, Hin|apply String.eqb_refl].
  - apply IH. apply andb_prop in H as [_ H]. exact H.
Qed.
Lemma names_ok : NoDup (map fst (functions c_program)).
Proof. apply distinct_ok. vm_compute. reflexivity. Qed.

Lemma assoc_in {A} x (a : A) l : NoDup (map fst l) -> In (x, a) l -> assoc x l = Some a.
Proof.
  induction l as [|[y b] l IH]; cbn; intros Hd Hin; [contradiction|].
  inversion_clear Hd as [|? ? Hy Hd']. destruct Hin as [E|Hin].
  - injection E as -> ->. rewrite String.eqb_refl. reflexivity.
  - destruct (String.eqb_spec x y) as [->|]; [|exact (IH Hd' Hin)].
    exfalso. apply Hy. apply elem_of_list_In, in_map_iff. exists (y, a). split; [reflexivity|exact Hin].
Qed.
Lemma in_functions x d f l :
  In (f, l) c_program -> In (x, false, d) l -> In (x, d) (functions c_program).
Proof.
  intros Hf Hx. apply in_flat_map. exists (f, l). split; [exact Hf|]. apply in_flat_map.
  exists (x, false, d). split; [exact Hx|]. left. reflexivity.
Qed.
Lemma run_function {W} sc (ext : Z -> list val -> mem -> W -> outcome (val * mem * W)) fuel
    f l x d args m w :
  In (f, l) c_program -> In (x, false, d) l ->
  run_text sc ext fuel repo sources x args m w = call sc ext fuel d args m w.
Proof.
  intros Hf Hx. apply run_text_ok. apply assoc_in; [exact names_ok|].
  exact (in_functions _ _ _ _ Hf Hx).
Qed.
