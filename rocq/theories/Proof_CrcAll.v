(** * The 45 CRC functions *)
From Verif Require Import CSem Lib Model_Utils Model_Crc Model_CrcVariants Spec_Crc Drive_Crc Proof_Gf2 Proof_Crc Proof_CrcTable.

Definition params_ok (P : crc_params) : Prop :=
  gen_ok (width P) (poly P) /\ 0 <= init P < 2 ^ width P /\ 0 <= xorout P < 2 ^ width P /\
  Z.testbit (poly P) 0 = true /\ refin P = refout P /\ width P mod 8 = 0.
Definition run_ok (V : crc_variant) : Prop :=
  forall msg rest (fin : bool) last, bytes msg ->
    (forall c, last = Some c -> 0 <= c < 2 ^ width (params V)) ->
    run V (msg ++ rest) (len msg) fin last
    = (let r := feed (width (params V)) (table_of V) (refin (params V)) msg
                  (default (init (params V)) last) in
       Ok (if fin then output (params V) r else r)).
Definition variant_ok (V : crc_variant) : Prop :=
  params_ok (params V) /\ table_for (width (params V)) (poly (params V)) (table_of V) /\ run_ok V.

Lemma variant_intro V : params_ok (params V) ->
  table_of V = gen_table (width (params V)) (poly (params V)) ->
  (table (width (params V)) (table_of V) -> run_ok V) -> variant_ok V.
Proof.
  intros HP HT HR.
  assert (table_for (width (params V)) (poly (params V)) (table_of V)) as H.
  { rewrite HT. apply gen_table_ok. apply HP. }
  split; [done|]. split; [done|]. apply HR. by eapply table_for_table.
Qed.

Lemma run8 P t msg rest last v ro ri fx (fin : bool) :
  width P = 8 -> params_ok P -> table (width P) t -> bytes msg ->
  (forall c, last = Some c -> 0 <= c < 2 ^ width P) -> 0 <= v < 2 ^ width P -> ri = refin P ->
  (forall r, finish (width P) ro fx v r = if fin then output P r else r) ->
  Crc8Base t (msg ++ rest) (len msg) (match last with Some c => c | None => init P end) v ro ri fx
  = (let r := feed (width P) t (refin P) msg (default (init P) last) in
     Ok (if fin then output P r else r)).
Proof.
  intros HW (_ & Hi & _) Ht Hm Hl Hv -> HF. cbn zeta. rewrite <- HF. rewrite HW in *.
  rewrite crc8_base; [by destruct last|done|done| |done].
  destruct last as [c|]; [by apply Hl|done].
Qed.
Lemma run16 P t msg rest last v ro ri fx (fin : bool) :
  width P = 16 -> params_ok P -> table (width P) t -> bytes msg ->
  (forall c, last = Some c -> 0 <= c < 2 ^ width P) -> 0 <= v < 2 ^ width P -> ri = refin P ->
  (forall r, finish (width P) ro fx v r = if fin then output P r else r) ->
  Crc16Base t (msg ++ rest) (len msg) (match last with Some c => c | None => init P end) v ro ri fx
  = (let r := feed (width P) t (refin P) msg (default (init P) last) in
     Ok (if fin then output P r else r)).
Proof.
  intros HW (_ & Hi & _) Ht Hm Hl Hv -> HF. cbn zeta. rewrite <- HF. rewrite HW in *.
  rewrite crc16_base; [by destruct last|done|done| |done].
  destruct last as [c|]; [by apply Hl|done].
Qed.
Lemma run32 P t msg rest last v ro ri fx (fin : bool) :
  width P = 32 -> params_ok P -> table (width P) t -> bytes msg ->
  (forall c, last = Some c -> 0 <= c < 2 ^ width P) -> 0 <= v < 2 ^ width P -> ri = refin P ->
  (forall r, finish (width P) ro fx v r = if fin then output P r else r) ->
  Crc32Base t (msg ++ rest) (len msg) (match last with Some c => c | None => init P end) v ro ri fx
  = (let r := feed (width P) t (refin P) msg (default (init P) last) in
     Ok (if fin then output P r else r)).
Proof.
  intros HW (_ & Hi & _) Ht Hm Hl Hv -> HF. cbn zeta. rewrite <- HF. rewrite HW in *.
  rewrite crc32_base; [by destruct last|done|done| |done].
  destruct last as [c|]; [by apply Hl|done].
Qed.

Ltac head t := lazymatch t with ?f _ => head f | _ => t end.
Ltac params_tac := repeat split; cbv; congruence.
Ltac run_tac L :=
  let HT := fresh in let Hm := fresh in let Hl := fresh in
  let msg := fresh in let rest := fresh in let fin := fresh in let last := fresh in
  let r := fresh in
  intros HT msg rest fin last Hm Hl; cbn [run params table_of] in *;
  lazymatch goal with |- context [width ?P] =>
    lazymatch goal with |- ?t = _ => let h := head t in unfold h end; cbv zeta;
    apply (L P);
    [reflexivity|params_tac|exact HT|exact Hm|exact Hl|split; cbv; congruence|reflexivity|];
    intros r; destruct fin;
    cbv beta iota zeta delta [finish output refout xorout width P]; rewrite ?Z.lxor_0_r; reflexivity
  end.
Ltac variant_tac :=
  apply variant_intro; [params_tac|vm_compute; reflexivity|
    lazymatch goal with |- context [width (params ?V)] =>
      let w := eval cbv in (width (params V)) in
      lazymatch w with 8 => run_tac run8 | 16 => run_tac run16 | 32 => run_tac run32 end end].

Lemma all_ok : Forall variant_ok crc_variants.
Proof. unfold crc_variants. repeat (apply Forall_cons; [variant_tac|]). apply Forall_nil. Qed.
