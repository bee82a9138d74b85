(** * The hand-written model of chacha20.c against the C text *)
From Verif Require Import CSem Lib CLang C_Utils C_Crypto Model_Utils Model_Crypto Refine Refine_Utils.

(** the local variables of [Block] whose address is taken: one-cell objects *)
Definition cells (xs : list Z) : mem := (fun x => ints 32 [x]) <$> xs.

Lemma cells_len m xs : length (m ++ cells xs) = (length m + length xs)%nat.
Proof. unfold cells. by rewrite app_length, fmap_length. Qed.
Lemma cells_snoc m xs x : (m ++ cells xs) ++ [ints 32 [x]] = m ++ cells (xs ++ [x]).
Proof. unfold cells. by rewrite fmap_app, app_assoc. Qed.
Lemma cells_look m xs b c : m !! b = Some c -> (m ++ cells xs) !! b = Some c.
Proof. intros H. by apply lookup_app_l_Some. Qed.
Lemma cells_get m xs n k x :
  n = length m -> xs !! k = Some x -> (m ++ cells xs) !! (n + k)%nat = Some (ints 32 [x]).
Proof.
  intros -> H. rewrite lookup_app_r by lia. replace (_ + _ - _)%nat with k by lia.
  unfold cells. by rewrite list_lookup_fmap, H.
Qed.
Lemma cells_set m xs n k x :
  n = length m -> <[(n + k)%nat := ints 32 [x]]> (m ++ cells xs) = m ++ cells (<[k := x]> xs).
Proof.
  intros ->. rewrite insert_app_r. unfold cells.
  by rewrite (list_fmap_insert (fun x => ints 32 [x])).
Qed.
Lemma cells_front m xs b c :
  (b < length m)%nat -> <[b := c]> (m ++ cells xs) = <[b := c]> m ++ cells xs.
Proof. intros. by rewrite insert_app_l. Qed.

Lemma insert4 {A} (l : list A) a b c d (x y z t x' y' z' t' : A) :
  a <> b -> a <> c -> a <> d -> b <> c -> b <> d -> c <> d ->
  <[b := y]> (<[c := z]> (<[d := t]> (<[a := x]>
    (<[b := y']> (<[c := z']> (<[d := t']> (<[a := x']> l)))))))
  = <[b := y]> (<[c := z]> (<[d := t]> (<[a := x]> l))).
Proof.
  intros. rewrite (list_insert_commute _ a b), (list_insert_commute _ d b),
    (list_insert_commute _ c b), list_insert_insert by done. do 1 f_equal.
  rewrite (list_insert_commute _ a c), (list_insert_commute _ d c), list_insert_insert by done.
  do 1 f_equal. rewrite (list_insert_commute _ a d), !list_insert_insert by done. done.
Qed.

(** chacha20.c:64-74 on the four values *)
Definition quarter (xa xb xc xd : Z) : outcome (Z * Z * Z * Z) :=
  let xa := u32 (xa + xb) in
  let! xd := BitManipulation_rotl32 (Z.lxor xd xa) 16 in
  let xc := u32 (xc + xd) in
  let! xb := BitManipulation_rotl32 (Z.lxor xb xc) 12 in
  let xa := u32 (xa + xb) in
  let! xd := BitManipulation_rotl32 (Z.lxor xd xa) 8 in
  let xc := u32 (xc + xd) in
  let! xb := BitManipulation_rotl32 (Z.lxor xb xc) 7 in
  Ok (xa, xb, xc, xd).

Section chacha.
  Context {W : Type} (sc : bool)
          (ext : Z -> list val -> mem -> W -> outcome (val * mem * W)) (fuel : nat).
  Local Notation run f := (call sc ext fuel f).
  Implicit Types (m : mem) (w : W) (o : list Z).
  Local Notation at32 b := (VPtr (TInt U32) (BObj b) 0).

  (** a call of [BitManipulation_rotl32], whose second argument is an [int] constant *)
  Ltac rot :=
    lazymatch goal with
    | |- bind (call _ _ _ c_BitManipulation_rotl32 [?x; VInt I32 ?n] _ _) _ = _ =>
        call_with [x; VInt U32 n]; rewrite ref_rotl32; hrw bind_assoc
    end.

  Lemma ref_QuarterRound m w a b c d xa xb xc xd :
    m !! a = Some (ints 32 [xa]) -> m !! b = Some (ints 32 [xb]) ->
    m !! c = Some (ints 32 [xc]) -> m !! d = Some (ints 32 [xd]) ->
    a <> b -> a <> c -> a <> d -> b <> c -> b <> d -> c <> d ->
    run c_QuarterRound [at32 a; at32 b; at32 c; at32 d] m w
    = let! '(xa, xb, xc, xd) := quarter xa xb xc xd in
      Ok (VUndef, <[b := ints 32 [xb]]> (<[c := ints 32 [xc]]> (<[d := ints 32 [xd]]>
                  (<[a := ints 32 [xa]]> m))), w).
  Proof.
    intros Ha Hb Hc Hd N1 N2 N3 N4 N5 N6. unfold c_QuarterRound, quarter. go.
    repeat (rot; both; go). by rewrite insert4.
  Qed.

  Lemma ref_QuarterRound_list m w xs (a b c d : nat) n :
    n = length m -> (a < length xs)%nat -> (b < length xs)%nat -> (c < length xs)%nat ->
    (d < length xs)%nat ->
    a <> b -> a <> c -> a <> d -> b <> c -> b <> d -> c <> d ->
    run c_QuarterRound [at32 (n + a)%nat; at32 (n + b)%nat; at32 (n + c)%nat; at32 (n + d)%nat]
        (m ++ cells xs) w
    = let! xs := QuarterRound xs (Z.of_nat a) (Z.of_nat b) (Z.of_nat c) (Z.of_nat d) in Ok (VUndef, m ++ cells xs, w).
  Proof.
    intros Hn Ha Hb Hc Hd N1 N2 N3 N4 N5 N6.
    destruct (lookup_lt_is_Some_2 xs a Ha) as [xa Ea], (lookup_lt_is_Some_2 xs b Hb) as [xb Eb],
      (lookup_lt_is_Some_2 xs c Hc) as [xc Ec], (lookup_lt_is_Some_2 xs d Hd) as [xd Ed].
    erewrite ref_QuarterRound; [|by apply cells_get|by apply cells_get|by apply cells_get|
                                by apply cells_get|lia..].
    unfold QuarterRound, quarter.
    assert (forall (k : nat) x, xs !! k = Some x -> load xs (Z.of_nat k) = Ok x) as L.
    { intros k x E. unfold load. destruct (Z.leb_spec 0 (Z.of_nat k)); [|lia]. by rewrite Nat2Z.id, E. }
    rewrite (L a xa), (L b xb), (L c xc), (L d xd) by done. cbn [bind].
    do 4 (rewrite bind_assoc; both).
    repeat (rewrite store_ok by (rewrite ?len_insert; unfold len; lia); cbn [bind]).
    rewrite !Nat2Z.id, !cells_set by done.
    rewrite (list_insert_commute _ b c), (list_insert_commute _ b d), (list_insert_commute _ c d),
      (list_insert_commute _ b a), (list_insert_commute _ c a), (list_insert_commute _ d a) by done.
    done.
  Qed.

  (** [&a[p]] passed to the functions of utils.c *)
  Lemma E_deser {B} E m w i b o p (k : _ -> outcome B) :
    E !! i = Some (VPtr (TInt U8) (BObj b) 0) -> m !! b = Some (ints 8 o) -> bytes o -> 0 <= p ->
    bind (eval sc ext fuel (ECall c_Utils_deserialize32LE
           (ECons (EAddr (LIndex (ELv (LVar i (TPtr (TInt U8)))) (ECst I32 p))) ENil)) (E, m, w)) k
    = bind (Utils_deserialize32LE o p) (fun z => k (VInt U32 z, (E, m, w))).
  Proof.
    intros Hi Hb Ho Hp. go1. go1. go1. go1. go1. go1. unfold get_loc. rewrite Hi. go.
    2:{ unfold Utils_deserialize32LE, load. destruct (Z.leb_spec 0 (p + 3)); [|lia].
        rewrite lookup_ge_None_2 by (unfold len in *; lia). done. }
    rewrite (ref_deserialize32LE sc ext fuel m w b o p) by done. by destruct (Utils_deserialize32LE o p).
  Qed.
  Lemma E_ser {B} E m w i j c x b o p (k : _ -> outcome B) :
    E !! i = Some (VPtr (TInt U8) (BObj b) 0) -> m !! b = Some (ints 8 o) -> 0 <= p ->
    E !! j = Some (at32 c) -> m !! c = Some (ints 32 [x]) ->
    bind (eval sc ext fuel (ECall c_Utils_serialize32LE
           (ECons (EAddr (LIndex (ELv (LVar i (TPtr (TInt U8)))) (ECst I32 p)))
           (ECons (ELv (LDeref (ELv (LVar j (TPtr (TInt U32)))))) ENil))) (E, m, w)) k
    = bind (Utils_serialize32LE o p x) (fun o => k (VUndef, (E, <[b := ints 8 o]> m, w))).
  Proof.
    intros Hi Hb Hp Hj Hc. go1. go1. go1. go1. go1. go1. unfold get_loc at 1. rewrite Hi. go.
    2:{ unfold Utils_serialize32LE, store. replace (p + 3 <? len o) with false by lia.
        by rewrite andb_false_r. }
    unfold get_loc at 1. rewrite Hj. go.
    rewrite (ref_serialize32LE sc ext fuel m w b o p) by done. by destruct (Utils_serialize32LE o p x).
  Qed.
End chacha.

Lemma mload_cells sc m xs n k x :
  n = length m -> xs !! k = Some x ->
  mload sc (m ++ cells xs) (TInt U32) (BObj (n + k)) 0 = Ok (VInt U32 x).
Proof. intros Hn Hx. erewrite mload_ints; [|by apply cells_get|done]. done. Qed.
Lemma mstore_cells m xs n k x t z :
  n = length m -> xs !! k = Some x ->
  mstore (m ++ cells xs) (TInt U32) (BObj (n + k)) 0 (VInt t z) = Ok (m ++ cells (<[k := z]> xs)).
Proof.
  intros Hn Hx. erewrite mstore_ints; [|by apply cells_get|done].
  change (store [x] 0 (raw U32 z)) with (Ok [z]). cbn [bind]. by rewrite cells_set.
Qed.

Lemma add16 x0 x1 x2 x3 x4 x5 x6 x7 x8 x9 x10 x11 x12 x13 x14 x15 y0 y1 y2 y3 y4 y5 y6 y7 y8 y9 y10 y11 y12 y13 y14 y15 :
  cfor 0 16 (fun i x => let! xi := load x i in let! yi := load [y0; y1; y2; y3; y4; y5; y6; y7; y8; y9; y10; y11; y12; y13; y14; y15] i in
                        store x i (u32 (xi + yi))) [x0; x1; x2; x3; x4; x5; x6; x7; x8; x9; x10; x11; x12; x13; x14; x15]
  = Ok [u32 (x0 + y0); u32 (x1 + y1); u32 (x2 + y2); u32 (x3 + y3); u32 (x4 + y4); u32 (x5 + y5); u32 (x6 + y6); u32 (x7 + y7); u32 (x8 + y8); u32 (x9 + y9); u32 (x10 + y10); u32 (x11 + y11); u32 (x12 + y12); u32 (x13 + y13); u32 (x14 + y14); u32 (x15 + y15)].
Proof. reflexivity. Qed.
Lemma ser16 {A} (f : Z -> A -> outcome A) a :
  cfor 0 16 f a
  = let! a := f 0 a in let! a := f 1 a in let! a := f 2 a in let! a := f 3 a in let! a := f 4 a in let! a := f 5 a in let! a := f 6 a in let! a := f 7 a in let! a := f 8 a in let! a := f 9 a in let! a := f 10 a in let! a := f 11 a in let! a := f 12 a in let! a := f 13 a in let! a := f 14 a in
    f 15 a.
Proof.
  do 16 (rewrite cfor_step by lia; cbn [Z.add]; try (destruct (f _ _) as [?| |]; cbn [bind]; [|done..])).
  done.
Qed.
Lemma ser16' x0 x1 x2 x3 x4 x5 x6 x7 x8 x9 x10 x11 x12 x13 x14 x15 out :
  cfor 0 16 (fun i out => let! xi := load [x0; x1; x2; x3; x4; x5; x6; x7; x8; x9; x10; x11; x12; x13; x14; x15] i in
                          Utils_serialize32LE out (4 * i) xi) out
  = let! out := Utils_serialize32LE out 0 x0 in
    let! out := Utils_serialize32LE out 4 x1 in
    let! out := Utils_serialize32LE out 8 x2 in
    let! out := Utils_serialize32LE out 12 x3 in
    let! out := Utils_serialize32LE out 16 x4 in
    let! out := Utils_serialize32LE out 20 x5 in
    let! out := Utils_serialize32LE out 24 x6 in
    let! out := Utils_serialize32LE out 28 x7 in
    let! out := Utils_serialize32LE out 32 x8 in
    let! out := Utils_serialize32LE out 36 x9 in
    let! out := Utils_serialize32LE out 40 x10 in
    let! out := Utils_serialize32LE out 44 x11 in
    let! out := Utils_serialize32LE out 48 x12 in
    let! out := Utils_serialize32LE out 52 x13 in
    let! out := Utils_serialize32LE out 56 x14 in
    Utils_serialize32LE out 60 x15.
Proof. rewrite ser16. reflexivity. Qed.
Lemma QuarterRound_len y y' a b c d : QuarterRound y a b c d = Ok y' -> length y' = length y.
Proof.
  intros H. unfold QuarterRound in H.
  repeat lazymatch type of H with bind _ _ = _ =>
    let E := fresh "E" in apply bind_ok_inv in H as (? & E & H); try apply store_inv in E as [_ ->] end.
  apply store_inv in H as [_ ->]. by rewrite !insert_length.
Qed.
Lemma double_round_len s s' : chacha_double_round s = Ok s' -> length s' = length s.
Proof.
  intros H. unfold chacha_double_round in H.
  repeat lazymatch type of H with bind _ _ = _ =>
    let E := fresh "E" in apply bind_ok_inv in H as (? & E & H); apply QuarterRound_len in E end.
  apply QuarterRound_len in H. congruence.
Qed.
Lemma rounds_len x x' :
  cfor 0 CHACHA20_ROUNDS (fun _ x => chacha_double_round x) x = Ok x' -> length x' = length x.
Proof.
  intros H. apply (cfor_inv (fun _ y => length y = length x)) in H; [done|done|done|].
  clear. intros _ s s' _ <- H. by apply double_round_len.
Qed.
