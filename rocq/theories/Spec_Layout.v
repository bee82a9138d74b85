(** * Spec_Layout: objects that are parts of larger objects

    [j] says where the objects of one memory lie in another: object [n] is the part of object
    [fst (j n)] that starts at its cell [snd (j n)]. *)
From Verif Require Import CSem CLang.
Local Open Scope Z_scope.

(** a value, a cell and the cells of an object seen from the other memory *)
Definition moved (j : nat -> nat * nat) (v : val) : val :=
  match v with
  | VPtr t (BObj n) o => VPtr t (BObj (fst (j n))) (Z.of_nat (snd (j n)) + o)
  | _ => v
  end.
Definition moved_cell (j : nat -> nat * nat) (c : cell) : cell :=
  match c with CV v => CV (moved j v) | CI _ _ => c end.
Definition part (j : nat -> nat * nat) (cs ds : list cell) (o : nat) : Prop :=
  exists pre post, ds = pre ++ map (moved_cell j) cs ++ post /\ length pre = o.

(** every object of [m1] is where [j] says *)
Definition holds (j : nat -> nat * nat) (m1 m2 : mem) : Prop :=
  forall n cs, m1 !! n = Some cs ->
    exists ds, m2 !! fst (j n) = Some ds /\ part j cs ds (snd (j n)).
(** cell [x] of object [b] belongs to object [n] of [m] *)
Definition owns (j : nat -> nat * nat) (m : mem) (n b x : nat) : Prop :=
  exists cs, m !! n = Some cs /\ fst (j n) = b /\ (snd (j n) <= x < snd (j n) + length cs)%nat.
(** no cell belongs to two objects *)
Definition apart (j : nat -> nat * nat) (m : mem) : Prop :=
  forall n k b x, owns j m n b x -> owns j m k b x -> n = k.
(** the cells of [m2] that belong to no object of [m1] are the same in [m2'] *)
Definition untouched (j : nat -> nat * nat) (m1 m2 m2' : mem) : Prop :=
  forall b ds, m2 !! b = Some ds ->
    exists ds', m2' !! b = Some ds' /\ length ds' = length ds /\
      forall x, (forall n, ~ owns j m1 n b x) -> ds' !! x = ds !! x.

(** the objects of [m1] lie where [lay] says; the further objects, those that a function
    declares, follow the [k] objects of the other memory *)
Definition placed (lay : list (nat * nat)) (k n : nat) : nat * nat :=
  match lay !! n with Some p => p | None => (k + (n - length lay), 0)%nat end.

(** what [ext2] does for the called function pointers in the second memory is what [ext1] does in
    the first one *)
Definition follows {W} (j : nat -> nat * nat)
    (ext1 ext2 : Z -> list val -> mem -> W -> outcome (val * mem * W)) : Prop :=
  forall f vs m1 m2 w v m1' w', holds j m1 m2 -> apart j m1 ->
    ext1 f vs m1 w = Ok (v, m1', w') ->
    map (@length cell) m1' = map (@length cell) m1 /\
    exists m2', ext2 f (map (moved j) vs) m2 w = Ok (moved j v, m2', w') /\
      length m2' = length m2 /\ holds j m1' m2' /\ untouched j m1 m2 m2'.

(** ** Several objects in one array of bytes

    [ps]: their offsets and contents *)
Definition parts (ps : list (nat * list Z)) (a : list Z) : Prop :=
  forall n o x, ps !! n = Some (o, x) -> exists pre post, a = pre ++ x ++ post /\ length pre = o.
Definition separate (ps : list (nat * list Z)) : Prop :=
  forall n k o o' x y i, ps !! n = Some (o, x) -> ps !! k = Some (o', y) ->
    (o <= i < o + length x)%nat -> (o' <= i < o' + length y)%nat -> n = k.
(** they lie in object [b] of [m] *)
Definition in_array (b : nat) (ps : list (nat * list Z)) (m : mem) : nat -> nat * nat :=
  placed (map (fun p => (b, fst p)) ps) (length m).
(** the array with new contents for the parts *)
Fixpoint writes {A} (ps : list (nat * list A)) (a : list A) : list A :=
  match ps with [] => a | (o, x) :: ps => writes ps (write a (Z.of_nat o) x) end.
