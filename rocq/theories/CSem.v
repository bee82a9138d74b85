(** * CSem: the fragment of C semantics the model is written in.

    The modelled code is C99 ([/repo/Makefile] compiles with [-std=gnu99]).  This file
    fixes, once and for all, what the C constructs used by [/repo/Src] mean:

    - a C integer is a [Z]; every conversion or unsigned operation that can wrap is
      written with an explicit [u8]/[u16]/[u32]/[u64]; every signed 32-bit operation
      that can overflow is written with [ck32], whose overflow outcome is [UB];
    - an object in memory is the list of its bytes (or words); a pointer into an object
      is an offset; an access outside the object is [UB OutOfBounds];
    - [size_t] is 64 bits wide ([u64]), [int] and [int32_t] are 32 bits wide, a byte has
      8 bits, integers are two's complement (the x86-64 gcc target of [/repo/Makefile]);
    - undefined behaviour is a distinct outcome [UB], non-termination is [Diverge]:
      no theorem of the form [f x = Ok y] can hold because of either. *)

From stdpp Require Export list numbers.
From Coq Require Export ZArith Lia Bool.
From Coq Require Export ZifyBool ZifyNat.
From Coq Require Ascii String.
Global Open Scope Z_scope.

(** ** Outcomes *)

Inductive ub_kind :=
  | OutOfBounds      (* read or write outside an object (or through a bad string) *)
  | NullDeref        (* dereference of NULL_PTR *)
  | SignedOverflow   (* int arithmetic outside -2^31 .. 2^31-1 *)
  | BadShift         (* shift count not in 0..width-1 *)
  | Overlap          (* memcpy between overlapping ranges *)
  | DivByZero        (* x % 0 *)
  | Uninit           (* use of an indeterminate value; only in [CLang] *)
  | BadType.         (* outside the fragment of C that [CLang] covers; only there *)

Inductive outcome (A : Type) :=
  | Ok (a : A)
  | UB (k : ub_kind)
  | Diverge.
Arguments Ok {A} a.
Arguments UB {A} k.
Arguments Diverge {A}.

Definition bind {A B} (e : outcome A) (k : A -> outcome B) : outcome B :=
  match e with Ok a => k a | UB u => UB u | Diverge => Diverge end.

Notation "'let!' x ':=' e 'in' k" := (bind e (fun x => k))
  (at level 200, x name, e at level 200, k at level 200,
   format "'[v' 'let!'  x  ':='  e  'in' '/' k ']'").
Notation "'let!' ' x ':=' e 'in' k" := (bind e (fun x => k))
  (at level 200, x strict pattern, e at level 200, k at level 200,
   format "'[v' 'let!'  ' x  ':='  e  'in' '/' k ']'").

(** ** Integer conversions (C99 6.3.1.3) *)

Definition u8  (x : Z) : Z := x mod 2 ^ 8.
Definition u16 (x : Z) : Z := x mod 2 ^ 16.
Definition u32 (x : Z) : Z := x mod 2 ^ 32.
Definition u64 (x : Z) : Z := x mod 2 ^ 64.

(** conversion to a signed type: the representative modulo 2^n (gcc's definition) *)
Definition s8 (x : Z) : Z := (x + 2 ^ 7) mod 2 ^ 8 - 2 ^ 7.
Definition s32 (x : Z) : Z := (x + 2 ^ 31) mod 2 ^ 32 - 2 ^ 31.

(** the result of an [int] expression: undefined when it does not fit *)
Definition ck32 (x : Z) : outcome Z :=
  if (- 2 ^ 31 <=? x) && (x <? 2 ^ 31) then Ok x else UB SignedOverflow.

(** [x << n], [x >> n] at type [uint32_t]; the count must be below the width *)
Definition shl32 (x n : Z) : outcome Z :=
  if (0 <=? n) && (n <? 32) then Ok (u32 (Z.shiftl x n)) else UB BadShift.
Definition shr32 (x n : Z) : outcome Z :=
  if (0 <=? n) && (n <? 32) then Ok (Z.shiftr x n) else UB BadShift.

(** [a % b] and [a / b] on [int]: truncation toward zero (C99 6.5.5) *)
Definition crem (a b : Z) : Z := Z.rem a b.

(** [a % b] on unsigned operands *)
Definition umod (a b : Z) : outcome Z := if b =? 0 then UB DivByZero else Ok (a mod b).

(** ** Memory objects *)

Definition len {A} (l : list A) : Z := Z.of_nat (length l).

(** well-formed bytes and words *)
Definition is_byte (x : Z) : Prop := 0 <= x < 2 ^ 8.
Definition is_u16 (x : Z) : Prop := 0 <= x < 2 ^ 16.
Definition is_u32 (x : Z) : Prop := 0 <= x < 2 ^ 32.
Definition is_u64 (x : Z) : Prop := 0 <= x < 2 ^ 64.
Definition is_s32 (x : Z) : Prop := - 2 ^ 31 <= x < 2 ^ 31.
Definition bytes (l : list Z) : Prop := Forall is_byte l.

(** [o[i]] as an rvalue and as the target of an assignment *)
Definition load {A} (o : list A) (i : Z) : outcome A :=
  if 0 <=? i then
    match o !! Z.to_nat i with Some x => Ok x | None => UB OutOfBounds end
  else UB OutOfBounds.

Definition store {A} (o : list A) (i : Z) (x : A) : outcome (list A) :=
  if (0 <=? i) && (i <? len o) then Ok (<[Z.to_nat i := x]> o) else UB OutOfBounds.

(** [n] consecutive cells from offset [off]; replacing them *)
Definition in_range {A} (o : list A) (off n : Z) : bool :=
  (0 <=? off) && (0 <=? n) && (off + n <=? len o).
Definition slice {A} (o : list A) (off n : Z) : list A :=
  take (Z.to_nat n) (drop (Z.to_nat off) o).
Definition write {A} (o : list A) (off : Z) (xs : list A) : list A :=
  take (Z.to_nat off) o ++ xs ++ drop (Z.to_nat off + length xs) o.

(** ** libc (string.h), C99 7.21 *)

(** [memcpy(&dst[d], &src[s], n)] between two different objects *)
Definition memcpy (dst : list Z) (d : Z) (src : list Z) (s n : Z) : outcome (list Z) :=
  if in_range dst d n && in_range src s n
  then Ok (write dst d (slice src s n)) else UB OutOfBounds.

(** [memcpy(&o[d], &o[s], n)] inside one object: overlapping ranges are undefined *)
Definition memcpy_within (o : list Z) (d s n : Z) : outcome (list Z) :=
  if in_range o d n && in_range o s n then
    if (d + n <=? s) || (s + n <=? d)
    then Ok (write o d (slice o s n)) else UB Overlap
  else UB OutOfBounds.

(** [memcmp(&a[i], &b[j], n) == 0] *)
Definition memcmp_eq (a : list Z) (i : Z) (b : list Z) (j n : Z) : outcome bool :=
  if in_range a i n && in_range b j n
  then Ok (bool_decide (slice a i n = slice b j n)) else UB OutOfBounds.

(** [strlen(&o[0])]: undefined when the object holds no terminating NUL *)
Fixpoint strlen_nat (o : list Z) : option nat :=
  match o with
  | [] => None
  | c :: o' => if c =? 0 then Some O else option_map S (strlen_nat o')
  end.
Definition strlen (o : list Z) : outcome Z :=
  match strlen_nat o with Some n => Ok (Z.of_nat n) | None => UB OutOfBounds end.

(** [strcpy(&dst[d], src)] where [src] is another object *)
Definition strcpy (dst : list Z) (d : Z) (src : list Z) : outcome (list Z) :=
  let! n := strlen src in memcpy dst d src 0 (n + 1).

(** [0 == strcmp(&a[i], b)] *)
Fixpoint strcmp_eq (a : list Z) (i : Z) (b : list Z) : outcome bool :=
  match b with
  | [] => UB OutOfBounds
  | d :: b' =>
      let! c := load a i in
      if c =? d then (if c =? 0 then Ok true else strcmp_eq a (i + 1) b') else Ok false
  end.

(** [0 == strncmp(&a[i], &b[j], n)]: stops at the first difference or NUL *)
Fixpoint strncmp_eq (a : list Z) (i : Z) (b : list Z) (j : Z) (n : nat) : outcome bool :=
  match n with
  | O => Ok true
  | S n' =>
      let! c := load a i in
      let! d := load b j in
      if c =? d then (if c =? 0 then Ok true else strncmp_eq a (i + 1) b (j + 1) n')
      else Ok false
  end.

(** ** Control flow *)

(** [for (i = a; i < b; ++i) body] where [body] changes neither [i] nor [b] *)
Fixpoint cfor_n {S} (n : nat) (i : Z) (body : Z -> S -> outcome S) (s : S) : outcome S :=
  match n with
  | O => Ok s
  | Datatypes.S n' => let! s' := body i s in cfor_n n' (i + 1) body s'
  end.
Definition cfor {S} (a b : Z) (body : Z -> S -> outcome S) (s : S) : outcome S :=
  cfor_n (Z.to_nat (b - a)) a body s.

(** the same loop counting down: [for (i = a; i >= b; --i) body] *)
Fixpoint cford_n {S} (n : nat) (i : Z) (body : Z -> S -> outcome S) (s : S) : outcome S :=
  match n with
  | O => Ok s
  | Datatypes.S n' => let! s' := body i s in cford_n n' (i - 1) body s'
  end.
Definition cford {S} (a b : Z) (body : Z -> S -> outcome S) (s : S) : outcome S :=
  cford_n (Z.to_nat (a + 1 - b)) a body s.

(** [while (cond) body]; a [Break] result is a [break] statement.  The state holds the
    local variables.  Running out of [fuel] is the outcome [Diverge]; theorems show it
    does not happen, and so prove termination. *)
Inductive ctl (S : Type) := Next (s : S) | Break (s : S).
Arguments Next {S} s.
Arguments Break {S} s.

Fixpoint cwhile {S} (fuel : nat) (cond : S -> bool) (body : S -> outcome (ctl S)) (s : S)
  : outcome S :=
  match fuel with
  | O => Diverge
  | Datatypes.S f =>
      if cond s then
        let! c := body s in
        match c with Next s' => cwhile f cond body s' | Break s' => Ok s' end
      else Ok s
  end.

(** ** Characters and string literals *)

(** the value of a plain [char] whose byte is [c]: the signedness of [char] is
    implementation-defined, so it is a parameter ([true] on x86-64, [false] on ARM) *)
Definition char_val (signed_char : bool) (c : Z) : Z := if signed_char then s8 c else c.

Fixpoint str (s : String.string) : list Z :=
  match s with
  | String.EmptyString => []
  | String.String c s' => Z.of_N (Ascii.N_of_ascii c) :: str s'
  end.
(** a string literal as an object: its characters and the terminating NUL *)
Definition cstr (s : String.string) : list Z := str s ++ [0].
Definition chr (c : Ascii.ascii) : Z := Z.of_N (Ascii.N_of_ascii c).
