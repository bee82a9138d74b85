(** * Specification of records: sequences of fields laid out one after the other.
    No import of any model. *)
From Verif Require Import CSem Spec_Utils.

(** the kinds of field the serializers write; a blob has a length *)
Inductive kind := K8 | K16BE | K24BE | K32BE | K16LE | K24LE | K32LE
  | KBlobBE (n : Z) | KBlobLE (n : Z).

(** a field holds a number or a sequence of bytes *)
Inductive field := Num (k : kind) (v : Z) | Blob (k : kind) (s : list Z).

(** the number of bytes of a field *)
Definition size_of (k : kind) : Z :=
  match k with
  | K8 => 1
  | K16BE | K16LE => 2
  | K24BE | K24LE => 3
  | K32BE | K32LE => 4
  | KBlobBE n | KBlobLE n => n
  end.

Definition kind_of (f : field) : kind := match f with Num k _ | Blob k _ => k end.

(** numbers go with the kinds of number and have any value; sequences go with the kinds of
    blob and have their length, below 2^31 in the reversing kind *)
Definition wf_field (f : field) : Prop :=
  match f with
  | Num k _ => match k with KBlobBE _ | KBlobLE _ => False | _ => True end
  | Blob (KBlobBE n) s => len s = n /\ bytes s
  | Blob (KBlobLE n) s => len s = n /\ n < 2 ^ 31 /\ bytes s
  | Blob _ _ => False
  end.

(** the bytes of a field *)
Definition encoding (f : field) : list Z :=
  match f with
  | Num ((K16LE | K24LE | K32LE) as k) v => le_bytes (Z.to_nat (size_of k)) v
  | Num k v => be_bytes (Z.to_nat (size_of k)) v
  | Blob (KBlobLE _) s => reverse s
  | Blob _ s => s
  end.

(** what is left of a field: numbers modulo 2^(8 size) *)
Definition truncated (f : field) : field :=
  match f with
  | Num k v => Num k (v mod 2 ^ (8 * size_of k))
  | Blob k s => Blob k s
  end.

(** the bytes of a record *)
Definition layout (fs : list field) : list Z := mjoin (map encoding fs).

(** ** Decimal text *)

(** the decimal digits of a number *)
Fixpoint digits (fuel : nat) (n : Z) : list Z :=
  match fuel with
  | O => []
  | S fuel => (if n <? 10 then [] else digits fuel (n / 10)) ++ [48 + n mod 10]
  end.
Definition decimal_text (n : Z) : list Z := digits 10 n.
