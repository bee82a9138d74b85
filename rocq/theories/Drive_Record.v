(** * Clients that write and read records with the serializers of the model *)
From Verif Require Import CSem Model_Utils Spec_Record.

(** writes field [f] at offset [p] of [buf] *)
Definition write_field (buf : list Z) (p : Z) (f : field) : outcome (list Z) :=
  match f with
  | Num K8 v => Utils_serialize8 buf p v
  | Num K16BE v => Utils_serialize16BE buf p v
  | Num K24BE v => Utils_serialize24BE buf p v
  | Num K32BE v => Utils_serialize32BE buf p v
  | Num K16LE v => Utils_serialize16LE buf p v
  | Num K24LE v => Utils_serialize24LE buf p v
  | Num K32LE v => Utils_serialize32LE buf p v
  | Blob (KBlobBE n) s => Utils_serializeBlobBE buf p s 0 n
  | Blob (KBlobLE n) s => Utils_serializeBlobLE buf p s 0 n
  | _ => Ok buf
  end.
Fixpoint write_fields (buf : list Z) (p : Z) (fs : list field) : outcome (list Z) :=
  match fs with
  | [] => Ok buf
  | f :: fs =>
      let! buf := write_field buf p f in
      write_fields buf (p + size_of (kind_of f)) fs
  end.

(** reads a field of kind [k] at offset [p] of [buf]; blobs go to a new array *)
Definition read_field (buf : list Z) (p : Z) (k : kind) : outcome field :=
  let num (e : outcome Z) := let! v := e in Ok (Num k v) in
  let blob (e : outcome (list Z)) := let! s := e in Ok (Blob k s) in
  match k with
  | K8 => num (Utils_deserialize8 buf p)
  | K16BE => num (Utils_deserialize16BE buf p)
  | K24BE => num (Utils_deserialize24BE buf p)
  | K32BE => num (Utils_deserialize32BE buf p)
  | K16LE => num (Utils_deserialize16LE buf p)
  | K24LE => num (Utils_deserialize24LE buf p)
  | K32LE => num (Utils_deserialize32LE buf p)
  | KBlobBE n => blob (Utils_deserializeBlobBE buf p (replicate (Z.to_nat n) 0) 0 n)
  | KBlobLE n => blob (Utils_deserializeBlobLE buf p (replicate (Z.to_nat n) 0) 0 n)
  end.
Fixpoint read_fields (buf : list Z) (p : Z) (ks : list kind) : outcome (list field) :=
  match ks with
  | [] => Ok []
  | k :: ks =>
      let! f := read_field buf p k in
      let! fs := read_fields buf (p + size_of k) ks in
      Ok (f :: fs)
  end.
