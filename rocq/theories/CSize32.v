(** * The C text on a target whose [size_t] is [unsigned int]

    Most of [/repo/Src] does not use [size_t]; [base64.c], [json.c], [caesar_cipher.c],
    [vernam_cipher.c], [map.c] and [insertion_sort.c] do.  [string.h] is the only header that
    depends on it, and [strlen] the only library function used that returns it (7.21.6.3). *)
From Coq Require Import String.
From Verif Require Import CSem CFront CSystem Drive_Front CLang.
Local Open Scope string_scope.
Local Open Scope list_scope.

(** [<string.h>] of such a target *)
Definition system32 : files :=
  [("<string.h>", "
#ifndef SIZE_T
#define SIZE_T
typedef unsigned int size_t;
#endif
")].

(** the size passed to a library function, converted to [size_t] unless it is of that type *)
Definition size_arg (e : expr) : expr :=
  match e with
  | ECast (TInt U32) _ | ELv (LVar _ (TInt U32)) | ELv (LField _ _ (TInt U32)) => e
  | _ => ECast (TInt U32) e
  end.
Fixpoint size_last (es : exprs) : exprs :=
  match es with
  | ENil => ENil
  | ECons e ENil => ECons (size_arg e) ENil
  | ECons e es => ECons e (size_last es)
  end.

(** [CLang] takes the result of [strlen] and the sizes passed to [memcpy], [memcmp] and [strncmp]
    as 64-bit numbers; here they are converted to [size_t].  All else that depends on [size_t]
    is in the types that the front end computes. *)
Fixpoint on32_e (e : expr) : expr :=
  match e with
  | ECst _ _ | EData _ _ => e
  | ELv l => ELv (on32_l l)
  | EAddr l => EAddr (on32_l l)
  | EUn op a => EUn op (on32_e a)
  | EBin op a b => EBin op (on32_e a) (on32_e b)
  | EAnd a b => EAnd (on32_e a) (on32_e b)
  | EOr a b => EOr (on32_e a) (on32_e b)
  | ECond c a b => ECond (on32_e c) (on32_e a) (on32_e b)
  | ECast t a => ECast t (on32_e a)
  | EInc pre d l => EInc pre d (on32_l l)
  | ECall f l => ECall (on32 f) (on32_es l)
  | ECallPtr f l => ECallPtr (on32_e f) (on32_es l)
  | ELib LStrlen l => ECast (TInt U32) (ELib LStrlen (on32_es l))
  | ELib (LMemcpy as f) l | ELib (LMemcmp as f) l | ELib (LStrncmp as f) l =>
      ELib f (size_last (on32_es l))
  | ELib f l => ELib f (on32_es l)
  end
with on32_l (l : lval) : lval :=
  match l with
  | LVar n t => LVar n t
  | LDeref e => LDeref (on32_e e)
  | LIndex a i => LIndex (on32_e a) (on32_e i)
  | LField l k t => LField (on32_l l) k t
  end
with on32_es (es : exprs) : exprs :=
  match es with ENil => ENil | ECons e es => ECons (on32_e e) (on32_es es) end
with on32_s (s : stmt) : stmt :=
  match s with
  | SSkip => SSkip
  | SSeq a b => SSeq (on32_s a) (on32_s b)
  | SExpr e => SExpr (on32_e e)
  | SSet l e => SSet (on32_l l) (on32_e e)
  | SOp op l e => SOp op (on32_l l) (on32_e e)
  | SVar t => SVar t
  | SInit t e => SInit t (on32_e e)
  | SMem t e => SMem t (on32_e e)
  | SArr t l => SArr t l
  | SIf c a b => SIf (on32_e c) (on32_s a) (on32_s b)
  | SLoop c s b => SLoop (on32_e c) (on32_s s) (on32_s b)
  | SBlock o s => SBlock o (on32_s s)
  | SBreak => SBreak
  | SReturn e => SReturn (on32_e e)
  end
with on32 (f : fundef) : fundef :=
  match f with FDef ps t s => FDef ps t (on32_s s) end.

(** the files [l] of [fs] on such a target *)
Definition program32 (fs : files) (l : list string)
  : option (list (string * list (string * bool * fundef))) :=
  p ← program (system32 ++ fs) [] l;
  Some (map (fun '(f, ds) => (f, map (fun '(x, static, d) => (x, static, on32 d)) ds)) p).

(** call of the function [x] there *)
Definition run_text32 {W} (sc : bool)
    (ext : Z -> list val -> mem -> W -> outcome (val * mem * W)) (fuel : nat)
    (fs : files) (l : list string) (x : string) (args : list val) (m : mem) (w : W)
  : outcome (val * mem * W) :=
  match p ← program32 fs l; assoc x (functions p) with
  | Some d => call sc ext fuel d args m w
  | None => UB BadType
  end.
