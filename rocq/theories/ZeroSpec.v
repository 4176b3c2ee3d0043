(** * strtree: specification of trees without a comparison function: the zero Tree
    ([new(strtree.Tree)], [var t strtree.Tree]) and NewTreeWithCustomComparison(nil). *)
From Verif Require Import Prog StrSpec Handle.
Open Scope nat_scope.

Section spec.
Context {V : Type}.
Implicit Types s : option (bytes * V).
(** The tree holds nothing or one key. A call panics iff there is a key to compare with. *)
Definition z_panics (s : option (bytes * V)) (o : hop (sop V) (bytes * V)) : Prop :=
  s <> None /\ match o with HCall (SInsert _ _ _) | HCall (SDelete _ _) | HCall (SGet _ _) | HInplace _ => True | _ => False end.
Definition z_step s (o : hop (sop V) (bytes * V)) : option (bytes * V) :=
  match o with HCall (SInsert _ k v) => Some (k, v) | HInplace kv => Some kv | _ => s end.
(** The answer of a call that does not panic. *)
Definition z_answer s (o : hop (sop V) (bytes * V)) : option (sout V) :=
  match o with
  | HInplace _ => None
  | HCall (SDelete _ _) => Some (SOBool false)
  | HCall (SGet _ _) => Some (SOVal None)
  | HCall (SEnumerate _) => Some (SOList (match s with Some kv => [kv] | None => [] end))
  | HCall (SIsEmpty _) => Some (SOBool (match s with Some _ => false | None => true end))
  | HCall _ => Some SONone
  end.
Fixpoint z_answers s (ops : list (hop (sop V) (bytes * V))) : list (option (sout V)) :=
  match ops with [] => [] | o :: ops => z_answer s o :: z_answers (z_step s o) ops end.
(** Some call of the client panics. *)
Fixpoint z_stuck s (ops : list (hop (sop V) (bytes * V))) : Prop :=
  match ops with [] => False | o :: ops => z_panics s o \/ (~ z_panics s o /\ z_stuck (z_step s o) ops) end.
End spec.
