(** * domaintree: specification of histories that also insert in place.
    Insert makes the node of a new name without a label tree ("bare"); every other
    node has one. InplaceInsert cannot go below a bare node. *)
From Verif Require Import Prog History DomModel DomSpec DtSpec Handle.
Open Scope nat_scope.

(** The log of a tree, latest first, with the two ways to store a value. *)
Inductive bent (V : Type) := BInsert (p : path) (v : V) | BInplace (p : path) (v : V) | BDelete (p : path) | BDeleteSub (p : path).
Global Arguments BInsert {V}.
Global Arguments BInplace {V}.
Global Arguments BDelete {V}.
Global Arguments BDeleteSub {V}.
Notation blog V := (list (bent V)).
(** The plain log: both ways to store a value are the same. *)
Definition bent_plain {V} (e : bent V) : tlop V :=
  match e with BInsert p v | BInplace p v => TLIns p v | BDelete p => TLDel p | BDeleteSub p => TLDelSub p end.
Definition plain {V} (l : blog V) : tlog V := map bent_plain l.
(** No value is stored for [p] or below it. *)
Definition none_under {V} (l : tlog V) (p : path) : Prop := forall q v, under p q = true -> tlog_get l q <> Some v.
(** [q] is bare: Insert stored a value for [q] when there was none for it or below it,
    and since then the value was not deleted and Insert was not called for a name below [q]. *)
Fixpoint bare {V} (l : blog V) (q : path) : Prop :=
  match l with
  | [] => False
  | BInsert p _ :: l => (q = p /\ (bare l q \/ none_under (plain l) q)) \/ (under q p = false /\ bare l q)
  | BInplace _ _ :: l => bare l q
  | BDelete p :: l => q <> p /\ bare l q
  | BDeleteSub p :: l => under p q = false /\ bare l q
  end.
(** A name strictly above [p], other than the root, is bare. *)
Definition blocked {V} (l : blog V) (p : path) : Prop := exists q r, p = q ++ r /\ q <> [] /\ r <> [] /\ bare l q.

(** ** Histories of versions. *)
Definition blogs_nth {V} (gs : list (blog V)) (i : nat) : blog V := nth i gs [].
Definition blog_step {V} (gs : list (blog V)) (o : top path V) : list (blog V) :=
  match o with
  | TBuild items => gs ++ [rev (map (fun x => BInplace x.1 x.2) items)]
  | TInsert i p v => gs ++ [BInsert p v :: blogs_nth gs i]
  | TDelete i p => gs ++ [BDelete p :: blogs_nth gs i]
  | TDeleteSub i p => gs ++ [BDeleteSub p :: blogs_nth gs i]
  | TGet _ _ | TEnumerate _ => gs
  end.
Definition bver {V} (ops : list (top path V)) (ver : nat) : blog V := blogs_nth (fold_left blog_step ops []) ver.

(** ** One handle ([run_handle]). *)
Definition t_on_handle {K V} (o : top K V) : Prop :=
  match o with TBuild _ => True | TInsert i _ _ | TDelete i _ | TDeleteSub i _ | TGet i _ | TEnumerate i => i = 0 end.
Inductive mresolves {V} : hop (top name V) (name * V) -> hop (top path V) (path * V) -> Prop :=
| mr_call o ro : tresolves o ro -> t_on_handle o -> mresolves (HCall o) (HCall ro)
| mr_inplace d p v : name_is d p -> mresolves (HInplace (d, v)) (HInplace (p, v)).
Definition mix_step {V} (l : blog V) (o : hop (top path V) (path * V)) : blog V :=
  match o with HCall o => List.last (blog_step [l] o) l | HInplace (p, v) => BInplace p v :: l end.
(** The call panics with [e]: it inserts a blocked name in place, or deletes a stored
    name with 127 labels (C28). *)
Definition mix_panic {V} (l : blog V) (o : hop (top path V) (path * V)) (e : err) : Prop :=
  match o with HCall o => panics_at [plain l] o /\ e = EIndex | HInplace (p, _) => blocked l p /\ e = ENil end.
(** The history panics with [e]: some call does and none before it. *)
Fixpoint mix_panics {V} (l : blog V) (ops : list (hop (top path V) (path * V))) (e : err) : Prop :=
  match ops with
  | [] => False
  | o :: ops => mix_panic l o e \/ ((forall e', ~ mix_panic l o e') /\ mix_panics (mix_step l o) ops e)
  end.
Fixpoint mix_answers {V} (l : blog V) (ops : list (hop (top path V) (path * V))) (outs : list (option (tout V))) : Prop :=
  match ops, outs with
  | [], [] => True
  | o :: ops, x :: outs =>
    match o with HCall o => exists y, x = Some y /\ tanswer [plain l] o y | HInplace _ => x = None end /\ mix_answers (mix_step l o) ops outs
  | _, _ => False
  end.
