(** * Specification: versions of a radix tree that are read while a client goes on.
    Independent of the model. Clients as in HandleSpec.v, [reads] and [apart] as in ApartSpec.v. *)
From Verif Require Import Prog NumSpec NumNavSpec VersSpec StampSpec HandleSpec ApartSpec.
Open Scope N_scope.

Section spec.
Context {U : Type}.
Variable W : N.
Variable J : list nat.
Local Notation ver := (ver U).

(** The client changes nothing that the versions [J] are made of, and does not replace them. *)
Definition spares (gs : list ver) (hs : list (option (nat * pfx))) (o : yop U) : Prop := forall j, j ∈ J ->
  apart W gs hs j o /\ match o with YCall (VInplace i _ _ _) => i <> j | _ => True end.
(** All its calls, beginning with number [n]. *)
Fixpoint spares_all (n : nat) (gs : list ver) (hs : list (option (nat * pfx))) (ops : list (yop U)) : Prop :=
  match ops with
  | [] => True
  | o :: ops => spares gs hs o /\ forall gs' hs' x, ystep W n gs hs o gs' hs' x -> spares_all (S n) gs' hs' ops
  end.
(** The call makes no tree and writes nothing. *)
Definition looks (o : yop U) : Prop :=
  match o with
  | YCall (VCall (NMatch _ _ _)) | YCall (VCall (NExact _ _ _)) | YCall (VCall (NEnumerate _)) | YFind _ _ _ | YEnum _ | YGet _ => True
  | _ => False
  end.
(** A client that reads nothing but versions in [J] and nodes kept from them. *)
Fixpoint reads_all (gs : list ver) (hs : list (option (nat * pfx))) (rds : list (yop U)) : Prop :=
  match rds with
  | [] => True
  | o :: rds => (exists j, j ∈ J /\ reads hs j o) /\ looks o /\ forall n hs' x, ystep W n gs hs o gs hs' x -> reads_all gs hs' rds
  end.
(** The call overwrites nothing: it reads, or makes a tree and leaves the others as they are. *)
Definition persists (o : yop U) : Prop := match o with YCall (VInplace _ _ _ _) | YSet _ _ => False | _ => True end.
(** The call reads a version in [J], or a node with a number not below [k]. *)
Definition inside (k : nat) (o : yop U) : Prop :=
  match o with
  | YCall (VCall (NMatch i _ _)) | YCall (VCall (NExact i _ _)) | YCall (VCall (NEnumerate i)) | YFind i _ _ | YEnum i => i ∈ J
  | YGet m => (k <= m)%nat
  | _ => False
  end.
(** b := a.Insert(key, bits, v), then b.InplaceInsert(key, bits, w), for one a after another; [m] is the number of b. *)
Fixpoint pairs (m : nat) (l : list (nat * N * Z * value U * value U)) : list (yop U) :=
  match l with
  | [] => []
  | (i, key, bits, v, w) :: l => YCall (VCall (NInsert i key bits v)) :: YCall (VInplace m key bits w) :: pairs (S m) l
  end.
End spec.
