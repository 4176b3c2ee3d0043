(** * What a client sees that follows the children of a radix tree: the tree of
    all prefixes with the stretches left out where nothing branches. Independent
    of the model. *)
From Verif Require Import Prog NumSpec.
Open Scope N_scope.

(** The prefix one bit longer. *)
Definition ext (q : pfx) (b : bool) : pfx := (q.1 + 1, 2 * q.2 + (if b then 1 else 0)).

Section spec.
Context {U : Type}.
Variable m : nmap U.

(** Something is stored at or below [q]. *)
Definition occupied (q : pfx) : Prop := exists p x, m !! p = Some x /\ covers q p.
(** [q] is stored, or something is stored on either side below it. *)
Definition branching (q : pfx) : Prop :=
  is_Some (m !! q) \/ (occupied (ext q false) /\ occupied (ext q true)).
(** [L] is the longest prefix shared by all that is stored at or below [q]. *)
Definition crown (q L : pfx) : Prop :=
  covers q L /\ branching L /\ forall p x, m !! p = Some x -> covers q p -> covers L p.

(** Going down from [q] along [path] (false: the 0 side). *)
Inductive nav : pfx -> list bool -> option pfx -> Prop :=
| nav_none q path : ~ occupied q -> nav q path None
| nav_here q L : crown q L -> nav q [] (Some L)
| nav_down q L b path r : crown q L -> nav (ext L b) path r -> nav q (b :: path) r.
End spec.

(** What the exported fields of the node at [L] have to say. *)
Definition shows {U} (W : N) (m : nmap U) (L : pfx) (key bits : N) (leaf : bool) (v : value U) : Prop :=
  key < 2 ^ W /\ bits <= W /\ norm W key bits = L /\
  match m !! L with
  | Some (k, x) => leaf = true /\ key = k /\ v = x
  | None => leaf = false /\ key = start W L /\ v = VNil
  end.
