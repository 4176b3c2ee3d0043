(** * Specification: in-place insertion into one of many versions of a tree. *)
From Verif Require Import Prog NumSpec.
Open Scope N_scope.

Section num.
Context {U : Type}.
Variable W : N.
Local Notation nmap := (gmap pfx (N * value U)).

(** Inside some prefix around [q] the two trees have the same entries, at least one. *)
Definition alike (m1 m2 : nmap) (q : pfx) : Prop :=
  exists p, covers p q /\ (exists r, covers p r /\ is_Some (m1 !! r)) /\ forall r, covers p r -> m1 !! r = m2 !! r.

(** A call of [NumSpec], or an in-place insertion into version [ver]. *)
Inductive vop := VCall (o : nop U) | VInplace (ver : nat) (key : N) (bits : Z) (v : value U).
Definition vop_ok (o : vop) : Prop := match o with VCall o => nop_ok W o | VInplace _ key _ _ => key < 2 ^ W end.

(** In-place insertion into version [i] replaces that version. Any other version stays
    what it is, or it gets the same insertion: never a part of it, and never anything else.
    It can get the insertion only if it was like version [i] around the new prefix. *)
Inductive vstep (ms : list nmap) : vop -> list nmap -> nout U -> Prop :=
| vs_call o ms' x : nstep W ms o ms' x -> vstep ms (VCall o) ms' x
| vs_inplace i key bits v ms' : length ms' = length ms ->
    (i < length ms -> nth i ms' ∅ = s_insert W (nth i ms ∅) key (adj W bits) v)%nat ->
    (forall j, j <> i -> nth j ms' ∅ = nth j ms ∅ \/
       (nth j ms' ∅ = s_insert W (nth j ms ∅) key (adj W bits) v /\ alike (nth i ms ∅) (nth j ms ∅) (norm W key (adj W bits)))) ->
    vstep ms (VInplace i key bits v) ms' ONone.
End num.
Global Arguments vop : clear implicits.
