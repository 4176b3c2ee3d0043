(** * Specification: older versions of a red-black tree whose latest version is changed
    in place. Independent of the model of the trees. *)
From Verif Require Import Prog RbSpec StrSpec.

Section spec.
Context {V : Type}.
Local Notation cmpf := (bytes -> bytes -> Z).
Local Notation content := (list (bytes * V)).

(** A client changes the latest version only, in place or not; it reads any version.
    [LInsert], [LDelete]: a new version is made from the latest one. A position
    without a version denotes nil. *)
Inductive lvop :=
| LInsert (k : bytes) (v : V)
| LDelete (k : bytes)
| LInplace (k : bytes) (v : V)
| LGet (i : nat) (k : bytes)
| LEnumerate (i : nat)
| LIsEmpty (i : nat).

(** A version is described by a list of contents: the one it was left with, then
    those that in-place insertions gave to the latest version since. *)
Definition held (cs : list content) (e : bytes * V) : Prop := exists m, m ∈ cs /\ e ∈ m.
(** A version after which nothing was inserted in place is a map. Others answer with
    entries of some of their contents, and are empty if they were left so. *)
Definition l_get (cmp : cmpf) (cs : list content) (k : bytes) (o : option V) : Prop :=
  match cs with
  | [m] => o = a_get cmp m k
  | _ => match o with None => True | Some v => exists k', held cs (k', v) /\ cmp k' k = 0%Z end
  end.
Definition l_list (cs : list content) (l : content) : Prop :=
  match cs with
  | [m] => l = m
  | _ => (forall e, e ∈ l -> held cs e) /\ (l = [] <-> hd [] cs = [])
  end.
Definition l_empty (cs : list content) (b : bool) : Prop := b = true <-> hd [] cs = [].

Inductive lvstep (cmp : cmpf) : list (list content) -> lvop -> list (list content) -> sout V -> Prop :=
| lv_insert vs m k v :
    lvstep cmp (vs ++ [[m]]) (LInsert k v) (vs ++ [[m]; [a_insert cmp m k v]]) SONone
| lv_delete vs m k :
    lvstep cmp (vs ++ [[m]]) (LDelete k) (vs ++ [[m]; [a_delete cmp m k]]) (SOBool (a_deleted cmp m k))
| lv_inplace vs m k v :
    lvstep cmp (vs ++ [[m]]) (LInplace k v) (map (fun cs => cs ++ [a_insert cmp m k v]) vs ++ [[a_insert cmp m k v]]) SONone
| lv_get vs i k o : l_get cmp (nth i vs [[]]) k o -> lvstep cmp vs (LGet i k) vs (SOVal o)
| lv_enumerate vs i l : l_list (nth i vs [[]]) l -> lvstep cmp vs (LEnumerate i) vs (SOList l)
| lv_is_empty vs i b : l_empty (nth i vs [[]]) b -> lvstep cmp vs (LIsEmpty i) vs (SOBool b).

(** The values stored by a call. *)
Definition l_stores (o : lvop) (k : bytes) (v : V) : Prop := o = LInsert k v \/ o = LInplace k v.
Definition l_stored (past : list lvop) (k : bytes) (v : V) : Prop := exists o, o ∈ past /\ l_stores o k v.
End spec.
Arguments lvop : clear implicits.

(** Fuel for a history of [n] calls: older versions can be [n] times as deep. *)
Definition deep (fuel n : nat) : Prop := (n + 1) * (4 * Nat.log2 (n + 1) + 2) <= fuel.
