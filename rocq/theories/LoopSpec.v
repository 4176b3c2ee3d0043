(** * Specification: a loop over the nodes of a radix tree that sets their values.
    Independent of the model. *)
From Verif Require Import Prog NumSpec NumNavSpec VersSpec StampSpec HandleSpec.
Open Scope N_scope.

Section spec.
Context {U St : Type}.
Variable W : N.
Local Notation value := (value U).
Local Notation ver := (ver U).
Local Notation ver0 := (ver0 U).
Local Notation nentry := (nentry (U := U)).
(** What the body of the loop computes from Key, Bits and Value of the node and from its own
    state; [None]: it does not set the value. *)
Variable f : St -> nentry -> St * option value.

(** The results of the body for the entries of a list, one after the other. *)
Fixpoint calls (s : St) (l : list nentry) : St * list (option value) :=
  match l with
  | [] => (s, [])
  | e :: l => let x := f s e in let y := calls x.1 l in (y.1, x.2 :: y.2)
  end.
(** The value at [q] set in version [i] and in those that have [q] from the same call. *)
Definition write (i : nat) (q : pfx) (v : value) (gs : list ver) : list ver :=
  map (fun g => if decide (both (nth i gs ver0) g q) then valued g q v else g) gs.
(** One after the other. *)
Fixpoint written (i : nat) (l : list nentry) (rs : list (option value)) (gs : list ver) : list ver :=
  match l, rs with
  | e :: l, Some v :: rs => written i l rs (write i (norm W e.1.1 e.1.2) v gs)
  | _ :: l, None :: rs => written i l rs gs
  | _, _ => gs
  end.
End spec.
