(** * Specification: reading one version while another is changed.
    Independent of the model. *)
From Verif Require Import Prog NumSpec NumNavSpec VersSpec StampSpec HandleSpec.
Open Scope N_scope.

Section spec.
Context {U : Type}.
Variable W : N.
Local Notation ver := (ver U).
Local Notation ver0 := (ver0 U).

(** The call reads version [j], or a node kept from it, and makes no tree. *)
Definition reads (hs : list (option (nat * pfx))) (j : nat) (o : yop U) : Prop :=
  match o with
  | YCall (VCall (NMatch i _ _)) | YCall (VCall (NExact i _ _)) | YCall (VCall (NEnumerate i)) | YFind i _ _ | YEnum i => i = j
  | YGet n => match nth n hs None with Some (i, _) => i = j | None => True end
  | _ => False
  end.
(** The call changes nothing that version [j] has in common with others. *)
Definition apart (gs : list ver) (hs : list (option (nat * pfx))) (j : nat) (o : yop U) : Prop :=
  match o with
  | YCall (VInplace i key bits _) => ~ sharing (nth i gs ver0) (nth j gs ver0) (norm W key (adj W bits))
  | YSet n _ => match nth n hs None with Some (i, q) => ~ both (nth i gs ver0) (nth j gs ver0) q | None => True end
  | _ => True
  end.
End spec.
