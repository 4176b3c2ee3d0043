(** * Specification: nodes of a radix tree that a client keeps.
    Independent of the model. Versions as in StampSpec.v. *)
From Verif Require Import Prog NumSpec NumNavSpec VersSpec StampSpec.
Open Scope N_scope.

Section spec.
Context {U : Type}.
Variable W : N.
Local Notation value := (value U).
Local Notation ver := (ver U).
Local Notation ver0 := (ver0 U).

(** A call on a tree; [YFind]: n := tree.FindNode(key, bits), kept as the next node;
    [YEnum]: all nodes that tree.Enumerate() sends are kept, in their order, and their fields read;
    [YGet]: reading n.Key, n.Bits and n.Value of a kept node that is not nil;
    [YSet]: n.Value = v for a kept node that is not nil. *)
Inductive yop := YCall (o : vop U) | YFind (ver : nat) (key : N) (bits : Z) | YEnum (ver : nat) | YGet (node : nat) | YSet (node : nat) (v : value).
Definition yop_ok (o : yop) : Prop := match o with YCall o => vop_ok W o | YFind _ key _ => key < 2 ^ W | _ => True end.

(** Both versions hold [q] and have it from the same call. *)
Definition both (g1 g : ver) (q : pfx) : Prop := is_Some (content g1 !! q) /\ is_Some (content g !! q) /\ since g1 q = since g q.
Global Instance both_dec g1 g q : Decision (both g1 g q).
Proof. unfold both. apply _. Defined.
(** The value at [q] replaced. *)
Definition valued (g : ver) (q : pfx) (v : value) : ver := Ver (alter (fun kv : N * value => (kv.1, v)) q (content g)) (since g).

(** A kept node is known by the version in which it was found and the prefix looked for. *)
Definition found (g : ver) (i : nat) (q : pfx) : option (nat * pfx) := match content g !! q with Some _ => Some (i, q) | None => None end.
(** Call number [n]. *)
Inductive ystep (n : nat) (gs : list ver) (hs : list (option (nat * pfx))) : yop -> list ver -> list (option (nat * pfx)) -> nout U -> Prop :=
| ys_call o gs' x : sstep W n gs o gs' x -> ystep n gs hs (YCall o) gs' hs x
| ys_find i key bits f : f = found (nth i gs ver0) i (norm W key (adj W bits)) -> 
    ystep n gs hs (YFind i key bits) gs (hs ++ [f]) (OBool (if f then true else false))
| ys_enum i l : s_enum W (content (nth i gs ver0)) l ->
    ystep n gs hs (YEnum i) gs (hs ++ map (fun e => Some (i, norm W e.1.1 e.1.2)) l) (OList l)
| ys_get j i q k v : nth j hs None = Some (i, q) -> content (nth i gs ver0) !! q = Some (k, v) -> ystep n gs hs (YGet j) gs hs (OList [(k, q.1, v)])
| ys_get_nil j : nth j hs None = None -> ystep n gs hs (YGet j) gs hs ONone
| ys_set j v i q : nth j hs None = Some (i, q) ->
    ystep n gs hs (YSet j v) (map (fun g => if decide (both (nth i gs ver0) g q) then valued g q v else g) gs) hs ONone
| ys_set_nil j v : nth j hs None = None -> ystep n gs hs (YSet j v) gs hs ONone.

(** A history; the calls are numbered from [n]. *)
Fixpoint yrun (n : nat) (ops : list yop) (gs : list ver) (hs : list (option (nat * pfx))) (gs' : list ver) (hs' : list (option (nat * pfx))) (outs : list (nout U)) : Prop :=
  match ops, outs with
  | [], [] => gs' = gs /\ hs' = hs
  | o :: ops, x :: outs => exists gs1 hs1, ystep n gs hs o gs1 hs1 x /\ yrun (S n) ops gs1 hs1 gs' hs' outs
  | _, _ => False
  end.
End spec.
Global Arguments yop : clear implicits.
