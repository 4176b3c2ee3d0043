(** * Specification: which versions of a tree of uintX an in-place insertion reaches.
    As IpStampSpec.v; independent of the model. *)
From Verif Require Import Prog NumSpec NumNavSpec IpModel IpSpec IpVersSpec UxSpec StampSpec IpStampSpec.
Open Scope N_scope.

Section spec.
Context {U : Type}.
Local Notation value := (value U).
Local Notation nmap := (gmap pfx (N * value)).
Local Notation ver := (ver U).
Local Notation ver0 := (ver0 U).

(** An IPv6 network shorter than /64 is kept at a key of its own, the others at the key of
    the /64 they are in; [spot] is this key and [place] the place of the network there. *)
Definition spot (q : pfx) : pfx := if q.1 <? 64 then q else (64, half q).
Definition place (q : pfx) : pfx := if q.1 <? 64 then (0, 0) else rest q.
(** A version: the call that made the *Tree (None: it is nil); the parts for IPv4 networks;
    those for the keys of IPv6 networks; those at each of these keys. *)
Record xver := XVer { xobj : option nat; xfour : ver; xkeys : ver; xin : pfx -> ver }.
Definition xver0 : xver := XVer None ver0 ver0 (fun _ => ver0).
Definition xholds (g : xver) (p : net) : option value :=
  snd <$> (if p.1 then content (xin g (spot p.2)) !! place p.2 else content (xfour g) !! p.2).
Definition at_spot (f : pfx -> ver) (x : pfx) (g : ver) : pfx -> ver := fun y => if decide (y = x) then g else f y.

(** The version that InsertNet or InsertIP makes in call number [n]. *)
Definition xinserted (n : nat) (g : xver) (p : net) (v : value) : xver :=
  let q := p.2 in let x := spot q in
  if p.1 then XVer (Some n) (xfour g) (remade n (xkeys g) x (put (content (xkeys g)) x VNil))
                (at_spot (xin g) x (remade n (xin g x) (place q) (put (content (xin g x)) (place q) v)))
  else XVer (Some n) (remade n (xfour g) q (put (content (xfour g)) q v)) (xkeys g) (xin g).
(** The version that DeleteByNet or DeleteByIP makes if something is deleted. *)
Definition xdeleted (n : nat) (g : xver) (p : net) : xver :=
  let q := p.2 in let x := spot q in
  if p.1 then
    let m := cut (content (xin g x)) (place q) in
    if decide (q.1 < 64 \/ m = ∅) then XVer (Some n) (xfour g) (remade n (xkeys g) x (cut (content (xkeys g)) x))
                                         (fun y => if decide (covers x y) then ver0 else xin g y)
    else XVer (Some n) (xfour g) (remade n (xkeys g) x (content (xkeys g)))
           (at_spot (xin g) x (remade n (xin g x) (place q) m))
  else XVer (Some n) (remade n (xfour g) q (cut (content (xfour g)) q)) (xkeys g) (xin g).
(** What in-place insertion makes of a version it reaches. *)
Definition xaffected (n : nat) (g : xver) (p : net) (v : value) : xver :=
  let q := p.2 in let x := spot q in
  if p.1 then XVer (xobj g) (xfour g) (grown n (xkeys g) x VNil) (at_spot (xin g) x (grown n (xin g x) (place q) v))
  else XVer (xobj g) (grown n (xfour g) q v) (xkeys g) (xin g).
(** The versions reached by in-place insertion of [p] into [g1]: the same *Tree; those that
    have the part around [p] from the same call, or around its key. *)
Definition xreached (g1 g2 : xver) (p : net) : Prop :=
  xobj g2 = xobj g1 \/
  if p.1 then sharing (xkeys g1) (xkeys g2) (spot p.2) \/ sharing (xin g1 (spot p.2)) (xin g2 (spot p.2)) (place p.2)
  else sharing (xfour g1) (xfour g2) p.2.
(** What Delete passes over, as in UxSpec.v. *)
Definition xpassed (g : xver) (p : net) : Prop := short6 p /\ xholds g p = None.

(** Call number [n]. A version that does not exist is nil. *)
Inductive ustep (n : nat) (gs : list xver) : wop value -> list xver -> iout value -> Prop :=
| us_new : ustep n gs (WCall (IBuild [])) (gs ++ [XVer (Some n) ver0 ver0 (fun _ => ver0)]) IONone
| us_insert i k v p : ikey_is k (Some p) ->
    ustep n gs (WCall (IInsert i k v)) (gs ++ [xinserted n (nth i gs xver0) p v]) IONone
| us_insert_not i k v : ikey_is k None ->
    ustep n gs (WCall (IInsert i k v)) (gs ++ [nth i gs xver0]) IONone
| us_delete i k p : ikey_is k (Some p) -> ~ xpassed (nth i gs xver0) p -> (exists q v, ncovers p q /\ xholds (nth i gs xver0) q = Some v) ->
    ustep n gs (WCall (IDelete i k)) (gs ++ [xdeleted n (nth i gs xver0) p]) (IOBool true)
| us_delete_not i k r : ikey_is k r -> (forall p q v, r = Some p -> ~ xpassed (nth i gs xver0) p -> ncovers p q -> xholds (nth i gs xver0) q <> Some v) ->
    ustep n gs (WCall (IDelete i k)) (gs ++ [nth i gs xver0]) (IOBool false)
| us_get i k p res : ikey_is k (Some p) -> closest (xholds (nth i gs xver0)) p res ->
    ustep n gs (WCall (IGet i k)) gs (IOVal res)
| us_get_not i k : ikey_is k None -> ustep n gs (WCall (IGet i k)) gs (IOVal None)
| us_enumerate i e : lists (xholds (nth i gs xver0)) e -> ustep n gs (WCall (IEnumerate i)) gs (IOList e)
| us_inplace i k v p gs' : ikey_is k (Some p) -> xobj (nth i gs xver0) <> None ->
    Forall2 (fun g g' => (xreached (nth i gs xver0) g p -> g' = xaffected n g p v) /\ (~ xreached (nth i gs xver0) g p -> g' = g)) gs gs' ->
    ustep n gs (WInplace i k v) gs' IONone
| us_inplace_not i k v : ikey_is k None \/ xobj (nth i gs xver0) = None -> ustep n gs (WInplace i k v) gs IONone.

(** A history; the calls are numbered from [n]. *)
Fixpoint urun (n : nat) (ops : list (wop value)) (gs gs' : list xver) (outs : list (iout value)) : Prop :=
  match ops, outs with
  | [], [] => gs' = gs
  | o :: ops, x :: outs => exists gs1, ustep n gs o gs1 x /\ urun (S n) ops gs1 gs' outs
  | _, _ => False
  end.
End spec.
Global Arguments xver : clear implicits.
Global Arguments xver0 : clear implicits.
