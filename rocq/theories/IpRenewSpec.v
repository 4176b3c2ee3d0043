(** * Specification: which values of which versions an update of an iptree changes.
    Independent of the model. Versions as in IpStampSpec.v, calls as in IpAllSpec.v. *)
From Verif Require Import Prog NumSpec NumNavSpec IpModel IpSpec IpUpdSpec IpVersSpec IpAllSpec StampSpec IpStampSpec.
Open Scope N_scope.

Section spec.
Context {U St : Type}.
Local Notation value := (value U).
Local Notation ver := (ver U).
Local Notation iver := (iver U).
Local Notation iver0 := (iver0 U).

(** The two versions have the entry at [q] from the same call. *)
Definition common (g1 g : ver) (q : pfx) : Prop := is_Some (content g1 !! q) /\ since g1 q = since g q.
Global Instance common_dec g1 g q : Decision (common g1 g q).
Proof. unfold common. apply _. Defined.
(** [g] after the entries of [g1] got the values [f]. *)
Definition renewed (f : pfx -> option value) (g1 g : ver) : ver :=
  Ver (map_imap (fun q x => Some (x.1, if decide (common g1 g q) then default x.2 (f q) else x.2)) (content g)) (since g).
(** The same for the versions of an iptree: [G] says what the updated version holds. *)
Definition followed (G : net -> option value) (g1 g : iver) : iver :=
  IVer (obj g) (renewed (fun q => G (false, q)) (four g1) (four g))
    (renewed (fun q => if q.1 <? 64 then G (true, q) else None) (upper g1) (upper g))
    (fun x => renewed (fun q => G (true, (q.1 + 64, x * 2 ^ q.1 + q.2))) (inside g1 x) (inside g x)).
(** Both versions hold [p] and have it from the same call. *)
Definition shared (g1 g : iver) (p : net) : Prop :=
  holds g p <> None /\
  if p.1 then if p.2.1 <? 64 then common (upper g1) (upper g) p.2 else common (inside g1 (half p.2)) (inside g (half p.2)) (rest p.2)
  else common (four g1) (four g) p.2.
Global Instance shared_dec g1 g p : Decision (shared g1 g p).
Proof. unfold shared. destruct p.1; [destruct (p.2.1 <? 64)|]; apply and_dec; try apply _; apply not_dec; (destruct (holds g p); [right; done|by left]). Defined.

(** The targets that UpdateDescendants accepts, as in IpUpdSpec.v. *)
Definition target (g : iver) (n : ipnet) (p : net) : Prop :=
  let is_stored q := exists v, holds g q = Some v in is_stored p \/ (no_host_bits n p /\ around is_stored p).

(** Call number [n]. *)
Inductive rstep (n : nat) (gs : list iver) : aop value St -> list iver -> aout value St -> Prop :=
| rs_op o gs' x : istep n gs o gs' x -> rstep n gs (AOp o) gs' (AOut x)
| rs_none i nt cb s : obj (nth i gs iver0) = None \/ (forall p, ~ net_is (Some nt) p) -> rstep n gs (AUpdate i nt cb s) gs (ASt s)
| rs_no_target i nt p cb s : net_is (Some nt) p -> ~ target (nth i gs iver0) (Some nt) p -> rstep n gs (AUpdate i nt cb s) gs (ASt s)
| rs_update i nt p cb s s' e e' G : obj (nth i gs iver0) <> None -> net_is (Some nt) p -> target (nth i gs iver0) (Some nt) p ->
    lists (holds (nth i gs iver0)) e -> uwalk cb p s e s' e' -> lists G e' ->
    rstep n gs (AUpdate i nt cb s) (map (followed G (nth i gs iver0)) gs) (ASt s').
Fixpoint rrun (n : nat) (ops : list (aop value St)) (gs gs' : list iver) (outs : list (aout value St)) : Prop :=
  match ops, outs with
  | [], [] => gs' = gs
  | o :: ops, x :: outs => exists gs1, rstep n gs o gs1 x /\ rrun (S n) ops gs1 gs' outs
  | _, _ => False
  end.
(** The same version. *)
Definition same (g g' : iver) : Prop := obj g = obj g' /\ four g = four g' /\ upper g = upper g' /\ forall x, inside g x = inside g' x.
Definition aop_single (o : aop value St) : Prop := match o with AOp o => single o | AUpdate _ _ _ _ => True end.
End spec.
