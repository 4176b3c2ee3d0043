(** * Specification of the iptrees of uintX: as IpSpec.v but for Delete. *)
From Verif Require Import Prog NumSpec IpModel IpSpec.
Open Scope N_scope.

(** DeleteByNet passes over an IPv6 network of less than 64 bits that is not
    stored itself, even if networks inside it are stored. *)
Definition short6 (p : net) : Prop := p.1 = true /\ p.2.1 < 64.
Global Instance short6_dec p : Decision (short6 p).
Proof. unfold short6. apply _. Defined.
Definition passed {V} (l : ilog V) (p : net) : Prop := short6 p /\ ilog_get l p = None.
Global Instance passed_dec {V} (l : ilog V) p : Decision (passed l p).
Proof. unfold passed. destruct (ilog_get l p); apply _. Defined.
Definition udel_log {V} (k : option net) (l : ilog V) : ilog V :=
  match k with Some p => if decide (passed l p) then l else ILDel p :: l | None => l end.
Definition ulog_step {V} (gs : list (ilog V)) (o : iop (option net) V) : list (ilog V) :=
  match o with
  | IBuild items => gs ++ [build_log items []]
  | IInsert i k v => gs ++ [ins_log k v (nth i gs [])]
  | IDelete i k => gs ++ [udel_log k (nth i gs [])]
  | IGet _ _ | IEnumerate _ => gs
  end.
Fixpoint ulogs {V} (ops : list (iop (option net) V)) (gs : list (ilog V)) : list (ilog V) :=
  match ops with [] => gs | o :: ops => ulogs ops (ulog_step gs o) end.
Definition uver {V} (ops : list (iop (option net) V)) (ver : nat) : ilog V := nth ver (ulogs ops []) [].
Definition uanswer {V} (gs : list (ilog V)) (o : iop (option net) V) (x : iout V) : Prop :=
  match o with
  | IBuild _ | IInsert _ _ _ => x = IONone
  | IDelete i k => exists b, x = IOBool b /\
      (b = true <-> exists p q v, k = Some p /\ ~ passed (nth i gs []) p /\ ncovers p q /\ ilog_get (nth i gs []) q = Some v)
  | IGet i k => exists res, x = IOVal res /\ match k with Some q => nlongest (nth i gs []) q res | None => res = None end
  | IEnumerate i => exists e, x = IOList e /\ nenumerates (nth i gs []) e
  end.
Fixpoint uanswers {V} (gs : list (ilog V)) (ops : list (iop (option net) V)) (outs : list (iout V)) : Prop :=
  match ops, outs with
  | [], [] => True
  | o :: ops, x :: outs => uanswer gs o x /\ uanswers (ulog_step gs o) ops outs
  | _, _ => False
  end.

(** Histories in which the difference does not show: whatever short IPv6 network
    is deleted, it is stored in the version it is deleted from or nothing inside
    it is (versions as iptree has them). *)
Definition agree_op {V} (gs : list (ilog V)) (o : iop (option net) V) : Prop :=
  match o with
  | IDelete i (Some p) => short6 p -> ilog_get (nth i gs []) p = None -> forall q, ncovers p q -> ilog_get (nth i gs []) q = None
  | _ => True
  end.
Fixpoint agree {V} (gs : list (ilog V)) (ops : list (iop (option net) V)) : Prop :=
  match ops with [] => True | o :: ops => agree_op gs o /\ agree (ilog_step gs o) ops end.
