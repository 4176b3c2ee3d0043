(** * Specification of iptree: versions are logs of changes; keys are networks. *)
From Verif Require Import Prog NumSpec IpModel.
Open Scope N_scope.

(** The number whose big-endian representation is [x]. *)
Definition be (x : bytes) : N := fold_left (fun a b => a * 256 + Byte.to_N b) x 0.
Definition nlen (x : bytes) : N := N.of_nat (length x).
(** [m] is [n] ones followed by zeros. *)
Definition is_mask (m : bytes) (n : N) : Prop := n <= 8 * nlen m /\ be m = (2 ^ n - 1) * 2 ^ (8 * nlen m - n).

(** A network: its family (true: IPv6) and its prefix. *)
Notation net := (bool * pfx)%type.
Definition width (six : bool) : N := if six then 128 else 32.
Definition ncovers (p q : net) : Prop := p.1 = q.1 /\ covers p.2 q.2.
Global Instance ncovers_dec p q : Decision (ncovers p q).
Proof. unfold ncovers. apply _. Defined.
(** The network written as a net.IPNet (host bits are ignored), and the network of
    a single address. *)
Inductive net_is : ipnet -> net -> Prop :=
| net_is4 ip m n : length ip = 4%nat -> length m = 4%nat -> is_mask m n -> net_is (Some (ip, m)) (false, norm 32 (be ip) n)
| net_is6 ip m n : length ip = 16%nat -> length m = 16%nat -> is_mask m n -> net_is (Some (ip, m)) (true, norm 128 (be ip) n).
Definition mapped (ip : bytes) : Prop := exists ip4, length ip4 = 4%nat /\ ip = repeat x00 10 ++ [xff; xff] ++ ip4.
Inductive addr_is : bytes -> net -> Prop :=
| addr_is4 ip : length ip = 4%nat -> addr_is ip (false, (32, be ip))
| addr_is_mapped ip : length ip = 4%nat -> addr_is (repeat x00 10 ++ [xff; xff] ++ ip) (false, (32, be ip))
| addr_is6 ip : length ip = 16%nat -> ~ mapped ip -> addr_is ip (true, (128, be ip)).
(** What a client passes: a *net.IPNet to the …Net methods, a net.IP to the …IP
    methods. [None]: it is no network. *)
Inductive ikey := KNet (n : ipnet) | KAddr (ip : bytes).
Inductive ikey_is : ikey -> option net -> Prop :=
| ik_net n q : net_is n q -> ikey_is (KNet n) (Some q)
| ik_no_net n : (forall q, ~ net_is n q) -> ikey_is (KNet n) None
| ik_addr ip q : addr_is ip q -> ikey_is (KAddr ip) (Some q)
| ik_no_addr ip : (forall q, ~ addr_is ip q) -> ikey_is (KAddr ip) None.

(** ** Logs, newest entry first. *)
Inductive ilop (V : Type) := ILIns (p : net) (v : V) | ILDel (p : net).
Global Arguments ILIns {V}.
Global Arguments ILDel {V}.
Definition ilog V : Type := list (ilop V).
Fixpoint ilog_get {V} (l : ilog V) (q : net) : option V :=
  match l with
  | [] => None
  | ILIns p v :: l => if decide (p = q) then Some v else ilog_get l q
  | ILDel p :: l => if decide (ncovers p q) then None else ilog_get l q
  end.
(** The value of the longest stored network that contains [q]. *)
Definition nlongest {V} (l : ilog V) (q : net) (res : option V) : Prop :=
  match res with
  | Some v => exists p, ilog_get l p = Some v /\ ncovers p q /\
                forall p' v', ilog_get l p' = Some v' -> ncovers p' q -> p'.2.1 <= p.2.1
  | None => forall p v, ilog_get l p = Some v -> ~ ncovers p q
  end.
(** IPv4 before IPv6, by first address, larger networks first. *)
Definition net_lt (p q : net) : Prop :=
  (p.1 = false /\ q.1 = true) \/
  (p.1 = q.1 /\ (start (width p.1) p.2 < start (width q.1) q.2 \/
                 (start (width p.1) p.2 = start (width q.1) q.2 /\ p.2.1 < q.2.1))).
(** [ip]/[m] is [q] written with all host bits zero. *)
Definition canonical (ip m : bytes) (q : net) : Prop :=
  8 * nlen ip = width q.1 /\ 8 * nlen m = width q.1 /\ is_mask m q.2.1 /\ be ip = start (width q.1) q.2.
Definition nenumerates {V} (l : ilog V) (e : list (bytes * bytes * V)) : Prop :=
  exists ps : list (net * V),
    StronglySorted (fun x y => net_lt x.1 y.1) ps /\
    (forall p v, (p, v) ∈ ps <-> ilog_get l p = Some v) /\
    Forall2 (fun x y => x.2 = y.2 /\ canonical x.1.1 x.1.2 y.1) e ps.

(** ** Client operations on the versions obtained so far. *)
Inductive iop (K V : Type) :=
| IBuild (items : list (K * V))          (* NewTree, then InplaceInsert… *)
| IInsert (i : nat) (k : K) (v : V)
| IDelete (i : nat) (k : K)
| IGet (i : nat) (k : K)
| IEnumerate (i : nat).
Global Arguments IBuild {K V}.
Global Arguments IInsert {K V}.
Global Arguments IDelete {K V}.
Global Arguments IGet {K V}.
Global Arguments IEnumerate {K V}.
Inductive iout (V : Type) := IONone | IOBool (b : bool) | IOVal (r : option V) | IOList (e : list (bytes * bytes * V)).
Global Arguments IONone {V}.
Global Arguments IOBool {V}.
Global Arguments IOVal {V}.
Global Arguments IOList {V}.
Inductive iresolves {V} : iop ikey V -> iop (option net) V -> Prop :=
| ir_build items items' : Forall2 (fun x y => ikey_is x.1 y.1 /\ x.2 = y.2) items items' -> iresolves (IBuild items) (IBuild items')
| ir_insert i k q v : ikey_is k q -> iresolves (IInsert i k v) (IInsert i q v)
| ir_delete i k q : ikey_is k q -> iresolves (IDelete i k) (IDelete i q)
| ir_get i k q : ikey_is k q -> iresolves (IGet i k) (IGet i q)
| ir_enumerate i : iresolves (IEnumerate i) (IEnumerate i).

Definition ins_log {V} (k : option net) (v : V) (l : ilog V) : ilog V := match k with Some p => ILIns p v :: l | None => l end.
Definition del_log {V} (k : option net) (l : ilog V) : ilog V := match k with Some p => ILDel p :: l | None => l end.
Fixpoint build_log {V} (items : list (option net * V)) (l : ilog V) : ilog V :=
  match items with [] => l | (k, v) :: items => build_log items (ins_log k v l) end.
(** The log of each version; a version that does not exist is nil, the empty tree. *)
Definition ilog_step {V} (gs : list (ilog V)) (o : iop (option net) V) : list (ilog V) :=
  match o with
  | IBuild items => gs ++ [build_log items []]
  | IInsert i k v => gs ++ [ins_log k v (nth i gs [])]
  | IDelete i k => gs ++ [del_log k (nth i gs [])]
  | IGet _ _ | IEnumerate _ => gs
  end.
Fixpoint ilogs {V} (ops : list (iop (option net) V)) (gs : list (ilog V)) : list (ilog V) :=
  match ops with [] => gs | o :: ops => ilogs ops (ilog_step gs o) end.
Definition iver {V} (ops : list (iop (option net) V)) (ver : nat) : ilog V := nth ver (ilogs ops []) [].

Definition ianswer {V} (gs : list (ilog V)) (o : iop (option net) V) (x : iout V) : Prop :=
  match o with
  | IBuild _ | IInsert _ _ _ => x = IONone
  | IDelete i k => exists b, x = IOBool b /\ (b = true <-> exists p q v, k = Some p /\ ncovers p q /\ ilog_get (nth i gs []) q = Some v)
  | IGet i k => exists res, x = IOVal res /\ match k with Some q => nlongest (nth i gs []) q res | None => res = None end
  | IEnumerate i => exists e, x = IOList e /\ nenumerates (nth i gs []) e
  end.
Fixpoint ianswers {V} (gs : list (ilog V)) (ops : list (iop (option net) V)) (outs : list (iout V)) : Prop :=
  match ops, outs with
  | [], [] => True
  | o :: ops, x :: outs => ianswer gs o x /\ ianswers (ilog_step gs o) ops outs
  | _, _ => False
  end.

(** Values a client can store: not an iptree.subTree64, a type that is not
    exported and never handed out (C40). *)
Definition plain {U} (v : value U) : Prop := match v with VSub _ => False | _ => True end.
Definition iop_ok {U K} (o : iop K (value U)) : Prop :=
  match o with
  | IBuild items => Forall (fun x => plain x.2) items
  | IInsert _ _ v => plain v
  | _ => True
  end.
