(** * Specification of domaintree: versions are logs of changes; names are paths,
    the labels from the top level domain down. *)
From Verif Require Import Prog RbSpec StrSpec DomModel DomSpec DlSpec.

Notation path := (list bytes).
(** The paths that are names: limits of RFC 1035, upper case. *)
Definition valid_path (p : path) : Prop :=
  length p <= 127 /\ name_size p <= 255 /\ Forall (fun l => 1 <= length l <= 63 /\ Forall (fun c => upper c = c) l) p.
(** The name [d] has the labels [p]. *)
Definition name_is (d : name) (p : path) : Prop := nm_c d = wire p /\ valid_path p.

(** Equality and prefix of paths. *)
Fixpoint strip (p q : path) : option path :=
  match p, q with
  | [], _ => Some q
  | a :: p, b :: q => if bytes_eqb a b then strip p q else None
  | _ :: _, [] => None
  end.
Definition under (p q : path) : bool := match strip p q with Some _ => true | None => false end.
Definition path_eqb (p q : path) : bool := match strip p q with Some [] => true | _ => false end.

(** ** Logs, newest entry first. *)
Inductive tlop (V : Type) := TLIns (p : path) (v : V) | TLDel (p : path) | TLDelSub (p : path).
Global Arguments TLIns {V}.
Global Arguments TLDel {V}.
Global Arguments TLDelSub {V}.
Definition tlog V : Type := list (tlop V).
(** What is stored under exactly [q]. *)
Fixpoint tlog_get {V} (l : tlog V) (q : path) : option V :=
  match l with
  | [] => None
  | TLIns p v :: l => if path_eqb p q then Some v else tlog_get l q
  | TLDel p :: l => if path_eqb p q then None else tlog_get l q
  | TLDelSub p :: l => if under p q then None else tlog_get l q
  end.
(** The value of the longest non-empty prefix of [q] (the closest enclosing
    domain other than the root) under which something is stored. *)
Definition closest {V} (l : tlog V) (q : path) (res : option V) : Prop :=
  match res with
  | Some v => exists n, 1 <= n <= length q /\ tlog_get l (take n q) = Some v /\
                forall m, n < m <= length q -> tlog_get l (take m q) = None
  | None => forall m, 1 <= m <= length q -> tlog_get l (take m q) = None
  end.

(** ** Client operations; keys are names or paths. *)
Inductive top (K V : Type) :=
| TBuild (items : list (K * V))
| TInsert (i : nat) (d : K) (v : V)
| TDelete (i : nat) (d : K)
| TDeleteSub (i : nat) (d : K)
| TGet (i : nat) (d : K)
| TEnumerate (i : nat).
Global Arguments TBuild {K V}.
Global Arguments TInsert {K V}.
Global Arguments TDelete {K V}.
Global Arguments TDeleteSub {K V}.
Global Arguments TGet {K V}.
Global Arguments TEnumerate {K V}.
Inductive tout (V : Type) := TONone | TOBool (b : bool) | TOVal (v : option V) | TOList (l : list (bytes * V)).
Global Arguments TONone {V}.
Global Arguments TOBool {V}.
Global Arguments TOVal {V}.
Global Arguments TOList {V}.
Inductive tresolves {V} : top name V -> top path V -> Prop :=
| tr_build items items' : Forall2 (fun x y => name_is x.1 y.1 /\ x.2 = y.2) items items' -> tresolves (TBuild items) (TBuild items')
| tr_insert i d p v : name_is d p -> tresolves (TInsert i d v) (TInsert i p v)
| tr_delete i d p : name_is d p -> tresolves (TDelete i d) (TDelete i p)
| tr_delete_sub i d p : name_is d p -> tresolves (TDeleteSub i d) (TDeleteSub i p)
| tr_get i d p : name_is d p -> tresolves (TGet i d) (TGet i p)
| tr_enumerate i : tresolves (TEnumerate i) (TEnumerate i).
(** The names given to the two deletions have at most 126 labels: a condition on the
    calls alone under which none panics (see [del_panics]). *)
Definition del_short {V} (o : top path V) : Prop :=
  match o with TDelete _ p | TDeleteSub _ p => length p <= 126 | _ => True end.

(** The log of each version; a version that does not exist is nil, the empty tree. *)
Definition tlogs_nth {V} (gs : list (tlog V)) (i : nat) : tlog V := nth i gs [].
Definition tlog_step {V} (gs : list (tlog V)) (o : top path V) : list (tlog V) :=
  match o with
  | TBuild items => gs ++ [rev (map (fun x => TLIns x.1 x.2) items)]
  | TInsert i p v => gs ++ [TLIns p v :: tlogs_nth gs i]
  | TDelete i p => gs ++ [TLDel p :: tlogs_nth gs i]
  | TDeleteSub i p => gs ++ [TLDelSub p :: tlogs_nth gs i]
  | TGet _ _ | TEnumerate _ => gs
  end.
Definition tlogs {V} (ops : list (top path V)) : list (tlog V) := fold_left tlog_step ops [].
Definition tver {V} (ops : list (top path V)) (ver : nat) : tlog V := tlogs_nth (tlogs ops) ver.

(** ** The calls that panic (C28): deleting a stored name with 127 labels, the most a
    name can have. *)
Definition too_deep {V} (l : tlog V) (p : path) : Prop := length p = 127 /\ tlog_get l p <> None.
Definition panics_at {V} (gs : list (tlog V)) (o : top path V) : Prop :=
  match o with TDelete i p | TDeleteSub i p => too_deep (tlogs_nth gs i) p | _ => False end.
(** Some call of the history panics. *)
Fixpoint del_panics {V} (gs : list (tlog V)) (ops : list (top path V)) : Prop :=
  match ops with
  | [] => False
  | o :: ops => panics_at gs o \/ (~ panics_at gs o /\ del_panics (tlog_step gs o) ops)
  end.

(** ** The order of enumeration: top level first, labels by length then bytes, a
    domain before its subdomains. *)
Inductive path_lt : path -> path -> Prop :=
| pl_nil a p : path_lt [] (a :: p)
| pl_head a b p q : shortlex_lt a b -> path_lt (a :: p) (b :: q)
| pl_tail a p q : path_lt p q -> path_lt (a :: p) (a :: q).
(** [e] lists exactly the stored names, in order, under keys that read back. *)
Definition enumerates {V} (l : tlog V) (e : list (bytes * V)) : Prop :=
  exists ps : list (path * V),
    StronglySorted (fun x y => path_lt x.1 y.1) ps /\
    (forall p v, (p, v) ∈ ps <-> tlog_get l p = Some v) /\
    Forall2 (fun x y => x.2 = y.2 /\ exists d, make_name x.1 = DOk d /\ nm_c d = wire y.1) e ps.

(** ** The answers. *)
Definition tanswer {V} (gs : list (tlog V)) (o : top path V) (x : tout V) : Prop :=
  match o with
  | TBuild _ | TInsert _ _ _ => x = TONone
  | TDelete i p => x = TOBool (match tlog_get (tlogs_nth gs i) p with Some _ => true | None => false end)
  | TDeleteSub i p => exists b, x = TOBool b /\ (b = true <-> exists q v, under p q = true /\ tlog_get (tlogs_nth gs i) q = Some v)
  | TGet i p => exists res, x = TOVal res /\ closest (tlogs_nth gs i) p res
  | TEnumerate i => exists e, x = TOList e /\ enumerates (tlogs_nth gs i) e
  end.
(** The answers of a history that begins with the versions [gs]. *)
Fixpoint tanswers {V} (gs : list (tlog V)) (ops : list (top path V)) (outs : list (tout V)) : Prop :=
  match ops, outs with
  | [], [] => True
  | o :: ops, x :: outs => tanswer gs o x /\ tanswers (tlog_step gs o) ops outs
  | _, _ => False
  end.
(** A bound on the number of names in any version. *)
Definition top_size {K V} (o : top K V) : nat := match o with TBuild items => length items | TInsert _ _ _ => 1 | _ => 0 end.
Definition tnames {K V} (ops : list (top K V)) : nat := list_sum (map top_size ops).

(** ** Nodes in memory. *)
(** The pair [(k, v)] is in a node of the red-black tree at [p]. *)
Inductive rb_entry {U} (h : heap U) : ptr -> bytes -> value U -> Prop :=
| re_here a n : h !! a = Some (CRb n) -> rb_entry h (Some a) (rb_key n) (rb_val n)
| re_left a n k v : h !! a = Some (CRb n) -> rb_entry h (rb_l n) k v -> rb_entry h (Some a) k v
| re_right a n k v : h !! a = Some (CRb n) -> rb_entry h (rb_r n) k v -> rb_entry h (Some a) k v.
(** The domaintree node [q] is a branch of the node [p]. *)
Inductive dt_child {U} (h : heap U) : ptr -> ptr -> Prop :=
| dtc a n b r k q : h !! a = Some (CDom n) -> dn_branches n = Some b -> h !! b = Some (CDl r) ->
    rb_entry h r k (VDom q) -> dt_child h (Some a) q.
Definition has_value {U} (h : heap U) (p : ptr) : Prop := exists a n, p = Some a /\ h !! a = Some (CDom n) /\ dn_has n = true.
