(** * Specification of iptree.UpdateDescendants. *)
From Verif Require Import Prog NumSpec IpModel IpSpec.
Open Scope N_scope.

(** The enumeration of a tree before and after: the callback [cb] is called for
    the networks strictly inside [p], in order, each once, with its current
    value, and threads its state; the value it returns replaces the old one, and
    [None] leaves the value; all other networks keep their values. *)
Inductive uwalk {St V} (cb : St -> bytes * bytes * V -> St * option V) (p : net) : St -> list (bytes * bytes * V) -> St -> list (bytes * bytes * V) -> Prop :=
| uw_nil s : uwalk cb p s [] s []
| uw_in s ip m q v s1 r e s2 e' : canonical ip m q -> ncovers p q -> p <> q -> cb s (ip, m, v) = (s1, r) -> uwalk cb p s1 e s2 e' ->
    uwalk cb p s ((ip, m, v) :: e) s2 ((ip, m, default v r) :: e')
| uw_out s ip m q v e s2 e' : canonical ip m q -> ~ (ncovers p q /\ p <> q) -> uwalk cb p s e s2 e' ->
    uwalk cb p s ((ip, m, v) :: e) s2 ((ip, m, v) :: e').
(** The same for callbacks that look at the tree: [call e s x r]: the callback, called
    with state [s] and network [x] while the tree enumerates as [e], returns [r]. What
    has been visited already has its new value, what has not has the old one. *)
Inductive uwalk_by {St V} (call : list (bytes * bytes * V) -> St -> bytes * bytes * V -> St * option V -> Prop) (p : net) :
    list (bytes * bytes * V) -> St -> list (bytes * bytes * V) -> St -> list (bytes * bytes * V) -> Prop :=
| ub_nil d s : uwalk_by call p d s [] s d
| ub_in d s ip m q v s1 r e s2 e' : canonical ip m q -> ncovers p q -> p <> q ->
    call (d ++ (ip, m, v) :: e) s (ip, m, v) (s1, r) -> uwalk_by call p (d ++ [(ip, m, default v r)]) s1 e s2 e' ->
    uwalk_by call p d s ((ip, m, v) :: e) s2 e'
| ub_out d s ip m q v e s2 e' : canonical ip m q -> ~ (ncovers p q /\ p <> q) ->
    uwalk_by call p (d ++ [(ip, m, v)]) s e s2 e' ->
    uwalk_by call p d s ((ip, m, v) :: e) s2 e'.
(** The callback stores plain values only. *)
Definition cb_plain {U St} (cb : St -> bytes * bytes * value U -> St * option (value U)) : Prop :=
  forall s x s' v, cb s x = (s', Some v) -> plain v.

(** The two networks lie in one and the same /64 of IPv6. *)
Definition in64 (p q : net) : Prop := exists x, ncovers (true, (64, x)) p /\ ncovers (true, (64, x)) q.
(** [p] is the smallest network around all that [S] holds in the /64 of [p]. *)
Definition around (S : net -> Prop) (p : net) : Prop :=
  (exists q, S q /\ in64 p q) /\ (forall q, S q -> in64 p q -> ncovers p q) /\
  forall p', ncovers p p' -> p <> p' -> exists q, S q /\ in64 p q /\ ~ ncovers p' q.
(** [n], which stands for [p], is written with all host bits zero. *)
Definition no_host_bits (n : ipnet) (p : net) : Prop := match n with Some (ip, m) => be ip = start (width p.1) p.2 | None => False end.
(** The networks UpdateDescendants accepts as a target: those stored, and, within
    an IPv6 /64, the one where the stored networks of that /64 meet. *)
Definition is_target {V} (l : ilog V) (n : ipnet) (p : net) : Prop :=
  let is_stored q := exists v, ilog_get l q = Some v in is_stored p \/ (no_host_bits n p /\ around is_stored p).
