(** * Specification: callbacks of UpdateDescendants that go on calling the package. *)
From Verif Require Import Prog NumSpec IpModel IpSpec IpUpdSpec IpVersSpec IpDeriveModel.
Open Scope nat_scope.

Section spec.
Context {V St : Type}.
Local Notation slog := (ilog (nat * V)).
(** The calls made so far, in the order in which they begin. *)
Inductive dcall := DCall (o : wop V) | DUpdate (i : nat) (n : bytes * bytes).

(** The callback returned [r] for the network [q] of version [i]. The entry keeps the
    number of the call that stored it. The same network of another version keeps its entry,
    or it had the same entry and has the new one; no other network changes in any version;
    versions that are the same object hold the same. *)
Definition replaced (i : nat) (q : net) (r : option V) (ids : list (option nat)) (gs gs' : list slog) : Prop :=
  match r with
  | None => gs' = gs
  | Some w => exists n v, ilog_get (nth i gs []) q = Some (n, v) /\ ilog_get (nth i gs' []) q = Some (n, w) /\ length gs' = length gs /\
      (forall j q', q' <> q -> ilog_get (nth j gs' []) q' = ilog_get (nth j gs []) q') /\
      (forall j, ilog_get (nth j gs' []) q = ilog_get (nth j gs []) q \/ (ilog_get (nth j gs []) q = Some (n, v) /\ ilog_get (nth j gs' []) q = Some (n, w))) /\
      (forall j j' m, nth j ids None = Some m -> nth j' ids None = Some m -> ilog_get (nth j gs' []) q = ilog_get (nth j' gs' []) q)
  end.

(** From the calls [past], the objects [ids] and the contents [gs] to those after.
    [sruns]: what a callback does, and what it returns. [updates]: UpdateDescendants of
    version [i], which ends with the state of the callback. [visits]: the walk, over the
    networks [e] that version [i] had when the update began: strictly inside the target
    the callback is called with the value of that moment, after what the calls before it
    did, and what it returns is stored. *)
Inductive sruns (past : list dcall) (ids : list (option nat)) (gs : list slog) : script V St -> list dcall -> list (option nat) -> list slog -> St * option V -> Prop :=
| sr_done s r : sruns past ids gs (SDone s r) past ids gs (s, r)
| sr_call o k x ids1 gs1 past' ids' gs' y : wstep (length past) ids gs (WCall o) ids1 gs1 x ->
    sruns (past ++ [DCall (WCall o)]) ids1 gs1 (k x) past' ids' gs' y -> sruns past ids gs (SCall o k) past' ids' gs' y
| sr_update i n cb s k past1 ids1 gs1 s1 past' ids' gs' y : updates past ids gs i n cb s past1 ids1 gs1 s1 ->
    sruns past1 ids1 gs1 (k s1) past' ids' gs' y -> sruns past ids gs (SUpdate i n cb s k) past' ids' gs' y
with updates (past : list dcall) (ids : list (option nat)) (gs : list slog) : nat -> bytes * bytes -> (St -> bytes * bytes * V -> script V St) -> St -> list dcall -> list (option nat) -> list slog -> St -> Prop :=
| up_no_net i n cb s : (forall p, ~ net_is (Some n) p) -> updates past ids gs i n cb s (past ++ [DUpdate i n]) ids gs s
| up_no_target i n p cb s : net_is (Some n) p -> ~ is_target (unstamp (nth i gs [])) (Some n) p -> updates past ids gs i n cb s (past ++ [DUpdate i n]) ids gs s
| up_walk i n p cb s e past' ids' gs' s' : net_is (Some n) p -> is_target (unstamp (nth i gs [])) (Some n) p -> nenumerates (unstamp (nth i gs [])) e ->
    visits (past ++ [DUpdate i n]) ids gs i p cb s e past' ids' gs' s' -> updates past ids gs i n cb s past' ids' gs' s'
with visits (past : list dcall) (ids : list (option nat)) (gs : list slog) : nat -> net -> (St -> bytes * bytes * V -> script V St) -> St -> list (bytes * bytes * V) -> list dcall -> list (option nat) -> list slog -> St -> Prop :=
| vi_nil i p cb s : visits past ids gs i p cb s [] past ids gs s
| vi_in i p cb s ip m v0 q n v e past1 ids1 gs1 s1 r gs2 past' ids' gs' s' : canonical ip m q -> ncovers p q -> p <> q ->
    ilog_get (nth i gs []) q = Some (n, v) -> sruns past ids gs (cb s (ip, m, v)) past1 ids1 gs1 (s1, r) -> replaced i q r ids1 gs1 gs2 ->
    visits past1 ids1 gs2 i p cb s1 e past' ids' gs' s' -> visits past ids gs i p cb s ((ip, m, v0) :: e) past' ids' gs' s'
| vi_out i p cb s ip m v0 q e past' ids' gs' s' : canonical ip m q -> ~ (ncovers p q /\ p <> q) ->
    visits past ids gs i p cb s e past' ids' gs' s' -> visits past ids gs i p cb s ((ip, m, v0) :: e) past' ids' gs' s'.

(** What a client does, and its result. *)
Inductive cruns {A} (past : list dcall) (ids : list (option nat)) (gs : list slog) : client V St A -> list dcall -> list (option nat) -> list slog -> A -> Prop :=
| cr_done a : cruns past ids gs (CDone a) past ids gs a
| cr_call o k x ids1 gs1 past' ids' gs' y : wstep (length past) ids gs o ids1 gs1 x ->
    cruns (past ++ [DCall o]) ids1 gs1 (k x) past' ids' gs' y -> cruns past ids gs (CCall o k) past' ids' gs' y
| cr_update i n cb s k past1 ids1 gs1 s1 past' ids' gs' y : updates past ids gs i n cb s past1 ids1 gs1 s1 ->
    cruns past1 ids1 gs1 (k s1) past' ids' gs' y -> cruns past ids gs (CUpdate i n cb s k) past' ids' gs' y.

(** The call stores [v] for the network [q]. *)
Inductive dstores : dcall -> net -> V -> Prop :=
| ds_build items k q v : (k, v) ∈ items -> ikey_is k (Some q) -> dstores (DCall (WCall (IBuild items))) q v
| ds_insert i k q v : ikey_is k (Some q) -> dstores (DCall (WCall (IInsert i k v))) q v
| ds_inplace i k q v : ikey_is k (Some q) -> dstores (DCall (WInplace i k v)) q v.
(** A callback that makes no calls. *)
Definition computes (f : St -> bytes * bytes * V -> St * option V) : St -> bytes * bytes * V -> script V St := fun s x => SDone (f s x).1 (f s x).2.
(** No update has a target strictly around [q]. *)
Definition never_inside (past : list dcall) (q : net) : Prop := forall i n p, DUpdate i n ∈ past -> net_is (Some n) p -> ncovers p q -> p = q.
End spec.
Global Arguments dcall : clear implicits.

(** Values given to the package are values of the client. *)
Fixpoint script_ok {U St} (m : script (value U) St) : Prop :=
  match m with
  | SDone _ r => forall v, r = Some v -> plain v
  | SCall o k => iop_ok o /\ forall x, script_ok (k x)
  | SUpdate _ _ cb _ k => (forall s x, script_ok (cb s x)) /\ forall s, script_ok (k s)
  end.
Fixpoint client_ok {U St A} (m : client (value U) St A) : Prop :=
  match m with
  | CDone _ => True
  | CCall o k => wop_ok o /\ forall x, client_ok (k x)
  | CUpdate _ _ cb _ k => (forall s x, script_ok (cb s x)) /\ forall s, client_ok (k s)
  end.
