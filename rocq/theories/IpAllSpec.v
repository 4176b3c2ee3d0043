(** * Specification: all calls of iptree, on any versions, in any order. *)
From Verif Require Import Prog NumSpec IpModel IpSpec IpUpdSpec IpVersSpec.
Open Scope nat_scope.

Section spec.
Context {V St : Type}.
Local Notation slog := (ilog (nat * V)).
Inductive aop := AOp (o : wop V) | AUpdate (i : nat) (n : bytes * bytes) (cb : St -> bytes * bytes * V -> St * option V) (s : St).
(** What a call returns; UpdateDescendants: the state the callback ends in. *)
Inductive aout := AOut (x : iout V) | ASt (s : St).
(** Call number [c]. [ids]: which versions are the same object; [gs]: what each version
    holds, each entry with its value and the number of the call that stored it. An update
    of version [i] changes it as its callback says. The other versions keep their entries
    with their numbers; a value changes only strictly inside the target and together with
    that of version [i]: with the same number, the same value before and after. Versions
    that are the same object hold the same. *)
Inductive astep (c : nat) (ids : list (option nat)) (gs : list slog) : aop -> list (option nat) -> list slog -> aout -> Prop :=
| as_op o ids' gs' x : wstep c ids gs o ids' gs' x -> astep c ids gs (AOp o) ids' gs' (AOut x)
| as_no_net i n cb s : (forall p, ~ net_is (Some n) p) -> astep c ids gs (AUpdate i n cb s) ids gs (ASt s)
| as_no_target i n p cb s : net_is (Some n) p -> ~ is_target (unstamp (nth i gs [])) (Some n) p -> astep c ids gs (AUpdate i n cb s) ids gs (ASt s)
| as_update i n p cb s e e' s' gs' : net_is (Some n) p -> is_target (unstamp (nth i gs [])) (Some n) p ->
    nenumerates (unstamp (nth i gs [])) e -> nenumerates (unstamp (nth i gs' [])) e' -> uwalk cb p s e s' e' -> length gs' = length gs ->
    (forall j q, fst <$> ilog_get (nth j gs' []) q = fst <$> ilog_get (nth j gs []) q) ->
    (forall j q, ilog_get (nth j gs' []) q = ilog_get (nth j gs []) q \/
       (ncovers p q /\ p <> q /\ ilog_get (nth j gs []) q = ilog_get (nth i gs []) q /\ ilog_get (nth j gs' []) q = ilog_get (nth i gs' []) q)) ->
    (forall j j' m q, nth j ids None = Some m -> nth j' ids None = Some m -> ilog_get (nth j gs' []) q = ilog_get (nth j' gs' []) q) ->
    astep c ids gs (AUpdate i n cb s) ids gs' (ASt s').
Fixpoint aspec (c : nat) (ids : list (option nat)) (gs : list slog) (ops : list aop) (outs : list aout) (ids' : list (option nat)) (gs' : list slog) : Prop :=
  match ops, outs with
  | [], [] => ids' = ids /\ gs' = gs
  | o :: ops, x :: outs => exists ids1 gs1, astep c ids gs o ids1 gs1 x /\ aspec (S c) ids1 gs1 ops outs ids' gs'
  | _, _ => False
  end.
(** The call stores [v] for the network [q]. *)
Inductive stores : aop -> net -> V -> Prop :=
| st_build items k q v : (k, v) ∈ items -> ikey_is k (Some q) -> stores (AOp (WCall (IBuild items))) q v
| st_insert i k q v : ikey_is k (Some q) -> stores (AOp (WCall (IInsert i k v))) q v
| st_inplace i k q v : ikey_is k (Some q) -> stores (AOp (WInplace i k v)) q v.
(** No update in [ops] has a target strictly around [q]. *)
Definition never_updated (ops : list aop) (q : net) : Prop :=
  forall i n cb s p, AUpdate i n cb s ∈ ops -> net_is (Some n) p -> ncovers p q -> p = q.
End spec.
Global Arguments aop : clear implicits.
Global Arguments aout : clear implicits.
Definition aop_ok {U St} (o : aop (value U) St) : Prop := match o with AOp o => wop_ok o | AUpdate _ _ cb _ => cb_plain cb end.
