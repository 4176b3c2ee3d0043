(** * Specification: what the versions of an iptree have in common. *)
From Verif Require Import Prog NumSpec IpModel IpSpec IpUpdSpec.

(** The calls of a history with the number of the call in the place of each value. In
    [iver (stamps 0 rops) ver] a network has the number of the call that stored its value. *)
Definition stamp {V} (i : nat) (o : iop (option net) V) : iop (option net) nat :=
  match o with
  | IBuild items => IBuild (map (fun x => (x.1, i)) items)
  | IInsert j k _ => IInsert j k i
  | IDelete j k => IDelete j k
  | IGet j k => IGet j k
  | IEnumerate j => IEnumerate j
  end.
Fixpoint stamps {V} (i : nat) (rops : list (iop (option net) V)) : list (iop (option net) nat) :=
  match rops with [] => [] | o :: rops => stamp i o :: stamps (S i) rops end.
(** The value of [q] in both versions is that of one and the same call; [st] and [su]
    are the logs of the two versions with numbers of calls. *)
Definition one_call (st su : ilog nat) (q : net) : Prop := exists i, ilog_get st q = Some i /\ ilog_get su q = Some i.
(** How the enumeration of another version changes, one entry: its value stays, or it
    is that of a network that was updated, with its value before and after. *)
Definition follows {V} (st su : ilog nat) (p : net) (e e' : list (bytes * bytes * V)) (x y : bytes * bytes * V) : Prop :=
  x.1 = y.1 /\
  (x.2 = y.2 \/ (x ∈ e /\ y ∈ e' /\ exists q, canonical x.1.1 x.1.2 q /\ ncovers p q /\ p <> q /\ one_call st su q)).

(** ** Histories that contain calls of UpdateDescendants. *)
Inductive uop (V St : Type) :=
| UCall (o : iop ikey V)
| UUpdate (i : nat) (n : bytes * bytes) (cb : St -> bytes * bytes * V -> St * option V) (s : St).
Global Arguments UCall {V St}.
Global Arguments UUpdate {V St}.
(** What a call returns; UpdateDescendants: the state the callback ends in. *)
Inductive uout (V St : Type) := UOut (x : iout V) | USt (s : St).
Global Arguments UOut {V St}.
Global Arguments USt {V St}.
Definition uop_ok {U St} (o : uop (value U) St) : Prop :=
  match o with UCall o => iop_ok o | UUpdate _ _ cb _ => cb_plain cb end.
(** Call number [c], on versions with the logs [gs], and [ss] with numbers of calls. An
    update of version [i] lets version [j] follow it where both have the value of one call. *)
Inductive ustep {V St} (c : nat) (gs : list (ilog V)) (ss : list (ilog nat)) : uop V St -> list (ilog V) -> list (ilog nat) -> uout V St -> Prop :=
| us_call o ro x : iresolves o ro -> ianswer gs ro x -> ustep c gs ss (UCall o) (ilog_step gs ro) (ilog_step ss (stamp c ro)) (UOut x)
| us_no_net i n cb s : (forall p, ~ net_is (Some n) p) -> ustep c gs ss (UUpdate i n cb s) gs ss (USt s)
| us_no_target i n p cb s : net_is (Some n) p -> ~ is_target (nth i gs []) (Some n) p -> ustep c gs ss (UUpdate i n cb s) gs ss (USt s)
| us_update i n p cb s e e' s' gs' : net_is (Some n) p -> is_target (nth i gs []) (Some n) p ->
    nenumerates (nth i gs []) e -> nenumerates (nth i gs' []) e' -> uwalk cb p s e s' e' -> length gs' = length gs ->
    (forall j, exists f f', nenumerates (nth j gs []) f /\ nenumerates (nth j gs' []) f' /\ Forall2 (follows (nth i ss []) (nth j ss []) p e e') f f') ->
    ustep c gs ss (UUpdate i n cb s) gs' ss (USt s').
(** All calls, from number [c] on: what they return and the versions at the end. *)
Fixpoint uspec {V St} (c : nat) (gs : list (ilog V)) (ss : list (ilog nat)) (ops : list (uop V St)) (outs : list (uout V St)) (gs' : list (ilog V)) (ss' : list (ilog nat)) : Prop :=
  match ops, outs with
  | [], [] => gs' = gs /\ ss' = ss
  | o :: ops, x :: outs => exists gs1 ss1, ustep c gs ss o gs1 ss1 x /\ uspec (S c) gs1 ss1 ops outs gs' ss'
  | _, _ => False
  end.
(** The history without the updates. *)
Fixpoint calls {V St} (ops : list (uop V St)) : list (iop ikey V) :=
  match ops with [] => [] | UCall o :: ops => o :: calls ops | UUpdate _ _ _ _ :: ops => calls ops end.
(** No update in [ops] has a target strictly around [q]. *)
Definition no_target_around {V St} (ops : list (uop V St)) (q : net) : Prop :=
  forall i n cb s p, UUpdate i n cb s ∈ ops -> net_is (Some n) p -> ncovers p q -> p = q.
