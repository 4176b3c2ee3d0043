(** * Specification: in-place insertion into one of many versions of an iptree. *)
From Verif Require Import Prog NumSpec IpModel IpSpec.
Open Scope nat_scope.

Section spec.
Context {V : Type}.
(** Logs whose entries carry the number of the call that stored them. *)
Local Notation slog := (ilog (nat * V)).
Definition unstamp (l : slog) : ilog V := map (fun e => match e with ILIns p x => ILIns p x.2 | ILDel p => ILDel p end) l.
Definition stamped (c : nat) (o : iop (option net) V) : iop (option net) (nat * V) :=
  match o with
  | IBuild items => IBuild (map (fun x => (x.1, (c, x.2))) items)
  | IInsert i k v => IInsert i k (c, v)
  | IDelete i k => IDelete i k
  | IGet i k => IGet i k
  | IEnumerate i => IEnumerate i
  end.
(** Inside some network around [q] the two trees have the same entries, stored by the
    same calls, and at least one. *)
Definition related (l1 l2 : slog) (q : net) : Prop :=
  exists p, ncovers p q /\ (exists r, ncovers p r /\ is_Some (ilog_get l1 r)) /\ forall r, ncovers p r -> ilog_get l1 r = ilog_get l2 r.

(** The object of each version: the call that made it, or nil. Insert that is given no
    network, and Delete that deletes nothing, return the object they are called on. *)
Definition objects (c : nat) (ids : list (option nat)) (o : iop (option net) V) (x : iout V) : list (option nat) :=
  match o with
  | IBuild _ => ids ++ [Some c]
  | IInsert i k _ => ids ++ [if k then Some c else nth i ids None]
  | IDelete i _ => ids ++ [match x with IOBool true => Some c | _ => nth i ids None end]
  | IGet _ _ | IEnumerate _ => ids
  end.
Inductive wop := WCall (o : iop ikey V) | WInplace (i : nat) (k : ikey) (v : V).

(** Call number [c]. In-place insertion shows in all versions that are the same object.
    In every other version it shows as a whole or not at all, and it can show only if the
    version is related to the one inserted into around the new network. Versions that are
    the same object hold the same. *)
Inductive wstep (c : nat) (ids : list (option nat)) (gs : list slog) : wop -> list (option nat) -> list slog -> iout V -> Prop :=
| ws_call o ro x : iresolves o ro -> ianswer (map unstamp gs) ro x -> wstep c ids gs (WCall o) (objects c ids ro x) (ilog_step gs (stamped c ro)) x
| ws_nil i k v : nth i ids None = None -> wstep c ids gs (WInplace i k v) ids gs IONone
| ws_inplace i k v q n gs' : ikey_is k q -> nth i ids None = Some n -> length gs' = length gs ->
    (forall j, nth j ids None = Some n -> nth j gs' [] = ins_log q (c, v) (nth j gs [])) ->
    (forall j, nth j ids None <> Some n -> nth j gs' [] = nth j gs [] \/
       (nth j gs' [] = ins_log q (c, v) (nth j gs []) /\ exists p, q = Some p /\ related (nth i gs []) (nth j gs []) p)) ->
    (forall j j' m r, nth j ids None = Some m -> nth j' ids None = Some m -> ilog_get (nth j gs' []) r = ilog_get (nth j' gs' []) r) ->
    wstep c ids gs (WInplace i k v) ids gs' IONone.
Fixpoint wspec (c : nat) (ids : list (option nat)) (gs : list slog) (ops : list wop) (outs : list (iout V)) (ids' : list (option nat)) (gs' : list slog) : Prop :=
  match ops, outs with
  | [], [] => ids' = ids /\ gs' = gs
  | o :: ops, x :: outs => exists ids1 gs1, wstep c ids gs o ids1 gs1 x /\ wspec (S c) ids1 gs1 ops outs ids' gs'
  | _, _ => False
  end.
End spec.
Global Arguments wop : clear implicits.
Definition wop_ok {U} (o : wop (value U)) : Prop := match o with WCall o => iop_ok o | WInplace _ _ v => plain v end.
