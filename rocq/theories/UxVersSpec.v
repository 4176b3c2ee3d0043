(** * Specification: in-place insertion into one of many versions of a tree of uintX. *)
(** As IpVersSpec.v, but for what Delete passes over (UxSpec.v) and for which versions an
    in-place insertion can show in. *)
From Verif Require Import Prog NumSpec IpModel IpSpec IpVersSpec UxSpec.
Open Scope nat_scope.

Section spec.
Context {V : Type}.
Local Notation slog := (ilog (nat * V)).
(** Inside some network around [q] the two trees have the same entries, stored by the
    same calls, and at least one; or [q] is an IPv6 network of less than 64 bits and both
    trees have for it the same entry, stored by the same call. *)
Definition urelated (l1 l2 : slog) (q : net) : Prop :=
  related l1 l2 q \/ short6 q /\ exists x, ilog_get l1 q = Some x /\ ilog_get l2 q = Some x.

Inductive xstep (c : nat) (ids : list (option nat)) (gs : list slog) : wop V -> list (option nat) -> list slog -> iout V -> Prop :=
| xs_call o ro x : iresolves o ro -> uanswer (map unstamp gs) ro x -> xstep c ids gs (WCall o) (objects c ids ro x) (ulog_step gs (stamped c ro)) x
| xs_nil i k v : nth i ids None = None -> xstep c ids gs (WInplace i k v) ids gs IONone
| xs_inplace i k v q n gs' : ikey_is k q -> nth i ids None = Some n -> length gs' = length gs ->
    (forall j, nth j ids None = Some n -> nth j gs' [] = ins_log q (c, v) (nth j gs [])) ->
    (forall j, nth j ids None <> Some n -> nth j gs' [] = nth j gs [] \/
       (nth j gs' [] = ins_log q (c, v) (nth j gs []) /\ exists p, q = Some p /\ urelated (nth i gs []) (nth j gs []) p)) ->
    (forall j j' m r, nth j ids None = Some m -> nth j' ids None = Some m -> ilog_get (nth j gs' []) r = ilog_get (nth j' gs' []) r) ->
    xstep c ids gs (WInplace i k v) ids gs' IONone.
Fixpoint xspec (c : nat) (ids : list (option nat)) (gs : list slog) (ops : list (wop V)) (outs : list (iout V)) (ids' : list (option nat)) (gs' : list slog) : Prop :=
  match ops, outs with
  | [], [] => ids' = ids /\ gs' = gs
  | o :: ops, x :: outs => exists ids1 gs1, xstep c ids gs o ids1 gs1 x /\ xspec (S c) ids1 gs1 ops outs ids' gs'
  | _, _ => False
  end.
End spec.
