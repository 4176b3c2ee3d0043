(** * Specification of callbacks that work on trees of their own. *)
From Verif Require Import Prog NumSpec IpModel IpSpec IpUpdSpec WorkModel.

(** [works e ops m ops' a]: while the tree that is being updated enumerates as [e], and
    after the operations [ops] on the callback's own trees, the callback [m] returns
    [a], and then [ops'] are the operations performed. The answers of its own trees are
    those of the history [ops] alone. *)
Inductive works {U A} (e : list (bytes * bytes * value U)) : list (iop ikey (value U)) -> work U A -> list (iop ikey (value U)) -> A -> Prop :=
| works_done ops a : works e ops (WDone a) ops a
| works_get l k q res f ops ops' a : nenumerates l e -> ikey_is k q ->
    match q with Some q => nlongest l q res | None => res = None end ->
    works e ops (f (match res with Some v => (v, true) | None => (VNil, false) end)) ops' a ->
    works e ops (WGet k f) ops' a
| works_enum f ops ops' a : works e ops (f e) ops' a -> works e ops (WEnum f) ops' a
| works_own o ro x f ops rops ops' a : Forall2 iresolves ops rops -> iresolves o ro -> ianswer (ilogs rops []) ro x ->
    works e (ops ++ [o]) (f x) ops' a -> works e ops (WOwn o f) ops' a.
(** The callback stores plain values, given plain values. *)
Definition iout_plain {U} (x : iout (value U)) : Prop :=
  match x with
  | IOVal (Some v) => plain v
  | IOList e => Forall (fun x => plain x.2) e
  | _ => True
  end.
Inductive work_plain {U St} : work U (St * option (value U)) -> Prop :=
| wk_done s r : match r with Some v => plain v | None => True end -> work_plain (WDone (s, r))
| wk_get k f : (forall v b, plain v -> work_plain (f (v, b))) -> work_plain (WGet k f)
| wk_enum f : (forall e, Forall (fun x => plain x.2) e -> work_plain (f e)) -> work_plain (WEnum f)
| wk_own o f : iop_ok o -> (forall x, iout_plain x -> work_plain (f x)) -> work_plain (WOwn o f).

(** One call, from a state and the operations so far to the same afterwards. *)
Definition worked {U St} (cb : St -> bytes * bytes * value U -> work U (St * option (value U)))
    (e : list (bytes * bytes * value U)) (s : St * list (iop ikey (value U))) x (r : (St * list (iop ikey (value U))) * option (value U)) : Prop :=
  works e s.2 (cb s.1 x) r.1.2 (r.1.1, r.2).

(** ** A callback that copies: it inserts each network it is called with, with the value
    it has, into a tree of its own. Its state is the number of versions made so far; the
    first one is derived from the nil tree. *)
Definition copy {U} (s : nat) (x : bytes * bytes * value U) : work U (nat * option (value U)) :=
  WOwn (IInsert (pred s) (KNet (Some x.1)) x.2) (fun _ => WDone (S s, None)).
