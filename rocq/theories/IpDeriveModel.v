(** * Clients of iptree whose callbacks of UpdateDescendants go on calling the package.
    iptree/iptree.go:119-183: UpdateDescendants calls its argument f, code of the client,
    for one node after another; f may make other trees of the tree it is called from, and
    may update it or others again. *)
From Verif Require Import Prog NumModel IpModel IpSpec IpHist IpVersSpec IpVersProofs.
Open Scope nat_scope.

Section client.
Context {V St : Type}.
(** A callback under way: it is done, with a new state and what it returns; or it runs a
    call of C41 (Insert, Delete, Get, Enumerate or the building of a tree) on a version
    made so far; or it calls UpdateDescendants of a version, with a callback of the same
    kind, and goes on with the state in which that callback ends. *)
Inductive script :=
| SDone (s : St) (r : option V)
| SCall (o : iop ikey V) (k : iout V -> script)
| SUpdate (i : nat) (n : bytes * bytes) (cb : St -> bytes * bytes * V -> script) (s : St) (k : St -> script).
(** A client: it chooses each call by the answers to those before it. In-place insertion
    is a call of the client, not of its callbacks. *)
Inductive client {A : Type} :=
| CDone (a : A)
| CCall (o : wop V) (k : iout V -> client)
| CUpdate (i : nat) (n : bytes * bytes) (cb : St -> bytes * bytes * V -> script) (s : St) (k : St -> client).
End client.
Global Arguments script : clear implicits.
Global Arguments client : clear implicits.

(** [vs]: the versions made so far. Callbacks add to them. UpdateDescendants is not called
    on nil. *)
Fixpoint run_script {U St} (vs : list ptr) (m : script (value U) St) : prog U (list ptr * (St * option (value U))) :=
  match m with
  | SDone s r => Ret (vs, (s, r))
  | SCall o k => x <- ip_exec vs o ;; run_script x.1 (k x.2)
  | SUpdate i n cb s k =>
    match nth i vs None with
    | None => run_script vs (k s)
    | Some a =>
      y <- ip_update_by (fun st x => r <- run_script st.1 (cb st.2 x) ;; Ret ((r.1, r.2.1), r.2.2)) (Some a) (Some n) (vs, s) ;;
      run_script y.1 (k y.2)
    end
  end.
Definition run_update {U St} (vs : list ptr) (i : nat) (n : bytes * bytes) (cb : St -> bytes * bytes * value U -> script (value U) St) (s : St) : prog U (list ptr * St) :=
  match nth i vs None with
  | None => Ret (vs, s)
  | Some a => ip_update_by (fun st x => r <- run_script st.1 (cb st.2 x) ;; Ret ((r.1, r.2.1), r.2.2)) (Some a) (Some n) (vs, s)
  end.
Fixpoint run_client {U St A} (vs : list ptr) (m : client (value U) St A) : prog U (list ptr * A) :=
  match m with
  | CDone a => Ret (vs, a)
  | CCall o k => x <- w_exec vs o ;; run_client x.1 (k x.2)
  | CUpdate i n cb s k => y <- run_update vs i n cb s ;; run_client y.1 (k y.2)
  end.
