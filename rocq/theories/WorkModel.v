(** * Callbacks of UpdateDescendants that look at the tree and work on other trees.
    iptree/iptree.go:96-116: updateDescendants calls its argument f with a pair; f is
    code of the client and may call any function of the package. *)
From Verif Require Import Prog NumModel IpModel IpSpec IpHist.

(** A callback under way: it has an answer, or it asks the tree that is updated (as in
    CallModel.v), or it performs an operation on trees of its own: it builds one,
    inserts into or deletes from, looks up in or enumerates one that it made before.
    (Trees derived from the one that is being updated are not covered.) *)
Inductive work {U A : Type} :=
| WDone (a : A)
| WGet (k : ikey) (f : value U * bool -> work)
| WEnum (f : list (pair_ (U := U)) -> work)
| WOwn (o : iop ikey (value U)) (f : iout (value U) -> work).
Arguments work : clear implicits.

(** What a client has at hand: its state, the operations it has performed on its own
    trees so far (a record for the theorems, nothing depends on it), and these trees. *)
Record desk {U St : Type} := Desk { dk_st : St; dk_ops : list (iop ikey (value U)); dk_own : list ptr }.
Arguments desk : clear implicits.
Arguments Desk {U St}.
Fixpoint work_run {U St A} (t : ptr) (d : desk U St) (m : work U A) : prog U (desk U St * A) :=
  match m with
  | WDone a => Ret (d, a)
  | WGet k f => r <- ip_get_key t k ;; work_run t d (f r)
  | WEnum f => e <- ip_enumerate t ;; work_run t d (f e)
  | WOwn o f => r <- ip_exec (dk_own d) o ;; work_run t (Desk (dk_st d) (dk_ops d ++ [o]) r.1) (f r.2)
  end.
(** The callback as UpdateDescendants calls it. *)
Definition work_cb {U St} (t : ptr) (cb : St -> pair_ (U := U) -> work U (St * option (value U))) (d : desk U St) (x : pair_ (U := U)) : prog U (desk U St * option (value U)) :=
  r <- work_run t d (cb (dk_st d) x) ;; Ret (Desk r.2.1 (dk_ops r.1) (dk_own r.1), r.2.2).
