(** * Callbacks of UpdateDescendants that look at the tree they are called from.
    iptree/iptree.go:96-116: updateDescendants calls its argument f with a pair; f is
    code of the client and may call GetByNet, GetByIP and Enumerate of the same tree. *)
From Verif Require Import Prog NumModel IpModel IpSpec IpHist.

(** A callback under way: it has an answer, or it looks up a key, or it enumerates
    the tree and goes on with what it got. (It reads the channel of Enumerate to the
    end. Other trees, insertions and deletions are not covered.) *)
Inductive ask {U A : Type} :=
| Done (a : A)
| AskGet (k : ikey) (f : value U * bool -> ask)
| AskEnum (f : list (pair_ (U := U)) -> ask).
Arguments ask : clear implicits.
Fixpoint ask_run {U A} (t : ptr) (m : ask U A) : prog U A :=
  match m with
  | Done a => Ret a
  | AskGet k f => r <- ip_get_key t k ;; ask_run t (f r)
  | AskEnum f => e <- ip_enumerate t ;; ask_run t (f e)
  end.
