(** * Specification of callbacks that look at the tree. *)
From Verif Require Import Prog NumSpec IpModel IpSpec IpUpdSpec CallModel.

(** [asks e m a]: while the tree enumerates as [e], the callback [m] returns [a]. The
    answer to a lookup is the value of the longest network in [e] that contains the
    key. *)
Inductive asks {U A} (e : list (bytes * bytes * value U)) : ask U A -> A -> Prop :=
| asks_done a : asks e (Done a) a
| asks_get l k q res f a : nenumerates l e -> ikey_is k q ->
    match q with Some q => nlongest l q res | None => res = None end ->
    asks e (f (match res with Some v => (v, true) | None => (VNil, false) end)) a ->
    asks e (AskGet k f) a
| asks_enum f a : asks e (f e) a -> asks e (AskEnum f) a.
(** The callback returns plain values, given plain values. *)
Inductive ask_plain {U St} : ask U (St * option (value U)) -> Prop :=
| ap_done s r : match r with Some v => plain v | None => True end -> ask_plain (Done (s, r))
| ap_get k f : (forall v b, plain v -> ask_plain (f (v, b))) -> ask_plain (AskGet k f)
| ap_enum f : (forall e, Forall (fun x => plain x.2) e -> ask_plain (f e)) -> ask_plain (AskEnum f).
