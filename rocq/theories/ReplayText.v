(** * Running the unit tests of the repository on the model.

    The files Replay_*.v are made by tools/replay.py from the *_test.go files of the repository (the
    iptree, domain and etc ones were translated by hand). They are tests of the model, not proofs:
    the tests pass on the code, and if the model is faithful they pass on the model. They compare
    whole Graphviz dumps, that is, the shape and the colours of the trees, printed by DotText.v. *)
From Verif Require Export DotText.
From Verif Require Import Prog RbModel NumModel DotModel.
From Coq Require Import String.
Open Scope nat_scope.
Local Notation B := list_byte_of_string.

(** Values are strings (or nil). *)
Local Notation prog := (prog bytes).
Definition check (b : bool) : prog unit := if b then Ret tt else Fail EPanic.
Definition passes {A} (m : prog A) : bool := match run m ∅ 1%positive with (inl _, _, _) => true | _ => false end.
Definition panics {A} (m : prog A) : bool := match run m ∅ 1%positive with (inr _, _, _) => true | _ => false end.
Definition beq (a b : bytes) : bool := if List.list_eq_dec Byte.byte_eq_dec a b then true else false.
Definition val_is (v : value bytes) (s : bytes) : bool := match v with VUser x => beq x s | _ => false end.
Fixpoint list_is {A C} (f : A -> C -> bool) (l : list A) (m : list C) : bool :=
  match l, m with [], [] => true | a :: l, c :: m => f a c && list_is f l m | _, _ => false end.
Definition pair_is (x : bytes * value bytes) (e : bytes * bytes) : bool := beq x.1 e.1 && val_is x.2 e.2.

(** strconv.IsPrint for ASCII *)
Definition printable (r : N) : bool := ((32 <=? r) && (r <? 127))%N.
(** %#v of a string or nil *)
Definition sharp (v : value bytes) : bytes := match v with VNil => B "<nil>" | VUser s => B """" ++ quote printable s ++ B """" | _ => [] end.
(** In the tests of strtreeN the value is the decimal text of the number. *)
Definition digits_uint (v : value bytes) : N :=
  match v with VUser s => fold_left (fun n c => n * 10 + (Byte.to_N c - 48))%N s 0%N | _ => 0%N end.
Definition rb_text := rb_string printable sharp.
Definition rb_text_number := rb_string_d printable digits_uint.
(** %02x *)
Definition hex := fmt_x.
Definition num_text := num_string printable sharp.
Definition nl : bytes := [Byte.x0a].
Definition lines (l : list string) : bytes := flat_map (fun s => B s ++ nl) l.
