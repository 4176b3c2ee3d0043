(** * Cost of calls: memory accesses and allocations. *)
From Verif Require Import Prog.

(** [costs m h s a]: whatever fresh addresses the allocator picks, [m] started in
    [h] makes at most [s] accesses to memory (allocations, loads and stores of
    structs), at most [a] of which are allocations. *)
Fixpoint costs {U A} (m : prog U A) (h : heap U) (s a : nat) : Prop :=
  match m with
  | Ret _ | Fail _ => True
  | Alloc c k => 0 < s /\ 0 < a /\ forall l, h !! l = None -> costs (k l) (<[l := c]> h) (s - 1) (a - 1)
  | Load l k => 0 < s /\ forall c, h !! l = Some c -> costs (k c) h (s - 1) a
  | Store l c k => 0 < s /\ costs k (<[l := c]> h) (s - 1) a
  end.
(** [within m h s a]: [m] started in [h] returns (it neither panics nor runs out of
    fuel), after at most [s] accesses, at most [a] of them allocations. *)
Definition within {U A} (m : prog U A) (h : heap U) (s a : nat) : Prop :=
  (exists W, wp m h W (fun _ _ _ => True)) /\ costs m h s a.
(** The accesses and the allocations of the run [Prog.run] from [h], with addresses
    handed out in order from [next]. *)
Fixpoint tally {U A} (m : prog U A) (h : heap U) (next : loc) : nat * nat :=
  match m with
  | Ret _ | Fail _ => (0, 0)
  | Alloc c k => let x := tally (k next) (<[next := c]> h) (Pos.succ next) in (S x.1, S x.2)
  | Load l k => match h !! l with Some c => let x := tally (k c) h next in (S x.1, x.2) | None => (1, 0) end
  | Store l c k => match h !! l with Some _ => let x := tally k (<[l := c]> h) next in (S x.1, x.2) | None => (1, 0) end
  end.
