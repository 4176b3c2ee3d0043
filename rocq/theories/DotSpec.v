(** * What the output of Dot means. *)
From Verif Require Import Prog DotModel.
Open Scope nat_scope.

Section spec.
Context {C : Type}.
(** Binary trees with nil where a child is missing. *)
Inductive shape := Nil | Bin (x : C) (l r : shape).
Fixpoint inorder (t : shape) : list C := match t with Nil => [] | Bin x l r => inorder l ++ x :: inorder r end.
Fixpoint preorder (t : shape) : list C := match t with Nil => [] | Bin x l r => x :: preorder l ++ preorder r end.

(** The graph drawn by the lines [ls], read from node number [i], is [t]: line N_i
    shows the root; there is an edge line N_i -> { N_a N_b } iff the root has a
    child; there is no other; N_a and N_b are the children. *)
Fixpoint draws (ls : list (dline C)) (i : nat) (t : shape) : Prop :=
  match t with
  | Nil => DNode i None ∈ ls /\ forall a b, DEdge i a b ∉ ls
  | Bin x l r =>
    DNode i (Some x) ∈ ls /\
    match l, r with
    | Nil, Nil => forall a b, DEdge i a b ∉ ls
    | _, _ => exists a b, (forall a' b', DEdge i a' b' ∈ ls <-> a' = a /\ b' = b) /\ draws ls a l /\ draws ls b r
    end
  end.
(** The numbers of the node lines, in the order of the lines, and the numbers the
    edge lines point to. *)
Definition numbers (ls : list (dline C)) : list nat := flat_map (fun l => match l with DNode i _ => [i] | DEdge _ _ _ => [] end) ls.
Definition targets (ls : list (dline C)) : list nat := flat_map (fun l => match l with DNode _ _ => [] | DEdge _ a b => [a; b] end) ls.
(** [ls] draws [t] from N0; the node lines are numbered 0, 1, 2, ...; each number
    but 0 is the target of one edge, which starts at a smaller number (so there is
    nothing in [ls] that is not reached from N0). *)
Definition drawing (ls : list (dline C)) (t : shape) : Prop :=
  draws ls 0 t /\ exists n, numbers ls = seq 0 (S n) /\ targets ls = seq 1 n /\ forall i a b, DEdge i a b ∈ ls -> i < a /\ b = a + 1.
End spec.
Global Arguments shape : clear implicits.

(** The nodes reachable from [p] in memory, as a tree of what is shown of them. *)
Fixpoint rb_shape {U} (h : heap U) (p : ptr) (t : shape (bytes * value U * bool)) : Prop :=
  match t with
  | Nil => p = None
  | Bin x l r => exists a n, p = Some a /\ h !! a = Some (CRb n) /\ x = (rb_key n, rb_val n, rb_red n) /\ rb_shape h (rb_l n) l /\ rb_shape h (rb_r n) r
  end.
Fixpoint num_shape {U} (h : heap U) (p : ptr) (t : shape (N * N * option (value U))) : Prop :=
  match t with
  | Nil => p = None
  | Bin x l r => exists a n, p = Some a /\ h !! a = Some (CNum n) /\
      x = (nn_key n, nn_bits n, if nn_leaf n then Some (nn_val n) else None) /\ num_shape h (nn_c0 n) l /\ num_shape h (nn_c1 n) r
  end.
(** The leaves shown. *)
Definition leaves {U} (xs : list (N * N * option (value U))) : list (N * N * value U) :=
  flat_map (fun x => match x.2 with Some v => [(x.1.1, x.1.2, v)] | None => [] end) xs.
