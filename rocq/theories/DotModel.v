(** * Dot: the tree as a Graphviz file. *)
From Verif Require Import Prog RbModel NumModel.
Open Scope nat_scope.

(** One line of the body. [DNode i x]: "N<i> <dotString>", where [x] is what
    dotString shows of the node ([None]: of nil). [DEdge i a b]:
    "N<i> -> { N<a> N<b> }". The formatting itself (package fmt) is not modelled,
    nor are the constant first and last line. *)
Inductive dline (C : Type) :=
| DNode (i : nat) (x : option C)
| DEdge (i a b : nat).
Global Arguments DNode {C}.
Global Arguments DEdge {C}.

Section model.
Context {U : Type}.
Local Notation prog := (prog U).
(** The loop, for nodes of Go type [N] that dotString shows as [C]. *)
Section loop.
Context {N C : Type}.
Variable ld : ptr -> prog N.
Variable shown : N -> C.
Variables kid0 kid1 : N -> ptr.
(** strtree/node.go:24-36, dltree/node.go:29-41, numtree/node32.go:46-58,
    numtree/node64.go:53-65, uintX/iptree8/node64s.go:31-43 *)
Fixpoint dot_loop (fuel : nat) (i : nat) (queue : list ptr) : prog (list (dline C)) :=
  match queue with
  | [] => Ret []
  | n :: rest =>
    match fuel with
    | O => Fail EFuel
    | S fuel =>
      match n with
      | None => ls <- dot_loop fuel (i + 1) rest ;; Ret (DNode i None :: ls)
      | Some _ =>
        nn <- ld n ;;
        if negb (ptr_eqb (kid0 nn) None) || negb (ptr_eqb (kid1 nn) None) then
          ls <- dot_loop fuel (i + 1) (tail ((queue ++ [kid0 nn]) ++ [kid1 nn])) ;;
          Ret (DNode i (Some (shown nn)) :: DEdge i (i + length queue) (i + length queue + 1) :: ls)
        else
          ls <- dot_loop fuel (i + 1) rest ;; Ret (DNode i (Some (shown nn)) :: ls)
      end
    end
  end.
End loop.

(** strtree/node.go:41-58, dltree/node.go:46-63: key, value and colour. *)
Definition rb_shown (n : rbnode U) : bytes * value U * bool := (rb_key n, rb_val n, rb_red n).
(** strtree/node.go:18-39, dltree/node.go:23-44 *)
Definition rb_dot (fuel : nat) (n : ptr) : prog (list (dline (bytes * value U * bool))) :=
  dot_loop ld_rb rb_shown rb_l rb_r fuel 0 [n].
(** strtree/strtree.go:95-104, dltree/dltree.go:139-148 *)
Definition str_dot (fuel : nat) (t : ptr) : prog (list (dline (bytes * value U * bool))) :=
  match t with None => Ret [] | Some _ => nc <- ld_str t ;; rb_dot fuel nc.1 end.
Definition dl_dot (fuel : nat) (t : ptr) : prog (list (dline (bytes * value U * bool))) :=
  match t with None => Ret [] | Some _ => n <- ld_dl t ;; rb_dot fuel n end.
(** numtree/node32.go:184-195: key, number of bits and, for a leaf, the value. *)
Definition num_shown (n : numnode U) : N * N * option (value U) := (nn_key n, nn_bits n, if nn_leaf n then Some (nn_val n) else None).
(** numtree/node32.go:39-61, numtree/node64.go:46-68 *)
Definition n_dot (fuel : nat) (n : ptr) : prog (list (dline (N * N * option (value U)))) :=
  dot_loop ld_num num_shown nn_c0 nn_c1 fuel 0 [n].
End model.
