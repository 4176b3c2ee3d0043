(** * Property C63: going down a radix tree by Children. *)
From Verif Require Import Prog History NumModel NumSpec NumAbs NumPropProofs NumNavSpec NumNavProofs Properties_num.
Open Scope N_scope.

(** [c], [ops], [ver], [h] as in Properties_num.v.  [walk n path] calls Children
    once for each bit of the path until it gets nil; [fields] reads the exported
    fields of the node.  [nav m q path] is the prefix where a walk has to end,
    defined from the content [m] alone (NumNavSpec.v): the children lead to the
    longest prefixes shared by everything stored on either side.  [shown]: the
    node has that prefix, is a leaf exactly if it is stored, and then carries the
    stored key and value. *)

(** C63: from the root. *)
Theorem C63_children : forall U c (h : heap U) ops ver path,
  num_cfg c -> Forall (nop_ok (cW c)) ops ->
  wp (r <- run_hist (n_exec c) ops [None] ;; n <- walk (nth ver r.1 None) path ;; fields n) h ∅
     (fun x h' _ => h ⊆ h' /\
        let m := nth ver (n_contents (cW c) ops [∅]) ∅ in
        exists R, nav m (0, 0) path R /\ shown (cW c) m R x).
Proof. exact @pf_walk. Qed.
Print Assumptions C63_children.

(** C63: from the node that FindNode returns. *)
Theorem C63_children_of_found : forall U c (h : heap U) ops ver key bits path,
  num_cfg c -> Forall (nop_ok (cW c)) ops -> key < 2 ^ cW c ->
  wp (r <- run_hist (n_exec c) ops [None] ;;
      n <- n_find_node c (nth ver r.1 None) key bits ;; n <- walk n path ;; fields n) h ∅
     (fun x h' _ => h ⊆ h' /\
        let m := nth ver (n_contents (cW c) ops [∅]) ∅ in
        let q := norm (cW c) key (adj (cW c) bits) in
        match m !! q with
        | None => x = None
        | Some _ => exists R, nav m q path R /\ shown (cW c) m R x
        end).
Proof. exact @pf_find_walk. Qed.
Print Assumptions C63_children_of_found.

(** C63: the content leaves no choice where a walk ends. *)
Theorem C63_nav_unique : forall U (m : nmap U) q path r1 r2,
  nav m q path r1 -> nav m q path r2 -> r1 = r2.
Proof. exact @nav_unique. Qed.
Print Assumptions C63_nav_unique.

(** ** Non-vacuity: walks in version 5 of the history [ex_ops] of
    Properties_num.v (10/8, 192.168/16, 192.168.1.1/24, 192.168.1.128/25). *)
Definition ex_walk (path : list bool) : option (N * N * bool * value nat) :=
  match result (run (r <- run_hist (n_exec c32) ex_ops [None] ;; n <- walk (nth 5 r.1 None) path ;; fields n) ∅ 1%positive) with
  | inl (Some n) => Some (nn_key n, nn_bits n, nn_leaf n, nn_val n)
  | _ => None
  end.
Definition ex_found (path : list bool) : option (N * N * bool * value nat) :=
  match result (run (r <- run_hist (n_exec c32) ex_ops [None] ;; n <- n_find_node c32 (nth 5 r.1 None) 0xc0a801ff 24 ;; n <- walk n path ;; fields n) ∅ 1%positive) with
  | inl (Some n) => Some (nn_key n, nn_bits n, nn_leaf n, nn_val n)
  | _ => None
  end.
Example ex_walks :
  ex_walk [] = Some (0, 0, false, VNil) /\
  ex_walk [false] = Some (0x0a000000, 8, true, VUser 4%nat) /\
  ex_walk [true] = Some (0xc0a80000, 16, true, VUser 1%nat) /\
  ex_walk [true; false] = Some (0xc0a80101, 24, true, VUser 5%nat) /\
  ex_walk [true; true] = None /\
  ex_walk [true; false; true] = Some (0xc0a80180, 25, true, VUser 3%nat) /\
  ex_found [] = Some (0xc0a80101, 24, true, VUser 5%nat) /\
  ex_found [true] = Some (0xc0a80180, 25, true, VUser 3%nat) /\
  ex_found [false] = None.
Proof. vm_compute. split_and!; reflexivity. Qed.
(** What the specification says of the root: nothing is stored at the empty
    prefix, but something on either side of it. *)
Example ex_nav : nav (nth 5 (n_contents 32 ex_ops [∅]) ∅) (0, 0) [] (Some (0, 0)).
Proof.
  apply nav_here. split; [apply covers_refl|]. split.
  - right. split.
    + exists (8, 10), (0x0a000000, VUser 4%nat). split; [vm_compute; reflexivity|]. split; vm_compute; [discriminate|reflexivity].
    + exists (16, 0xc0a8), (0xc0a80000, VUser 1%nat). split; [vm_compute; reflexivity|]. split; vm_compute; [discriminate|reflexivity].
  - done.
Qed.
