(** * Properties C32-C39: numtree. *)
From Verif Require Import Prog History NumModel NumSpec NumFun NumSim NumInplace NumAbs NumPropProofs.
Open Scope N_scope.

(** Throughout: [c] is the 32-bit or the 64-bit tree; [ops] is any history of
    Insert/Delete/Match/ExactMatch/Enumerate calls applied to any versions
    obtained earlier, starting with the nil tree, in any memory [h];
    [n_contents] says what each version should hold.  [wp … h ∅ …] says the calls
    never panic, terminate and never write a cell that exists in [h] or belongs
    to an earlier version. *)

(** C32 *)
Theorem C32_match_longest_prefix : forall U c (h : heap U) ops ver key bits,
  num_cfg c -> Forall (nop_ok (cW c)) ops -> key < 2 ^ cW c ->
  wp (r <- run_hist (n_exec c) ops [None] ;; n_match c (nth ver r.1 None) key bits) h ∅
     (fun res h' _ => h ⊆ h' /\
        s_longest (nth ver (n_contents (cW c) ops [∅]) ∅) (norm (cW c) key (adj (cW c) bits)) res).
Proof. exact @pf_match. Qed.
Print Assumptions C32_match_longest_prefix.

(** C33 *)
Theorem C33_exact_match : forall U c (h : heap U) ops ver key bits,
  num_cfg c -> Forall (nop_ok (cW c)) ops -> key < 2 ^ cW c ->
  wp (r <- run_hist (n_exec c) ops [None] ;; n_exact c (nth ver r.1 None) key bits) h ∅
     (fun res h' _ => h ⊆ h' /\
        res = s_exact (cW c) (nth ver (n_contents (cW c) ops [∅]) ∅) key (adj (cW c) bits)).
Proof. exact @pf_exact. Qed.
Print Assumptions C33_exact_match.

(** C33: FindNode returns a node holding the stored entry, or nil. *)
Theorem C33_find_node : forall U c (h : heap U) ops ver key bits,
  num_cfg c -> Forall (nop_ok (cW c)) ops -> key < 2 ^ cW c ->
  wp (r <- run_hist (n_exec c) ops [None] ;; n_find_node c (nth ver r.1 None) key bits) h ∅
     (fun res h' _ => h ⊆ h' /\
        match nth ver (n_contents (cW c) ops [∅]) ∅ !! norm (cW c) key (adj (cW c) bits) with
        | None => res = None
        | Some (k, v) => exists a c0 c1, res = Some a /\
            h' !! a = Some (CNum (NumN k (adj (cW c) bits) true v c0 c1))
        end).
Proof. exact @pf_find. Qed.
Print Assumptions C33_find_node.

(** C34, and with it every history: all results of all calls on all versions
    are those of immutable finite maps, and no existing cell is written. *)
Theorem C34_insert_persistent : forall U c (h : heap U) ops,
  num_cfg c -> Forall (nop_ok (cW c)) ops ->
  wp (run_hist (n_exec c) ops [None]) h ∅
     (fun r h' _ => h ⊆ h' /\ exists ms, spec_run (nstep (cW c)) ops [∅] ms r.2).
Proof. exact @pf_history. Qed.
Print Assumptions C34_insert_persistent.

(** C35 *)
Theorem C35_delete : forall U c (h : heap U) ops ver key bits after_ops,
  num_cfg c -> Forall (nop_ok (cW c)) ops -> Forall (nop_ok (cW c)) after_ops -> key < 2 ^ cW c ->
  wp (r <- run_hist (n_exec c) ops [None] ;;
      d <- n_delete c (nth ver r.1 None) key bits ;;
      r2 <- run_hist (n_exec c) after_ops (r.1 ++ [d.1]) ;;
      Ret (nth ver r.1 None, d, r2.2)) h ∅
     (fun '(t, (t', flag), outs) h' _ => h ⊆ h' /\
        let ms := n_contents (cW c) ops [∅] in
        s_deleted (cW c) (nth ver ms ∅) key (adj (cW c) bits) flag /\
        (flag = false -> t' = t) /\
        exists ms', spec_run (nstep (cW c)) after_ops
          (ms ++ [s_delete (cW c) (nth ver ms ∅) key (adj (cW c) bits)]) ms' outs).
Proof. exact @pf_delete. Qed.
Print Assumptions C35_delete.

(** C36 *)
Theorem C36_enumerate_sorted : forall U c (h : heap U) ops ver,
  num_cfg c -> Forall (nop_ok (cW c)) ops ->
  wp (r <- run_hist (n_exec c) ops [None] ;; n_enumerate c (nth ver r.1 None)) h ∅
     (fun l h' _ => h ⊆ h' /\
        s_enum (cW c) (nth ver (n_contents (cW c) ops [∅]) ∅)
               (map (fun x => (nn_key x.2, nn_bits x.2, nn_val x.2)) l)).
Proof. exact @pf_enumerate. Qed.
Print Assumptions C36_enumerate_sorted.

(** C37: a tree built in place behaves, from then on, as if built by Insert;
    building touches no existing memory. *)
Theorem C37_inplace_build : forall U c (h : heap U) items ops,
  num_cfg c -> Forall (fun x => x.1.1 < 2 ^ cW c) items -> Forall (nop_ok (cW c)) ops ->
  wp (p <- n_build c items None ;; run_hist (n_exec c) ops [p]) h ∅
     (fun r h' _ => h ⊆ h' /\ exists ms, spec_run (nstep (cW c)) ops [s_build c items ∅] ms r.2).
Proof. exact @pf_build. Qed.
Print Assumptions C37_inplace_build.

(** C37, one call: on a tree made of exactly the cells [F], each used once,
    InplaceInsert writes only these and new ones ([h0]: any other part of
    memory) and the result is again an unshared tree, node for node the tree
    that Insert returns. *)
Theorem C37_inplace_insert : forall U c (h h0 : heap U) p m F key bits v,
  num_cfg c -> key < 2 ^ cW c -> nowned c h p m F ->
  h0 ⊆ h -> (forall x, x ∈ F -> h0 !! x = None) ->
  wp (n_inplace_insert c p key bits v) h F
     (fun r h' F1 => h0 ⊆ h' /\ (exists F', F' ⊆ F1 /\ nowned c h' r (s_insert (cW c) m key (adj (cW c) bits) v) F') /\
        wp (n_insert c p key bits v) h ∅ (fun r2 h2 _ => exists t, nrep h' r t /\ nrep h2 r2 t)).
Proof. exact @pf_inplace. Qed.
Print Assumptions C37_inplace_insert.

(** C38 *)
Theorem C38_compact : forall U c (h : heap U) ops ver,
  num_cfg c -> Forall (nop_ok (cW c)) ops ->
  wp (r <- run_hist (n_exec c) ops [None] ;; Ret (nth ver r.1 None)) h ∅
     (fun p h' _ => h ⊆ h' /\
        let m := nth ver (n_contents (cW c) ops [∅]) ∅ in
        exists t, nrep h' p t /\ compact_shape t /\ N.of_nat (depth t) <= cW c + 1 /\
          (nodes t <= 2 * size m - (if decide (m = ∅) then 0 else 1))%nat).
Proof. exact @pf_compact. Qed.
Print Assumptions C38_compact.

(** C39 *)
Theorem C39_history_independent : forall U c (h : heap U) ops1 ops2 i j,
  num_cfg c -> Forall (nop_ok (cW c)) ops1 -> Forall (nop_ok (cW c)) ops2 ->
  nth i (n_contents (cW c) ops1 [∅]) ∅ = nth j (n_contents (cW c) ops2 [∅]) ∅ ->
  wp (r1 <- run_hist (n_exec c) ops1 [None] ;;
      r2 <- run_hist (n_exec c) ops2 [None] ;;
      Ret (nth i r1.1 None, nth j r2.1 None)) h ∅
     (fun '(p1, p2) h' _ => exists t, nrep h' p1 t /\ nrep h' p2 t).
Proof. exact @pf_canonical. Qed.
Print Assumptions C39_history_independent.

(** ** Non-vacuity: a history with nested prefixes, a split, clamped lengths, a
    replacement, a deletion of a subtree and of an older version; the outputs. *)
Definition ex_ops : list (nop nat) :=
  [ NInsert 0 0xc0a80000 16 (VUser 1%nat);
    NInsert 1 0xc0a80100 24 (VUser 2%nat);
    NInsert 2 0xc0a80180 25 (VUser 3%nat);
    NInsert 3 0x0a000000 8 (VUser 4%nat);
    NInsert 4 0xc0a80101 24 (VUser 5%nat);
    NMatch 4 0xc0a80142 99;
    NMatch 5 0xc0a80142 32;
    NMatch 5 0xc0a801ff 32;
    NDelete 5 0xc0a80100 (24);
    NEnumerate 6;
    NEnumerate 2;
    NExact 5 0xc0a801ff (24);
    NMatch 6 0xffffffff (-3) ].

Example ex_ops_ok : Forall (nop_ok 32) ex_ops.
Proof. repeat constructor. Qed.
Example ex_run : result (bindres (run (run_hist (n_exec c32) ex_ops [None]) ∅ 1%positive)) =
  inl [ONone; ONone; ONone; ONone; ONone;
       OVal (VUser 2%nat, true); OVal (VUser 5%nat, true); OVal (VUser 3%nat, true);
       OBool true;
       OList [(0x0a000000, 8, VUser 4%nat); (0xc0a80000, 16, VUser 1%nat)];
       OList [(0xc0a80000, 16, VUser 1%nat); (0xc0a80100, 24, VUser 2%nat)];
       OVal (VUser 5%nat, true);
       OVal (VNil, false)].
Proof. vm_compute. reflexivity. Qed.
(** The empty tree is unshared, so C37 applies repeatedly. *)
Example ex_owned : nowned (U := nat) c32 ∅ None ∅ ∅.
Proof. exists NE. split; [done|]. split; [done|]. apply nabs_empty. Qed.
