(** * Property C52: Dot. *)
(** [drawing ls d] (DotSpec.v): the lines [ls] are numbered consecutively and, read as
    a graph, are the tree [d]; [rb_shape], [num_shape]: [d] is the tree in memory.
    Histories and contents as in C05, C12 and C36: the nodes shown are the stored
    pairs, in the order of the tree. *)
From Verif Require Import Prog History RbModel RbSpec RbFun RbFunIns RbSim RbSimOps RbAbs StrSpec StrAbs.
From Verif Require Import DomModel DomSpec DlModel DlSpec DlAbs NumModel NumSpec NumFun NumSim NumAbs.
From Verif Require Import NumPropProofs StrPropProofs DlPropProofs DotModel DotSpec DotProofs DotPropProofs.
Open Scope nat_scope.

Theorem C52_strtree : forall U fuel (h : heap U) (ops : list (sop (value U))) ver,
  Forall sop_lawful ops -> enough fuel (keys ops) ->
  wp (run_hist (str_exec fuel) ops []) h ∅ (fun r h1 _ => h ⊆ h1 /\ exists e,
    match nth ver r.1 None with
    | None => e = [] /\ forall fuel, str_dot fuel (nth ver r.1 None) = (Ret [] : prog U _)
    | Some l => exists root cmp d, h1 !! l = Some (CStr root cmp) /\ rb_shape h1 root d /\ map fst (inorder d) = e /\
        dot_draws h1 (fun fuel => str_dot fuel (nth ver r.1 None)) d
    end /\
    StronglySorted (fun x y => ver_cmp ops ver x.1 y.1 < 0)%Z e /\
    (forall k v, (k, v) ∈ e -> log_get (ver_cmp ops ver) (ver_log ops ver) k = Some v) /\
    (forall k v, log_get (ver_cmp ops ver) (ver_log ops ver) k = Some v -> exists k', (k', v) ∈ e /\ ver_cmp ops ver k' k = 0%Z)).
Proof. exact @dot_str. Qed.
Print Assumptions C52_strtree.
Theorem C52_dltree : forall U fuel (h : heap U) (ops : list (dop (value U))) rops ver,
  Forall2 resolves ops rops -> enough fuel (dkeys ops) ->
  wp (run_hist (dl_exec fuel) ops []) h ∅ (fun r h1 _ => h ⊆ h1 /\ exists e,
    match nth ver r.1 None with
    | None => e = [] /\ forall fuel, dl_dot fuel (nth ver r.1 None) = (Ret [] : prog U _)
    | Some l => exists root d, h1 !! l = Some (CDl root) /\ rb_shape h1 root d /\ map fst (inorder d) = e /\
        dot_draws h1 (fun fuel => dl_dot fuel (nth ver r.1 None)) d
    end /\
    StronglySorted (fun x y => shortlex_lt x.1 y.1) e /\ forall k v, (k, v) ∈ e <-> klog_get (dl_log rops ver) k = Some v).
Proof. exact @dot_dl. Qed.
Print Assumptions C52_dltree.
Theorem C52_numtree : forall U c (h : heap U) ops ver,
  num_cfg c -> Forall (nop_ok (cW c)) ops ->
  wp (run_hist (n_exec c) ops [None]) h ∅ (fun r h1 _ => h ⊆ h1 /\ exists d,
    num_shape h1 (nth ver r.1 None) d /\ dot_draws h1 (fun fuel => n_dot fuel (nth ver r.1 None)) d /\
    s_enum (cW c) (nth ver (n_contents (cW c) ops [∅]) ∅) (leaves (preorder d))).
Proof. exact @dot_num. Qed.
Print Assumptions C52_numtree.

(** The lines determine the tree. *)
Theorem C52_determines : forall C (ls : list (dline C)) d d', drawing ls d -> drawing ls d' -> d = d'.
Proof. exact @drawing_unique. Qed.
Print Assumptions C52_determines.

(** ** The histories of Properties_strtree.v, Properties_dltree.v and Properties_num.v
    meet the hypotheses; here are the lines of one more. *)
Definition ex_dot_ops : list (sop (value nat)) :=
  [ SBuild str_compare [([x61], VUser 1); ([x62], VUser 2); ([x63], VUser 3); ([x64], VUser 4)] ].
Example ex_dot_ops_ok : Forall sop_lawful ex_dot_ops /\ enough 20 (keys ex_dot_ops).
Proof. split; [repeat constructor; apply str_compare_lawful|vm_compute; lia]. Qed.
Example ex_dot : result (run (r <- run_hist (str_exec 20) ex_dot_ops [] ;; str_dot 20 (nth 0 r.1 None)) ∅ 1%positive) = inl
  [ DNode 0 (Some ([x62], VUser 2, false)); DEdge 0 1 2;
    DNode 1 (Some ([x61], VUser 1, false));
    DNode 2 (Some ([x63], VUser 3, false)); DEdge 2 3 4;
    DNode 3 None;
    DNode 4 (Some ([x64], VUser 4, true)) ].
Proof. vm_compute. reflexivity. Qed.
