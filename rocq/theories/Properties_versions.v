(** * Property C71: in-place insertion and the other versions of a tree. *)
(** [v_exec] (VersProofs.v): the client runs the calls of C29-C35 and InplaceInsert in
    any order, on any versions; the tree that InplaceInsert returns takes the place of
    the one it was called on. [vstep] (VersSpec.v): what the calls return. Version 0 is
    the empty tree. *)
From Verif Require Import Prog History NumModel NumSpec NumAbs NumPropProofs RbModel VersSpec NumShare VersProofs.
From Coq Require Import String.
Open Scope nat_scope.

(** C71, radix trees: each other version gets the whole insertion or nothing of it, and
    nothing else happens to it, although nodes it shares are overwritten. It can get the
    insertion only if it agreed with the version inserted into around the new prefix. All
    calls answer from the versions of that moment. No call panics, and none writes to
    memory that was there before. *)
Theorem C71_versions : forall U c (h : heap U) (ops : list (vop U)), num_cfg c -> Forall (vop_ok (cW c)) ops ->
  wp (run_hist (v_exec c) ops [None]) h ∅ (fun r h' _ => h ⊆ h' /\ exists ms, spec_run (vstep (cW c)) ops [∅] ms r.2).
Proof. intros U c h ops Hc. exact (pf_versions c (num_cfg_ok c Hc) h ops). Qed.
Print Assumptions C71_versions.

(** ** Both outcomes occur. Version 2 is version 1 with one more entry; 0xff000000/8 is
    below a node that version 1 does not have any more, 0x0a010000/16 below a node that
    both have; version 1 gets the second insertion and not the first. *)
Definition vers_ops : list (vop nat) :=
  [ VCall (NInsert 0 0x0a000000 8 (VUser 1)); VCall (NInsert 1 0xc0000000 8 (VUser 2));
    VInplace 2 0xff000000 8 (VUser 3); VCall (NEnumerate 1); VCall (NEnumerate 2);
    VInplace 2 0x0a010000 16 (VUser 4); VCall (NEnumerate 1); VCall (NEnumerate 2) ].
Example vers_ok : Forall (vop_ok 32) vers_ops.
Proof. repeat constructor. Qed.
Example vers_run : match result (run (run_hist (v_exec c32) vers_ops [None]) ∅ 1%positive) with
  | inl r => map (fun x => match x with OList e => map (fun y => y.2) e | _ => [] end) r.2
  | inr _ => [] end =
  [ []; []; []; [VUser 1]; [VUser 1; VUser 2; VUser 3]; []; [VUser 1; VUser 4]; [VUser 1; VUser 4; VUser 2; VUser 3] ].
Proof. vm_compute. reflexivity. Qed.

(** ** Refuted for strtree: an older version loses keys. After InplaceInsert on [b] the
    tree [a] that [b] was made from no longer has the key 40. *)
Definition S2 (s : string) : bytes := map Ascii.byte_of_ascii (list_ascii_of_string s).
Theorem C71_strtree_refuted : exists k : bytes, exists l : list bytes, exists x y : bytes,
  result (run (a <- (fix go t l := match l with [] => Ret t | k :: l => t <- str_insert 50 t k (VUser 1) ;; go t l end) None (l ++ [k]) ;;
               r1 <- str_get 50 a k ;; b <- str_insert 50 a x (VUser 2) ;; r2 <- str_get 50 a k ;;
               str_inplace_insert 50 b y (VUser 3) ;;; r3 <- str_get 50 a k ;; e <- str_enumerate 50 a ;; Ret (r1, r2, r3, map fst e)) ∅ 1%positive) =
  inl ((VUser 1, true), (VUser 1, true), (VNil, false), l).
Proof.
  exists (S2 "40"), [S2 "10"; S2 "20"; S2 "30"], (S2 "05"), (S2 "31"). vm_compute. reflexivity.
Qed.
Print Assumptions C71_strtree_refuted.
