(** * Properties: exactly which versions of an iptree see an update of one of them. *)
From Verif Require Import Prog History NumModel NumSpec IpModel IpSpec IpUpdSpec IpHist IpVersSpec IpVersProofs IpAllSpec IpAllProofs StampSpec IpStampSpec IpRenewSpec IpRenewProofs IpRenewProofs2.
From Verif Require Import Properties_iptree Properties_iptree2 Properties_sharing Properties_ip_versions Properties_ip_stamp.
Open Scope nat_scope.

(** C82: any calls of NewTree, InsertNet, InsertIP, DeleteByNet, DeleteByIP, the lookups,
    Enumerate, InplaceInsertNet, InplaceInsertIP and UpdateDescendants in any order, each on
    any of the versions so far, have the results of [rrun]: an update of version [a] changes
    in version [b] exactly the networks that both hold and have from the same call, and [b]
    gets there the values that [a] gets. *)
Theorem C82_exact : forall U St (h : heap U) (ops : list (aop (value U) St)), Forall aop_ok ops -> Forall aop_single ops ->
  wp (run_hist a_exec ops []) h ∅ (fun r h' _ => h ⊆ h' /\ exists gs, rrun 1 ops [] gs r.2).
Proof. exact @pf_renew_exact. Qed.
Print Assumptions C82_exact.

(** C82: the calls alone determine what every one of them returns, in every heap. *)
Theorem C82_results : forall U St (ops : list (aop (value U) St)), Forall aop_ok ops -> Forall aop_single ops ->
  exists outs gs, rrun 1 ops [] gs outs /\ forall (h : heap U), wp (run_hist a_exec ops []) h ∅ (fun r _ _ => r.2 = outs).
Proof. exact @pf_renew_results. Qed.
Print Assumptions C82_results.

(** C82: what a version holds after an update of [g1] that leaves [g1] with [G]. *)
Theorem C82_holds : forall U (G : net -> option (value U)) (g1 g : iver U) q,
  holds (followed G g1 g) q = if decide (shared g1 g q) then (match G q with Some v => Some v | None => holds g q end) else holds g q.
Proof. exact @pf_renew_holds. Qed.
Print Assumptions C82_holds.

(** C82: the updated version itself has the values that the callback answered. *)
Theorem C82_itself : forall U St (cb : St -> bytes * bytes * value U -> St * option (value U)) p s s' e e' G (g : iver U),
  lists (holds g) e -> uwalk cb p s e s' e' -> lists G e' -> forall q, holds (followed G g g) q = G q.
Proof. exact @pf_renew_itself. Qed.
Print Assumptions C82_itself.

(** C82: whatever was called before: a version made by InsertNet of [p] has from the same
    call as the old one exactly the networks of the old one that do not contain [p]. *)
Theorem C82_inserted : forall U St (ops : list (aop (value U) St)) (gs : list (iver U)) outs i p v q, rrun 1 ops [] gs outs ->
  let g := nth i gs (iver0 U) in
  shared (inserted (S (length ops)) g p v) g q <-> holds g q <> None /\ ~ ncovers q p.
Proof. exact @pf_renew_inserted. Qed.
Print Assumptions C82_inserted.

(** C82: one made by DeleteByNet of [p] has from the same call exactly the networks of the
    old one that do not contain [p] and are not contained in [p]. *)
Theorem C82_deleted : forall U St (ops : list (aop (value U) St)) (gs : list (iver U)) outs i p q, rrun 1 ops [] gs outs ->
  let g := nth i gs (iver0 U) in
  shared (deleted (S (length ops)) g p) g q <-> holds g q <> None /\ ~ ncovers q p /\ ~ ncovers p q.
Proof. exact @pf_renew_deleted. Qed.
Print Assumptions C82_deleted.
Theorem C82_sym : forall U (g g' : iver U) q, shared g g' q <-> shared g' g q.
Proof. exact @pf_renew_sym. Qed.
Print Assumptions C82_sym.

(** C82: a tree [a] and the tree [b] that InsertNet of [p] made from it, and then an update
    of one of the two. The networks of [a] that do not contain [p] have the same values in
    both afterwards. At all others, the one that was not updated holds what it held. *)
Theorem C82_child : forall U St (ops : list (aop (value U) St)) (gs gs' : list (iver U)) outs x1 x2 i k v p j nt cb (s : St),
  rrun 1 ops [] gs outs -> i < length gs -> ikey_is k (Some p) -> (j = i \/ j = length gs) ->
  rrun (S (length ops)) [AOp (WCall (IInsert i k v)); AUpdate j nt cb s] gs gs' [x1; x2] ->
  let a := nth i gs (iver0 U) in let a' := nth i gs' (iver0 U) in let b' := nth (length gs) gs' (iver0 U) in
  forall q,
  (holds a q <> None /\ ~ ncovers q p -> holds b' q = holds a' q) /\
  (holds a q = None \/ ncovers q p ->
    (j = length gs -> holds a' q = holds a q) /\ (j = i -> holds b' q = if decide (p = q) then Some v else holds a q)).
Proof. exact @pf_renew_pair. Qed.
Print Assumptions C82_child.

(** ** Eight versions: 0 is empty, 1 has 10.0.0.0/8 (value 1), 2 in addition 10.1.0.0/16 (2), 3
    10.2.0.0/16 (3), 4 10.1.1.0/24 (4), 5 fd00::/96 (5), 6 fd00:0:0:0:8000::/96 (6). The update
    of 3 adds 100 to 10.1.0.0/16 in 2 and 3, and not in 4 to 6, where it was made anew, and
    to 10.2.0.0/16 in 3 to 6. That of 4 adds 100 to 10.1.0.0/16 and 10.1.1.0/24 in 4 to 6 and
    to 10.2.0.0/16 in 3 to 6. That of 6 adds 100 to fd00::/96 in 5 and 6 and to
    fd00:0:0:0:8000::/96. Version 7 is 6 without 10.1.0.0/16, and its update adds 100 to
    10.2.0.0/16 in 3 to 7. *)
Definition n10_1_1_24 : ipnet := Some ([x0a; x01; x01; x00], [xff; xff; xff; x00]).
Definition renew_ops : list (aop (value nat) (list nat)) :=
  [ AOp (WCall (IBuild [])); AOp (WCall (IInsert 0 (KNet n10_8) (VUser 1))); AOp (WCall (IInsert 1 (KNet n10_1_16) (VUser 2)));
    AOp (WCall (IInsert 2 (KNet n10_2_16) (VUser 3))); AOp (WCall (IInsert 3 (KNet n10_1_1_24) (VUser 4))); AOp (WCall (IInsert 4 (KNet nfd_96) (VUser 5))); AOp (WCall (IInsert 5 (KNet nfd8_96) (VUser 6)));
    AUpdate 3 ([x0a; x00; x00; x00], [xff; x00; x00; x00]) bump [];
    AUpdate 4 ([x0a; x00; x00; x00], [xff; x00; x00; x00]) bump [];
    AUpdate 6 (xfd :: repeat x00 15, repeat xff 8 ++ repeat x00 8) bump [];
    AOp (WCall (IDelete 6 (KNet n10_1_16)));
    AUpdate 7 ([x0a; x00; x00; x00], [xff; x00; x00; x00]) bump [];
    AOp (WCall (IEnumerate 1)); AOp (WCall (IEnumerate 2)); AOp (WCall (IEnumerate 3)); AOp (WCall (IEnumerate 4)); AOp (WCall (IEnumerate 5)); AOp (WCall (IEnumerate 6)); AOp (WCall (IEnumerate 7)) ].
Example renew_ops_ok : Forall aop_ok renew_ops /\ Forall aop_single renew_ops.
Proof. split; repeat constructor; exact bump_plain. Qed.
Example renew_ops_run : match result (run (run_hist a_exec renew_ops []) ∅ 1%positive) with
  | inl r => map (fun x => match x with AOut (IOList e) => map snd e | AOut _ => [] | ASt s => map VUser s end) r.2
  | inr _ => [] end =
  [ []; []; []; []; []; []; []; [VUser 2; VUser 3]; [VUser 2; VUser 4; VUser 103]; [VUser 5; VUser 6]; []; [VUser 203];
    [VUser 1]; [VUser 1; VUser 102]; [VUser 1; VUser 102; VUser 303]; [VUser 1; VUser 102; VUser 104; VUser 303];
    [VUser 1; VUser 102; VUser 104; VUser 303; VUser 105]; [VUser 1; VUser 102; VUser 104; VUser 303; VUser 105; VUser 106]; [VUser 1; VUser 303; VUser 105; VUser 106] ].
Proof. vm_compute. reflexivity. Qed.

(** ** [C82_child] has cases: [a] is version 2 above and [b] version 3, either of them updated.
    10.1.0.0/16 is a network of the first kind, 10.0.0.0/8 one of the second. *)
Definition renew_ops0 : list (aop (value nat) (list nat)) :=
  [AOp (WCall (IBuild [])); AOp (WCall (IInsert 0 (KNet n10_8) (VUser 1))); AOp (WCall (IInsert 1 (KNet n10_1_16) (VUser 2)))].
Definition renew_ops1 (j : nat) : list (aop (value nat) (list nat)) :=
  [AOp (WCall (IInsert 2 (KNet n10_2_16) (VUser 3))); AUpdate j ([x0a; x00; x00; x00], [xff; x00; x00; x00]) bump []].
Example renew_child : forall j, j = 2 \/ j = 3 -> exists gs gs' outs x1 x2,
  rrun 1 renew_ops0 [] gs outs /\ 2 < length gs /\ (j = 2 \/ j = length gs) /\ rrun (S (length renew_ops0)) (renew_ops1 j) gs gs' [x1; x2].
Proof.
  intros j Hj. destruct (C82_results nat (list nat) (renew_ops0 ++ renew_ops1 j)) as (outs & gs' & H & _).
  { repeat constructor; exact bump_plain. }
  { repeat constructor. }
  cbn [renew_ops0 renew_ops1 app] in H. destruct outs as [|y1 [|y2 [|y3 [|x1 [|x2 [|]]]]]]; try (cbn [rrun] in H; naive_solver).
  destruct H as (gs1 & H1 & gs2 & H2 & gs3 & H3 & H4). exists gs3, gs', [y1; y2; y3], x1, x2.
  assert (Hl : length gs3 = 3). { inversion H1 as [? ? ? I1| | |]; subst. inversion I1; subst. inversion H2 as [? ? ? I2| | |]; subst. inversion H3 as [? ? ? I3| | |]; subst. inversion I2; subst; inversion I3; subst; by rewrite !app_length. }
  rewrite Hl. split; [|split; [lia|split; [done|exact H4]]]. cbn [rrun renew_ops0]. exists gs1. split; [done|]. exists gs2. split; [done|]. by exists gs3.
Qed.
Example renew_child_first : ~ ncovers (false, (16, 2561)%N) (false, (16, 2562)%N) /\ ncovers (false, (8, 10)%N) (false, (16, 2562)%N).
Proof. split; [by apply (bool_decide_unpack _); vm_compute|by apply (bool_decide_unpack _); vm_compute]. Qed.
