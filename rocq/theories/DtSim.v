(** * domaintree on memory: single calls. *)
From Verif Require Import Prog History RbModel RbSpec RbFun RbFunIns RbFunDel RbSim RbSimIns RbSimOps RbSimDel2 RbAbs StrSpec StrAbs StrPropProofs.
From Verif Require Import DomModel DomSpec DomPropProofs DlModel DlSpec DlAbs DlPropProofs DtModel DtSpec DtFun.

Local Notation cmp := dl_compare.

(** ** Lists of pairs related entry by entry. *)
Section lists.
Context {A B : Type}.
Variable R : bytes * A -> bytes * B -> Prop.
Hypothesis R_key : forall x y, R x y -> x.1 = y.1.
Lemma F2_existsb l l' k : Forall2 R l l' -> existsb (fun x => same_key cmp k x.1) l = existsb (fun x => same_key cmp k x.1) l'.
Proof using R_key. induction 1 as [|x y l l' H _ IH]; simpl; [done|]. by rewrite IH, (R_key _ _ H). Qed.
Lemma F2_filter (f : bytes -> bool) l l' : Forall2 R l l' -> Forall2 R (List.filter (fun x => f x.1) l) (List.filter (fun x => f x.1) l').
Proof using R_key. induction 1 as [|x y l l' H _ IH]; simpl; [constructor|]. rewrite (R_key _ _ H). destruct (f y.1); [by constructor|done]. Qed.
Lemma F2_insert l l' k v w : Forall2 R l l' -> R (k, v) (k, w) -> Forall2 R (a_insert cmp l k v) (a_insert cmp l' k w).
Proof using R_key.
  intros H Hk. unfold a_insert. rewrite (F2_existsb l l' k H). destruct (existsb _ l').
  - clear -R_key H Hk. induction H as [|x y l l' H _ IH]; simpl; [constructor|]. constructor; [|done]. rewrite (R_key _ _ H).
    destruct (same_key cmp k y.1) eqn:E; [|done]. unfold same_key in E. apply Z.eqb_eq, dl_compare_eq in E as ->. done.
  - apply Forall2_app; [by apply (F2_filter (fun x => cmp x k <? 0)%Z)|constructor; [done|]]. by apply (F2_filter (fun x => 0 <? cmp x k)%Z).
Qed.
Lemma F2_delete l l' k : Forall2 R l l' -> Forall2 R (a_delete cmp l k) (a_delete cmp l' k).
Proof using R_key. intros H. unfold a_delete. by apply (F2_filter (fun x => negb (same_key cmp k x))). Qed.
Lemma F2_get l l' k : Forall2 R l l' ->
  match a_get cmp l k, a_get cmp l' k with
  | Some v, Some w => R (k, v) (k, w)
  | None, None => True
  | _, _ => False
  end.
Proof using R_key.
  unfold a_get. induction 1 as [|x y l l' H _ IH]; simpl; [done|]. rewrite (R_key _ _ H).
  destruct (same_key cmp k y.1) eqn:E; [|done]. unfold same_key in E. apply Z.eqb_eq, dl_compare_eq in E.
  simpl. pose proof (R_key _ _ H). destruct x, y; simpl in *; by subst.
Qed.
End lists.

Section sim.
Context {U : Type}.
Local Notation heap := (heap U).
Local Notation value := (value U).
Local Notation dtree := (dtree value).
Implicit Types h : heap.
Implicit Types t : dtree.
Variable fuel : nat.

(** ** Label trees survive changes of domain nodes. *)
Definition keeps h h' : Prop := forall x c, h !! x = Some c -> (forall n, c <> CDom n) -> h' !! x = Some c.
Lemma keeps_refl h : keeps h h.
Proof. by intros x c. Qed.
Lemma keeps_sub h h' : h ⊆ h' -> keeps h h'.
Proof. intros Hs x c Hx _. by eapply lookup_weaken. Qed.
Lemma keeps_trans h1 h2 h3 : keeps h1 h2 -> keeps h2 h3 -> keeps h1 h3.
Proof. intros H1 H2 x c Hx Hc. apply H2; [|done]. by apply H1. Qed.
Lemma keeps_insert h a n n' : h !! a = Some (CDom n) -> keeps h (<[a := CDom n']> h).
Proof. intros Ha x c Hx Hc. rewrite lookup_insert_ne; [done|]. intros ->. rewrite Hx in Ha. injection Ha as ->. by destruct (Hc n). Qed.
Lemma keeps_untouched h h' a n : h !! a = Some (CDom n) -> untouched {[a]} h h' -> keeps h h'.
Proof. intros Ha Hu x c Hx Hc. apply Hu; [done|]. intros ->%elem_of_singleton. rewrite Hx in Ha. injection Ha as ->. by destruct (Hc n). Qed.
Lemma rep_keeps h h' : keeps h h' -> forall (t : tree U) p, rep h p t -> rep h' p t.
Proof.
  intros Hk. induction t as [|co l IHl k v r IHr]; intros p; [done|]. intros (a & pl & pr & -> & Ha & Hl & Hr).
  exists a, pl, pr. split_and!; auto.
Qed.
Lemma dl_at_keeps h h' p l : keeps h h' -> dl_at h p l -> dl_at h' p l.
Proof.
  intros Hk. destruct p as [a|]; [|done]. intros (r & Ha & t & Hr & H). exists r. split; [by apply Hk|]. exists t. split; [by eapply rep_keeps|done].
Qed.

(** ** The representation. *)
Definition dval (nn : domnode U) : option value := if dn_has nn then Some (dn_val nn) else None.
Fixpoint drep (d : nat) h (p : ptr) t : Prop :=
  match d with
  | O => False
  | S d => exists a nn l, p = Some a /\ h !! a = Some (CDom nn) /\ dval nn = d_val t /\ dl_at h (dn_branches nn) l /\
      Forall2 (fun x y => x.1 = y.1 /\ exists q, x.2 = VDom q /\ drep d h q y.2) l (d_cs t)
  end.
Definition crel d h (x : bytes * value) (y : bytes * dtree) : Prop := x.1 = y.1 /\ exists q, x.2 = VDom q /\ drep d h q y.2.
Lemma crel_key d h x y : crel d h x y -> x.1 = y.1.
Proof. by intros [? _]. Qed.
Lemma drep_mono h h' : h ⊆ h' -> forall d p t, drep d h p t -> drep d h' p t.
Proof.
  intros Hs. induction d as [|d IH]; intros p t; [done|]. intros (a & nn & l & -> & Ha & Hv & Hl & Hc).
  exists a, nn, l. split_and!; [done|by eapply lookup_weaken|done|by eapply dl_at_mono|].
  eapply Forall2_impl; [exact Hc|]. intros x y (H1 & q & H2 & H3). eauto.
Qed.
Lemma crel_mono d h h' l cs : h ⊆ h' -> Forall2 (crel d h) l cs -> Forall2 (crel d h') l cs.
Proof. intros Hs H. eapply Forall2_impl; [exact H|]. intros x y (H1 & q & H2 & H3). split; [done|]. exists q. split; [done|]. by eapply drep_mono. Qed.
Definition droot d h (p : ptr) t : Prop := (p = None /\ t = d_nil) \/ drep d h p t.
Lemma droot_mono d h h' p t : h ⊆ h' -> droot d h p t -> droot d h' p t.
Proof. intros Hs [H|H]; [by left|right; by eapply drep_mono]. Qed.
Lemma drep_new d h a : h !! a = Some (CDom (DomN None false VNil)) -> drep (S d) h (Some a) d_nil.
Proof. intros Ha. exists a, (DomN None false VNil), []. split_and!; try done; constructor. Qed.
Lemma wf_len N d t h l : wf N (S d) t -> Forall2 (crel d h) l (d_cs t) -> length l <= N.
Proof. intros (_ & H & _) Hc. rewrite (Forall2_length _ _ _ Hc). done. Qed.

(** ** Writing the branches of a fresh node. *)
Lemma wp_set_branches h a nn b W (Q : unit -> heap -> gset loc -> Prop) : h !! a = Some (CDom nn) -> a ∈ W ->
  Q tt (<[a := CDom (DomN b (dn_has nn) (dn_val nn))]> h) W -> wp (set_branches (Some a) b) h W Q.
Proof.
  intros Ha HW HQ. unfold set_branches. apply wp_bind. eapply wp_ld_dom; [exact Ha|].
  apply wp_st_dom; [done|by eexists|done].
Qed.
Lemma sub_fresh h0 h a c : h0 ⊆ h -> h0 !! a = None -> h0 ⊆ <[a := c]> h.
Proof. intros Hs Ha. apply map_subseteq_spec. intros x y Hx. rewrite lookup_insert_ne by congruence. by eapply lookup_weaken. Qed.
Lemma put_del_wp N d h0 h a nn l t k W : h0 ⊆ h -> h !! a = Some (CDom nn) -> h0 !! a = None -> a ∈ W ->
  dval nn = d_val t -> dl_at h0 (dn_branches nn) l -> Forall2 (crel d h0) l (d_cs t) -> length l <= N -> enough fuel N ->
  wp (x <- dl_raw_delete fuel (dn_branches nn) k ;; set_branches (Some a) x.1) h W (fun _ h' W' =>
    h0 ⊆ h' /\ W ⊆ W' /\ drep (S d) h' (Some a) (DT (d_val t) (a_delete cmp (d_cs t) k))).
Proof.
  intros Hs Ha Ha0 HW Hv Hl Hc HN Hf. apply wp_bind.
  eapply wp_mono; [apply (wp_cow _ _ W (fun x h' => dl_at h' x.1 (a_delete cmp l k))); eapply wp_mono; [eapply dl_delete_at; [by eapply dl_at_mono|by eapply enough_le]|cbn beta; tauto]|].
  cbn beta. intros x h1 W1 (Hx & Hs1 & HW1 & _). eapply wp_set_branches; [by eapply lookup_weaken|by apply HW1|].
  assert (Hs2 : h0 ⊆ <[a := CDom (DomN x.1 (dn_has nn) (dn_val nn))]> h1) by (apply sub_fresh; [by etrans|done]).
  split_and!; [done|done|]. eexists a, _, _. split_and!; [done|by rewrite lookup_insert|done| |].
  - cbn [dn_branches]. eapply dl_at_keeps; [|exact Hx]. eapply keeps_insert. by eapply lookup_weaken.
  - cbn [d_cs]. apply F2_delete; [apply crel_key|]. by eapply crel_mono.
Qed.
Lemma put_ins_wp N d h0 h a nn l t k m c W : h0 ⊆ h -> h !! a = Some (CDom nn) -> h0 !! a = None -> a ∈ W ->
  dval nn = d_val t -> dl_at h0 (dn_branches nn) l -> Forall2 (crel d h0) l (d_cs t) -> length l <= N -> enough fuel N ->
  drep d h0 m c ->
  wp (b <- dl_raw_insert fuel (dn_branches nn) k (VDom m) ;; set_branches (Some a) b) h W (fun _ h' W' =>
    h0 ⊆ h' /\ W ⊆ W' /\ drep (S d) h' (Some a) (DT (d_val t) (a_insert cmp (d_cs t) k c))).
Proof.
  intros Hs Ha Ha0 HW Hv Hl Hc HN Hf Hm. apply wp_bind.
  eapply wp_mono; [apply (wp_cow _ _ W (fun b h' => dl_at h' b (a_insert cmp l k (VDom m)))); eapply wp_mono; [eapply dl_insert_at; [by eapply dl_at_mono|by eapply enough_le]|cbn beta; tauto]|].
  cbn beta. intros x h1 W1 (Hx & Hs1 & HW1 & _). eapply wp_set_branches; [by eapply lookup_weaken|by apply HW1|].
  assert (Hs2 : h0 ⊆ <[a := CDom (DomN x (dn_has nn) (dn_val nn))]> h1) by (apply sub_fresh; [by etrans|done]).
  split_and!; [done|done|]. eexists a, _, _. split_and!; [done|by rewrite lookup_insert|done| |].
  - cbn [dn_branches]. eapply dl_at_keeps; [|exact Hx]. eapply keeps_insert. by eapply lookup_weaken.
  - cbn [d_cs]. apply (F2_insert (crel d _)); [apply crel_key|by eapply crel_mono|]. split; [done|]. exists m. split; [done|]. by eapply drep_mono.
Qed.

(** ** Insert. *)
Lemma insert_loop_wp N v : enough fuel N -> forall ls d h0 h n nn l t, h0 ⊆ h -> h0 !! n = None -> h !! n = Some (CDom nn) ->
  dval nn = d_val t -> dl_at h0 (dn_branches nn) l -> Forall2 (crel d h0) l (d_cs t) -> wf N (S d) t -> length ls <= d ->
  wp (x <- visit (dt_insert_step fuel) ls (Some n) ;; set_has x.1 true ;;; set_dval x.1 v) h {[n]}
     (fun _ h' _ => h0 ⊆ h' /\ drep (S d) h' (Some n) (d_insert t ls v)).
Proof.
  intros Hf. induction ls as [|a ls IH]; intros d h0 h n nn l t Hs Hn0 Hn Hv Hl Hc Hwf Hd.
  - cbn [visit]. cbn [bind fst snd]. apply wp_bind. unfold set_has. apply wp_bind. eapply wp_ld_dom; [exact Hn|].
    apply wp_st_dom; [set_solver|by eexists|]. unfold set_dval. apply wp_bind. eapply wp_ld_dom; [by rewrite lookup_insert|].
    apply wp_st_dom; [set_solver|rewrite lookup_insert; by eexists|]. rewrite insert_insert. cbn [dn_branches dn_has dn_val].
    split; [by apply sub_fresh|]. eexists n, _, l. split_and!; [done|by rewrite lookup_insert|done|..].
    + cbn [dn_branches]. eapply dl_at_mono; [|exact Hl]. by apply sub_fresh.
    + cbn [d_insert d_cs]. eapply crel_mono; [|exact Hc]. by apply sub_fresh.
  - simpl in Hd. destruct d as [|d]; [lia|]. pose proof (wf_len N _ t h0 l Hwf Hc) as HN.
    pose proof (wf_child N (S d) t a Hwf ltac:(lia)) as Hwc.
    cbn [visit]. apply bind_assoc. unfold dt_insert_step at 1. apply bind_assoc, wp_bind. eapply wp_ld_dom; [exact Hn|].
    apply bind_assoc, wp_bind. eapply wp_mono; [apply (wp_cow _ _ _ (fun x h' => h' = h /\ x = match a_get cmp l a with Some v => (v, true) | None => (VNil, false) end));
      eapply wp_mono; [eapply dl_get_at; [by eapply dl_at_mono|by eapply enough_get]|cbn beta; tauto]|].
    cbn beta. intros x h1 W1 ([-> ->] & _ & HW1 & _).
    apply bind_assoc, wp_bind.
    (* the child: a fresh node *)
    assert (Hnext : wp (if (match a_get cmp l a with Some v => (v, true) | None => (VNil, false) end).2
        then p <- as_node (match a_get cmp l a with Some v => (v, true) | None => (VNil, false) end).1 ;; dt_copy p else dt_new) h W1
      (fun q h' W' => exists b nn' l', q = Some b /\ h !! b = None /\ h' = <[b := CDom nn']> h /\ W' = {[b]} ∪ W1 /\
        dval nn' = d_val (child t a) /\ dl_at h0 (dn_branches nn') l' /\ Forall2 (crel d h0) l' (d_cs (child t a)))).
    { pose proof (F2_get _ (crel_key (S d) h0) l (d_cs t) a Hc) as Hg. unfold child.
      destruct (a_get cmp l a) as [q|], (a_get cmp (d_cs t) a) as [c|]; try done; cbn [fst snd default].
      - destruct Hg as (_ & q' & Eq & b & nn' & l' & -> & Hb & Hv' & Hl' & Hc'). simpl in Eq. subst q. cbn [as_node bind dt_copy].
        apply wp_bind. eapply wp_ld_dom; [by eapply lookup_weaken|]. apply wp_bind, wp_alloc. intros b' Hb'. cbn [wp].
        exists b', nn', l'. by split_and!.
      - unfold dt_new. apply wp_bind, wp_alloc. intros b' Hb'. cbn [wp]. exists b', (DomN None false VNil), []. split_and!; try done; constructor. }
    eapply wp_mono; [exact Hnext|]. cbn beta. intros q h1 W2 (b & nn' & l' & -> & Hb & -> & -> & Hv' & Hl' & Hc').
    assert (Nbn : b <> n) by congruence.
    apply bind_assoc, wp_bind. eapply wp_ld_dom; [by rewrite lookup_insert_ne|].
    apply bind_assoc, wp_bind.
    assert (Hs1 : h0 ⊆ <[b := CDom nn']> h). { etrans; [exact Hs|by apply insert_subseteq]. }
    eapply wp_mono; [apply (wp_cow _ _ _ (fun p h' => dl_at h' p (a_insert cmp l a (VDom (Some b)))));
      eapply wp_mono; [eapply dl_insert_at; [by eapply dl_at_mono|by eapply enough_le]|cbn beta; tauto]|].
    cbn beta. intros b2 h2 W2 (Hb2 & Hs2 & HW2 & HWf).
    assert (Hn2 : h2 !! n = Some (CDom nn)). { eapply lookup_weaken; [|exact Hs2]. by rewrite lookup_insert_ne. }
    assert (Hbb : h2 !! b = Some (CDom nn')). { eapply lookup_weaken; [|exact Hs2]. by rewrite lookup_insert. }
    apply bind_assoc, wp_bind. eapply wp_set_branches; [exact Hn2|clear -HW1 HW2; set_solver|]. cbn [bind fst snd].
    set (h3 := <[n := _]> h2). assert (Hb0 : h0 !! b = None) by by eapply lookup_weaken_None.
    eapply wp_mono.
    { eapply (wp_call _ _ {[b]}); [|clear -HW2; set_solver].
      apply (IH d h0 h3 b nn' l' (child t a)); [|done| |done|done|done|done|lia].
      - apply sub_fresh; [by etrans|done].
      - unfold h3. by rewrite lookup_insert_ne. }
    cbn beta. intros _ h4 W4 [(W3 & (Hs4 & Hd4) & _ & _) [Hu _]]. split; [done|].
    assert (Hb3 : h3 !! b = Some (CDom nn')) by by (unfold h3; rewrite lookup_insert_ne by congruence).
    eexists n, (DomN b2 (dn_has nn) (dn_val nn)), _. split_and!; [done| |exact Hv| |].
    + apply Hu; [unfold h3; by rewrite lookup_insert|]. clear -Nbn. set_solver.
    + cbn [dn_branches]. eapply dl_at_keeps; [|exact Hb2]. eapply keeps_trans; [|by eapply keeps_untouched]. by eapply keeps_insert.
    + cbn [d_insert d_cs]. apply (F2_insert (crel (S d) _)); [apply crel_key|by eapply crel_mono|]. split; [done|]. by exists (Some b).
Qed.
Lemma dt_insert_wp N d h p t nm ls v : enough fuel N -> droot (S d) h p t -> wf N (S d) t -> nm_c nm = wire ls -> Forall good_label ls -> length ls <= d ->
  wp (dt_insert fuel p nm v) h ∅ (fun r h' _ => h ⊆ h' /\ drep (S d) h' r (d_insert t ls v)).
Proof.
  intros Hf Hp Hwf Hnm Hg Hd. unfold dt_insert. apply wp_cow0. apply wp_bind.
  assert (Hcopy : wp (dt_copy p) h ∅ (fun r h' W' => exists a nn l, r = Some a /\ h !! a = None /\ h' = <[a := CDom nn]> h /\ W' = {[a]} ∪ ∅ /\
      dval nn = d_val t /\ dl_at h (dn_branches nn) l /\ Forall2 (crel d h) l (d_cs t))).
  { destruct Hp as [[-> ->]|(b & nn & l & -> & Hb & Hv & Hl & Hc)]; unfold dt_copy.
    - unfold dt_new. apply wp_bind, wp_alloc. intros a Ha. cbn [wp]. exists a, (DomN None false VNil), []. split_and!; try done; constructor.
    - apply wp_bind. eapply wp_ld_dom; [exact Hb|]. apply wp_bind, wp_alloc. intros a Ha. cbn [wp]. exists a, nn, l. by split_and!. }
  eapply wp_mono; [exact Hcopy|]. cbn beta. intros r h1 W1 (a & nn & l & -> & Ha & -> & -> & Hv & Hl & Hc).
  assert (Hw : wp (x <- visit (dt_insert_step fuel) ls (Some a) ;; set_has x.1 true ;;; set_dval x.1 v) (<[a:=CDom nn]> h) {[a]}
     (fun _ h' _ => h ⊆ h' /\ drep (S d) h' (Some a) (d_insert t ls v))).
  { apply (insert_loop_wp N v Hf ls d h _ a nn l t); try done; [by apply insert_subseteq|by rewrite lookup_insert]. }
  apply wp_bind_inv in Hw.
  apply wp_bind. eapply wp_get_labels; [exact Hnm|exact Hg|]. eapply wp_mono.
  { eapply wp_weaken_W; [exact Hw|]. clear; set_solver. }
  cbn beta. intros x h2 W2 (W3 & Hx & HW & _). apply wp_bind_inv in Hx. apply wp_bind. eapply wp_mono; [eapply wp_weaken_W; [exact Hx|exact HW]|].
  cbn beta. intros _ h3 W4 (W5 & Hx2 & HW2 & _). apply wp_bind. eapply wp_mono; [eapply wp_weaken_W; [exact Hx2|exact HW2]|].
  cbn beta. intros _ h4 W6 (W7 & [_ Hd4] & _). cbn [wp]. done.
Qed.
End sim.
