(** * Proofs for Properties_derive_chan.v *)
From Verif Require Import Prog History NumModel IpModel IpSpec IpHist IpVersSpec IpVersProofs Channel IpDeriveModel IpDeriveSpec IpDeriveProofs ChanDeriveModel.
From Verif Require ChanUpdModel ChanUpdProofs.
From Verif Require Import CallProofs ChanUpdProps.
Import ChanUpdProofs(cell_like, cell_like_refl, cell_like_trans, blind, gblind, bl_skip, bl_fail, bl_load, bl_send, bl_seq, gb_ret, gb_end, gb_do, gblind_bstep, ro, ro_ret, ro_fail, ro_load, ro_bind, ro_ld_num, ro_ld_ip, ro_find, ro_same, blind_n_ptrs, n_ptrs_den, ptrs_first).
Open Scope nat_scope.

(** ** Memories in which only values of radix nodes changed, and cells were added. *)
Definition lext {U} (h h' : heap U) : Prop := forall l c, h !! l = Some c -> exists c', h' !! l = Some c' /\ cell_like c' c.
Lemma lext_refl {U} (h : heap U) : lext h h.
Proof. intros l c E. exists c. split; [done|apply cell_like_refl]. Qed.
Lemma lext_trans {U} (h1 h2 h3 : heap U) : lext h1 h2 -> lext h2 h3 -> lext h1 h3.
Proof. intros H1 H2 l c E. destruct (H1 l c E) as (c1 & E1 & L1). destruct (H2 l c1 E1) as (c2 & E2 & L2). exists c2. split; [done|by eapply cell_like_trans]. Qed.
Lemma lext_new {U} (h h' : heap U) l c : lext h h' -> h !! l = None -> lext h (<[l := c]> h').
Proof. intros H Hn l0 c0 E. destruct (decide (l = l0)) as [<-|Hne]; [congruence|]. rewrite lookup_insert_ne by done. by apply H. Qed.
Lemma lext_fresh {U} (h h' : heap U) l : lext h h' -> h' !! l = None -> h !! l = None.
Proof. intros H E. destruct (h !! l) as [c|] eqn:E0; [|done]. destruct (H l c E0) as (c' & E1 & _). congruence. Qed.
Lemma lext_same {U} (h : heap U) l c c' : h !! l = Some c -> cell_like c' c -> lext h (<[l := c']> h).
Proof.
  intros E Hc l0 c0 E0. destruct (decide (l = l0)) as [<-|Hne].
  - rewrite lookup_insert. exists c'. split; [done|]. congruence.
  - rewrite lookup_insert_ne by done. exists c0. split; [done|apply cell_like_refl].
Qed.
Lemma lext_empty {U} (h : heap U) : lext ∅ h.
Proof. intros l c E. by rewrite lookup_empty in E. Qed.

(** ** Senders see no difference. *)
Section senders.
Context {U : Type}.
Local Notation gor := (gor U loc).
Implicit Types (h : heap U) (g : gor).
Lemma den_ext h0 h (s : stmt U loc) ms : blind s -> lext h0 h -> den h0 s = Some ms -> den h s = Some ms.
Proof.
  intros Hb Hl. revert ms. induction Hb as [| |l k Hk Hb IH|m|a b Ha IHa Hb IHb]; intros ms; cbn [den]; try done.
  - destruct (h0 !! l) as [c|] eqn:E; [|done]. destruct (Hl l c E) as (c' & E' & Hc). rewrite E', (Hk _ _ Hc). apply IH.
  - intros (x & y & E1 & E2 & ->)%oapp_some. by rewrite (IHa _ E1), (IHb _ E2).
Qed.
Lemma step_back h0 h g o g' L : gblind g -> lext h0 h -> rem h0 g = Some L -> gstep h g o g' -> gstep h0 g o g' /\ gblind g'.
Proof.
  intros Hg Hl HL H. inversion H; subst; try (by inversion Hg).
  - inversion Hg; subst. split; [constructor|done].
  - inversion Hg as [| |s0 g1 Hb Hg1]; subst. inversion Hb as [| |l1 k1 Hk Hb1| |]; subst. cbn [rem den] in HL. apply oapp_some in HL as (x & y & E1 & _ & _).
    destruct (h0 !! l) as [c0|] eqn:E0; [|done]. destruct (Hl l c0 E0) as (c1 & E & Hc). assert (c1 = c) by congruence. subst c1. rewrite (Hk c c0 Hc). split; [by constructor|]. by constructor.
  - inversion Hg; subst. split; [constructor|done].
  - inversion Hg as [| |s0 g1 Hb Hg1]; subst. inversion Hb; subst. split; [constructor|]. constructor; [done|]. by constructor.
  - inversion Hg as [| |s0 g1 Hb Hg1]; subst. inversion Hb.
  - split; [constructor|constructor].
  - by apply gblind_bstep in H0.
Qed.
Lemma step_forth h0 h g o g' : gblind g -> lext h0 h -> gstep h0 g o g' -> gstep h g o g'.
Proof.
  intros Hg Hl H. destruct H as [g|l k c g E|m g|a b g|p body g|c m c' body g Hc|body g| |g g' Hb]; try (by inversion Hg); try (by constructor).
  - inversion Hg as [| |s0 g1 Hb Hg1]; subst. inversion Hb as [| |l1 k1 Hk Hb1| |]; subst. destruct (Hl l c E) as (c1 & E1 & Hc). rewrite <- (Hk c1 c Hc). by constructor.
  - by apply gblind_bstep in Hb.
Qed.
End senders.

(** ** What remains to be done if nothing is interleaved. The frames have the nodes still
    to be received, and the memory at the time their goroutine was started. *)
Section seq.
Context {U S R : Type}.
Local Notation heap := (heap U).
Local Notation act := (act U S R).
Local Notation main := (main U S R).
Local Notation frame := (frame U S R).
Variable al : heap -> loc -> Prop.
Variable Q : R -> heap -> Prop.
Record aframe := AF { af_heap : heap; af_ms : list loc; af_body : S -> loc -> act; af_k : S -> act }.
Definition cur (afs : list aframe) : heap := match afs with [] => ∅ | f :: _ => af_heap f end.
Inductive ag : heap -> main -> list aframe -> Prop :=
| ag_end h r : Q r h -> ag h (MRun (AEnd r)) []
| ag_alloc h c k afs : (forall l, al h l -> ag (<[l := c]> h) (MRun (k l)) afs) -> ag h (MRun (AAlloc c k)) afs
| ag_load h l c k afs : h !! l = Some c -> ag h (MRun (k c)) afs -> ag h (MRun (ALoad l k)) afs
| ag_store h l c k afs : is_Some (h !! l) -> lext (cur afs) (<[l := c]> h) -> ag (<[l := c]> h) (MRun k) afs -> ag h (MRun (AStore l c k)) afs
| ag_range h p drop s body k ms afs : blind p -> den h p = Some ms ->
    ag h (match drop with Some l => MTest l s | None => MRun (ARet s) end) (AF h ms body k :: afs) -> ag h (MRun (ARange p drop s body k)) afs
| ag_test h l s n afs : h !! l = Some (CNum n) -> ag h (if nn_leaf n then MDrop s else MRun (ARet s)) afs -> ag h (MTest l s) afs
| ag_drop h s hp m ms body k afs : ag h (MRun (ARet s)) (AF hp ms body k :: afs) -> ag h (MDrop s) (AF hp (m :: ms) body k :: afs)
| ag_recv h s hp m ms body k afs : ag h (MRun (body s m)) (AF hp ms body k :: afs) -> ag h (MRun (ARet s)) (AF hp (m :: ms) body k :: afs)
| ag_closed h s hp body k afs : ag h (MRun (k s)) afs -> ag h (MRun (ARet s)) (AF hp [] body k :: afs).

Inductive inv : heap -> list frame -> list aframe -> Prop :=
| inv_nil h : inv h [] []
| inv_cons h hp c ms body k fs afs : lext hp h -> gblind c -> rem hp c = Some ms -> inv hp fs afs -> inv h (Frame c body k :: fs) (AF hp ms body k :: afs).
Lemma inv_cur h fs afs : inv h fs afs -> lext (cur afs) h.
Proof. inversion 1; subst; [apply lext_empty|done]. Qed.
Lemma inv_ext h h' fs afs : inv h fs afs -> lext (cur afs) h' -> inv h' fs afs.
Proof. inversion 1; subst; intros Hl; constructor; done. Qed.
Fixpoint msum (fs : list frame) (afs : list aframe) : nat :=
  match fs, afs with Frame c _ _ :: fs, f :: afs => meas (af_heap f) c + msum fs afs | _, _ => 0 end.
Lemma inv_other h c c' body k fs2 fs1 : forall hc afs, lext hc h -> inv hc (fs1 ++ Frame c body k :: fs2) afs -> gstep h c None c' ->
  inv hc (fs1 ++ Frame c' body k :: fs2) afs /\ msum (fs1 ++ Frame c' body k :: fs2) afs < msum (fs1 ++ Frame c body k :: fs2) afs.
Proof.
  induction fs1 as [|[c1 b1 k1] fs1 IH]; intros hc afs Hl Hi Hg; cbn [app] in *.
  - inversion Hi as [|? hp ? ms ? ? ? afs0 L1 B1 R1 I1]; subst. destruct (step_back hp h c None c' ms B1 (lext_trans _ _ _ L1 Hl) R1 Hg) as [Hg' B'].
    destruct (proj1 (steps_ok hp) _ _ _ Hg' _ R1) as [R' M']. split; [by constructor|]. cbn [msum af_heap]. lia.
  - inversion Hi as [|? hp ? ms ? ? ? afs0 L1 B1 R1 I1]; subst. destruct (IH hp afs0 (lext_trans _ _ _ L1 Hl) I1 Hg) as [I' M']. split; [by constructor|]. cbn [msum af_heap]. lia.
Qed.
Lemma inv_reads h fs afs : inv h fs afs -> forall p l g body k, Frame (GDo (SLoad l p) g) body k ∈ fs ->
  (exists n, cur afs !! l = Some (CNum n)) /\ forall c c', cell_like c c' -> p c = p c'.
Proof.
  induction 1 as [h|h hp c ms body k fs afs Hl Hb Hr Hi IH]; intros p l g b0 k0 Hin; [by apply elem_of_nil in Hin|]. cbn [cur af_heap]. apply elem_of_cons in Hin as [E|Hin].
  - injection E as <- <- <-. inversion Hb as [| |s0 g1 Hs Hg1]; subst. inversion Hs as [| |l1 k1 Hk Hb1 Hn| |]; subst. split; [|exact Hk]. cbn [rem den] in Hr. apply oapp_some in Hr as (x & y & E1 & _ & _).
    destruct (hp !! l) as [c0|] eqn:E0; [|done]. destruct c0 as [|n| | | |]; [| by exists n| | | |]; rewrite Hn in E1 by done; done.
  - destruct (IH _ _ _ _ _ Hin) as [[n E] Hp]. split; [|exact Hp]. destruct (inv_cur _ _ _ Hi l _ E) as (c' & E' & Hc). destruct c' as [|n'| | | |]; try done. by exists n'.
Qed.
Lemma no_race_store h l c k fs afs : is_Some (h !! l) -> lext (cur afs) (<[l := c]> h) -> inv h fs afs -> no_race (h, MRun (AStore l c k), fs).
Proof.
  intros [c1 E1] Hl Hi h0 l0 c0 k0 fs0 p g body k' [= <- <- <- <- <-] Hin. destruct (inv_reads _ _ _ Hi _ _ _ _ _ Hin) as [[n E] Hp].
  destruct (inv_cur _ _ _ Hi l _ E) as (c2 & E2 & L2). destruct (Hl l _ E) as (c3 & E3 & L3). rewrite lookup_insert in E3. injection E3 as <-.
  destruct c2 as [|n2| | | |]; try done. destruct c as [|n3| | | |]; try done. cbn [cell_like] in L2, L3. exists n2, (nn_val n3). split; [done|]. split.
  - destruct n2, n3, n; cbn in *. unfold set_val. cbn. destruct L2 as (? & ? & ? & ? & ?), L3 as (? & ? & ? & ? & ?). congruence.
  - intros w. apply Hp. done.
Qed.
Lemma ag_always h m afs : allocator al -> ag h m afs -> forall fs, inv h fs afs -> always al no_race Q (h, m, fs).
Proof.
  intros [Hal Hfree].
  induction 1 as [h r HQ|h c k afs H IH|h l c k afs E H IH|h l c k afs E Hl H IH|h p drop s body k ms afs Hb Hd H IH|h l s n afs E H IH|h s hp m ms body k afs H IH|h s hp m ms body k afs H IH|h s hp body k afs H IH];
    intros fs Hi; try (inversion Hi; subst; by apply al_end).
  all: remember (msum fs ltac:(match type of Hi with inv _ _ ?a => exact a end)) as M eqn:EM; revert fs Hi EM; induction (lt_wf M) as [M _ IHM]; intros fs Hi EM.
  - apply al_step; [first [by eapply no_race_store|intros ? ? ? ? ? ? ? ? ? ?; done]|..].
    + destruct (Hal h) as [l0 Hl0]. eexists. by apply cs_alloc.
    + intros st Hst. inversion Hst; subst.
      * apply IH; [done|]. eapply inv_ext; [exact Hi|]. apply lext_new; [by eapply inv_cur|]. eapply lext_fresh; [by eapply inv_cur|by apply Hfree].
      * destruct (inv_other h c0 c' body k0 fs2 fs1 h afs (lext_refl h) Hi ltac:(done)) as [I' M']. by eapply IHM.
  - apply al_step; [first [by eapply no_race_store|intros ? ? ? ? ? ? ? ? ? ?; done]|..].
    + eexists. by apply cs_load.
    + intros st Hst. inversion Hst; subst.
      * assert (c0 = c) as -> by congruence. by apply IH.
      * destruct (inv_other h c0 c' body k0 fs2 fs1 h afs (lext_refl h) Hi ltac:(done)) as [I' M']. by eapply IHM.
  - apply al_step; [first [by eapply no_race_store|intros ? ? ? ? ? ? ? ? ? ?; done]|..].
    + eexists. by apply cs_store.
    + intros st Hst. inversion Hst; subst.
      * apply IH. by eapply inv_ext.
      * destruct (inv_other h c0 c' body k0 fs2 fs1 h afs (lext_refl h) Hi ltac:(done)) as [I' M']. by eapply IHM.
  - assert (Hnew : inv h (Frame (GDo p GRet) body k :: fs) (AF h ms body k :: afs)).
    { constructor; [apply lext_refl|constructor; [done|constructor]|cbn [rem]; rewrite Hd; cbn [oapp]; by rewrite app_nil_r|done]. }
    apply al_step; [first [by eapply no_race_store|intros ? ? ? ? ? ? ? ? ? ?; done]|..].
    + destruct drop; eexists; constructor.
    + intros st Hst. inversion Hst; subst.
      * by apply IH.
      * by apply IH.
      * destruct (inv_other h c c' body0 k0 fs2 fs1 h afs (lext_refl h) Hi ltac:(done)) as [I' M']. by eapply IHM.
  - apply al_step; [first [by eapply no_race_store|intros ? ? ? ? ? ? ? ? ? ?; done]|..].
    + eexists. by apply cs_test.
    + intros st Hst. inversion Hst; subst.
      * assert (n0 = n) as -> by congruence. by apply IH.
      * destruct (inv_other h c c' body k fs2 fs1 h afs (lext_refl h) Hi ltac:(done)) as [I' M']. by eapply IHM.
  - inversion Hi as [|? ? c ? ? ? fs0 ? L1 B1 R1 I1]; subst. apply al_step; [first [by eapply no_race_store|intros ? ? ? ? ? ? ? ? ? ?; done]|..].
    + destruct (progress hp c _ R1) as [->|[[c' Hg]|(m' & c' & Hg)]]; [done| |].
      * eexists. eapply (cs_other _ _ _ []). eapply step_forth; done.
      * eexists. eapply cs_drop. eapply step_forth; done.
    + intros st Hst. inversion Hst; subst.
      * match goal with Hg : gstep h c (Some _) _ |- _ => destruct (step_back hp h _ _ _ _ B1 L1 R1 Hg) as [Hg' B']; destruct (proj1 (steps_ok hp) _ _ _ Hg' _ R1) as [(L' & [= -> ->] & R') _] end. apply IH. by constructor.
      * done.
      * match goal with E : _ ++ _ = _ |- _ => rewrite <- E in * end. edestruct (inv_other h) as [I' M']; [apply lext_refl|exact Hi|done|]. by eapply IHM.
  - inversion Hi as [|? ? c ? ? ? fs0 ? L1 B1 R1 I1]; subst. apply al_step; [first [by eapply no_race_store|intros ? ? ? ? ? ? ? ? ? ?; done]|..].
    + destruct (progress hp c _ R1) as [->|[[c' Hg]|(m' & c' & Hg)]]; [done| |].
      * eexists. eapply (cs_other _ _ _ []). eapply step_forth; done.
      * eexists. eapply cs_recv. eapply step_forth; done.
    + intros st Hst. inversion Hst; subst.
      * match goal with Hg : gstep h c (Some _) _ |- _ => destruct (step_back hp h _ _ _ _ B1 L1 R1 Hg) as [Hg' B']; destruct (proj1 (steps_ok hp) _ _ _ Hg' _ R1) as [(L' & [= -> ->] & R') _] end. apply IH. by constructor.
      * done.
      * match goal with E : _ ++ _ = _ |- _ => rewrite <- E in * end. edestruct (inv_other h) as [I' M']; [apply lext_refl|exact Hi|done|]. by eapply IHM.
  - inversion Hi as [|? ? c ? ? ? fs0 ? L1 B1 R1 I1]; subst. apply al_step; [first [by eapply no_race_store|intros ? ? ? ? ? ? ? ? ? ?; done]|..].
    + destruct (progress hp c _ R1) as [->|[[c' Hg]|(m' & c' & Hg)]].
      * eexists. apply cs_closed.
      * eexists. eapply (cs_other _ _ _ []). eapply step_forth; done.
      * destruct (proj1 (steps_ok hp) _ _ _ Hg _ R1) as [(L' & ? & _) _]. done.
    + intros st Hst. inversion Hst; subst.
      * match goal with Hg : gstep h c (Some _) _ |- _ => destruct (step_back hp h _ _ _ _ B1 L1 R1 Hg) as [Hg' B']; destruct (proj1 (steps_ok hp) _ _ _ Hg' _ R1) as [(L' & ? & R') _] end. done.
      * apply IH. eapply inv_ext; [exact I1|]. eapply lext_trans; [by eapply inv_cur|done].
      * match goal with E : _ ++ _ = _ |- _ => rewrite <- E in * end. edestruct (inv_other h) as [I' M']; [apply lext_refl|exact Hi|done|]. by eapply IHM.
Qed.
End seq.
(** If the allocator leaves no choice, the end is determined. *)
Lemma ag_one {U S R} (al : heap U -> loc -> Prop) (Q : R -> heap U -> Prop) h m afs : allocator al -> (forall h l l', al h l -> al h l' -> l = l') -> ag (S := S) al Q h m afs ->
  exists r h', Q r h' /\ ag al (fun r1 h1 => r1 = r /\ h1 = h') h m afs.
Proof.
  intros [Hal _] Hone. induction 1 as [h r HQ|h c k afs H IH|h l c k afs E H IH|h l c k afs E Hl H IH|h p drop s body k ms afs Hb Hd H IH|h l s n afs E H IH|h s hp m ms body k afs H IH|h s hp m ms body k afs H IH|h s hp body k afs H IH].
  1: { exists r, h. split; [done|]. by apply ag_end. }
  1: { destruct (Hal h) as [l Hl]. destruct (IH l Hl) as (r & h' & HQ & Ha). exists r, h'. split; [done|]. apply ag_alloc. intros l' Hl'. by rewrite (Hone h l' l Hl' Hl). }
  all: destruct IH as (r & h' & HQ & Ha); exists r, h'; split; [done|].
  - by eapply ag_load.
  - by apply ag_store.
  - by eapply ag_range.
  - by eapply ag_test.
  - by apply ag_drop.
  - by apply ag_recv.
  - by apply ag_closed.
Qed.

(** ** Programs that store into nothing but what they allocate. *)
Section own.
Context {U : Type}.
Local Notation prog := (prog U).
Fixpoint own {A} (m : prog A) (W : gset loc) (Q : A -> gset loc -> Prop) : Prop :=
  match m with
  | Ret a => Q a W
  | Fail _ => True
  | Alloc c k => forall l, own (k l) ({[l]} ∪ W) Q
  | Load l k => forall c, own (k c) W Q
  | Store l c k => l ∈ W /\ own k W Q
  end.
Lemma own_mono {A} (m : prog A) : forall W (Q Q' : A -> gset loc -> Prop), (forall a W', Q a W' -> Q' a W') -> own m W Q -> own m W Q'.
Proof. induction m as [a|e|c k IH|l k IH|l c k IH]; intros W Q Q' H; cbn [own]; [apply H|done|..]; [intros Ho l; by eapply IH|intros Ho c; by eapply IH|intros [Hl Ho]; split; [done|by eapply IH]]. Qed.
Lemma own_bind {A B} (m : prog A) (f : A -> prog B) : forall W Q, own m W (fun a W' => own (f a) W' Q) -> own (bind m f) W Q.
Proof. induction m as [a|e|c k IH|l k IH|l c k IH]; intros W Q; cbn [own bind]; [done|done|..]; [intros H l; by apply IH|intros H c; by apply IH|intros [Hl H]; split; [done|by apply IH]]. Qed.
Lemma own_ro {A} (m : prog A) W (Q : A -> gset loc -> Prop) : ro m -> (forall a, Q a W) -> own m W Q.
Proof. intros Hm HQ. induction Hm as [a|e|l k Hk IH]; cbn [own]; auto. Qed.
Definition pin (p : ptr) (W : gset loc) : Prop := match p with Some l => l ∈ W | None => True end.
Lemma pin_mono p (W W' : gset loc) : W ⊆ W' -> pin p W -> pin p W'.
Proof. destruct p; [cbn; set_solver|done]. Qed.
Lemma own_st p n W (Q : unit -> gset loc -> Prop) : pin p W -> Q tt W -> own (st_num p n) W Q.
Proof. destruct p; cbn; auto. Qed.
Lemma own_chld p b x W (Q : unit -> gset loc -> Prop) : pin p W -> Q tt W -> own (set_chld p b x) W Q.
Proof. intros Hp HQ. unfold set_chld. apply own_bind. apply own_ro; [apply ro_ld_num|]. intros n. by apply own_st. Qed.
Lemma own_new k b lf v W (Q : ptr -> gset loc -> Prop) : (forall l, Q (Some l) ({[l]} ∪ W)) -> own (new_node k b lf v) W Q.
Proof. intros H. cbn. exact H. Qed.
Lemma ro_mask c b : ro (mask (U := U) c b).
Proof. unfold mask. destruct (nth_error _ _); constructor. Qed.
Lemma ro_ncsb c k1 b1 k2 b2 : ro (ncsb (U := U) c k1 b1 k2 b2).
Proof. unfold ncsb. apply ro_bind; [apply ro_mask|]. intros. apply ro_bind; [apply ro_mask|]. intros. constructor. Qed.
Lemma ro_n_exact c p k b : ro (n_exact (U := U) c p k b).
Proof. unfold n_exact. apply ro_bind; [apply ro_find|]. intros [l|]; [|constructor]. apply ro_bind; [apply ro_ld_num|]. intros. constructor. Qed.
Lemma own_insert_ c fuel : forall n cand W, pin cand W -> own (insert_ (U := U) c fuel n cand) W (fun _ W' => W ⊆ W').
Proof.
  induction fuel as [|fuel IH]; intros n cand W Hp; cbn [insert_]; [done|]. destruct n as [l0|]; [|cbn; set_solver].
  apply own_bind, own_ro; [apply ro_ld_num|]. intros nn. apply own_bind, own_ro; [apply ro_ld_num|]. intros cn. apply own_bind, own_ro; [apply ro_ncsb|]. intros bits.
  destruct (bits <? nn_bits nn)%N; [destruct (bits =? nn_bits cn)%N|destruct (nn_bits cn =? nn_bits nn)%N].
  - apply own_bind, own_chld; [done|]. cbn [own]. set_solver.
  - apply own_bind, own_ro; [apply ro_mask|]. intros mk. apply own_bind, own_new. intros m. apply own_bind, own_chld; [cbn; set_solver|]. apply own_bind, own_chld; [cbn; set_solver|]. cbn. set_solver.
  - apply own_bind, own_st; [done|]. cbn [own]. set_solver.
  - apply own_bind, own_new. intros m. apply own_bind, own_ro; [apply ro_ld_num|]. intros mn. apply own_bind, own_st; [cbn; set_solver|]. apply own_bind, own_ro; [apply ro_ld_num|]. intros mn2.
    apply own_bind. eapply own_mono; [|apply IH; eapply pin_mono; [|exact Hp]; set_solver]. cbn beta. intros x W' HW'. apply own_bind, own_chld; [cbn; set_solver|]. cbn. set_solver.
Qed.
Lemma own_insert c n key bits v W : own (n_insert (U := U) c n key bits v) W (fun _ W' => W ⊆ W').
Proof. unfold n_insert. apply own_bind, own_new. intros l. eapply own_mono; [|apply own_insert_; cbn; set_solver]. cbn beta. set_solver. Qed.
Lemma own_del_ c fuel : forall n key bits W, own (del_ (U := U) c fuel n key bits) W (fun _ W' => W ⊆ W').
Proof.
  induction fuel as [|fuel IH]; intros n key bits W; cbn [del_]; [done|]. apply own_bind, own_ro; [apply ro_ld_num|]. intros nn. destruct (bits <=? nn_bits nn)%N.
  - apply own_bind, own_ro; [apply ro_same|]. intros []; cbn [own]; set_solver.
  - apply own_bind, own_ro; [apply ro_same|]. intros []; cbn [negb]; [|cbn; set_solver]. destruct (chld nn _) as [x|]; [|cbn; set_solver]. apply own_bind. eapply own_mono; [|apply IH]. cbn beta. intros [ch ok] W' HW'. destruct ok; cbn [negb]; [|cbn; set_solver].
    destruct (match ch with None => negb (nn_leaf nn) | Some _ => false end); [cbn; set_solver|]. apply own_bind, own_new. intros m. apply own_bind, own_ro; [apply ro_ld_num|]. intros mn. apply own_bind, own_st; [cbn; set_solver|]. apply own_bind, own_chld; [cbn; set_solver|]. cbn. set_solver.
Qed.
Lemma own_delete c n key bits W : own (n_delete (U := U) c n key bits) W (fun _ W' => W ⊆ W').
Proof. destruct n; [apply own_del_|cbn; set_solver]. Qed.
Lemma ro_as_sub (v : value U) : ro (as_sub v).
Proof. destruct v; constructor. Qed.
Lemma own_ip_insert t n v W : own (ip_insert_net (U := U) t n v) W (fun _ _ => True).
Proof.
  unfold ip_insert_net. destruct n as [n|]; [|done]. assert (Hr : ro (ip_roots (U := U) t)) by (destruct t; [apply ro_ld_ip|constructor]). destruct (ip4_key n) as [[key bits]|].
  - apply own_bind, own_ro; [done|]. intros r. apply own_bind. eapply own_mono; [|apply own_insert]. cbn beta. intros x W' _. by cbn.
  - destruct (ip6_key n) as [[[[mskey msbits] lskey] lsbits]|]; [|done]. apply own_bind, own_ro; [done|]. intros r. destruct (msbits <? 64)%N.
    + apply own_bind. eapply own_mono; [|apply own_insert]. cbn beta. intros x W' _. by cbn.
    + apply own_bind, own_ro; [apply ro_n_exact|]. intros e. apply own_bind, own_ro; [destruct e.2; [apply ro_as_sub|constructor]|]. intros s. apply own_bind. eapply own_mono; [|apply own_insert]. cbn beta. intros s' W' _.
      apply own_bind. eapply own_mono; [|apply own_insert]. cbn beta. intros x W2 _. by cbn.
Qed.
Lemma own_ip_delete t n W : own (ip_delete_net (U := U) t n) W (fun _ _ => True).
Proof.
  unfold ip_delete_net. destruct t as [t|], n as [n|]; try done. apply own_bind, own_ro; [apply ro_ld_ip|]. intros r. destruct (ip4_key n) as [[key bits]|].
  - apply own_bind. eapply own_mono; [|apply own_delete]. cbn beta. intros [x []] W' _; by cbn.
  - destruct (ip6_key n) as [[[[mskey msbits] lskey] lsbits]|]; [|done]. destruct (msbits <? 64)%N.
    + apply own_bind. eapply own_mono; [|apply own_delete]. cbn beta. intros [x []] W' _; by cbn.
    + apply own_bind, own_ro; [apply ro_n_exact|]. intros [e []]; cbn [fst snd]; [|done]. apply own_bind, own_ro; [apply ro_as_sub|]. intros s. apply own_bind. eapply own_mono; [|apply own_delete]. cbn beta. intros [x []] W' _; cbn [fst snd]; [|done].
      destruct x as [x|]; apply own_bind.
      * eapply own_mono; [|apply own_insert]. cbn beta. intros y W2 _. by cbn.
      * apply own_bind. eapply own_mono; [|apply own_delete]. cbn beta. intros y W2 _. by cbn.
Qed.
(** With the memory. *)
Fixpoint conf {A} (m : prog A) (h : heap U) (W : gset loc) : Prop :=
  match m with
  | Ret _ | Fail _ => True
  | Alloc c k => forall l, h !! l = None -> conf (k l) (<[l := c]> h) ({[l]} ∪ W)
  | Load l k => forall c, h !! l = Some c -> conf (k c) h W
  | Store l c k => l ∈ W /\ conf k (<[l := c]> h) W
  end.
Lemma own_conf {A} (m : prog A) : forall h W Q, own m W Q -> conf m h W.
Proof. induction m as [a|e|c k IH|l k IH|l c k IH]; intros h W Q; cbn [own conf]; try done; [intros H l _; by eapply IH|intros H c _; by eapply IH|intros [H1 H2]; split; [done|by eapply IH]]. Qed.
Lemma wp_conf {A} (m : prog A) : forall h W Q, wp m h W Q -> conf m h W.
Proof. induction m as [a|e|c k IH|l k IH|l c k IH]; intros h W Q; cbn [wp conf]; try done; [intros H l Hl; eapply IH; by apply H|intros (c & E & H) c' E'; assert (c' = c) as -> by congruence; by eapply IH|intros (H1 & _ & H2); split; [done|by eapply IH]]. Qed.
Lemma conf_bind {A B} (m : prog A) (f : A -> prog B) : forall h W, conf m h W -> (forall a h W, conf (f a) h W) -> conf (bind m f) h W.
Proof. induction m as [a|e|c k IH|l k IH|l c k IH]; intros h W; cbn [bind conf]; auto. intros [H1 H2] Hf. auto. Qed.
Lemma exec_conf vs o (h : heap U) : iop_ok o -> conf (ip_exec vs o) h ∅.
Proof.
  intros Ho. destruct o as [items|i k v|i k|i k|i]; cbn [ip_exec].
  - assert (exists items', Forall2 (fun (x : ikey * value U) y => ikey_is x.1 y.1 /\ x.2 = y.2) items items') as [items' Hi] by (pose proof (resolve_op_ok (IBuild items)) as Hr; inversion Hr; subst; by eexists). eapply wp_conf with (Q := fun _ _ _ => True). pose proof (ip_build_wp h items items' Hi Ho) as Hw.
    apply wp_bind_inv in Hw. apply wp_bind. eapply wp_mono; [exact Hw|]. cbn beta. intros n h1 W1 H1. apply wp_bind_inv in H1. apply wp_bind. eapply wp_mono; [exact H1|]. done.
  - apply conf_bind; [|done]. rewrite insert_key_eq. eapply own_conf, own_ip_insert.
  - apply conf_bind; [|done]. rewrite delete_key_eq. eapply own_conf, own_ip_delete.
  - apply conf_bind; [|done]. apply own_conf with (Q := fun _ _ => True). apply own_ro; [apply ro_ip_get|done].
  - apply conf_bind; [|done]. apply own_conf with (Q := fun _ _ => True). apply own_ro; [apply ro_ip_enum|done].
Qed.
End own.

(** ** The sequential programs as parts of the machine. *)
Section link.
Context {U S R : Type}.
Local Notation heap := (heap U).
Local Notation act := (act U S R).
Local Notation aframe := (aframe (U := U) (S := S) (R := R)).
Variable al : heap -> loc -> Prop.
Hypothesis Hfree : forall h l, al h l -> h !! l = None.
Variable QR : R -> heap -> Prop.
Local Notation ag := (ag al QR).
Implicit Types (h : heap) (afs : list aframe).
Lemma ag_ado {A} (m : prog U A) (k : A -> act) afs h0 : lext (cur afs) h0 -> forall h W1 W2 Q, lext h0 h -> (forall l, l ∈ W1 -> h0 !! l = None) -> conf m h W1 -> wp m h W2 Q ->
  (forall a h' W', lext h0 h' -> Q a h' W' -> ag h' (MRun (k a)) afs) -> ag h (MRun (ado m k)) afs.
Proof.
  intros Hc. induction m as [a|e|c f IH|l f IH|l c f IH]; intros h W1 W2 Q Hl HW Hm Hw Hk; cbn [ado conf wp] in *.
  - by eapply Hk.
  - done.
  - apply ag_alloc. intros l Hn%Hfree. assert (h0 !! l = None) by (by eapply lext_fresh). eapply IH; [by apply lext_new| |by apply Hm|by apply Hw|exact Hk]. intros l' [->%elem_of_singleton|H']%elem_of_union; [done|by apply HW].
  - destruct Hw as (c & E & Hw). eapply ag_load; [exact E|]. eapply IH; [exact Hl|exact HW|by apply Hm|exact Hw|exact Hk].
  - destruct Hw as (_ & Hs & Hw). destruct Hm as [Hin Hm]. assert (lext h0 (<[l := c]> h)) by (apply lext_new; [done|by apply HW]). apply ag_store; [done|by eapply lext_trans|]. eapply IH; [done|exact HW|exact Hm|exact Hw|exact Hk].
Qed.
Lemma ag_ro {A} (m : prog U A) (k : A -> act) afs h W Q : ro m -> wp m h W Q -> (forall a, Q a h W -> ag h (MRun (k a)) afs) -> ag h (MRun (ado m k)) afs.
Proof.
  intros Hm. induction Hm as [a|e|l f Hf IH]; cbn [ado wp]; intros Hw Hk; [by apply Hk|done|]. destruct Hw as (c & E & Hw). eapply ag_load; [exact E|]. by apply IH.
Qed.
(** At the top no loop is under way: every store is allowed. *)
Lemma ag_ado_top {A} (m : prog U A) (k : A -> act) : forall h W Q, wp m h W Q -> (forall a h' W', Q a h' W' -> ag h' (MRun (k a)) []) -> ag h (MRun (ado m k)) [].
Proof.
  induction m as [a|e|c f IH|l f IH|l c f IH]; intros h W Q Hw Hk; cbn [ado wp] in *.
  - by eapply Hk.
  - done.
  - apply ag_alloc. intros l Hn%Hfree. eapply IH; [by apply Hw|exact Hk].
  - destruct Hw as (c & E & Hw). eapply ag_load; [exact E|]. by eapply IH.
  - destruct Hw as (_ & Hs & Hw). apply ag_store; [done|apply lext_empty|]. by eapply IH.
Qed.
(** [a], with what comes after it, does what [m] does. *)
Definition does (a : (S -> act) -> act) (m : prog U S) : Prop := forall h W Q afs k, lext (cur afs) h -> wp m h W Q ->
  (forall s h' W', lext h h' -> Q s h' W' -> ag h' (MRun (k s)) afs) -> ag h (MRun (a k)) afs.
Lemma does_ret s : does (fun k => k s) (Ret s).
Proof. intros h W Q afs k Hc Hw Hk. eapply Hk; [apply lext_refl|exact Hw]. Qed.
Lemma does_ro {A} (m : prog U A) (a : A -> (S -> act) -> act) f : ro m -> (forall x, does (a x) (f x)) -> does (fun k => ado m (fun x => a x k)) (x <- m ;; f x).
Proof. intros Hm Ha h W Q afs k Hc Hw Hk. apply wp_bind_inv in Hw. eapply ag_ro; [exact Hm|exact Hw|]. cbn beta. intros x Hx. by eapply Ha. Qed.
Lemma does_wp a m m' : (forall h W Q, wp m' h W Q -> wp m h W Q) -> does a m -> does a m'.
Proof. intros Hm Ha h W Q afs k Hc Hw Hk. eapply Ha; [exact Hc|by apply Hm|exact Hk]. Qed.
Lemma loop_ok hp (bk : S -> loc -> (S -> act) -> act) (f : S -> loc -> prog U S) (F : S -> list loc -> prog U S) :
  (forall s, F s [] = Ret s) -> (forall s l ls h W Q, wp (F s (l :: ls)) h W Q -> wp (s <- f s l ;; F s ls) h W Q) -> (forall s l, does (bk s l) (f s l)) ->
  forall ms s h W Q afs k, lext hp h -> wp (F s ms) h W Q -> (forall s h' W', lext h h' -> Q s h' W' -> ag h' (MRun (k s)) afs) ->
  ag h (MRun (ARet s)) (AF hp ms (fun s l => bk s l ARet) k :: afs).
Proof.
  intros H0 H1 Hb. induction ms as [|m ms IH]; intros s h W Q afs k Hl Hw Hk.
  - rewrite H0 in Hw. apply ag_closed. eapply Hk; [apply lext_refl|exact Hw].
  - apply H1, wp_bind_inv in Hw. apply ag_recv. eapply (Hb s m); [exact Hl|exact Hw|]. cbn beta. intros s1 h1 W1 L1 Hw1. eapply IH; [by eapply lext_trans|exact Hw1|]. intros s2 h2 W2 L2. apply Hk. by eapply lext_trans.
Qed.
Lemma does_all c p s (bk : S -> loc -> (S -> act) -> act) (f : S -> loc -> prog U S) (F : S -> list loc -> prog U S) :
  (forall s, F s [] = Ret s) -> (forall s l ls h W Q, wp (F s (l :: ls)) h W Q -> wp (s <- f s l ;; F s ls) h W Q) -> (forall s l, does (bk s l) (f s l)) ->
  does (fun k => ARange (ChanUpdModel.s_n_ptrs c p) None s (fun s l => bk s l ARet) k) (xs <- n_enumerate c p ;; F s (map fst xs)).
Proof.
  intros H0 H1 Hb h W Q afs k Hc Hw Hk. apply wp_bind_inv in Hw. destruct (n_ptrs_den _ _ _ _ _ Hw) as (e & Ee & H2).
  eapply ag_range; [apply blind_n_ptrs|exact Ee|]. eapply loop_ok; [exact H0|exact H1|exact Hb|apply lext_refl|exact H2|exact Hk].
Qed.
Lemma does_below c l s (bk : S -> loc -> (S -> act) -> act) (f : S -> loc -> prog U S) (F : S -> list loc -> prog U S) :
  (forall s, F s [] = Ret s) -> (forall s l ls h W Q, wp (F s (l :: ls)) h W Q -> wp (s <- f s l ;; F s ls) h W Q) -> (forall s l, does (bk s l) (f s l)) ->
  does (fun k => ARange (ChanUpdModel.s_n_ptrs c (Some l)) (Some l) s (fun s l => bk s l ARet) k) (ls <- below c (Some l) ;; F s ls).
Proof.
  intros H0 H1 Hb h W Q afs k Hc Hw Hk. unfold below in Hw. apply wp_bind_inv, wp_bind_inv in Hw.
  destruct (n_ptrs_den _ _ _ _ _ Hw) as (e & Ee & H2). apply wp_bind_inv in H2. cbn [ld_num load bind wp] in H2.
  destruct H2 as (cc & E & H2). destruct cc as [|nn| | | |]; try (cbn in H2; done). cbn [bind wp] in H2.
  eapply ag_range; [apply blind_n_ptrs|exact Ee|]. eapply ag_test; [exact E|]. destruct (nn_leaf nn) eqn:Ef.
  - pose proof (ptrs_first _ _ _ _ _ E Ef Ee) as Hne. destruct e as [|x e]; [done|]. cbn [map]. apply ag_drop. eapply loop_ok; [exact H0|exact H1|exact Hb|apply lext_refl|exact H2|exact Hk].
  - eapply loop_ok; [exact H0|exact H1|exact Hb|apply lext_refl|exact H2|exact Hk].
Qed.

Section cb.
Variable cb : S -> pair_ (U := U) -> prog U (S * option (value U)).
Variable cbk : S -> pair_ (U := U) -> (S -> option (value U) -> act) -> act.
Definition does_cb (m : prog U (S * option (value U))) (a : (S -> option (value U) -> act) -> act) : Prop := forall h W Q afs k, lext (cur afs) h -> wp m h W Q ->
  (forall y h' W', lext h h' -> Q y h' W' -> ag h' (MRun (k y.1 y.2)) afs) -> ag h (MRun (a k)) afs.
Hypothesis Hcb : forall s x, does_cb (cb s x) (cbk s x).
Lemma does_node mk s l : does (c_node cbk mk s l) (upd_node cb mk s l).
Proof using Hcb.
  intros h W Q afs k Hc Hw Hk. unfold c_node, upd_node in *. apply wp_bind_inv in Hw. cbn [ld_num load bind wp ado] in Hw |- *. destruct Hw as (c & E & Hw).
  eapply ag_load; [exact E|]. destruct c as [|nn| | | |]; try (cbn in Hw; done). cbn [bind wp ado] in *. apply wp_bind_inv in Hw. eapply (Hcb s (mk nn)); [exact Hc|exact Hw|]. cbn beta. intros [s1 r] h1 W1 L1 Hw1. cbn [fst snd].
  destruct r as [v|]; [|cbn [wp] in Hw1; by eapply Hk]. destruct (L1 _ _ E) as ([|n1| | | |] & E1 & Hc1); try done. cbn [st_num store bind wp] in Hw1. destruct Hw1 as (_ & _ & Hw1).
  cbn [ld_num load bind ado]. eapply ag_load; [exact E1|]. cbn [st_num store bind ado]. cbn [cell_like] in Hc1. destruct Hc1 as (C1 & C2 & C3 & C4 & C5). rewrite C1, C2, C3, C4, C5.
  assert (L2 : lext h1 (<[l := CNum (NumN (nn_key nn) (nn_bits nn) (nn_leaf nn) v (nn_c0 nn) (nn_c1 nn))]> h1)) by (eapply lext_same; [exact E1|done]).
  apply ag_store; [by eexists|eapply lext_trans; [exact Hc|by eapply lext_trans]|]. eapply Hk; [by eapply lext_trans|exact Hw1].
Qed.
Definition top_step (s : S) (l : loc) : prog U S :=
  nn <- ld_num (Some l) ;;
  match nn_val nn with
  | VSub p => xs <- n_enumerate c64 p ;; upd_list cb (pair6s (msip nn)) s (map fst xs)
  | _ => upd_node cb pair6 s l
  end.
Lemma does_top s l : does (c_top cbk s l) (top_step s l).
Proof using Hcb.
  unfold c_top, top_step. apply (does_ro _ (fun nn k => match nn_val nn with VSub p => ARange (ChanUpdModel.s_n_ptrs c64 p) None s (fun s l => c_node cbk (pair6s (msip nn)) s l ARet) k | _ => c_node cbk pair6 s l k end)); [apply ro_ld_num|]. intros nn. destruct (nn_val nn); try apply does_node.
  apply (does_all c64 p s (c_node cbk (pair6s (msip nn))) (upd_node cb (pair6s (msip nn))) (upd_list cb (pair6s (msip nn)))); [done|done|]. intros. apply does_node.
Qed.
Lemma does_update t n s : does (c_update cbk t n s) (ip_update_by cb t n s).
Proof using Hcb.
  unfold c_update, ip_update_by. destruct n as [n|]; [|intros h W Q afs k Hc Hw; done].
  destruct (ip4_key n) as [[key bits]|].
  { eapply does_wp; [|apply (does_ro (r <- ld_ip t ;; n_find_node c32 r.1 key (Z.of_N bits))
      (fun target k => match target with None => k s | Some l => ARange (ChanUpdModel.s_n_ptrs c32 target) (Some l) s (fun s l => c_node cbk pair4 s l ARet) k end)
      (fun target => match target with None => Ret s | Some _ => ls <- below c32 target ;; upd_list cb pair4 s ls end))].
    - intros h W Q H. apply wp_bind, wp_bind. apply wp_bind_inv in H. eapply wp_mono; [exact H|]. cbn beta. intros a h' W' H'. by apply wp_bind_inv in H'.
    - apply ro_bind; [apply ro_ld_ip|]. intros. apply ro_find.
    - intros [l|]; [|apply does_ret]. apply (does_below c32 l s (c_node cbk pair4) (upd_node cb pair4)); [done|done|]. intros. apply does_node. }
  destruct (ip6_key n) as [[[[mskey msbits] lskey] lsbits]|]; [|apply does_ret].
  set (G := fun (target : ptr) => match target with None => Ret s | Some _ => ls <- below c64 target ;; upd_list cb (pair6s (unpack64 mskey ++ repeat x00 8)) s ls end).
  set (Gk := fun (target : ptr) (k : S -> act) => match target with None => k s | Some l => ARange (ChanUpdModel.s_n_ptrs c64 target) (Some l) s (fun s l => c_node cbk (pair6s (unpack64 mskey ++ repeat x00 8)) s l ARet) k end).
  assert (HG : forall target, does (Gk target) (G target)).
  { intros [l|]; [|apply does_ret]. apply (does_below c64 l s (c_node cbk (pair6s (unpack64 mskey ++ repeat x00 8))) (upd_node cb (pair6s (unpack64 mskey ++ repeat x00 8)))); [done|done|]. intros. apply does_node. }
  set (T := fun (l : loc) (tn : numnode U) => match nn_val tn with
          | VSub p => pn <- ld_num p ;; target <- (if (N.eqb (nn_key pn) lskey) && (N.eqb (nn_bits pn) lsbits) then Ret p else n_find_node c64 p lskey (Z.of_N lsbits)) ;; G target
          | _ => ls <- below c64 (Some l) ;; upd_top cb s ls end).
  set (Tk := fun (target : ptr) (l : loc) (tn : numnode U) (k : S -> act) => match nn_val tn with
          | VSub p => ado (pn <- ld_num p ;; if (N.eqb (nn_key pn) lskey) && (N.eqb (nn_bits pn) lsbits) then Ret p else n_find_node c64 p lskey (Z.of_N lsbits)) (fun target => Gk target k)
          | _ => ARange (ChanUpdModel.s_n_ptrs c64 target) (Some l) s (fun s l => c_top cbk s l ARet) k end).
  assert (HT : forall l tn, does (Tk (Some l) l tn) (T l tn)).
  { intros l tn. unfold Tk, T. assert (Htop : does (fun k => ARange (ChanUpdModel.s_n_ptrs c64 (Some l)) (Some l) s (fun s l => c_top cbk s l ARet) k) (ls <- below c64 (Some l) ;; upd_top cb s ls)).
    { apply (does_below c64 l s (c_top cbk) top_step); [done| |intros; apply does_top]. intros s' l' ls h W Q H. cbn [upd_top] in H. unfold top_step.
      apply wp_bind, wp_bind. apply wp_bind_inv in H. eapply wp_mono; [exact H|]. cbn beta. intros nn h' W' H'. by apply wp_bind_inv in H'. }
    destruct (nn_val tn) as [| |p|]; try exact Htop.
    eapply does_wp; [|apply (does_ro (pn <- ld_num p ;; if (N.eqb (nn_key pn) lskey) && (N.eqb (nn_bits pn) lsbits) then Ret p else n_find_node c64 p lskey (Z.of_N lsbits)) Gk G); [|exact HG]].
    - intros h W Q H. apply wp_bind, wp_bind. apply wp_bind_inv in H. eapply wp_mono; [exact H|]. cbn beta. intros a h' W' H'. by apply wp_bind_inv in H'.
    - apply ro_bind; [apply ro_ld_num|]. intros pn. destruct (_ && _); [constructor|apply ro_find]. }
  set (F := fun target : ptr => match target with None => Ret s | Some l => tn <- ld_num target ;; T l tn end).
  set (Fk := fun (target : ptr) (k : S -> act) => match target with None => k s | Some l => ado (ld_num target) (fun tn => Tk target l tn k) end).
  eapply does_wp; [|apply (does_ro (r <- ld_ip t ;; n_find_node c64 r.2 mskey (Z.of_N msbits)) Fk F)].
  - intros h W Q H. apply wp_bind, wp_bind. apply wp_bind_inv in H. eapply wp_mono; [exact H|]. cbn beta. intros r h' W' H'. apply wp_bind_inv in H'. eapply wp_mono; [exact H'|]. cbn beta. intros [l|]; [|done]. intros h2 W2 H2. exact H2.
  - apply ro_bind; [apply ro_ld_ip|]. intros. apply ro_find.
  - intros [l|]; [|apply does_ret]. unfold F, Fk. apply (does_ro (ld_num (Some l)) (Tk (Some l) l) (T l)); [apply ro_ld_num|apply HT].
Qed.
End cb.
End link.

(** ** Scripts and clients. *)
Section clients.
Context {U St R : Type}.
Local Notation S := (list ptr * St)%type.
Variable al : heap U -> loc -> Prop.
Hypothesis Hfree : forall h l, al h l -> h !! l = None.
Variable QR : R -> heap U -> Prop.
Lemma does_script m : script_ok m -> forall vs, does_cb (S := S) al QR (r <- run_script vs m ;; Ret ((r.1, r.2.1), r.2.2)) (fun k => c_script vs m k).
Proof.
  induction m as [s r|o f IH|i n cb IHcb s f IH]; cbn [script_ok]; intros Hok vs h W Q afs k Hc Hw Hk; apply wp_bind_inv in Hw; cbn [run_script c_script] in *.
  - cbn [wp fst snd] in Hw. apply (Hk ((vs, s), r) h W); [apply lext_refl|exact Hw].
  - destruct Hok as [Ho Hf]. apply wp_bind_inv in Hw. eapply (ag_ado al Hfree QR _ _ afs h Hc h ∅ W); [apply lext_refl|intros l Hl; set_solver|by apply exec_conf|exact Hw|]. cbn beta. intros x h1 W1 L1 Hw1.
    eapply (IH x.2 (Hf _) x.1); [by eapply lext_trans|apply wp_bind; exact Hw1|]. intros y h2 W2 L2. apply Hk. by eapply lext_trans.
  - destruct Hok as [Hcb Hf]. destruct (nth i vs None) as [a|]; [|eapply (IH s (Hf _) vs); [exact Hc|apply wp_bind; exact Hw|exact Hk]]. apply wp_bind_inv in Hw.
    eapply (does_update al QR (fun st x => r <- run_script st.1 (cb st.2 x) ;; Ret ((r.1, r.2.1), r.2.2)) (fun st x k => c_script st.1 (cb st.2 x) k)); [intros st x; by apply IHcb|exact Hc|exact Hw|].
    cbn beta. intros st h1 W1 L1 Hw1. eapply (IH st.2 (Hf _) st.1); [by eapply lext_trans|apply wp_bind; exact Hw1|]. intros y h2 W2 L2. apply Hk. by eapply lext_trans.
Qed.
Lemma ag_client (m : client (value U) St R) : client_ok m -> forall vs h W, wp (run_client vs m) h W (fun r h' _ => QR r.2 h') -> ag al QR h (MRun (c_client vs m)) [].
Proof.
  induction m as [a|o f IH|i n cb s f IH]; cbn [client_ok]; intros Hok vs h W Hw; cbn [run_client c_client] in *.
  - apply ag_end. exact Hw.
  - destruct Hok as [Ho Hf]. apply wp_bind_inv in Hw. eapply ag_ado_top; [exact Hfree|exact Hw|]. cbn beta. intros x h1 W1 Hw1. by eapply IH.
  - destruct Hok as [Hcb Hf]. unfold run_update in Hw. destruct (nth i vs None) as [a|]; [|cbn [bind] in Hw; by eapply IH]. apply wp_bind_inv in Hw.
    eapply (does_update al QR (fun st x => r <- run_script st.1 (cb st.2 x) ;; Ret ((r.1, r.2.1), r.2.2)) (fun st x k => c_script st.1 (cb st.2 x) k)); [intros st x; apply does_script; by apply Hcb|apply lext_empty|exact Hw|].
    cbn beta. intros st h1 W1 L1 Hw1. by eapply IH.
Qed.
End clients.
Lemma derive_ag {U St R} al (h : heap U) (m : client (value U) St R) : allocator al -> client_ok m ->
  ag al (fun r h' => h ⊆ h' /\ exists past ids gs, cruns [] [] [] m past ids gs r) h (MRun (c_client [] m)) [].
Proof. intros [_ Hfree] Hok. eapply ag_client; [done|done|]. eapply wp_mono; [by apply pf_derive|]. done. Qed.
Lemma pf_derive_always {U St R} al (h : heap U) (m : client (value U) St R) : allocator al -> client_ok m ->
  always al no_race (fun r h' => h ⊆ h' /\ exists past ids gs, cruns [] [] [] m past ids gs r) (h, MRun (c_client [] m), []).
Proof. intros Hal Hok. eapply ag_always; [done|by apply derive_ag|constructor]. Qed.
Lemma pf_derive_same {U St R} al (h : heap U) (m : client (value U) St R) : allocator al -> (forall h l l', al h l -> al h l' -> l = l') -> client_ok m ->
  exists r h', always al no_race (fun r1 h1 => r1 = r /\ h1 = h') (h, MRun (c_client [] m), []).
Proof. intros Hal Hone Hok. destruct (ag_one al _ _ _ _ Hal Hone (derive_ag al h m Hal Hok)) as (r & h' & _ & Ha). exists r, h'. eapply ag_always; [done|exact Ha|constructor]. Qed.

(** ** What [always] means. *)
Section meaning.
Context {U S R : Type}.
Local Notation state := (heap U * main U S R * list (frame U S R))%type.
Lemma always_rtc al P Q (st st' : state) : always al P Q st -> rtc (cstep al) st st' -> always al P Q st'.
Proof.
  intros H Hs. induction Hs as [|st st1 st2 H1 _ IH]; [done|]. apply IH. destruct H as [h r HQ|st _ _ Ha]; [|by apply Ha].
  exfalso. inversion H1; subst. destruct fs1; done.
Qed.
Lemma pf_reachable al P Q (st st' : state) : always al P Q st -> rtc (cstep al) st st' ->
  (exists h r, st' = (h, MRun (AEnd r), []) /\ Q r h) \/ (P st' /\ exists st'', cstep al st' st'').
Proof. intros H Hs. pose proof (always_rtc _ _ _ _ _ H Hs) as Ha. destruct Ha as [h r HQ|st' HP Hx _]; [left; eauto|right; done]. Qed.
Lemma pf_terminates al P Q (st : state) : always al P Q st -> forall f : nat -> state, f 0 = st -> ~ forall i, cstep al (f i) (f (1 + i)).
Proof.
  induction 1 as [h r HQ|st _ _ _ IH]; intros f E Hf.
  - specialize (Hf 0). rewrite E in Hf. inversion Hf; subst. destruct fs1; done.
  - apply (IH (f 1)) with (f := fun i => f (1 + i)); [rewrite <- E; apply (Hf 0)|done|]. intros i. apply (Hf (1 + i)).
Qed.
End meaning.

(** ** Two schedulers, for examples: goroutines first, or the client first. *)
Section sched.
Context {U S R : Type}.
Local Notation heap := (heap U).
Local Notation main := (main U S R).
Local Notation frame := (frame U S R).
Local Notation state := (heap * main * list frame)%type.
Definition al0 (h : heap) (l : loc) : Prop := l = fresh (dom h).
Local Notation cstep := (cstep al0).
Definition gnext (h : heap) (g : gor U loc) : option (option loc * gor U loc) :=
  match g with
  | GDo SSkip g => Some (None, g)
  | GDo (SLoad l k) g => match h !! l with Some c => Some (None, GDo (k c) g) | None => None end
  | GDo (SSend m) g => Some (Some m, g)
  | GDo (SSeq a b) g => Some (None, GDo a (GDo b g))
  | GRet => Some (None, GEnd)
  | _ => None
  end.
Lemma gnext_ok h g o g' : gnext h g = Some (o, g') -> gstep h g o g'.
Proof.
  destruct g as [| |[| |l k|m|a b|p b] g|]; cbn [gnext]; try done; try (intros [= <- <-]; constructor).
  destruct (h !! l) eqn:E; [|done]. intros [= <- <-]. by constructor.
Qed.
Fixpoint onext (h : heap) (fs : list frame) : option (list frame) :=
  match fs with
  | [] => None
  | Frame c b k :: fs =>
    match gnext h c with
    | Some (None, c') => Some (Frame c' b k :: fs)
    | _ => match onext h fs with Some fs' => Some (Frame c b k :: fs') | None => None end
    end
  end.
Lemma onext_ok h m fs fs' : onext h fs = Some fs' -> cstep (h, m, fs) (h, m, fs').
Proof.
  intros H. assert (exists fs1 c c' b k fs2, fs = fs1 ++ Frame c b k :: fs2 /\ fs' = fs1 ++ Frame c' b k :: fs2 /\ gstep h c None c') as (fs1 & c & c' & b & k & fs2 & -> & -> & Hg); [|by constructor].
  revert fs' H. induction fs as [|[c b k] fs IH]; intros fs' H; cbn [onext] in H; [done|]. destruct (gnext h c) as [[[m'|] c']|] eqn:E.
  2: { injection H as <-. exists [], c, c', b, k, fs. split_and!; [done|done|by apply gnext_ok]. }
  all: destruct (onext h fs) as [fs2|]; [|done]; injection H as <-; destruct (IH _ eq_refl) as (f1 & c1 & c2 & b1 & k1 & f2 & -> & -> & Hg); exists (Frame c b k :: f1); by do 5 eexists.
Qed.
Definition mnext (st : state) : option state :=
  match st with
  | (h, MRun (AAlloc c k), fs) => let l := fresh (dom h) in Some (<[l := c]> h, MRun (k l), fs)
  | (h, MRun (ALoad l k), fs) => match h !! l with Some c => Some (h, MRun (k c), fs) | None => None end
  | (h, MRun (AStore l c k), fs) => match h !! l with Some _ => Some (<[l := c]> h, MRun k, fs) | None => None end
  | (h, MRun (ARange p None s b k), fs) => Some (h, MRun (ARet s), Frame (GDo p GRet) b k :: fs)
  | (h, MRun (ARange p (Some l) s b k), fs) => Some (h, MTest l s, Frame (GDo p GRet) b k :: fs)
  | (h, MTest l s, fs) => match h !! l with Some (CNum n) => Some (h, if nn_leaf n then MDrop s else MRun (ARet s), fs) | _ => None end
  | (h, MDrop s, Frame GEnd b k :: fs) => Some (h, MRun (ARet s), Frame GEnd b k :: fs)
  | (h, MDrop s, Frame c b k :: fs) => match gnext h c with Some (Some m, c') => Some (h, MRun (ARet s), Frame c' b k :: fs) | _ => None end
  | (h, MRun (ARet s), Frame GEnd b k :: fs) => Some (h, MRun (k s), fs)
  | (h, MRun (ARet s), Frame c b k :: fs) => match gnext h c with Some (Some m, c') => Some (h, MRun (b s m), Frame c' b k :: fs) | _ => None end
  | _ => None
  end.
Lemma mnext_ok st st' : mnext st = Some st' -> cstep st st'.
Proof.
  destruct st as [[h [[r|s| |c k|l k|l c k|p [l|] s b k]|l s|s]] fs]; cbn [mnext]; intros H; try done.
  - destruct fs as [|[c b k] fs]; [done|]. destruct (gnext h c) as [[[m|] c']|] eqn:E; destruct c; try done; injection H as <-; try apply cs_closed; by apply cs_recv, gnext_ok.
  - injection H as <-. by apply cs_alloc.
  - destruct (h !! l) eqn:E; [|done]. injection H as <-. by apply cs_load.
  - destruct (h !! l) eqn:E; [|done]. injection H as <-. apply cs_store. by eexists.
  - injection H as <-. constructor.
  - injection H as <-. constructor.
  - destruct (h !! l) as [[|n| | | |]|] eqn:E; try done. injection H as <-. by apply cs_test.
  - destruct fs as [|[c b k] fs]; [done|]. destruct (gnext h c) as [[[m|] c']|] eqn:E; destruct c; try done; injection H as <-; try apply cs_drop_closed; eapply cs_drop; by apply gnext_ok.
Qed.
Definition next (eager : bool) (st : state) : option state :=
  let '(h, m, fs) := st in
  let o := match onext h fs with Some fs' => Some (h, m, fs') | None => None end in
  if eager then match o with Some st' => Some st' | None => mnext st end
  else match mnext st with Some st' => Some st' | None => o end.
Fixpoint sched (eager : bool) (fuel : nat) (n : nat) (st : state) : state * nat :=
  match fuel with
  | O => (st, n)
  | Datatypes.S fuel => match next eager st with Some st' => sched eager fuel (1 + n) st' | None => (st, n) end
  end.
Lemma sched_ok eager fuel : forall n st, rtc cstep st (sched eager fuel n st).1.
Proof.
  induction fuel as [|fuel IH]; intros n st; cbn [sched]; [apply rtc_refl|]. destruct (next eager st) as [st'|] eqn:E; [|apply rtc_refl]. eapply rtc_l; [|apply IH].
  destruct st as [[h m] fs]. cbn [next] in E. destruct eager.
  - destruct (onext h fs) eqn:E1; [injection E as <-; by apply onext_ok|by apply mnext_ok].
  - destruct (mnext (h, m, fs)) eqn:E1; [injection E as <-; by apply mnext_ok|]. destruct (onext h fs) eqn:E2; [|done]. injection E as <-. by apply onext_ok.
Qed.
Lemma al0_ok : allocator al0.
Proof. split; [intros h; by eexists|]. intros h l ->. apply (not_elem_of_dom (D := gset loc)), is_fresh. Qed.
Lemma al0_one h l l' : al0 h l -> al0 h l' -> l = l'.
Proof. unfold al0. congruence. Qed.
End sched.
