(** * Footprints: a computation that needs only part of the memory leaves the rest alone. *)
From Verif Require Import Prog NumModel NumBits NumFun NumSim NumInplace NumSpec NumAbs.
From Coq Require Import ZifyBool ZifyNat ZifyN.
Open Scope N_scope.

Section foot.
Context {U : Type}.
Local Notation heap := (heap U).
Local Notation ntree := (ntree U).
Local Notation value := (value U).
Local Notation nmap := (gmap pfx (N * value)).

Lemma wp_local {A} (m : prog U A) : forall (h0 h : heap) W Q, wp m h0 W Q -> h0 ⊆ h ->
  wp m h W (fun a h' W' => exists h0', Q a h0' W' /\ h0' ⊆ h' /\
    (forall l, l ∈ dom h0' -> l ∈ dom h0 \/ h !! l = None) /\ dom h0 ⊆ dom h0' /\
    (forall l, l ∉ dom h0' -> h' !! l = h !! l)).
Proof.
  induction m as [a|e|c k IH|l k IH|l c k IH]; intros h0 h W Q; cbn [wp]; intros H Hs.
  - exists h0. split_and!; auto.
  - done.
  - intros l Hl. assert (Hl0 : h0 !! l = None).
    { destruct (h0 !! l) eqn:E; [|done]. by rewrite (lookup_weaken _ _ _ _ E Hs) in Hl. }
    eapply wp_mono; [eapply (IH l (<[l := c]> h0)); [by apply H|by apply insert_mono]|].
    cbn beta. intros a h' W' (h0' & HQ & Hs' & Hd & Hg & Hu). exists h0'. split_and!; [done|done| | |].
    + intros l' [Hd'|Hd']%Hd.
      * rewrite dom_insert, elem_of_union, elem_of_singleton in Hd'. destruct Hd' as [->|Hd']; auto.
      * destruct (decide (l = l')) as [->|Hne]; [by rewrite lookup_insert in Hd'|]. rewrite lookup_insert_ne in Hd' by done. auto.
    + rewrite dom_insert in Hg. clear -Hg. set_solver.
    + intros l' Hl'. rewrite Hu by done. rewrite lookup_insert_ne; [done|]. intros ->. apply Hl', Hg. rewrite dom_insert. clear. set_solver.
  - destruct H as (c & Hl & H). exists c. split; [by eapply lookup_weaken|]. by apply IH.
  - destruct H as (Hl & [c' Hc'] & H). split; [done|]. split; [exists c'; by eapply lookup_weaken|].
    eapply wp_mono; [eapply (IH (<[l := c]> h0)); [done|by apply insert_mono]|].
    cbn beta. intros a h' W' (h0' & HQ & Hs' & Hd & Hg & Hu). exists h0'. split_and!; [done|done| | |].
    + intros l' [Hd'|Hd']%Hd.
      * rewrite dom_insert, elem_of_union, elem_of_singleton in Hd'. destruct Hd' as [->|Hd']; [|auto]. left. by apply elem_of_dom_2 in Hc'.
      * destruct (decide (l = l')) as [->|Hne]; [by rewrite lookup_insert in Hd'|]. rewrite lookup_insert_ne in Hd' by done. auto.
    + rewrite dom_insert in Hg. clear -Hg. set_solver.
    + intros l' Hl'. rewrite Hu by done. rewrite lookup_insert_ne; [done|]. intros ->. apply Hl', Hg. rewrite dom_insert. clear. set_solver.
Qed.

(** What a computation allocates it may write. *)
Lemma wp_new {A} (m : prog U A) : forall (h : heap) W Q, wp m h W Q ->
  wp m h W (fun a h' W' => Q a h' W' /\ forall l, l ∈ dom h' -> l ∈ dom h \/ l ∈ W').
Proof.
  induction m as [a|e|c k IH|l k IH|l c k IH]; intros h W Q; cbn [wp]; intros H.
  - auto.
  - done.
  - intros l Hl. eapply wp_mono; [apply wp_frame, IH; by apply H|]. cbn beta. intros a h' W' [[HQ Hd] [_ Hg]]. split; [done|].
    intros l' [Hl'|Hl']%Hd; [|by right]. rewrite dom_insert, elem_of_union, elem_of_singleton in Hl'. destruct Hl' as [->|?]; [|by left].
    right. apply Hg. clear. set_solver.
  - destruct H as (c & Hl & H). exists c. split; [done|]. by apply IH.
  - destruct H as (Hl & [c' Hc'] & H). split_and!; [done|by eexists|]. eapply wp_mono; [apply IH, H|]. cbn beta. intros a h' W' [HQ Hd]. split; [done|].
    intros l' [Hl'|Hl']%Hd; [|by right]. left. rewrite dom_insert, elem_of_union, elem_of_singleton in Hl'. destruct Hl' as [->|?]; [|done]. by apply elem_of_dom_2 in Hc'.
Qed.

Variable c : cfg.
Hypothesis Hc : cfg_ok c.
Local Notation W := (cW c).

(** In a well-formed tree no node occurs twice: it is never shared with itself. *)
Lemma orep_of_nrep (h : heap) t : forall p, wf c t -> nrep h p t -> exists F, orep h p t F /\
  match t with NE => True | NT k b _ _ _ _ =>
    forall a, a ∈ F -> exists nn, h !! a = Some (CNum nn) /\ b <= nn_bits nn /\ agree W b k (nn_key nn) end.
Proof.
  induction t as [|k b lf v l IHl r IHr]; intros p Hw Hr; [by exists ∅|].
  destruct Hw as (Hk & Hb & Hl & Hrr & Hwl & Hwr & Hf). destruct Hr as (a & c0 & c1 & -> & Ha & Hc0 & Hc1).
  destruct (IHl _ Hwl Hc0) as (F0 & HF0 & P0). destruct (IHr _ Hwr Hc1) as (F1 & HF1 & P1).
  assert (Q : forall d t p F, ok_child c k b d t -> orep h p t F ->
    match t with NE => True | NT k b _ _ _ _ =>
      forall a, a ∈ F -> exists nn, h !! a = Some (CNum nn) /\ b <= nn_bits nn /\ agree W b k (nn_key nn) end ->
    forall x, x ∈ F -> exists nn, h !! x = Some (CNum nn) /\ b < nn_bits nn /\ agree W b k (nn_key nn) /\ bitat W (nn_key nn) b = d).
  { clear. intros d t p F Hok Ho HP x Hx. destruct t as [|k' b' lf v l r]; [destruct Ho as [_ ->]; clear -Hx; set_solver|].
    destruct (HP x Hx) as (nn & Hn & Hb & Hag). destruct Hok as (Hlt & Hag' & Hd). exists nn. split_and!; [done|lia| |].
    - eapply agree_trans; [exact Hag'|]. eapply agree_le; [|exact Hag]. lia.
    - rewrite <- Hd. symmetry. apply Hag. done. }
  pose proof (Q _ _ _ _ Hl HF0 P0) as Q0. pose proof (Q _ _ _ _ Hrr HF1 P1) as Q1. clear Q.
  exists ({[a]} ∪ (F0 ∪ F1)). split.
  - exists a, c0, c1, F0, F1. split_and!; try done.
    + intros Hx. destruct (Q0 _ Hx) as (nn & Hn & Hlt & _). rewrite Ha in Hn. injection Hn as <-. cbn [nn_bits] in Hlt. lia.
    + intros Hx. destruct (Q1 _ Hx) as (nn & Hn & Hlt & _). rewrite Ha in Hn. injection Hn as <-. cbn [nn_bits] in Hlt. lia.
    + intros x Hx0 Hx1. destruct (Q0 _ Hx0) as (nn & Hn & _ & _ & B0). destruct (Q1 _ Hx1) as (nn' & Hn' & _ & _ & B1). congruence.
  - intros x. rewrite !elem_of_union, elem_of_singleton. intros [->|[Hx|Hx]].
    + eexists. split; [exact Ha|]. cbn [nn_bits nn_key]. split; [lia|apply agree_refl].
    + destruct (Q0 _ Hx) as (nn & Hn & ? & ? & _). exists nn. split_and!; [done|lia|done].
    + destruct (Q1 _ Hx) as (nn & Hn & ? & ? & _). exists nn. split_and!; [done|lia|done].
Qed.

(** [p] is a tree storing [m], and [F] contains its nodes. *)
Definition ntree_in (h : heap) (F : gset loc) (p : ptr) (m : nmap) : Prop :=
  exists h0 : heap, h0 ⊆ h /\ dom h0 = F /\ ntree_at c h0 p m.
Lemma ntree_in_at h F p m : ntree_in h F p m -> ntree_at c h p m.
Proof. intros (h0 & Hs & _ & H). by eapply ntree_at_mono. Qed.
Lemma ntree_in_mono h h' F p m : h ⊆ h' -> ntree_in h F p m -> ntree_in h' F p m.
Proof. intros Hs (h0 & H1 & H2 & H3). exists h0. split_and!; [by etrans|done|done]. Qed.
Lemma ntree_in_dom h F p m : ntree_in h F p m -> F ⊆ dom h.
Proof. intros (h0 & H1 & <- & H3). by apply subseteq_dom. Qed.
Lemma ntree_in_nil (h : heap) : ntree_in h ∅ None ∅.
Proof. exists ∅. split_and!; [apply map_empty_subseteq|by rewrite dom_empty_L|apply ntree_at_nil]. Qed.
Lemma ntree_in_untouched (h h' : heap) WS F p m : untouched WS h h' -> F ## WS -> ntree_in h F p m -> ntree_in h' F p m.
Proof.
  intros Hu Hd (h0 & H1 & H2 & H3). exists h0. split_and!; [|done|done]. apply map_subseteq_spec. intros l x Hl.
  apply Hu; [by eapply lookup_weaken|]. apply elem_of_dom_2 in Hl. clear -Hd H2 Hl. set_solver.
Qed.
Lemma ntree_at_none (h : heap) p m : ntree_at c h p m -> p = None <-> m = ∅.
Proof.
  intros (t & Hw & Hr & Ha). split.
  - intros ->. destruct t; [|simpl in Hr; naive_solver]. apply map_eq. intros q. rewrite lookup_empty.
    destruct (m !! q) as [[k v]|] eqn:E; [|done]. apply Ha in E as [E _]. by apply elem_of_nil in E.
  - intros ->. destruct t as [|k b lf v l r]; [done|]. exfalso. destruct (wf_nonempty c (NT k b lf v l r) Hw) as [[[k1 b1] v1] Hin]; [done|].
    apply (nabs_elem c _ _ _ _ _ Ha) in Hin. by rewrite lookup_empty in Hin.
Qed.
Lemma ntree_at_key (h : heap) p m q k v : ntree_at c h p m -> m !! q = Some (k, v) -> q = norm W k q.1 /\ k < 2 ^ W /\ q.1 <= W.
Proof.
  intros (t & Hw & Hr & Ha) H. apply Ha in H as [Hin Hq]. apply (enum_wf c) in Hin as [? ?]; done.
Qed.

Definition fresh_or (h : heap) (F F' : gset loc) : Prop := forall l, l ∈ F' -> l ∈ F \/ h !! l = None.

Lemma cow_in {A} (m : prog U A) (h : heap) (WS F : gset loc) (p : ptr) (mp : nmap) (Q : A -> heap -> Prop) :
  (forall h0 : heap, ntree_at c h0 p mp -> wp m h0 ∅ (fun a h' _ => Q a h')) -> ntree_in h F p mp ->
  wp m h WS (fun a h' WS' => (exists h0', Q a h0' /\ h0' ⊆ h' /\ fresh_or h F (dom h0')) /\ h ⊆ h' /\ WS ⊆ WS').
Proof.
  intros Hm (h0 & Hs & HF & Ht). apply Hm in Ht. eapply wp_local in Ht; [|exact Hs].
  eapply wp_mono; [eapply (wp_cow _ _ WS (fun a h' => exists h0', Q a h0' /\ h0' ⊆ h' /\ fresh_or h F (dom h0'))); eapply wp_mono; [exact Ht|]|].
  - cbn beta. intros a h' _ (h0' & HQ & Hs' & Hd & _). exists h0'. split_and!; [done|done|]. intros l [?|?]%Hd; [left; by rewrite <- HF|by right].
  - cbn beta. intros a h' W' (H1 & H2 & H3 & _). done.
Qed.

Lemma n_insert_in (h : heap) WS F p m k bits v : k < 2 ^ W -> ntree_in h F p m ->
  wp (n_insert c p k bits v) h WS (fun r h' WS' => (exists F', ntree_in h' F' r (s_insert W m k (adj W bits) v) /\ fresh_or h F F') /\ h ⊆ h' /\ WS ⊆ WS').
Proof.
  intros Hk Ht. eapply wp_mono; [eapply (cow_in _ _ _ _ _ _ (fun r h' => ntree_at c h' r (s_insert W m k (adj W bits) v))); [|exact Ht]|].
  - intros h0 H0. eapply wp_mono; [by apply n_insert_at|]. cbn beta. intros a h' _ [H _]. exact H.
  - cbn beta. intros r h' WS' ((h0' & H1 & H2 & H3) & H4 & H5). split_and!; [|done|done]. exists (dom h0'). split; [|done]. by exists h0'.
Qed.
Lemma n_delete_in (h : heap) WS F p m k bits : k < 2 ^ W -> ntree_in h F p m ->
  wp (n_delete c p k bits) h WS (fun r h' WS' => (exists F', ntree_in h' F' r.1 (s_delete W m k (adj W bits)) /\ fresh_or h F F') /\
    s_deleted W m k (adj W bits) r.2 /\ h ⊆ h' /\ WS ⊆ WS').
Proof.
  intros Hk Ht. eapply wp_mono; [eapply (cow_in _ _ _ _ _ _ (fun r h' => ntree_at c h' r.1 (s_delete W m k (adj W bits)) /\ s_deleted W m k (adj W bits) r.2)); [|exact Ht]|].
  - intros h0 H0. eapply wp_mono; [by apply n_delete_at|]. cbn beta. intros a h' _ (H & H' & _). done.
  - cbn beta. intros r h' WS' ((h0' & [H1 H1'] & H2 & H3) & H4 & H5). split_and!; [|done|done|done]. exists (dom h0'). split; [|done]. by exists h0'.
Qed.
Lemma ro_in {A} (m : prog U A) (h : heap) WS (Q : A -> Prop) :
  wp m h ∅ (fun a h' _ => Q a /\ h' = h) -> wp m h WS (fun a h' WS' => Q a /\ h' = h /\ WS ⊆ WS').
Proof.
  intros Hm. eapply wp_mono; [eapply (wp_cow _ _ WS (fun a h' => Q a /\ h' = h)), Hm|]. cbn beta. intros a h' WS' ([H1 ->] & _ & H3 & _). done.
Qed.
Lemma n_exact_in (h : heap) WS p m k bits : k < 2 ^ W -> ntree_at c h p m ->
  wp (n_exact c p k bits) h WS (fun r h' WS' => r = s_exact W m k (adj W bits) /\ h' = h /\ WS ⊆ WS').
Proof. intros Hk Ht. apply (ro_in _ _ _ (fun r => r = s_exact W m k (adj W bits))). by apply n_exact_at. Qed.
Lemma n_match_in (h : heap) WS p m k bits : k < 2 ^ W -> ntree_at c h p m ->
  wp (n_match c p k bits) h WS (fun r h' WS' => s_longest m (norm W k (adj W bits)) r /\ h' = h /\ WS ⊆ WS').
Proof. intros Hk Ht. apply (ro_in _ _ _ (fun r => s_longest m (norm W k (adj W bits)) r)). by apply n_match_at. Qed.
Lemma n_enumerate_in (h : heap) WS p m : ntree_at c h p m ->
  wp (n_enumerate c p) h WS (fun r h' WS' => s_enum W m (map as_entry r) /\ h' = h /\ WS ⊆ WS').
Proof.
  intros Ht. apply (ro_in _ _ _ (fun r => s_enum W m (map as_entry r))). eapply wp_mono; [by apply n_enumerate_at|]. cbn beta. intros ? ? _ (? & _ & ?). done.
Qed.
Lemma n_inplace_in (h : heap) (WS F : gset loc) p m k bits v : k < 2 ^ W -> ntree_in h F p m -> F ⊆ WS ->
  wp (n_inplace_insert c p k bits v) h WS (fun r h' WS' => exists F',
    ntree_in h' F' r (s_insert W m k (adj W bits) v) /\ fresh_or h F F' /\ F' ⊆ WS' /\ WS ⊆ WS' /\ untouched F h h' /\ dom h ⊆ dom h').
Proof.
  intros Hk (h0 & Hs & HF & t & Hw & Hr & Ha) HWS. destruct (orep_of_nrep _ _ _ Hw Hr) as (F0 & Ho & _).
  assert (HF0 : F0 ⊆ dom h0). { intros x Hx. apply elem_of_dom. by eapply orep_alloc. }
  assert (Hown : nowned c h0 p m F0) by (by exists t).
  assert (Hwp : wp (n_inplace_insert c p k bits v) h0 F0 (fun r h' WS' => ntree_at c h' r (s_insert W m k (adj W bits) v))).
  { eapply wp_mono; [by apply (n_inplace_at c Hc h0 p m F0 k bits v Hk)|]. cbn beta. intros r h' WS' (F' & Ho' & _). by eapply nowned_at. }
  apply wp_new in Hwp. eapply wp_local in Hwp; [|exact Hs].
  eapply wp_mono; [eapply (wp_call _ _ F0 WS); [exact Hwp|clear -HF0 HF HWS; set_solver]|].
  cbn beta. intros r h' WS' [(W1' & (h0' & [Ht' Hnew] & Hs' & Hd & Hg & Hu) & HW1 & Hg1) [Hun Hg2]].
  exists (dom h0'). split_and!.
  - by exists h0'.
  - intros l [?|?]%Hd; [left; by rewrite <- HF|by right].
  - intros l [Hl|Hl]%Hnew; [|by apply HW1]. apply Hg2, HWS. by rewrite <- HF.
  - apply Hg2.
  - intros l x Hl Hn. apply Hun; [done|]. clear -HF0 HF Hn. set_solver.
  - apply Hg2.
Qed.
End foot.
