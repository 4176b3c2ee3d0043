(** * In-place insertion into a radix tree whose nodes are not shared. *)
From Verif Require Import Prog NumModel NumBits NumFun NumSim.
From Coq Require Import ZifyBool ZifyNat ZifyN.
Open Scope N_scope.

Section inplace.
Context {U : Type}.
Local Notation heap := (heap U).
Local Notation ntree := (ntree U).
Variable c : cfg.
Hypothesis Hc : cfg_ok c.
Local Notation W := (cW c).

(** [p] points to a radix tree made of exactly the cells [F], each used once. *)
Fixpoint orep (h : heap) (p : ptr) (t : ntree) (F : gset loc) : Prop :=
  match t with
  | NE => p = None /\ F = ∅
  | NT k b lf v l r => exists a c0 c1 F0 F1, p = Some a /\
      h !! a = Some (CNum (NumN k b lf v c0 c1)) /\ orep h c0 l F0 /\ orep h c1 r F1 /\
      a ∉ F0 /\ a ∉ F1 /\ F0 ## F1 /\ F = {[a]} ∪ (F0 ∪ F1)
  end.

Lemma orep_nrep h p t F : orep h p t F -> nrep h p t.
Proof.
  revert p F. induction t as [|k b lf v l IHl r IHr]; simpl; intros p F; [tauto|].
  intros (a & c0 & c1 & F0 & F1 & -> & Ha & Hl & Hr & _). exists a, c0, c1. split_and!; eauto.
Qed.

Lemma orep_agree h h' p t F : (forall x, x ∈ F -> h' !! x = h !! x) -> orep h p t F -> orep h' p t F.
Proof.
  revert p F. induction t as [|k b lf v l IHl r IHr]; simpl; intros p F Hag; [tauto|].
  intros (a & c0 & c1 & F0 & F1 & -> & Ha & Hl & Hr & H1 & H2 & H3 & ->).
  exists a, c0, c1, F0, F1. split_and!; try done.
  - rewrite Hag by set_solver. done.
  - apply IHl; [|done]. intros x Hx. apply Hag. set_solver.
  - apply IHr; [|done]. intros x Hx. apply Hag. set_solver.
Qed.

Lemma orep_alloc h p t F x : orep h p t F -> x ∈ F -> is_Some (h !! x).
Proof.
  revert p F. induction t as [|k b lf v l IHl r IHr]; simpl; intros p F.
  - intros [_ ->]. set_solver.
  - intros (a & c0 & c1 & F0 & F1 & -> & Ha & Hl & Hr & H1 & H2 & H3 & ->).
    rewrite !elem_of_union, elem_of_singleton. intros [->|[?|?]]; eauto.
Qed.

Lemma orep_untouched h h' (WS F : gset loc) p t :
  untouched WS h h' -> F ## WS -> orep h p t F -> orep h' p t F.
Proof.
  intros Hu Hd Hr. eapply orep_agree; [|exact Hr]. intros x Hx.
  destruct (orep_alloc _ _ _ _ _ Hr Hx) as [y Hy]. rewrite Hy. apply Hu; [done|set_solver].
Qed.

Lemma with_chld_twice (n : numnode U) br x y : with_chld (with_chld n br x) br y = with_chld n br y.
Proof. unfold with_chld. by destruct (br =? 0). Qed.

(** Replacing the child [br] of the parent node [pa]. *)
Definition inplace_post (h : heap) (pa : loc) (pn : numnode U) (br : N) (t' : ntree)
    (ret r : ptr) (h' : heap) (WS' : gset loc) : Prop :=
  ret = r /\ exists n' F', h' !! pa = Some (CNum (with_chld pn br n')) /\
    orep h' n' t' F' /\ pa ∉ F' /\ F' ⊆ WS'.

(** The subtree that replaces a node holding a longer prefix than the common one. *)
Lemma split_wp (h : heap) n t F k' b' lf' v' l r k b v nc :
  t = NT k' b' lf' v' l r -> orep h n t F -> b' <= W -> nc < b' -> nc <= b -> b <= W ->
  wp (m <- (if nc =? b then
              m <- new_node k b true v ;;
              set_chld m (bbit c k' nc) n ;;; Ret m
            else
              mk <- mask c nc ;;
              m <- new_node (N.land k mk) nc false VNil ;;
              x <- new_node k b true v ;;
              set_chld m (1 - bbit c k' nc) x ;;; Ret m) ;;
      set_chld m (bbit c k' nc) n ;;; Ret m) h ∅
    (fun m h' WS' => orep h' m (if nc =? b then
        if bitat W k' nc then NT k b true v NE t else NT k b true v t NE
      else
        if bitat W k' nc
        then NT (N.land k (pmask W nc)) nc false VNil (NT k b true v NE NE) t
        else NT (N.land k (pmask W nc)) nc false VNil t (NT k b true v NE NE)) (WS' ∪ F)).
Proof.
  intros Et Ho Hb' Hnc Hncb Hb.
  destruct (N.eqb_spec nc b) as [Eb|Eb].
  - apply wp_bind. unfold new_node. apply wp_bind, wp_bind, wp_alloc. intros m Hm. cbn [wp bind].
    apply wp_bind. eapply wp_set_chld; [by rewrite lookup_insert|set_solver|].
    cbn [wp bind]. apply wp_bind. eapply wp_set_chld; [by rewrite lookup_insert|set_solver|].
    cbn [wp]. rewrite !insert_insert, with_chld_twice, with_bbit by (done || lia).
    cbn [nn_key nn_bits nn_leaf nn_val nn_c0 nn_c1].
    assert (HmF : m ∉ F).
    { intros Hin. destruct (orep_alloc _ _ _ _ _ Ho Hin). congruence. }
    assert (Ho' : forall cell, orep (<[m := cell]> h) n t F).
    { intros cell. eapply orep_agree; [|exact Ho]. intros x Hx. rewrite lookup_insert_ne; [done|set_solver]. }
    destruct (bitat W k' nc).
    + exists m, None, n, ∅, F. rewrite lookup_insert. split_and!; [done|done|done|apply Ho'|..]; try done; clear; set_solver.
    + exists m, n, None, F, ∅. rewrite lookup_insert. split_and!; [done|done|apply Ho'|done|..]; try done; clear; set_solver.
  - apply wp_bind. rewrite mask_eq by (done || lia). cbn [wp bind]. unfold new_node.
    apply wp_bind, wp_bind, wp_alloc. intros m Hm. cbn [wp bind].
    apply wp_bind, wp_bind, wp_alloc. intros x Hx. cbn [wp bind].
    assert (Hmx : m <> x) by (intros ->; by rewrite lookup_insert in Hx).
    rewrite lookup_insert_ne in Hx by done.
    apply wp_bind. eapply wp_set_chld; [rewrite lookup_insert_ne by done; by rewrite lookup_insert|set_solver|].
    cbn [wp bind]. apply wp_bind. eapply wp_set_chld; [by rewrite lookup_insert|set_solver|].
    cbn [wp]. rewrite !insert_insert. rewrite with_bbit, with_bbit' by (done || lia).
    assert (HmF : m ∉ F).
    { intros Hin. destruct (orep_alloc _ _ _ _ _ Ho Hin). congruence. }
    assert (HxF : x ∉ F).
    { intros Hin. destruct (orep_alloc _ _ _ _ _ Ho Hin). congruence. }
    assert (Ho' : forall cell cell2 cell3, orep (<[m := cell]> (<[x := cell2]> (<[m := cell3]> h))) n t F).
    { intros cell cell2 cell3. eapply orep_agree; [|exact Ho]. intros y Hy.
      rewrite !lookup_insert_ne; [done|..]; clear -Hy HmF HxF; set_solver. }
    destruct (bitat W k' nc); cbn [nn_key nn_bits nn_leaf nn_val nn_c0 nn_c1].
    + exists m, (Some x), n, {[x]}, F. rewrite lookup_insert.
      split_and!; [done|done| |apply Ho'|clear -Hmx; set_solver|done|clear -HxF; set_solver|clear; set_solver].
      exists x, None, None, ∅, ∅. rewrite lookup_insert_ne by done. rewrite lookup_insert.
      split_and!; try done; clear; set_solver.
    + exists m, n, (Some x), F, {[x]}. rewrite lookup_insert.
      split_and!; [done|done|apply Ho'| |done|clear -Hmx; set_solver|clear -HxF; set_solver|clear; set_solver].
      exists x, None, None, ∅, ∅. rewrite lookup_insert_ne by done. rewrite lookup_insert.
      split_and!; try done; clear; set_solver.
Qed.

Lemma wp_bind_ret {A B} (X : prog U A) (S : A -> prog U unit) (K : A -> prog U B) h WS Q :
  wp (x <- X ;; S x ;;; Ret x) h WS (fun m h' WS' => wp (K m) h' WS' Q) ->
  wp (x <- X ;; S x ;;; K x) h WS Q.
Proof.
  intros H. apply wp_bind_inv in H. apply wp_bind. eapply wp_mono; [exact H|].
  cbn beta. intros a h' WS' H'. apply wp_bind_inv in H'. apply wp_bind. exact H'.
Qed.

Lemma with_chld_same (n : numnode U) br : with_chld n br (chld n br) = n.
Proof. unfold with_chld, chld. destruct n, (br =? 0); done. Qed.

Lemma inplace_loop_wp t : forall fuel (h : heap) n F k b v pa pn br r,
  wf c t -> (depth t < fuel)%nat -> k < 2 ^ W -> b <= W -> orep h n t F ->
  h !! pa = Some (CNum pn) -> pa ∉ F -> chld pn br = n ->
  wp (inplace_loop c fuel k b v (Some pa) br n r) h ({[pa]} ∪ F)
     (fun ret h' WS' => inplace_post h pa pn br (f_ins c t k b v) ret r h' WS').
Proof.
  induction t as [|k' b' lf' v' l IHl r IHr];
    intros fuel h n F k b v pa pn br ret Hw Hfuel Hk Hb Hrep Hpa HpaF Hbr.
  - destruct fuel as [|fuel]; [simpl in Hfuel; lia|]. destruct Hrep as [-> ->].
    cbn [inplace_loop]. unfold new_node. apply wp_bind, wp_bind, wp_alloc. intros a Ha. cbn [wp bind].
    assert (Hne : a <> pa) by (intros ->; congruence).
    apply wp_bind. eapply wp_set_chld; [rewrite lookup_insert_ne by done; exact Hpa|set_solver|].
    cbn [wp]. split; [done|]. exists (Some a), {[a]}. rewrite lookup_insert. split_and!; [done| | |set_solver].
    + exists a, None, None, ∅, ∅. rewrite lookup_insert_ne by done. rewrite lookup_insert.
      split_and!; try done; clear; set_solver.
    + clear -Hne; set_solver.
  - destruct fuel as [|fuel]; [simpl in Hfuel; lia|].
    pose proof Hw as (Hk' & Hb' & Hl & Hr & Hwl & Hwr & Hf).
    pose proof Hrep as (a & c0 & c1 & F0 & F1 & -> & Ha & Hc0 & Hc1 & Ha0 & Ha1 & Hd & ->).
    cbn [inplace_loop]. apply wp_bind. eapply wp_ld_num; [exact Ha|].
    cbn [nn_key nn_bits nn_leaf nn_val nn_c0 nn_c1].
    rewrite ncsb_eq by done. cbn [bind]. cbn [f_ins].
    destruct (pcsb_spec c k' b' k b Hk' Hk Hb' Hb) as (Hn1 & Hn2 & Hn3 & Hn4).
    set (nc := pcsb c k' b' k b) in *. clearbody nc.
    assert (Hpane : pa <> a) by (clear -HpaF; set_solver).
    destruct (N.ltb_spec nc b').
    + apply wp_bind_ret. eapply wp_mono.
      { eapply (wp_call _ _ ∅); [|apply empty_subseteq].
        eapply (split_wp h (Some a) _ _ k' b' lf' v' l r k b v nc); try done. }
      cbn beta. intros m h' WS' [(WS1 & Ho & HWS1 & (_ & _ & Hg1)) [Hun (Hg2 & _ & _)]].
      assert (Hpa' : h' !! pa = Some (CNum pn)) by (apply Hun; [done|set_solver]).
      apply wp_bind. eapply wp_set_chld; [exact Hpa'|apply Hg2; clear; set_solver|].
      cbn [wp]. split; [done|]. exists m, (WS1 ∪ ({[a]} ∪ (F0 ∪ F1))).
      rewrite lookup_insert.
      assert (HpaW : pa ∉ WS1).
      { intros Hin. destruct (Hg1 _ Hin) as [?|?]; [set_solver|congruence]. }
      split_and!; [done| | |].
      * eapply orep_agree; [|exact Ho]. intros x Hx. rewrite lookup_insert_ne; [done|].
        intros <-. clear -Hx HpaW HpaF. set_solver.
      * clear -HpaW HpaF. set_solver.
      * clear -HWS1 Hg2. set_solver.
    + destruct (N.eqb_spec b b') as [Eb|Eb].
      * apply wp_bind. eapply wp_st_num; [set_solver|by eexists|]. cbn [wp].
        split; [done|]. exists (Some a), ({[a]} ∪ (F0 ∪ F1)).
        rewrite lookup_insert_ne by done. split_and!.
        -- rewrite <- Hbr, with_chld_same. done.
        -- exists a, c0, c1, F0, F1. rewrite lookup_insert. subst b. split_and!; try done;
             (eapply orep_agree; [|eassumption]); intros x Hx; rewrite lookup_insert_ne; try done; intros <-; done.
        -- done.
        -- clear; set_solver.
      * assert (Enc : nc = b') by lia. subst nc. rewrite chld_bbit by (done || lia). cbn [nn_c0 nn_c1].
        simpl in Hfuel.
        assert (Hch : chld (NumN k' b' lf' v' c0 c1) (bbit c k b') = if bitat W k b' then c1 else c0)
          by (rewrite chld_bbit by (done || lia); done).
        destruct (bitat W k b') eqn:Ebit.
        -- eapply wp_mono.
           { eapply (wp_call _ _ ({[a]} ∪ F1)); [|clear; set_solver].
             apply (IHr fuel h c1 F1 k b v a (NumN k' b' lf' v' c0 c1) (bbit c k b') ret); try done. lia. }
           cbn beta. intros ret' h' WS' [(WS1 & (-> & n' & F' & Ha' & Ho' & Hn' & HF') & HWS1 & (_ & _ & Hg1)) [Hun (Hg2 & _ & _)]].
           split; [done|]. exists (Some a), ({[a]} ∪ (F0 ∪ F')).
           assert (HpaW : pa ∉ WS1).
           { intros Hin. destruct (Hg1 _ Hin) as [?|?]; [clear -HpaF Hpane H0; set_solver|congruence]. }
           assert (HF0W : forall x, x ∈ F0 -> x ∉ WS1).
           { intros x Hx Hin. destruct (Hg1 _ Hin) as [?|?]; [clear -H0 Hx Ha0 Hd; set_solver|].
             destruct (orep_alloc _ _ _ _ _ Hc0 Hx). congruence. }
           split_and!.
           ++ rewrite <- Hbr, with_chld_same. apply Hun; [done|]. clear -HpaF Hpane; set_solver.
           ++ exists a, c0, n', F0, F'. split_and!; try done.
              ** rewrite Ha'. rewrite with_bbit by (done || lia). by rewrite Ebit.
              ** eapply orep_untouched; [exact Hun| |exact Hc0]. clear -Ha0 Hd. set_solver.
              ** clear -HF0W HF'. set_solver.
           ++ clear -HpaF Hpane HF' HpaW. set_solver.
           ++ clear -HF' HWS1 Hg2. set_solver.
        -- eapply wp_mono.
           { eapply (wp_call _ _ ({[a]} ∪ F0)); [|clear; set_solver].
             apply (IHl fuel h c0 F0 k b v a (NumN k' b' lf' v' c0 c1) (bbit c k b') ret); try done. lia. }
           cbn beta. intros ret' h' WS' [(WS1 & (-> & n' & F' & Ha' & Ho' & Hn' & HF') & HWS1 & (_ & _ & Hg1)) [Hun (Hg2 & _ & _)]].
           split; [done|]. exists (Some a), ({[a]} ∪ (F' ∪ F1)).
           assert (HpaW : pa ∉ WS1).
           { intros Hin. destruct (Hg1 _ Hin) as [?|?]; [clear -HpaF Hpane H0; set_solver|congruence]. }
           assert (HF0W : forall x, x ∈ F1 -> x ∉ WS1).
           { intros x Hx Hin. destruct (Hg1 _ Hin) as [?|?]; [clear -H0 Hx Ha1 Hd; set_solver|].
             destruct (orep_alloc _ _ _ _ _ Hc1 Hx). congruence. }
           split_and!.
           ++ rewrite <- Hbr, with_chld_same. apply Hun; [done|]. clear -HpaF Hpane; set_solver.
           ++ exists a, n', c1, F', F1. split_and!; try done.
              ** rewrite Ha'. rewrite with_bbit by (done || lia). by rewrite Ebit.
              ** eapply orep_untouched; [exact Hun| |exact Hc1]. clear -Ha1 Hd. set_solver.
              ** clear -HF0W HF'. set_solver.
           ++ clear -HpaF Hpane HF' HpaW. set_solver.
           ++ clear -HF' HWS1 Hg2. set_solver.
Qed.

Lemma n_inplace_insert_wp (h : heap) p t F k bits v :
  wf c t -> k < 2 ^ W -> orep h p t F ->
  wp (n_inplace_insert c p k bits v) h F
     (fun r h' WS' => exists F', orep h' r (f_ins c t k (clamp c bits) v) F' /\ F' ⊆ WS').
Proof.
  intros Hw Hk Hrep. unfold n_inplace_insert.
  pose proof (clamp_le c bits) as Hb. set (b := clamp c bits) in *. clearbody b.
  unfold nfuel. replace (N.to_nat W + 2)%nat with (S (N.to_nat W + 1)) by lia.
  pose proof (depth_fuel c t Hw) as Hd. unfold nfuel in Hd.
  destruct t as [|k' b' lf' v' l r].
  - destruct Hrep as [-> ->]. cbn [inplace_loop]. unfold new_node.
    apply wp_bind, wp_bind, wp_alloc. intros a Ha. cbn [wp bind].
    exists {[a]}. split; [|set_solver]. exists a, None, None, ∅, ∅. rewrite lookup_insert.
    split_and!; try done; clear; set_solver.
  - pose proof Hw as (Hk' & Hb' & Hl & Hr & Hwl & Hwr & Hf).
    pose proof Hrep as (a & c0 & c1 & F0 & F1 & -> & Ha & Hc0 & Hc1 & Ha0 & Ha1 & Hdj & ->).
    cbn [inplace_loop]. apply wp_bind. eapply wp_ld_num; [exact Ha|].
    cbn [nn_key nn_bits nn_leaf nn_val nn_c0 nn_c1].
    rewrite ncsb_eq by done. cbn [bind]. cbn [f_ins].
    destruct (pcsb_spec c k' b' k b Hk' Hk Hb' Hb) as (Hn1 & Hn2 & Hn3 & Hn4).
    set (nc := pcsb c k' b' k b) in *. clearbody nc.
    destruct (N.ltb_spec nc b').
    + apply wp_bind_ret. eapply wp_mono.
      { eapply (wp_call _ _ ∅); [|apply empty_subseteq].
        eapply (split_wp h (Some a) _ _ k' b' lf' v' l r k b v nc); try done. }
      cbn beta. intros m h' WS' [(WS1 & Ho & HWS1 & (_ & _ & Hg1)) [Hun (Hg2 & _ & _)]].
      cbn [wp]. exists (WS1 ∪ ({[a]} ∪ (F0 ∪ F1))). split; [done|].
      clear -HWS1 Hg2. set_solver.
    + destruct (N.eqb_spec b b') as [Eb|Eb].
      * apply wp_bind. eapply wp_st_num; [set_solver|by eexists|]. cbn [wp].
        exists ({[a]} ∪ (F0 ∪ F1)). split; [|done].
        exists a, c0, c1, F0, F1. rewrite lookup_insert. subst b. split_and!; try done;
          (eapply orep_agree; [|eassumption]); intros x Hx; rewrite lookup_insert_ne; try done; intros <-; done.
      * assert (Enc : nc = b') by lia. subst nc. rewrite chld_bbit by (done || lia). cbn [nn_c0 nn_c1].
        simpl in Hd.
        assert (Hch : chld (NumN k' b' lf' v' c0 c1) (bbit c k b') = if bitat W k b' then c1 else c0)
          by (rewrite chld_bbit by (done || lia); done).
        destruct (bitat W k b') eqn:Ebit.
        -- eapply wp_mono.
           { eapply (wp_call _ _ ({[a]} ∪ F1)); [|clear; set_solver].
             apply (inplace_loop_wp r _ h c1 F1 k b v a (NumN k' b' lf' v' c0 c1) (bbit c k b') (Some a)); try done. lia. }
           cbn beta. intros ret' h' WS' [(WS1 & (-> & n' & F' & Ha' & Ho' & Hn' & HF') & HWS1 & (_ & _ & Hg1)) [Hun (Hg2 & _ & _)]].
           exists ({[a]} ∪ (F0 ∪ F')).
           assert (HF0W : forall x, x ∈ F0 -> x ∉ WS1).
           { intros x Hx Hin. destruct (Hg1 _ Hin) as [?|?]; [clear -H0 Hx Ha0 Hdj; set_solver|].
             destruct (orep_alloc _ _ _ _ _ Hc0 Hx). congruence. }
           split; [|clear -HF' HWS1 Hg2; set_solver].
           exists a, c0, n', F0, F'. split_and!; try done.
           ++ rewrite Ha'. rewrite with_bbit by (done || lia). by rewrite Ebit.
           ++ eapply orep_untouched; [exact Hun| |exact Hc0]. clear -Ha0 Hdj. set_solver.
           ++ clear -HF0W HF'. set_solver.
        -- eapply wp_mono.
           { eapply (wp_call _ _ ({[a]} ∪ F0)); [|clear; set_solver].
             apply (inplace_loop_wp l _ h c0 F0 k b v a (NumN k' b' lf' v' c0 c1) (bbit c k b') (Some a)); try done. lia. }
           cbn beta. intros ret' h' WS' [(WS1 & (-> & n' & F' & Ha' & Ho' & Hn' & HF') & HWS1 & (_ & _ & Hg1)) [Hun (Hg2 & _ & _)]].
           exists ({[a]} ∪ (F' ∪ F1)).
           assert (HF0W : forall x, x ∈ F1 -> x ∉ WS1).
           { intros x Hx Hin. destruct (Hg1 _ Hin) as [?|?]; [clear -H0 Hx Ha1 Hdj; set_solver|].
             destruct (orep_alloc _ _ _ _ _ Hc1 Hx). congruence. }
           split; [|clear -HF' HWS1 Hg2; set_solver].
           exists a, n', c1, F', F1. split_and!; try done.
           ++ rewrite Ha'. rewrite with_bbit by (done || lia). by rewrite Ebit.
           ++ eapply orep_untouched; [exact Hun| |exact Hc1]. clear -Ha1 Hdj. set_solver.
           ++ clear -HF0W HF'. set_solver.
Qed.
End inplace.
