(** * In-place insertion into a radix tree that shares nodes with others. *)
From Verif Require Import Prog NumModel NumBits NumFun NumSim NumInplace NumSpec NumAbs NumFoot IpUpdProofs.
From Coq Require Import ZifyBool ZifyNat ZifyN.
Open Scope N_scope.

Section share.
Context {U : Type}.
Local Notation heap := (heap U).
Local Notation ntree := (ntree U).
Local Notation value := (value U).
Local Notation nmap := (gmap pfx (N * value)).
Variable c : cfg.
Hypothesis Hc : cfg_ok c.
Local Notation W := (cW c).
Implicit Types h : heap.

(** The part of a heap with addresses in [F]. *)
Definition hr h (F : gset loc) : heap := filter (fun x => x.1 ∈ F) h.
Lemma hr_lookup h F l : hr h F !! l = if decide (l ∈ F) then h !! l else None.
Proof.
  unfold hr. destruct (decide (l ∈ F)) as [H|H].
  - destruct (h !! l) as [x|] eqn:E; [by apply map_filter_lookup_Some|]. apply map_filter_lookup_None. by left.
  - apply map_filter_lookup_None. right. intros x _. by cbn [fst].
Qed.
Lemma hr_mono h F G : F ⊆ G -> hr h F ⊆ hr h G.
Proof. intros H. apply map_subseteq_spec. intros l x. rewrite !hr_lookup. destruct (decide (l ∈ F)); [|done]. destruct (decide (l ∈ G)); [done|]. intros _. exfalso. auto. Qed.
Lemma hr_sub h F : hr h F ⊆ h.
Proof. apply map_filter_subseteq. Qed.
Lemma hr_dom h F : F ⊆ dom h -> dom (hr h F) = F.
Proof. intros H. apply set_eq. intros l. rewrite elem_of_dom, hr_lookup. destruct (decide (l ∈ F)) as [Hl|Hl]; split; try done; [|by intros [? ?]]. intros _. apply elem_of_dom. by apply H. Qed.
Lemma orep_hr h t : forall p F G, orep h p t F -> F ⊆ G -> nrep (hr h G) p t.
Proof.
  induction t as [|k b lf v l IHl r IHr]; intros p F G; [by intros [-> _]|]. intros (a & c0 & c1 & F0 & F1 & -> & Ha & Hl & Hr & _ & _ & _ & ->) HG.
  exists a, c0, c1. split_and!; [done| |apply (IHl _ F0); [done|clear -HG; set_solver]|apply (IHr _ F1); [done|clear -HG; set_solver]]. rewrite hr_lookup. destruct (decide (a ∈ G)); [done|]. clear -HG n. set_solver.
Qed.
Lemma orep_fun h t : forall p F1 F2, orep h p t F1 -> orep h p t F2 -> F1 = F2.
Proof.
  induction t as [|k b lf v l IHl r IHr]; intros p F1 F2; [by intros [_ ->] [_ ->]|].
  intros (a & c0 & c1 & A0 & A1 & -> & Ha & Hl & Hr & _ & _ & _ & ->) (a' & c0' & c1' & B0 & B1 & [= <-] & Ha' & Hl' & Hr' & _ & _ & _ & ->).
  rewrite Ha in Ha'. injection Ha' as -> ->. by rewrite (IHl _ _ _ Hl Hl'), (IHr _ _ _ Hr Hr').
Qed.
Definition news h h' : gset loc := dom h' ∖ dom h.

(** One old node is written: [x], a prefix of the key, gets the value or a new child. *)
Definition hit (h h' : heap) (x : loc) (k b : N) (v : value) : Prop := exists xk xb xl xv x0 x1,
  h !! x = Some (CNum (NumN xk xb xl xv x0 x1)) /\ (forall y, y ∈ dom h -> y <> x -> h' !! y = h !! y) /\ agree W xb xk k /\ xb <= b /\
  ((xb = b /\ h' !! x = Some (CNum (NumN k b true v x0 x1))) \/
   (xb < b /\ exists n' tc Fc, orep h (if bitat W k xb then x1 else x0) tc Fc /\ nrep (hr h' (Fc ∪ news h h')) n' (f_ins c tc k b v) /\
      h' !! x = Some (CNum (if bitat W k xb then NumN xk xb xl xv x0 n' else NumN xk xb xl xv n' x1)))).

Lemma inplace_hit t : forall fuel h n F k b v pa pk pb pl pv p0 p1 br r WS,
  wf c t -> (depth t < fuel)%nat -> k < 2 ^ W -> b <= W -> orep h n t F -> dom h ⊆ WS -> h !! pa = Some (CNum (NumN pk pb pl pv p0 p1)) -> pa ∉ F ->
  n = (if bitat W k pb then p1 else p0) -> br = bbit c k pb -> pb < b -> agree W pb pk k ->
  wp (inplace_loop c fuel k b v (Some pa) br n r) h WS (fun ret h' _ => ret = r /\ exists x, hit h h' x k b v /\ (x = pa \/ x ∈ F)).
Proof using Hc.
  induction t as [|k' b' lf' v' l IHl r IHr]; intros fuel h n F k b v pa pk pb pl pv p0 p1 br ret WS Hw Hfuel Hk Hb Hrep HWS Hpa HpaF Hn Hbr Hpb Hag.
  - destruct fuel as [|fuel]; [simpl in Hfuel; lia|]. destruct Hrep as [En ->]. rewrite En. cbn [inplace_loop]. unfold new_node. apply wp_bind, wp_bind, wp_alloc. intros a Ha. cbn [wp bind].
    assert (Hne : a <> pa) by (intros ->; congruence).
    apply wp_bind. eapply wp_set_chld; [rewrite lookup_insert_ne by done; exact Hpa|apply elem_of_union_r, HWS; by apply elem_of_dom_2 in Hpa|].
    cbn [wp]. split; [done|]. exists pa. split; [|by left]. exists pk, pb, pl, pv, p0, p1. split_and!; [done| |done|lia|].
    + intros y Hy Hne2. rewrite lookup_insert_ne by done. apply lookup_insert_ne. intros ->. apply elem_of_dom in Hy as [? Hy]. congruence.
    + right. split; [done|]. exists (Some a), NE, ∅. split_and!.
      * by rewrite <- Hn.
      * cbn [f_ins nrep]. exists a, None, None. split_and!; [done| |done|done]. rewrite hr_lookup. rewrite decide_True.
        -- rewrite lookup_insert_ne by done. by rewrite lookup_insert.
        -- apply elem_of_union_r; unfold news; apply elem_of_difference; split; [rewrite !dom_insert; clear; set_solver|by apply not_elem_of_dom].
      * rewrite lookup_insert, Hbr, with_bbit by (done || lia). by destruct (bitat W k pb).
  - destruct fuel as [|fuel]; [simpl in Hfuel; lia|].
    pose proof Hw as (Hk' & Hb' & Hl & Hr & Hwl & Hwr & Hf).
    pose proof Hrep as (a & c0 & c1 & F0 & F1 & En & Ha & Hc0 & Hc1 & Ha0 & Ha1 & Hd & EF). rewrite En.
    cbn [inplace_loop]. apply wp_bind. eapply wp_ld_num; [exact Ha|].
    cbn [nn_key nn_bits nn_leaf nn_val nn_c0 nn_c1].
    rewrite ncsb_eq by done. cbn [bind].
    destruct (pcsb_spec c k' b' k b Hk' Hk Hb' Hb) as (Hn1 & Hn2 & Hn3 & Hn4).
    remember (pcsb c k' b' k b) as nc eqn:Enc0.
    destruct (N.ltb_spec nc b').
    + apply wp_bind_ret. eapply wp_mono.
      { eapply (wp_call _ _ ∅); [|apply empty_subseteq].
        eapply (split_wp c Hc h (Some a) _ _ k' b' lf' v' l r k b v nc); [reflexivity|by rewrite <- En|done..]. }
      cbn beta. intros m h1 WS' [(WS1 & Ho & HWS1 & (_ & _ & Hg1)) [Hun (Hg2 & _ & _)]].
      assert (Hpa' : h1 !! pa = Some (CNum (NumN pk pb pl pv p0 p1))) by (apply Hun; [done|apply not_elem_of_empty]).
      apply wp_bind. eapply wp_set_chld; [exact Hpa'|apply Hg2, HWS; by apply elem_of_dom_2 in Hpa|].
      cbn [wp]. split; [done|]. exists pa. split; [|by left]. exists pk, pb, pl, pv, p0, p1.
      assert (HpaW : pa ∉ WS1).
      { intros Hin. destruct (Hg1 _ Hin) as [Hin2|?]; [by apply not_elem_of_empty in Hin2|congruence]. }
      split_and!; [done| |done|lia|].
      * intros y Hy Hne2. rewrite lookup_insert_ne by done. apply elem_of_dom in Hy as [cy Hy]. rewrite Hy. apply Hun; [done|apply not_elem_of_empty].
      * right. split; [done|]. exists m, (NT k' b' lf' v' l r), F. split_and!.
        -- by rewrite <- Hn.
        -- eapply (orep_hr _ _ _ (WS1 ∪ F)).
           { eapply (orep_agree c Hc h1).
             - intros y Hy. apply lookup_insert_ne. intros <-. apply elem_of_union in Hy as [?|?]; done.
             - cbn [f_ins]. rewrite <- Enc0. destruct (N.ltb_spec nc b'); [|lia]. exact Ho. }
           intros y Hy. apply elem_of_union in Hy as [Hy|Hy]; [|by apply elem_of_union_l]. apply elem_of_union_r; unfold news; apply elem_of_difference; split.
           ++ rewrite dom_insert. apply elem_of_union_r, elem_of_dom. eapply (orep_alloc c Hc); [exact Ho|]. by apply elem_of_union_l.
           ++ destruct (Hg1 _ Hy) as [Hin2|Hn0]; [by apply not_elem_of_empty in Hin2|by apply not_elem_of_dom].
        -- rewrite lookup_insert, Hbr, with_bbit by (done || lia). by destruct (bitat W k pb).
    + assert (Enc : nc = b') by lia. destruct (N.eqb_spec b b') as [Eb|Eb].
      * apply wp_bind. eapply wp_st_num; [apply HWS; by apply elem_of_dom_2 in Ha|by eexists|]. cbn [wp].
        split; [done|]. exists a. split; [|right; rewrite EF; by apply elem_of_union_l, elem_of_singleton]. exists k', b', lf', v', c0, c1. split_and!; [done| |rewrite <- Enc; done|lia|].
        -- intros y Hy Hne2. by rewrite lookup_insert_ne.
        -- left. split; [done|]. rewrite lookup_insert. by rewrite Eb.
      * rewrite chld_bbit by (done || lia). cbn [nn_c0 nn_c1]. rewrite Enc.
        simpl in Hfuel. rewrite Enc in Hn3. destruct (bitat W k b') eqn:Ebit.
        -- eapply wp_mono; [eapply (IHr fuel h c1 F1 k b v a k' b' lf' v' c0 c1); try done; [lia|by rewrite Ebit|lia]|]. cbn beta. intros r2 h2 WS2 [-> (x & Hh & Hin)]. split; [done|]. exists x. split; [done|]. right. rewrite EF. clear -Hin. set_solver.
        -- eapply wp_mono; [eapply (IHl fuel h c0 F0 k b v a k' b' lf' v' c0 c1); try done; [lia|by rewrite Ebit|lia]|]. cbn beta. intros r2 h2 WS2 [-> (x & Hh & Hin)]. split; [done|]. exists x. split; [done|]. right. rewrite EF. clear -Hin. set_solver.
Qed.
(** The nodes of a tree extend its root. *)
Lemma orep_node h t : forall p F a, wf c t -> orep h p t F -> a ∈ F ->
  match t with NE => False | NT k b _ _ _ _ => exists nn, h !! a = Some (CNum nn) /\ b <= nn_bits nn /\ agree W b k (nn_key nn) end.
Proof using Hc.
  induction t as [|k b lf v l IHl r IHr]; intros p F a Hw Ho Ha; [destruct Ho as [_ ->]; by apply not_elem_of_empty in Ha|].
  destruct Hw as (Hk & Hb & Hl & Hr & Hwl & Hwr & Hf). destruct Ho as (x & c0 & c1 & F0 & F1 & -> & Hx & Hc0 & Hc1 & _ & _ & _ & ->).
  apply elem_of_union in Ha as [Ha|Ha]; [|apply elem_of_union in Ha as [Ha|Ha]].
  - apply elem_of_singleton in Ha as ->. eexists. split_and!; [exact Hx|cbn [nn_bits]; lia|apply agree_refl].
  - pose proof (IHl _ _ _ Hwl Hc0 Ha) as H. destruct l as [|k2 b2 ? ? ? ?]; [done|]. destruct H as (nn & E & H1 & H2). destruct Hl as (B1 & B2 & _). exists nn. split_and!; [done|lia|].
    eapply agree_trans; [exact B2|]. eapply agree_le; [|exact H2]. lia.
  - pose proof (IHr _ _ _ Hwr Hc1 Ha) as H. destruct r as [|k2 b2 ? ? ? ?]; [done|]. destruct H as (nn & E & H1 & H2). destruct Hr as (B1 & B2 & _). exists nn. split_and!; [done|lia|].
    eapply agree_trans; [exact B2|]. eapply agree_le; [|exact H2]. lia.
Qed.
Lemma orep_child h t p F a d k b : wf c t -> ok_child c k b d t -> orep h p t F -> a ∈ F ->
  exists nn, h !! a = Some (CNum nn) /\ b < nn_bits nn /\ agree W b k (nn_key nn) /\ bitat W (nn_key nn) b = d.
Proof using Hc.
  intros Hw Hok Ho Ha. pose proof (orep_node _ _ _ _ _ Hw Ho Ha) as H. destruct t as [|k2 b2 ? ? ? ?]; [done|]. destruct H as (nn & E & H1 & H2). destruct Hok as (B1 & B2 & <-).
  exists nn. split_and!; [done|lia| |].
  - eapply agree_trans; [exact B2|]. eapply agree_le; [|exact H2]. lia.
  - symmetry. by apply H2.
Qed.
(** The entries of a tree inside the prefix of its node [x] are those of the tree at [x]. *)
Definition at_node h (t : ntree) (x : loc) (xk xb : N) : Prop := exists tx, tx <> NE /\ wf c tx /\ nrep h (Some x) tx /\
  (forall e, e ∈ f_enum t /\ contained c xk xb e <-> e ∈ f_enum tx).
Lemma share_ins h h' x k b v : hit h h' x k b v -> k < 2 ^ W -> b <= W -> exists xk xb, agree W xb xk k /\ xb <= b /\ forall t p F, wf c t -> orep h p t F ->
  (x ∉ F -> nrep (hr h' F) p t) /\ (x ∈ F -> xk < 2 ^ W /\ xb <= W /\ nrep (hr h' (F ∪ news h h')) p (f_ins c t k b v) /\ at_node h t x xk xb).
Proof using Hc.
  intros (xk & xb & xl & xv & x0 & x1 & Hx & Hkeep & Hag & Hxb & Hcase) Hk Hb. exists xk, xb. split_and!; [done|done|].
  assert (Hout : forall t p F, orep h p t F -> x ∉ F -> nrep (hr h' F) p t).
  { intros t p F Ho HxF. eapply (orep_hr _ _ _ F); [|done]. eapply (orep_agree c Hc h); [|exact Ho]. intros y Hy. apply Hkeep; [|by intros ->]. apply elem_of_dom. by eapply orep_alloc. }
  induction t as [|tk tb tl tv l IHl r IHr]; intros p F Hw Ho; (split; [by apply Hout|]).
  { destruct Ho as [_ ->]. intros H. by apply not_elem_of_empty in H. }
  intros HxF. pose proof Hw as (Htk & Htb & Hl & Hr & Hwl & Hwr & Hf). pose proof Ho as (a & c0 & c1 & F0 & F1 & -> & Ha & Hc0 & Hc1 & Ha0 & Ha1 & Hd & EF). subst F.
  destruct (decide (x = a)) as [<-|Hne].
  - rewrite Hx in Ha. injection Ha as <- <- <- <- <- <-. split_and!; [done|done| |].
    + pose proof (Hout _ _ _ Hc0 Ha0) as N0. pose proof (Hout _ _ _ Hc1 Ha1) as N1. cbn [f_ins].
      destruct (pcsb_spec c xk xb k b Htk Hk Htb Hb) as (Hn1 & Hn2 & Hn3 & Hn4). set (nc := pcsb c xk xb k b) in *. clearbody nc.
      assert (nc = xb) as ->. { destruct (N.lt_ge_cases nc xb); [|lia]. exfalso. apply Hn4; [done|lia|]. by apply Hag. }
      destruct (N.ltb_spec xb xb); [lia|]. set (G := _ ∪ news h h'). assert (HG0 : F0 ⊆ G /\ F1 ⊆ G /\ x ∈ G /\ news h h' ⊆ G) by (subst G; generalize (news h h'); clear; set_solver). destruct HG0 as (HG0 & HG1 & HGx & HGn).
      assert (N0' : nrep (hr h' G) x0 l) by (eapply nrep_mono; [apply (hr_mono h' F0 G HG0)|done]). assert (N1' : nrep (hr h' G) x1 r) by (eapply nrep_mono; [apply (hr_mono h' F1 G HG1)|done]).
      assert (HGl : hr h' G !! x = h' !! x) by (rewrite hr_lookup; by rewrite decide_True).
      destruct Hcase as [[-> Hx']|(Hlt & n' & tc & Fc & Htc & Hn' & Hx')].
      * rewrite N.eqb_refl. exists x, x0, x1. by rewrite HGl.
      * destruct (N.eqb_spec b xb); [lia|]. destruct (bitat W k xb).
        -- pose proof (nrep_det _ _ _ _ (orep_nrep _ _ _ _ Htc) (orep_nrep _ _ _ _ Hc1)) as ->. pose proof (orep_fun _ _ _ _ _ Htc Hc1) as ->. exists x, x0, n'. rewrite HGl. split_and!; [done..|]. eapply nrep_mono; [apply (hr_mono h' (F1 ∪ news h h') G)|exact Hn']. clear -HG1 HGn. set_solver.
        -- pose proof (nrep_det _ _ _ _ (orep_nrep _ _ _ _ Htc) (orep_nrep _ _ _ _ Hc0)) as ->. pose proof (orep_fun _ _ _ _ _ Htc Hc0) as ->. exists x, n', x1. rewrite HGl. split_and!; [done..| |done]. eapply nrep_mono; [apply (hr_mono h' (F0 ∪ news h h') G)|exact Hn']. clear -HG0 HGn. set_solver.
    + exists (NT xk xb xl xv l r). split_and!; [done|done|by eapply orep_nrep|]. intros [[k1 b1] v1]. split; [by intros [? _]|]. intros Hin. split; [done|]. pose proof (enum_under c _ Hw _ _ _ Hin) as (? & ? & ? & ?). split; [done|by apply agree_sym].
  - assert (Hx01 : x ∈ F0 \/ x ∈ F1) by (clear -HxF Hne; set_solver).
    assert (Hgo : forall d, (tb < xb /\ agree W tb tk xk /\ bitat W xk tb = d) -> f_ins c (NT tk tb tl tv l r) k b v = if d then NT tk tb tl tv l (f_ins c r k b v) else NT tk tb tl tv (f_ins c l k b v) r).
    { intros d (D1 & D2 & D3). cbn [f_ins]. destruct (pcsb_spec c tk tb k b Htk Hk Htb Hb) as (Hn1 & Hn2 & Hn3 & Hn4). set (nc := pcsb c tk tb k b) in *. clearbody nc.
      assert (Hat : agree W tb tk k) by (eapply agree_trans; [exact D2|]; eapply agree_le; [|exact Hag]; lia).
      assert (nc = tb) as ->. { destruct (N.lt_ge_cases nc tb); [|lia]. exfalso. apply Hn4; [done|lia|]. by apply Hat. }
      destruct (N.ltb_spec tb tb); [lia|]. destruct (N.eqb_spec b tb); [lia|]. rewrite <- (Hag tb) by done. by rewrite D3. }
    assert (Hent : forall d k1 b1 v1, (tb < xb /\ agree W tb tk xk /\ bitat W xk tb = d) -> (k1, b1, v1) ∈ f_enum (NT tk tb tl tv l r) /\ contained c xk xb (k1, b1, v1) <-> (k1, b1, v1) ∈ f_enum (if d then r else l) /\ contained c xk xb (k1, b1, v1)).
    { intros d k1 b1 v1 (D1 & D2 & D3). unfold contained. cbn [fst snd]. split; intros [Hin [B1 B2]]; (split; [|done]).
      - cbn [f_enum] in Hin. apply elem_of_app in Hin as [Hin|Hin].
        + destruct tl; [|by apply elem_of_nil in Hin]. apply elem_of_list_singleton in Hin. injection Hin as -> -> ->. lia.
        + pose proof (B2 tb D1) as E. rewrite D3 in E. apply elem_of_app in Hin as [Hin|Hin].
          * destruct (enum_child c _ _ _ _ _ _ _ Hwl Hl Hin) as (_ & _ & _ & _ & E2). assert (d = false) as -> by congruence. done.
          * destruct (enum_child c _ _ _ _ _ _ _ Hwr Hr Hin) as (_ & _ & _ & _ & E2). assert (d = true) as -> by congruence. done.
      - cbn [f_enum]. apply elem_of_app. right. apply elem_of_app. destruct d; auto. }
    destruct Hx01 as [H0|H1].
    + destruct (orep_child _ _ _ _ _ _ _ _ Hwl Hl Hc0 H0) as (nn & En & D1 & D2 & D3). rewrite Hx in En. injection En as <-. cbn [nn_bits nn_key] in *.
      destruct (IHl _ _ Hwl Hc0) as [_ H]. destruct (H H0) as (A1 & A2 & A3 & tx & A4 & A5 & A6 & A7). split_and!; [done|done| |].
      * rewrite (Hgo false) by done. exists a, c0, c1. split_and!; [done| |eapply nrep_mono; [apply (hr_mono h' (F0 ∪ news h h')); generalize (news h h'); clear; set_solver|exact A3]|eapply nrep_mono; [apply (hr_mono h' F1); clear; set_solver|apply (Hout _ _ _ Hc1); clear -H0 Hd; set_solver]]. rewrite hr_lookup, decide_True; [rewrite Hkeep; [done|by apply elem_of_dom_2 in Ha|done]|clear; set_solver].
      * exists tx. split_and!; [done..|]. intros [[k1 b1] v1]. rewrite (Hent false) by done. apply A7.
    + destruct (orep_child _ _ _ _ _ _ _ _ Hwr Hr Hc1 H1) as (nn & En & D1 & D2 & D3). rewrite Hx in En. injection En as <-. cbn [nn_bits nn_key] in *.
      destruct (IHr _ _ Hwr Hc1) as [_ H]. destruct (H H1) as (A1 & A2 & A3 & tx & A4 & A5 & A6 & A7). split_and!; [done|done| |].
      * rewrite (Hgo true) by done. exists a, c0, c1. split_and!; [done| |eapply nrep_mono; [apply (hr_mono h' F0); clear; set_solver|apply (Hout _ _ _ Hc0); clear -H1 Hd; set_solver]|eapply nrep_mono; [apply (hr_mono h' (F1 ∪ news h h')); generalize (news h h'); clear; set_solver|exact A3]]. rewrite hr_lookup, decide_True; [rewrite Hkeep; [done|by apply elem_of_dom_2 in Ha|done]|clear; set_solver].
      * exists tx. split_and!; [done..|]. intros [[k1 b1] v1]. rewrite (Hent true) by done. apply A7.
Qed.

(** ** Maps. *)
Definition coincide (m1 m2 : nmap) (k b : N) : Prop := exists P, covers P (norm W k b) /\ (exists q, covers P q /\ is_Some (m1 !! q)) /\ forall q, covers P q -> m1 !! q = m2 !! q.
Definition same_or_ins (m1 m m' : nmap) (k b : N) (v : value) : Prop := m' = m \/ (m' = s_insert W m k b v /\ coincide m1 m k b).
Lemma at_node_get h t m x xk xb : xk < 2 ^ W -> xb <= W -> wf c t -> nabs c t m -> at_node h t x xk xb ->
  exists tx, tx <> NE /\ wf c tx /\ nrep h (Some x) tx /\ forall q k1 v1, covers (norm W xk xb) q -> m !! q = Some (k1, v1) <-> (k1, q.1, v1) ∈ f_enum tx /\ q = norm W k1 q.1.
Proof using Hc.
  intros Hxk Hxb Hw Ha (tx & A1 & A2 & A3 & A4). exists tx. split_and!; [done..|]. intros q k1 v1 Hq. rewrite (Ha q k1 v1). rewrite <- A4. split.
  - intros [Hin E]. split_and!; [done| |done]. destruct (enum_wf c _ _ _ _ Hw Hin) as [B1 B2]. rewrite E in Hq. by apply covers_norm in Hq.
  - intros [[Hin _] E]. done.
Qed.
Lemma hit_tree h h' x k b v F1 p1 m1 : hit h h' x k b v -> dom h ⊆ dom h' -> k < 2 ^ W -> b <= W -> ntree_in c h F1 p1 m1 ->
  (exists t F, wf c t /\ orep h p1 t F /\ x ∈ F) -> forall F2 p m, ntree_in c h F2 p m ->
  if decide (x ∈ F2) then exists m', ntree_in c h' (F2 ∪ news h h') p m' /\ same_or_ins m1 m m' k b v else ntree_in c h' F2 p m.
Proof using Hc.
  intros Hh Hdom Hk Hb Hin1 (t1' & F1' & Hw1' & Ho1 & Hx1) F2 p m Hin2.
  pose proof Hin2 as (h0 & Hs0 & Hd0 & t & Hw & Hr0 & Ha). destruct (orep_of_nrep c h0 t p Hw Hr0) as (F & Ho0 & _).
  assert (HF : F ⊆ F2). { intros y Hy. rewrite <- Hd0. apply elem_of_dom. by eapply orep_alloc. }
  assert (Ho : orep h p t F). { eapply (orep_agree c Hc h0); [|exact Ho0]. intros y Hy. destruct (h0 !! y) as [z|] eqn:E; [by eapply lookup_weaken|]. exfalso. assert (y ∈ dom h0) as Hy2 by (rewrite Hd0; auto). apply elem_of_dom in Hy2 as [? ?]. congruence. }
  assert (HF2 : F2 ⊆ dom h') by (etrans; [by eapply ntree_in_dom|done]).
  destruct (share_ins _ _ _ _ _ _ Hh Hk Hb) as (xk & xb & Hag & Hxb & Hall).
  destruct (decide (x ∈ F2)) as [Hx2|Hx2].
  2: { exists (hr h' F2). split_and!; [apply hr_sub|by apply hr_dom|]. exists t. split_and!; [done| |done]. eapply nrep_mono; [apply (hr_mono h' F F2 HF)|]. apply (Hall t p F Hw Ho). auto. }
  assert (HFn : F2 ∪ news h h' ⊆ dom h') by (unfold news; clear -HF2; set_solver).
  destruct (decide (x ∈ F)) as [Hx|Hx].
  - destruct (Hall t p F Hw Ho) as [_ H]. destruct (H Hx) as (X1 & X2 & H1 & H2).
    destruct Hin1 as (h1 & Hs1 & Hd1 & t1 & Hw1 & Hr1 & Ha1). pose proof (nrep_mono _ _ _ _ Hs1 Hr1) as Hr1h. pose proof (nrep_det _ _ _ _ Hr1h (orep_nrep _ _ _ _ Ho1)) as <-.
    destruct (Hall t1 p1 F1' Hw1 Ho1) as [_ H3]. destruct (H3 Hx1) as (_ & _ & _ & H4).
    destruct (at_node_get _ _ _ _ _ _ X1 X2 Hw Ha H2) as (tx & B1 & B2 & B3 & B4). destruct (at_node_get _ _ _ _ _ _ X1 X2 Hw1 Ha1 H4) as (ty & C1 & C2 & C3 & C4). pose proof (nrep_det _ _ _ _ B3 C3) as <-.
    exists (s_insert W m k b v). split.
    + exists (hr h' (F2 ∪ news h h')). split_and!; [apply hr_sub|by apply hr_dom|]. exists (f_ins c t k b v). split_and!; [by apply ins_wf| |by apply nabs_ins]. eapply nrep_mono; [apply (hr_mono h' (F ∪ news h h'))|exact H1]. clear -HF. set_solver.
    + right. split; [done|]. exists (norm W xk xb). split_and!.
      * apply covers_norm; [done..|]. split; [done|by apply agree_sym].
      * destruct (wf_nonempty c tx B2 B1) as [[[k1 b1] v1] Hin]. exists (norm W k1 b1). destruct H2 as (ty & D1 & D2 & D3 & D4). pose proof (nrep_det _ _ _ _ B3 D3) as <-. pose proof Hin as Hin'. apply D4 in Hin as [Hin [E1 E2]].
        destruct (enum_wf c _ _ _ _ Hw Hin) as [W1 W2]. assert (Hcv : covers (norm W xk xb) (norm W k1 b1)) by (by apply covers_norm). split; [done|]. exists (k1, v1). apply C4; [done|]. done.
      * intros q Hq. apply option_eq. intros [k1 v1]. by rewrite (B4 q k1 v1 Hq), (C4 q k1 v1 Hq).
  - exists m. split; [|by left]. exists (hr h' (F2 ∪ news h h')). split_and!; [apply hr_sub|by apply hr_dom|]. exists t. split_and!; [done| |done]. eapply nrep_mono; [apply (hr_mono h' F); clear -HF; set_solver|]. by apply (Hall t p F Hw Ho).
Qed.
(** In-place insertion, and what it does to any other tree. *)
Lemma n_inplace_all h WS F p m k bits v : k < 2 ^ W -> dom h ⊆ WS -> ntree_in c h F p m ->
  wp (n_inplace_insert c p k bits v) h WS (fun r h' WS' => WS ⊆ WS' /\ dom h ⊆ dom h' /\
    (exists F', ntree_in c h' F' r (s_insert W m k (adj W bits) v) /\ fresh_or h F F' /\ F' ⊆ WS') /\
    exists x, (x ∈ F \/ x ∉ dom h) /\ (forall y, y ∈ dom h -> y <> x -> h' !! y = h !! y) /\
      forall F2 p2 m2, ntree_in c h F2 p2 m2 ->
      if decide (x ∈ F2) then exists m', ntree_in c h' (F2 ∪ news h h') p2 m' /\ same_or_ins m m2 m' k (adj W bits) v else ntree_in c h' F2 p2 m2).
Proof using Hc.
  intros Hk HWS Hti. pose proof (ntree_in_dom _ _ _ _ _ Hti) as HFd. pose proof (ntree_in_at _ _ _ _ _ Hti) as Ht.
  assert (H1 : wp (n_inplace_insert c p k bits v) h WS (fun r h' WS' => (exists F', ntree_in c h' F' r (s_insert W m k (adj W bits) v) /\ fresh_or h F F' /\ F' ⊆ WS') /\ WS ⊆ WS' /\ untouched F h h' /\ dom h ⊆ dom h')).
  { eapply wp_mono; [apply (n_inplace_in c Hc h WS F p m k bits v Hk Hti); by etrans|]. cbn beta. intros r h' WS' (F' & A1 & A2 & A3 & A4 & A5 & A6). split_and!; [by exists F'|done..]. }
  assert (H2 : wp (n_inplace_insert c p k bits v) h WS (fun r h' _ => h ⊆ h' \/ exists x, hit h h' x k (adj W bits) v /\ exists t F, wf c t /\ orep h p t F /\ x ∈ F)).
  { rewrite <- (clamp_adj c). destruct Ht as (t & Hw & Hr & _). clear Hti HFd H1 F. destruct (orep_of_nrep c h t p Hw Hr) as (F & Hrep & _). clear Hr. unfold n_inplace_insert.
    pose proof (clamp_le c bits) as Hb. set (b := clamp c bits) in *. clearbody b.
    unfold nfuel. replace (N.to_nat W + 2)%nat with (S (N.to_nat W + 1)) by lia. pose proof (depth_fuel c t Hw) as Hd. unfold nfuel in Hd.
    destruct t as [|k' b' lf' v' l r].
    - destruct Hrep as [-> ->]. cbn [inplace_loop]. unfold new_node. apply wp_bind, wp_bind, wp_alloc. intros a Ha. cbn [wp bind]. left. by apply insert_subseteq.
    - pose proof Hw as (Hk' & Hb' & Hl & Hr & Hwl & Hwr & Hf). pose proof Hrep as (a & c0 & c1 & F0 & F1 & -> & Ha & Hc0 & Hc1 & Ha0 & Ha1 & Hdj & ->).
      cbn [inplace_loop]. apply wp_bind. eapply wp_ld_num; [exact Ha|]. cbn [nn_key nn_bits nn_leaf nn_val nn_c0 nn_c1]. rewrite ncsb_eq by done. cbn [bind].
      destruct (pcsb_spec c k' b' k b Hk' Hk Hb' Hb) as (Hn1 & Hn2 & Hn3 & Hn4). set (nc := pcsb c k' b' k b) in *. clearbody nc.
      destruct (N.ltb_spec nc b').
      + apply wp_bind_ret. eapply wp_mono.
        { eapply (wp_call _ _ ∅); [|apply empty_subseteq]. eapply (split_wp c Hc h (Some a) _ _ k' b' lf' v' l r k b v nc); [reflexivity|exact Hrep|done..]. }
        cbn beta. intros m2 h1 WS' [_ [Hun _]]. cbn [wp]. left. apply map_subseteq_spec. intros y z Hy. apply Hun; [done|apply not_elem_of_empty].
      + assert (Enc : nc = b') by lia. destruct (N.eqb_spec b b') as [Eb|Eb].
        * apply wp_bind. eapply wp_st_num; [apply HWS; by apply elem_of_dom_2 in Ha|by eexists|]. cbn [wp]. right. exists a. split.
          -- exists k', b', lf', v', c0, c1. split_and!; [done|intros; by rewrite lookup_insert_ne|by rewrite <- Enc|lia|]. left. split; [done|]. rewrite lookup_insert. by rewrite Eb.
          -- exists (NT k' b' lf' v' l r). eexists. split_and!; [done|exact Hrep|]. clear. set_solver.
        * rewrite Enc. rewrite chld_bbit by (done || lia). cbn [nn_c0 nn_c1]. simpl in Hd. rewrite Enc in Hn3. destruct (bitat W k b') eqn:Ebit.
          -- eapply wp_mono; [eapply (inplace_hit r _ h c1 F1 k b v a k' b' lf' v' c0 c1); try done; [lia|by rewrite Ebit|lia]|]. cbn beta. intros r2 h2 WS2 [_ (x & Hh & Hin)]. right. exists x. split; [done|].
             exists (NT k' b' lf' v' l r). eexists. split_and!; [done|exact Hrep|]. clear -Hin. set_solver.
          -- eapply wp_mono; [eapply (inplace_hit l _ h c0 F0 k b v a k' b' lf' v' c0 c1); try done; [lia|by rewrite Ebit|lia]|]. cbn beta. intros r2 h2 WS2 [_ (x & Hh & Hin)]. right. exists x. split; [done|].
             exists (NT k' b' lf' v' l r). eexists. split_and!; [done|exact Hrep|]. clear -Hin. set_solver. }
  eapply wp_mono; [apply wp_and; [exact H1|exact H2]|]. cbn beta. intros r h' WS' [(A1 & A2 & A3 & A4) [B|(x & B & B2)]]; (split_and!; [done|done|exact A1|]).
  - exists (fresh (dom h)). split_and!; [right; apply is_fresh| |].
    + intros y Hy _. apply elem_of_dom in Hy as [z Hy]. rewrite Hy. by eapply lookup_weaken.
    + intros F2 p2 m2 Hm2. rewrite decide_False; [by eapply ntree_in_mono|]. intros Hin. apply (is_fresh (dom h)). by apply (ntree_in_dom _ _ _ _ _ Hm2).
  - exists x. split_and!.
    + left. destruct B2 as (t & F1 & Hw & Ho & Hx). destruct Hti as (h0 & Hs0 & Hd0 & t0 & Hw0 & Hr0 & _). destruct (orep_of_nrep c h0 t0 p Hw0 Hr0) as (F0 & Ho0 & _).
      pose proof (nrep_det _ _ _ _ (nrep_mono _ _ _ _ Hs0 Hr0) (orep_nrep _ _ _ _ Ho)) as ->.
      assert (HF0 : F0 ⊆ dom h0) by (intros y Hy; apply elem_of_dom; by eapply orep_alloc).
      assert (Ho0' : orep h p t F0). { eapply (orep_agree c Hc h0); [|exact Ho0]. intros y Hy. apply HF0 in Hy. apply elem_of_dom in Hy as [z Hy]. rewrite Hy. by eapply lookup_weaken. }
      rewrite (orep_fun _ _ _ _ _ Ho Ho0') in Hx. rewrite <- Hd0. by apply HF0.
    + destruct B as (xk & xb & xl & xv & x0 & x1 & _ & Hkeep & _). exact Hkeep.
    + intros F2 p2 m2 Hm2. eapply hit_tree; [exact B|done|done| |exact Hti|exact B2|exact Hm2]. rewrite <- (clamp_adj c). apply clamp_le.
Qed.
End share.
