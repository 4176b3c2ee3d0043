(** * One call on one of many versions of a radix tree, with the nodes it makes (for iptree). *)
From Verif Require Import Prog History NumSpec NumModel NumFun NumAbs NumFoot NumBits NumSim NumInplace NumNavSpec NumNavProofs VersSpec NumShare VersProofs NumExact StampSpec WorkProofs IpUpd3 IpUpdProofs NumPropProofs IpPropProofs StampProofs.
Open Scope nat_scope.

Section tree.
Context {U : Type} (c : cfg) (Hc : cfg_ok c).
Local Notation heap := (heap U).
Local Notation nmap := (gmap pfx (N * value U)).
Local Notation ver := (ver U).
Local Notation ver0 := (ver0 U).
Local Notation W := (cW c).
Implicit Types h : heap.

(** Call [n] makes the nodes [M] and writes to nodes of [L] only. *)
Definition did h h' (L M : gset loc) (K : loc -> nat) (n : nat) : Prop :=
  (forall a, a ∈ M -> h !! a = None) /\ M ⊆ dom h' /\ dom h ⊆ dom h' /\ (forall y, y ∈ dom h -> y ∉ L -> h' !! y = h !! y) /\
  labels c h' (L ∪ M) (mark K M n) (S n).

Lemma in_set_ext h L K p (g g' : ver) : content g = content g' -> (forall X, branching (content g) X -> since g X = since g' X) ->
  in_set c h L K p g -> in_set c h L K p g'.
Proof using Hc.
  intros E Hs (F & A & t & B1 & B2 & B3 & B4). exists F. split; [done|]. exists t. split_and!; [done|done|by rewrite <- E|].
  intros a X Ha HX. rewrite (B4 a X) by done. apply Hs. eapply (branching_place c Hc); [exact B1|exact B2|exact B3|]. by exists a.
Qed.
Lemma in_set_same h L K p (g g' : ver) : in_set c h L K p g -> in_set c h L K p g' ->
  content g = content g' /\ forall X, branching (content g) X -> since g X = since g' X.
Proof using Hc.
  intros (F & A & t & B1 & B2 & B3 & B4) (F' & A' & t' & B1' & B2' & B3' & B4').
  pose proof (nrep_det _ _ _ _ (orep_nrep _ _ _ _ B2) (orep_nrep _ _ _ _ B2')) as <-. pose proof (orep_fun _ _ _ _ _ B2 B2') as <-.
  assert (E : content g = content g').
  { eapply (ntree_at_fun c h p); [exists t; split_and!; [done|by eapply orep_nrep|done]|exists t; split_and!; [done|by eapply orep_nrep|done]]. }
  split; [done|]. intros X HX.
  eapply (branching_place c Hc) in HX; [|exact B1|exact B2|exact B3]. destruct HX as (a & Ha & HX). by rewrite <- (B4 a X), <- (B4' a X).
Qed.
Lemma in_set_agree h h' L K K' p (g : ver) : (forall a, a ∈ L -> h' !! a = h !! a) -> (forall a, a ∈ L -> K' a = K a) -> in_set c h L K p g -> in_set c h' L K' p g.
Proof using Hc.
  intros Hh HK (F & A & t & B1 & B2 & B3 & B4). exists F. split; [done|]. exists t. split_and!; [done| |done|].
  - eapply (orep_agree c Hc); [|exact B2]. auto.
  - intros a X Ha (nn & E & HX). rewrite HK by auto. apply B4; [done|]. exists nn. rewrite <- Hh by auto. done.
Qed.
Lemma labels_agree h h' L K K' n : L ⊆ dom h' -> (forall a, a ∈ L -> h' !! a = h !! a) -> (forall a, a ∈ L -> K' a = K a) -> labels c h L K n -> labels c h' L K' n.
Proof.
  intros Hd Hh HK (A1 & A2 & A3). split_and!; [done| |].
  - intros a Ha. rewrite HK by done. auto.
  - intros a a' X Ha Ha' (n1 & E1 & H1) (n2 & E2 & H2). rewrite !HK by done. rewrite Hh in E1, E2 by done. apply (A3 a a' X); [done|done|by exists n1|by exists n2].
Qed.
Lemma in_set_more h L M K p (g : ver) : in_set c h L K p g -> in_set c h (L ∪ M) K p g.
Proof. intros (F & A & B). exists F. split; [clear -A; set_solver|done]. Qed.
Lemma did_mark h h' L M K n : did h h' L M K n -> forall a, a ∈ dom h -> mark K M n a = K a.
Proof. intros (A & _) a Ha. apply (mark_old h (dom h)); [done|done|done]. Qed.

Lemma copied_did h h' L K n F p (g : ver) t r t' m' k b : labels c h L K n -> h ⊆ h' -> F ⊆ L -> wf c t -> orep h p t F ->
  (forall a X, a ∈ F -> place c h a X -> K a = since g X) -> wf c t' -> nabs c t' m' -> (k < 2 ^ W)%N -> (b <= W)%N ->
  copied c h h' F (fun _ => False) r t' k b ->
  exists M, did h h' L M K n /\ in_set c h' (L ∪ M) (mark K M n) r (remade n g (norm W k b) m').
Proof using Hc.
  intros HL Hs HF Hw Ho HK Hw' Ha' Hk Hb (F1 & N & A1 & A2 & A3 & A4 & A5).
  assert (HN : forall a, a ∈ N -> h !! a = None) by (intros a Ha; by destruct (A3 a Ha)).
  assert (HLd : L ⊆ dom h) by apply HL.
  pose proof (mark_old h L K n N HLd HN) as Hmark.
  assert (HNd : N ⊆ dom h'). { intros a Ha. apply (orep_dom c Hc _ _ _ _ A1). clear -Ha; set_solver. }
  exists N. split.
  - split_and!; [done|done|by apply subseteq_dom| |].
    + intros y Hy _. apply elem_of_dom in Hy as [z Hz]. rewrite Hz. by eapply lookup_weaken.
    + eapply labels_grow; [exact HL|by apply subseteq_dom| |done|done|].
      * intros a X Ha. apply place_back; [done|]. apply elem_of_dom. auto.
      * intros a a' X Ha Hb'. eapply (orep_place_inj c Hc); [exact Hw'|exact A1|clear -Ha; set_solver|clear -Hb'; set_solver].
  - exists (F1 ∪ N). split; [clear -A2 HF; set_solver|]. exists t'. split_and!; [done|done|done|].
    intros a X Ha HX. unfold remade. cbn [since]. pose proof Ha as Ha2. apply elem_of_union in Ha2 as [Ha2|Ha2].
    + assert (HaF : a ∈ F) by auto. rewrite Hmark by auto.
      assert (HX' : place c h a X) by (eapply place_back; [exact Hs| |exact HX]; by eapply (orep_alloc c Hc)).
      rewrite decide_False; [by apply HK|]. eapply (aside_covers c Hc); [exact Hw|exact Ho|exact HaF|done..|by apply A5].
    + unfold mark. rewrite decide_True by done. rewrite decide_True; [done|]. eapply (over_covers c Hc); [exact Hw'|exact A1|exact Ha|done..|by apply A4].
Qed.
Lemma t_insert h WS L K n p (g : ver) k bits v : labels c h L K n -> in_set c h L K p g -> (k < 2 ^ W)%N ->
  wp (n_insert c p k bits v) h WS (fun r h' _ => h ⊆ h' /\
    exists M, did h h' L M K n /\ in_set c h' (L ∪ M) (mark K M n) r (remade n g (norm W k (adj W bits)) (s_insert W (content g) k (adj W bits) v))).
Proof using Hc.
  intros HL (F & HF & t & Hw & Ho & Ha & HK) Hk. assert (Hb : (adj W bits <= W)%N) by (rewrite <- (clamp_adj c); apply clamp_le).
  eapply wp_mono; [eapply (wp_call _ _ ∅); [by apply (n_insert_exact c Hc h p t F k bits v)|apply empty_subseteq]|].
  cbn beta. intros r h' WS' [(W1 & (A1 & A2) & _) _]. split; [done|]. rewrite (clamp_adj c) in A1.
  eapply copied_did; [exact HL|done|exact HF|exact Hw|exact Ho|exact HK|by apply (ins_wf c t k (adj W bits) v)|by apply nabs_ins|done|done|exact A1].
Qed.
Lemma t_delete h WS L K n p (g : ver) k bits : labels c h L K n -> in_set c h L K p g -> (k < 2 ^ W)%N ->
  wp (n_delete c p k bits) h WS (fun r h' _ => h ⊆ h' /\ s_deleted W (content g) k (adj W bits) r.2 /\
    if r.2 then exists M, did h h' L M K n /\ in_set c h' (L ∪ M) (mark K M n) r.1 (remade n g (norm W k (adj W bits)) (s_delete W (content g) k (adj W bits)))
    else r.1 = p).
Proof using Hc.
  intros HL (F & HF & t & Hw & Ho & Ha & HK) Hk. assert (Hb : (adj W bits <= W)%N) by (rewrite <- (clamp_adj c); apply clamp_le).
  eapply wp_mono; [eapply (wp_call _ _ ∅); [by apply (n_delete_exact c Hc h p t F k bits)|apply empty_subseteq]|].
  cbn beta. intros [r ok] h' WS' [(W1 & (A1 & A2 & A3 & A4) & _) _]. cbn [fst snd] in *. rewrite (clamp_adj c) in *. split; [done|].
  pose proof (nabs_deleted c t _ k (adj W bits) Hw Hk Hb Ha) as Hdel. rewrite <- A2 in Hdel. split; [done|]. destruct ok; [|by apply A3].
  eapply copied_did; [exact HL|done|exact HF|exact Hw|exact Ho|exact HK|by apply (del_wf c t k (adj W bits))|by apply nabs_del|done|done|by apply A4].
Qed.
Lemma t_inplace h (WS : gset loc) L K n p (g : ver) k bits v : dom h ⊆ WS -> labels c h L K n -> in_set c h L K p g -> (k < 2 ^ W)%N ->
  let b := adj W bits in let q := norm W k b in
  wp (n_inplace_insert c p k bits v) h WS (fun r h' WS' => dom h' ⊆ WS' /\ exists M, did h h' L M K n /\
    in_set c h' (L ∪ M) (mark K M n) r (updated W n g k b v) /\
    (r = p \/ forall g2, ~ sharing g g2 q) /\
    forall p2 g2, in_set c h L K p2 g2 ->
      (sharing g g2 q -> in_set c h' (L ∪ M) (mark K M n) p2 (updated W n g2 k b v)) /\
      (~ sharing g g2 q -> in_set c h' (L ∪ M) (mark K M n) p2 g2)).
Proof using Hc.
  intros HWS HL (F & HF & t & Hw & Ho & Ha & HK) Hok b q. assert (HLd : L ⊆ dom h) by apply HL.
  eapply wp_mono; [apply (wp_dom (St := unit) (fun _ _ => True)); [exact HWS|]; apply wp_frame; by apply (n_inplace_exact c Hc h WS p t F k bits v)|].
  cbn beta. intros r h' WS' [((N & HN & Hcase) & _ & (_ & Hdom & _)) D]. split; [done|]. rewrite (clamp_adj c) in Hcase. assert (Hb : (adj W bits <= W)%N) by (rewrite <- (clamp_adj c); apply clamp_le).
  fold b in Hcase, Hb. pose proof (mark_old h L K n N HLd HN) as Hmark. exists N.
  destruct Hcase as [(Hs & Hor & Has)|(-> & x & HxF & Hh)].
  - assert (Hpl : forall a X, a ∈ L -> place c h' a X <-> place c h a X).
    { intros a X Hin. split; [|by apply place_mono]. apply place_back; [done|]. apply elem_of_dom. auto. }
    assert (Hno : forall g2, ~ sharing g g2 q).
    { intros g2 (X & (B1 & B2 & _) & _). eapply (branching_place c Hc) in B1; [|exact Hw|exact Ho|exact Ha]. destruct B1 as (a & Hin & HX). eapply (aside_covers c Hc); [exact Hw|exact Ho|exact Hin|exact HX|exact Hok|exact Hb|by apply Has|exact B2]. }
    assert (HNd : N ⊆ dom h'). { intros a Hin. apply (orep_dom c Hc _ _ _ _ Hor). clear -Hin; set_solver. }
    split_and!; [split_and!; [done|done|done| |]| |by right|].
    + intros y Hy _. apply elem_of_dom in Hy as [z Hz]. rewrite Hz. by eapply lookup_weaken.
    + eapply labels_grow; [exact HL|done|intros a X Hin; by apply Hpl|done|done|].
      intros a a' X Hin Hin'. eapply (orep_place_inj c Hc); [by apply (ins_wf c t k b v)|exact Hor|clear -Hin; set_solver|clear -Hin'; set_solver].
    + exists (F ∪ N). split; [clear -HF; set_solver|]. eapply (updated_vrep c Hc); [exact Hw|exact Ho|exact Ha|exact HK|done|done|done| |exact Hor]. intros a X Hin. apply Hpl. auto.
    + intros p2 g2 H2. split; [intros Hsh; by apply Hno in Hsh|]. intros _. by eapply (in_set_mono c Hc).
  - destruct (share_exact c Hc _ _ _ _ _ _ _ Hh Hok Hb) as (xn & Ex & X1 & X2 & (xn' & Ex' & X3 & X4) & Hall).
    set (X := norm W (nn_key xn) (nn_bits xn)).
    assert (HxX : place c h x X) by (by exists xn).
    destruct (orep_bound c Hc _ _ _ _ _ Hw Ho HxF) as (xn2 & E2 & Bx1 & Bx2). rewrite Ex in E2. injection E2 as <-.
    destruct (Hall _ _ _ Hw Ho) as [_ Hi]. destruct (Hi HxF) as [Hor Hlow]. clear Hi. pose proof (ins_wf c t k b v Hw Hok Hb) as Hw'.
    assert (HxX' : place c h' x X).
    { exists xn'. split; [done|]. unfold X. rewrite X3. apply norm_agree; [|done..].
      assert (Hin : x ∈ F ∪ N) by (clear -HxF; set_solver). destruct (orep_bound c Hc _ _ _ _ _ Hw' Hor Hin) as (xn3 & E3 & B3 & _). rewrite Ex' in E3. by injection E3 as <-. }
    assert (Hkeep : forall y, y ∈ dom h -> y <> x -> h' !! y = h !! y) by (destruct Hh as (? & ? & ? & ? & ? & ? & _ & Hk & _); exact Hk).
    assert (Hpl : forall a Y, a ∈ L -> place c h' a Y <-> place c h a Y).
    { intros a Y Hin. destruct (decide (a = x)) as [->|Hne].
      - split; intros HY; [by rewrite (place_fun c _ _ _ _ HY HxX')|by rewrite (place_fun c _ _ _ _ HY HxX)].
      - unfold place. rewrite Hkeep by auto. done. }
    assert (Hlowest : lowest (content g) q X).
    { split_and!.
      - eapply (branching_place c Hc); [exact Hw|exact Ho|exact Ha|]. by exists x.
      - eapply (over_covers c Hc); [exact Hw|exact Ho|exact HxF|done..|]. by exists xn.
      - intros Y HY Hcv. eapply (branching_place c Hc) in HY; [|exact Hw|exact Ho|exact Ha]. destruct HY as (y & Hy & HY).
        pose proof HY as HY2. eapply (over_covers c Hc) in Hcv as Hov; [|exact Hw|exact Ho|exact Hy|exact HY|done|done]. destruct Hov as (yn & Ey & Y1 & Y2).
        assert (HYX : covers X q) by (eapply (over_covers c Hc); [exact Hw|exact Ho|exact HxF|done..|]; by exists xn).
        eapply covers_total; [exact Hcv|exact HYX|]. destruct HY as (yn2 & Ey2 & <-). rewrite Ey in Ey2. injection Ey2 as <-. unfold X, norm. cbn [fst]. by eapply Hlow. }
    assert (HNd : N ⊆ dom h'). { intros a Hin. apply (orep_dom c Hc _ _ _ _ Hor). clear -Hin; set_solver. }
    split_and!; [split_and!; [done|done|done| |]| |by left|].
    + intros y Hy HyL. apply Hkeep; [done|]. intros ->. auto.
    + eapply labels_grow; [exact HL|done|intros a Y Hin; by apply Hpl|done|done|].
      intros a a' Y Hin Hin'. eapply (orep_place_inj c Hc); [exact Hw'|exact Hor|clear -Hin; set_solver|clear -Hin'; set_solver].
    + exists (F ∪ N). split; [clear -HF; set_solver|]. eapply (updated_vrep c Hc); [exact Hw|exact Ho|exact Ha|exact HK|done|done|done|intros a Y Hin2; apply Hpl; auto|exact Hor].
    + intros p2 g2 (F2 & HF2 & t2 & Hw2 & Ho2 & Ha2 & HK2). destruct (Hall _ _ _ Hw2 Ho2) as [Hout Hin].
      assert (Hx2 : sharing g g2 q <-> x ∈ F2).
      { split.
        - intros (Y & (B1 & B2 & B3) & B4 & B5). assert (Y = X) as -> by (apply covers_antisym; [by apply Hlowest|]; apply B3; apply Hlowest).
          eapply (branching_place c Hc) in B4; [|exact Hw2|exact Ho2|exact Ha2]. destruct B4 as (y & Hy & HY).
          destruct HL as (_ & _ & Hinj). rewrite (Hinj x y X); [done|auto|auto|done|done|]. rewrite (HK x X), (HK2 y X); done.
        - intros Hx2. exists X. split_and!; [done|eapply (branching_place c Hc); [exact Hw2|exact Ho2|exact Ha2|]; by exists x|]. rewrite <- (HK x X), <- (HK2 x X); done. }
      split; intros Hsh.
      * apply Hx2 in Hsh. exists (F2 ∪ N). split; [clear -HF2; set_solver|]. eapply (updated_vrep c Hc); [exact Hw2|exact Ho2|exact Ha2|exact HK2|done|done|done|intros a Y Hin2; apply Hpl; auto|by apply Hin].
      * exists F2. split; [clear -HF2; set_solver|]. exists t2. split_and!; [done|apply Hout; by intros ?%Hx2|done|]. intros a Y Hin2 HY. rewrite Hmark by auto. apply HK2; [done|]. apply Hpl; auto.
Qed.
(** Two versions that have a node in common have the same entries below it. *)
Lemma orep_at_node h t x nn : h !! x = Some (CNum nn) -> forall p F, wf c t -> orep h p t F -> x ∈ F -> at_node c h t x (nn_key nn) (nn_bits nn).
Proof using Hc.
  intros Hx. induction t as [|tk tb tl tv l IHl r IHr]; intros p F Hw Ho HxF; [destruct Ho as [_ ->]; by apply not_elem_of_empty in HxF|].
  pose proof Hw as (Htk & Htb & Hl & Hr & Hwl & Hwr & Hf). pose proof Ho as (a & c0 & c1 & F0 & F1 & -> & Ha & Hc0 & Hc1 & Ha0 & Ha1 & Hd & EF). subst F.
  destruct (decide (x = a)) as [<-|Hne].
  - rewrite Hx in Ha. injection Ha as ->. cbn [nn_key nn_bits]. exists (NT tk tb tl tv l r). split_and!; [done|done|by eapply orep_nrep|]. intros [[k1 b1] v1].
    split; [by intros [? _]|]. intros Hin. split; [done|]. pose proof (enum_under c _ Hw _ _ _ Hin) as (? & ? & ? & ?). split; [done|by apply agree_sym].
  - set (xk := nn_key nn) in *. set (xb := nn_bits nn) in *.
    assert (Hent : forall d k1 b1 v1, ((tb < xb)%N /\ agree W tb tk xk /\ bitat W xk tb = d) -> (k1, b1, v1) ∈ f_enum (NT tk tb tl tv l r) /\ contained c xk xb (k1, b1, v1) <-> (k1, b1, v1) ∈ f_enum (if d then r else l) /\ contained c xk xb (k1, b1, v1)).
    { intros d k1 b1 v1 (D1 & D2 & D3). unfold contained. cbn [fst snd]. split; intros [Hin [B1 B2]]; (split; [|done]).
      - cbn [f_enum] in Hin. apply elem_of_app in Hin as [Hin|Hin].
        + destruct tl; [|by apply elem_of_nil in Hin]. apply elem_of_list_singleton in Hin. injection Hin as -> -> ->. lia.
        + pose proof (B2 tb D1) as E. rewrite D3 in E. apply elem_of_app in Hin as [Hin|Hin].
          * destruct (enum_child c _ _ _ _ _ _ _ Hwl Hl Hin) as (_ & _ & _ & _ & E2). assert (d = false) as -> by congruence. done.
          * destruct (enum_child c _ _ _ _ _ _ _ Hwr Hr Hin) as (_ & _ & _ & _ & E2). assert (d = true) as -> by congruence. done.
      - cbn [f_enum]. apply elem_of_app. right. apply elem_of_app. destruct d; auto. }
    assert (Hx01 : x ∈ F0 \/ x ∈ F1) by (clear -HxF Hne; set_solver). destruct Hx01 as [H0|H1].
    + destruct (orep_child c Hc _ _ _ _ _ _ _ _ Hwl Hl Hc0 H0) as (n2 & En & D1 & D2 & D3). rewrite Hx in En. injection En as <-.
      destruct (IHl _ _ Hwl Hc0 H0) as (tx & A4 & A5 & A6 & A7). exists tx. split_and!; [done..|]. intros [[k1 b1] v1]. rewrite (Hent false) by done. apply A7.
    + destruct (orep_child c Hc _ _ _ _ _ _ _ _ Hwr Hr Hc1 H1) as (n2 & En & D1 & D2 & D3). rewrite Hx in En. injection En as <-.
      destruct (IHr _ _ Hwr Hc1 H1) as (tx & A4 & A5 & A6 & A7). exists tx. split_and!; [done..|]. intros [[k1 b1] v1]. rewrite (Hent true) by done. apply A7.
Qed.
Lemma sharing_same h L K n p p2 (g g2 : ver) q : labels c h L K n -> in_set c h L K p g -> in_set c h L K p2 g2 -> sharing g g2 q -> content g !! q = content g2 !! q.
Proof using Hc.
  intros (_ & _ & Hinj) (F & HF & t & Hw & Ho & Ha & HK) (F2 & HF2 & t2 & Hw2 & Ho2 & Ha2 & HK2) (X & (B1 & B2 & _) & B4 & B5).
  eapply (branching_place c Hc) in B1; [|exact Hw|exact Ho|exact Ha]. destruct B1 as (x & Hx & HX).
  eapply (branching_place c Hc) in B4; [|exact Hw2|exact Ho2|exact Ha2]. destruct B4 as (y & Hy & HY).
  assert (x = y) as <-. { apply (Hinj x y X); [auto|auto|done|done|]. by rewrite (HK x X), (HK2 y X). }
  destruct HX as (nn & E & <-). destruct (orep_bound c Hc _ _ _ _ _ Hw Ho Hx) as (n2 & E2 & X1 & X2). rewrite E in E2. injection E2 as <-.
  pose proof (orep_at_node _ _ _ _ E _ _ Hw Ho Hx) as N1. pose proof (orep_at_node _ _ _ _ E _ _ Hw2 Ho2 Hy) as N2.
  destruct (at_node_get c Hc _ _ _ _ _ _ X1 X2 Hw Ha N1) as (tx & C1 & C2 & C3 & C4). destruct (at_node_get c Hc _ _ _ _ _ _ X1 X2 Hw2 Ha2 N2) as (ty & D1 & D2 & D3 & D4).
  pose proof (nrep_det _ _ _ _ C3 D3) as <-. apply option_eq. intros [k1 v1]. by rewrite (C4 q k1 v1 B2), (D4 q k1 v1 B2).
Qed.
Lemma in_set_in h L K p (g : ver) : L ⊆ dom h -> in_set c h L K p g -> ntree_in c h L p (content g).
Proof.
  intros HL (F & HF & t & Hw & Ho & Ha & _). exists (hr h L). split_and!; [apply hr_sub|by apply hr_dom|]. exists t. split_and!; [done| |done]. by eapply orep_hr.
Qed.
Lemma in_set_nil h L K (g : ver) : content g = ∅ -> in_set c h L K None g.
Proof. intros E. exists ∅. split; [apply empty_subseteq|]. exists NE. rewrite E. split_and!; [done|done|apply nabs_empty|intros a X Ha; by apply not_elem_of_empty in Ha]. Qed.
Lemma in_set_none h L K p (g : ver) : in_set c h L K p g -> p = None <-> content g = ∅.
Proof. intros (F & HF & t & Hw & Ho & Ha & _). apply (ntree_at_none c h). exists t. split_and!; [done|by eapply orep_nrep|done]. Qed.
(** In-place insertion into a version that is at the same node. *)
Lemma updated_own h h' L L' K K' n p r (g g2 : ver) k b v : in_set c h L K p g -> in_set c h L K p g2 -> in_set c h' L' K' r (updated W n g k b v) -> in_set c h' L' K' r (updated W n g2 k b v).
Proof using Hc.
  intros H1 H2. destruct (in_set_same _ _ _ _ _ _ H1 H2) as [E Es]. apply in_set_ext; unfold updated; cbn [content since]; [by rewrite E|].
  intros X _. rewrite <- E. destruct (decide (branching (content g) X)) as [Hb|Hb]; [by apply Es|done].
Qed.
End tree.
