(** * Which nodes of a radix tree the calls make, keep and overwrite. *)
From Verif Require Import Prog NumModel NumBits NumFun NumSim NumInplace NumSpec NumAbs NumFoot IpUpdProofs NumNavSpec NumNavProofs NumShare.
From Coq Require Import ZifyBool ZifyNat ZifyN.
Open Scope N_scope.

Section exact.
Context {U : Type}.
Local Notation heap := (heap U).
Local Notation ntree := (ntree U).
Local Notation value := (value U).
Local Notation nmap := (gmap pfx (N * value)).
Variable c : cfg.
Hypothesis Hc : cfg_ok c.
Local Notation W := (cW c).
Implicit Types h : heap.

(** The node at [a] is the one for the prefix [X]. *)
Definition place h (a : loc) (X : pfx) : Prop :=
  exists nn, h !! a = Some (CNum nn) /\ norm W (nn_key nn) (nn_bits nn) = X.
Lemma place_fun h a X Y : place h a X -> place h a Y -> X = Y.
Proof. intros (n1 & E1 & <-) (n2 & E2 & <-). rewrite E1 in E2. by injection E2 as ->. Qed.
(** The node at [a] is for a prefix of [k]/[b]. *)
Definition over h (a : loc) (k b : N) : Prop :=
  exists nn, h !! a = Some (CNum nn) /\ nn_bits nn <= b /\ agree W (nn_bits nn) (nn_key nn) k.
Definition aside h (a : loc) (k b : N) : Prop :=
  exists nn, h !! a = Some (CNum nn) /\ ~ (nn_bits nn <= b /\ agree W (nn_bits nn) (nn_key nn) k).

Lemma orep_bound h t : forall p F a, wf c t -> orep h p t F -> a ∈ F ->
  exists nn, h !! a = Some (CNum nn) /\ nn_key nn < 2 ^ W /\ nn_bits nn <= W.
Proof using Hc.
  induction t as [|k b lf v l IHl r IHr]; intros p F a Hw Ho Ha; [destruct Ho as [_ ->]; by apply not_elem_of_empty in Ha|].
  destruct Hw as (Hk & Hb & Hl & Hr & Hwl & Hwr & Hf). destruct Ho as (x & c0 & c1 & F0 & F1 & -> & Hx & Hc0 & Hc1 & _ & _ & _ & ->).
  apply elem_of_union in Ha as [Ha|Ha]; [|apply elem_of_union in Ha as [Ha|Ha]; eauto].
  apply elem_of_singleton in Ha as ->. eexists. split_and!; [exact Hx|done|done].
Qed.

(** The prefixes of the nodes of a tree. *)
Fixpoint f_at (t : ntree) : list pfx :=
  match t with NE => [] | NT k b _ _ l r => norm W k b :: f_at l ++ f_at r end.
Lemma orep_place h t : forall p F X, orep h p t F -> X ∈ f_at t <-> exists a, a ∈ F /\ place h a X.
Proof using Hc.
  induction t as [|k b lf v l IHl r IHr]; intros p F X Ho.
  { destruct Ho as [_ ->]. simpl. rewrite elem_of_nil. split; [done|]. intros (a & Ha & _). by apply not_elem_of_empty in Ha. }
  destruct Ho as (x & c0 & c1 & F0 & F1 & -> & Hx & Hc0 & Hc1 & _ & _ & _ & ->). cbn [f_at].
  rewrite elem_of_cons, elem_of_app, (IHl _ _ X Hc0), (IHr _ _ X Hc1). split.
  - intros [->|[(a & Ha & H)|(a & Ha & H)]].
    + exists x. split; [clear; set_solver|]. eexists. split; [exact Hx|done].
    + exists a. split; [clear -Ha; set_solver|done].
    + exists a. split; [clear -Ha; set_solver|done].
  - intros (a & Ha & H). apply elem_of_union in Ha as [Ha|Ha]; [|apply elem_of_union in Ha as [Ha|Ha]; eauto].
    apply elem_of_singleton in Ha as ->. left. eapply place_fun; [exact H|]. eexists. split; [exact Hx|done].
Qed.
(** One node for each prefix. *)
Lemma orep_place_inj h t : forall p F a a' X, wf c t -> orep h p t F -> a ∈ F -> a' ∈ F -> place h a X -> place h a' X -> a = a'.
Proof using Hc.
  induction t as [|k b lf v l IHl r IHr]; intros p F a a' X Hw Ho Ha Ha'; [destruct Ho as [_ ->]; by apply not_elem_of_empty in Ha|].
  destruct Hw as (Hk & Hb & Hl & Hr & Hwl & Hwr & Hf). destruct Ho as (x & c0 & c1 & F0 & F1 & -> & Hx & Hc0 & Hc1 & _ & _ & _ & ->).
  assert (Hroot : forall y, place h x X -> y ∈ F0 \/ y ∈ F1 -> place h y X -> False).
  { intros y (n1 & E1 & P1) Hy (n2 & E2 & P2). rewrite Hx in E1. injection E1 as <-. cbn [nn_key nn_bits] in P1. subst X. injection P2 as B _.
    destruct Hy as [Hy|Hy].
    - destruct (orep_child c Hc _ _ _ _ _ _ _ _ Hwl Hl Hc0 Hy) as (nn & E3 & D & _). rewrite E2 in E3. injection E3 as <-. lia.
    - destruct (orep_child c Hc _ _ _ _ _ _ _ _ Hwr Hr Hc1 Hy) as (nn & E3 & D & _). rewrite E2 in E3. injection E3 as <-. lia. }
  assert (Hsides : forall y z, y ∈ F0 -> z ∈ F1 -> place h y X -> place h z X -> False).
  { intros y z Hy Hz (n1 & E1 & P1) (n2 & E2 & P2). subst X.
    destruct (orep_child c Hc _ _ _ _ _ _ _ _ Hwl Hl Hc0 Hy) as (m1 & E3 & D1 & D2 & D3). rewrite E1 in E3. injection E3 as <-.
    destruct (orep_child c Hc _ _ _ _ _ _ _ _ Hwr Hr Hc1 Hz) as (m2 & E4 & G1 & G2 & G3). rewrite E2 in E4. injection E4 as <-.
    destruct (orep_bound _ _ _ _ _ Hwl Hc0 Hy) as (m1 & E5 & B1 & B2). rewrite E1 in E5. injection E5 as <-.
    destruct (orep_bound _ _ _ _ _ Hwr Hc1 Hz) as (m2 & E6 & B3 & B4). rewrite E2 in E6. injection E6 as <-.
    assert (Eb : nn_bits n2 = nn_bits n1) by (by injection P2). rewrite Eb in P2. apply norm_agree in P2; [|done..].
    rewrite (P2 b) in G3 by done. congruence. }
  intros P P'.
  apply elem_of_union in Ha as [Ha|Ha]; [apply elem_of_singleton in Ha as ->|]; (apply elem_of_union in Ha' as [Ha'|Ha']; [apply elem_of_singleton in Ha' as ->|]).
  - done.
  - exfalso. apply elem_of_union in Ha'. by eapply Hroot.
  - exfalso. apply elem_of_union in Ha. by eapply Hroot.
  - apply elem_of_union in Ha as [Ha|Ha], Ha' as [Ha'|Ha']; eauto; exfalso; eauto.
Qed.

(** ** The nodes are where prefixes are stored or branch. *)
Lemma covers_side Q X : covers Q X -> Q <> X -> exists d, covers (ext Q d) X.
Proof.
  intros [H1 H2] Hne. assert (Hlt : Q.1 < X.1).
  { destruct (N.eq_dec (Q.1) (X.1)) as [E|]; [|lia]. exfalso. apply Hne. rewrite E, N.sub_diag in H2. change (2 ^ 0) with 1 in H2. rewrite N.div_1_r in H2. destruct Q, X. simpl in *. by subst. }
  set (y := X.2 / 2 ^ (X.1 - (Q.1 + 1))).
  assert (Hy : y / 2 = Q.2).
  { unfold y. rewrite N.div_div by (try apply N.pow_nonzero; done). rewrite <- H2. f_equal. replace (X.1 - Q.1) with (N.succ (X.1 - (Q.1 + 1))) by lia. rewrite N.pow_succ_r'. apply N.mul_comm. }
  exists (N.odd y). split; unfold ext; cbn [fst snd]; [lia|]. fold y. rewrite (N.div_mod y 2) at 1 by done. rewrite Hy. f_equal.
  pose proof (N.mod_lt y 2 ltac:(done)). rewrite <- N.bit0_mod, N.bit0_odd. by destruct (N.odd y).
Qed.
Lemma at_branching (m : nmap) t : forall q X, wf c t -> mok c m -> part c m q t -> under c q t ->
  (X ∈ f_at t -> covers q X /\ branching m X) /\ (covers q X -> branching m X -> X ∈ f_at t).
Proof using Hc.
  induction t as [|k b lf v l IHl r IHr]; intros q X Hw Hm Hp Hu.
  { split; [simpl; by rewrite elem_of_nil|]. intros Hq Hbr. exfalso. apply (part_free c m q Hm Hp).
    destruct Hbr as [[x E]|[(p & x & E & Hco) _]]; [by exists X, x|]. exists p, x. split; [done|].
    eapply covers_trans; [exact Hq|]. eapply covers_trans; [apply covers_ext|exact Hco]. }
  pose proof (part_crown c _ _ _ _ _ _ _ _ Hw Hm Hp Hu) as Hcr. pose proof (part_root c _ _ _ _ _ _ _ _ Hw Hp Hu) as Hp'.
  destruct (part_child c _ _ _ _ _ _ _ false Hw Hm Hp') as [Pl Ul]. destruct (part_child c _ _ _ _ _ _ _ true Hw Hm Hp') as [Pr Ur].
  pose proof Hw as (_ & _ & _ & _ & Hwl & Hwr & _). set (Q := norm W k b) in *. cbn [f_at]. fold Q.
  destruct Hcr as (C1 & C2 & C3).
  destruct (IHl _ X Hwl Hm Pl Ul) as [L1 L2]. destruct (IHr _ X Hwr Hm Pr Ur) as [R1 R2]. split.
  - intros Hin. apply elem_of_cons in Hin as [->|Hin]; [done|]. apply elem_of_app in Hin as [Hin|Hin].
    + destruct (L1 Hin) as [A B]. split; [|done]. eapply covers_trans; [exact C1|]. eapply covers_trans; [apply covers_ext|exact A].
    + destruct (R1 Hin) as [A B]. split; [|done]. eapply covers_trans; [exact C1|]. eapply covers_trans; [apply covers_ext|exact A].
  - intros Hq Hbr. assert (HQX : covers Q X).
    { destruct Hbr as [[x E]|[(p0 & x0 & E0 & H0) (p1 & x1 & E1 & H1)]]; [by eapply C3|].
      assert (covers X p0) as X0 by (eapply covers_trans; [apply covers_ext|exact H0]). assert (covers X p1) as X1 by (eapply covers_trans; [apply covers_ext|exact H1]).
      assert (covers Q p0) as Q0 by (eapply C3; [exact E0|]; by eapply covers_trans). assert (covers Q p1) as Q1 by (eapply C3; [exact E1|]; by eapply covers_trans).
      eapply covers_total; [exact Q0|exact X0|]. by eapply ext_apart. }
    apply elem_of_cons. destruct (decide (Q = X)) as [->|Hne]; [by left|right]. apply elem_of_app.
    destruct (covers_side _ _ HQX Hne) as [[] Hd]; auto.
Qed.
Lemma f_at_branching (t : ntree) (m : nmap) (X : pfx) : wf c t -> nabs c t m -> X ∈ f_at t <-> branching m X.
Proof using Hc.
  intros Hw Ha. destruct (nabs_part c t m Hw Ha) as [P Un]. pose proof (nabs_mok c t m Hw Ha) as Hm. destruct (at_branching m t (0, 0) X Hw Hm P Un) as [A B].
  split; [intros H; by apply A|]. intros H. apply B; [|done].
  assert (Hall : forall p x, m !! p = Some x -> covers (0, 0) p).
  { intros p [k1 v1] E. destruct (Hm _ _ _ E) as (-> & Hk & _). by apply covers_all. }
  destruct H as [[x E]|[(p & x & E & Hco) _]]; [by eapply Hall|].
  eapply covers_total; [by eapply Hall| |cbn [fst]; lia]. eapply covers_trans; [apply covers_ext|exact Hco].
Qed.

(** ** Insert and Delete copy the nodes above the key and keep the others. *)
Definition copied h h' (F : gset loc) (old : loc -> Prop) (r : ptr) (t' : ntree) (k b : N) : Prop :=
  exists F1 N, orep h' r t' (F1 ∪ N) /\ F1 ⊆ F /\
    (forall x, x ∈ N -> old x \/ h !! x = None) /\ (forall x, x ∈ N -> over h' x k b) /\ (forall x, x ∈ F1 -> aside h x k b).

Lemma root_aside h t p F k b x : wf c t -> orep h p t F -> x ∈ F ->
  match t with NE => True | NT k' b' _ _ _ _ => b < b' \/ (exists i, i < b' /\ bitat W k' i <> bitat W k i) end -> aside h x k b.
Proof using Hc.
  intros Hw Ho Hx H. pose proof (orep_node c Hc _ _ _ _ _ Hw Ho Hx) as Hn. destruct t as [|k' b' lf v l r]; [done|]. destruct Hn as (nn & E & B1 & B2).
  exists nn. split; [done|]. intros [G1 G2]. destruct H as [H|(i & Hi & H)]; [lia|]. apply H. rewrite (B2 i) by done. apply G2. lia.
Qed.
Lemma child_aside h t p F k b d k' b' x : wf c t -> ok_child c k' b' d t -> orep h p t F -> x ∈ F ->
  b <= b' \/ bitat W k b' <> d -> aside h x k b.
Proof using Hc.
  intros Hw Hok Ho Hx H. destruct (orep_child c Hc _ _ _ _ _ _ _ _ Hw Hok Ho Hx) as (nn & E & B1 & B2 & B3).
  exists nn. split; [done|]. intros [G1 G2]. destruct H as [H|H]; [lia|]. apply H. rewrite <- B3. symmetry. apply G2. done.
Qed.
Lemma over_agree h h' x k b : h' !! x = h !! x -> over h x k b -> over h' x k b.
Proof. intros E (nn & E1 & H). exists nn. by rewrite E. Qed.
Lemma agree_land k n : n <= W -> agree W n (N.land k (pmask W n)) k.
Proof using Hc.
  intros Hn i Hi. pose proof (cfg_pos c Hc). unfold bitat. rewrite N.land_spec, pmask_spec by done.
  replace (W - n <=? W - 1 - i) with true by lia. replace (W - 1 - i <? W) with true by lia. by rewrite andb_true_r.
Qed.

Lemma insert_exact t : forall fuel h p F a k b v,
  wf c t -> (depth t < fuel)%nat -> k < 2 ^ W -> b <= W -> orep h p t F -> a ∉ F ->
  h !! a = Some (CNum (NumN k b true v None None)) ->
  wp (insert_ c fuel p (Some a)) h {[a]} (fun r h' _ => copied h h' F (eq a) r (f_ins c t k b v) k b).
Proof using Hc.
  induction t as [|k' b' lf' v' l IHl r IHr]; intros fuel h p F a k b v Hw Hfuel Hk Hb Hrep HaF Ha.
  - destruct fuel as [|fuel]; [simpl in Hfuel; lia|]. destruct Hrep as [-> ->]. cbn [insert_ wp].
    exists ∅, {[a]}. split_and!.
    + exists a, None, None, ∅, ∅. split_and!; try done; clear; set_solver.
    + done.
    + intros x Hx. apply elem_of_singleton in Hx. by left.
    + intros x Hx. apply elem_of_singleton in Hx as ->. eexists. split; [exact Ha|]. cbn [nn_bits nn_key]. split; [lia|apply agree_refl].
    + intros x Hx. by apply not_elem_of_empty in Hx.
  - destruct fuel as [|fuel]; [simpl in Hfuel; lia|].
    pose proof Hw as (Hk' & Hb' & Hl & Hr & Hwl & Hwr & Hf).
    pose proof Hrep as (n & c0 & c1 & F0 & F1 & -> & Hn & Hc0 & Hc1 & Hn0 & Hn1 & Hdj & ->).
    assert (Hna : n <> a) by (intros ->; clear -HaF; set_solver).
    cbn [insert_]. apply wp_bind. eapply wp_ld_num; [exact Hn|].
    apply wp_bind. eapply wp_ld_num; [exact Ha|]. cbn [nn_key nn_bits nn_leaf nn_val nn_c0 nn_c1].
    rewrite ncsb_eq by done. cbn [bind]. cbn [f_ins].
    destruct (pcsb_spec c k' b' k b Hk' Hk Hb' Hb) as (B1 & B2 & B3 & B4).
    set (nc := pcsb c k' b' k b) in *. clearbody nc.
    destruct (N.ltb_spec nc b').
    + destruct (N.eqb_spec nc b) as [Eb|Eb].
      * apply wp_bind. eapply wp_set_chld; [exact Ha|set_solver|]. cbn [wp bind].
        rewrite with_bbit by (done || lia). cbn [nn_key nn_bits nn_leaf nn_val nn_c0 nn_c1].
        set (F := {[n]} ∪ (F0 ∪ F1)) in *. clearbody F.
        exists F, {[a]}. split_and!.
        -- assert (Ho : forall cell, orep (<[a := cell]> h) (Some n) (NT k' b' lf' v' l r) F).
           { intros cell. eapply (orep_agree c Hc); [|exact Hrep]. intros y Hy. apply lookup_insert_ne. by intros ->. }
           destruct (bitat W k' nc).
           ++ exists a, None, (Some n), ∅, F. rewrite lookup_insert. split_and!; [done|done|done|apply Ho|done|done|clear; set_solver|clear; set_solver].
           ++ exists a, (Some n), None, F, ∅. rewrite lookup_insert. split_and!; [done|done|apply Ho|done|done|done|clear; set_solver|clear; set_solver].
        -- done.
        -- intros x Hx. apply elem_of_singleton in Hx. by left.
        -- intros x Hx. apply elem_of_singleton in Hx as ->. destruct (bitat W k' nc); (eexists; rewrite lookup_insert; split; [done|]; cbn [nn_bits nn_key]; split; [lia|apply agree_refl]).
        -- intros x Hx. eapply root_aside; [exact Hw|exact Hrep|exact Hx|]. left. lia.
      * rewrite mask_eq by (done || lia). cbn [bind]. unfold new_node. apply wp_bind. apply wp_bind. apply wp_alloc.
        intros m Hm. cbn [wp bind].
        assert (Hma : m <> a) by (intros ->; congruence).
        apply wp_bind. eapply wp_set_chld; [by rewrite lookup_insert|clear; set_solver|].
        apply wp_bind. eapply wp_set_chld; [by rewrite lookup_insert|clear; set_solver|]. cbn [wp bind].
        rewrite !insert_insert. rewrite with_bbit, with_bbit' by (done || lia).
        set (F := {[n]} ∪ (F0 ∪ F1)) in *. clearbody F.
        assert (HmF : m ∉ F). { intros Hin. destruct (orep_alloc c Hc _ _ _ _ _ Hrep Hin). congruence. }
        exists F, {[m; a]}. split_and!.
        -- assert (Ho : forall cell, orep (<[m := cell]> h) (Some n) (NT k' b' lf' v' l r) F).
           { intros cell. eapply (orep_agree c Hc); [|exact Hrep]. intros y Hy. apply lookup_insert_ne. by intros ->. }
           assert (Hoa : forall cell, orep (<[m := cell]> h) (Some a) (NT k b true v NE NE) {[a]}).
           { intros cell. exists a, None, None, ∅, ∅. rewrite lookup_insert_ne by done. split_and!; try done; clear; set_solver. }
           destruct (bitat W k' nc); cbn [nn_key nn_bits nn_leaf nn_val nn_c0 nn_c1].
           ++ exists m, (Some a), (Some n), {[a]}, F. rewrite lookup_insert. split_and!; [done|done|apply Hoa|apply Ho|clear -Hma; set_solver|done|clear -HaF; set_solver|clear; set_solver].
           ++ exists m, (Some n), (Some a), F, {[a]}. rewrite lookup_insert. split_and!; [done|done|apply Ho|apply Hoa|done|clear -Hma; set_solver|clear -HaF; set_solver|clear; set_solver].
        -- done.
        -- intros x Hx. apply elem_of_union in Hx as [Hx|Hx]; apply elem_of_singleton in Hx; [right; by subst x|by left].
        -- intros x Hx. apply elem_of_union in Hx as [Hx|Hx]; apply elem_of_singleton in Hx as ->.
           ++ eexists. rewrite lookup_insert. split; [done|]. destruct (bitat W k' nc); cbn [nn_bits nn_key]; (split; [lia|apply agree_land; lia]).
           ++ eexists. rewrite lookup_insert_ne by done. split; [exact Ha|]. cbn [nn_bits nn_key]. split; [lia|apply agree_refl].
        -- intros x Hx. eapply root_aside; [exact Hw|exact Hrep|exact Hx|]. right. exists nc. split; [done|]. apply B4; [done|lia].
    + destruct (N.eqb_spec b b') as [Eb|Eb].
      * apply wp_bind. eapply wp_st_num; [set_solver|by eexists|]. cbn [wp bind].
        assert (Ho : forall p t G cell, G ⊆ F0 ∪ F1 -> orep h p t G -> orep (<[a := cell]> h) p t G).
        { intros p t G cell HG H1. eapply (orep_agree c Hc); [|exact H1]. intros y Hy. apply lookup_insert_ne. intros ->. clear -HaF HG Hy. set_solver. }
        exists (F0 ∪ F1), {[a]}. split_and!.
        -- exists a, c0, c1, F0, F1. rewrite lookup_insert. split_and!; [done|done|apply Ho; [clear; set_solver|done]|apply Ho; [clear; set_solver|done]|clear -HaF; set_solver|clear -HaF; set_solver|done|clear; set_solver].
        -- clear; set_solver.
        -- intros x Hx. apply elem_of_singleton in Hx. by left.
        -- intros x Hx. apply elem_of_singleton in Hx as ->. eexists. rewrite lookup_insert. split; [done|]. cbn [nn_bits nn_key]. split; [lia|apply agree_refl].
        -- intros x Hx. apply elem_of_union in Hx as [Hx|Hx].
           ++ eapply (child_aside _ l); [done|exact Hl|exact Hc0|exact Hx|]. left. lia.
           ++ eapply (child_aside _ r); [done|exact Hr|exact Hc1|exact Hx|]. left. lia.
      * assert (Enc : nc = b') by lia. subst nc.
        unfold new_node. apply wp_bind. apply wp_bind. apply wp_alloc. intros m Hm. cbn [wp bind].
        assert (Hma : m <> a) by (intros ->; congruence).
        exists (CNum (NumN k' b' lf' v' None None)). rewrite lookup_insert. split; [done|].
        cbn [wp bind]. split; [set_solver|]. split; [by rewrite lookup_insert|].
        eexists. rewrite lookup_insert. split; [done|]. rewrite insert_insert.
        cbn [bind nn_key nn_bits nn_leaf nn_val nn_c0 nn_c1]. rewrite chld_bbit by (done || lia). cbn [nn_c0 nn_c1].
        set (h1 := <[m := CNum (NumN k' b' lf' v' c0 c1)]> h).
        assert (Hm1 : h1 !! m = Some (CNum (NumN k' b' lf' v' c0 c1))) by (unfold h1; by rewrite lookup_insert).
        assert (H1 : forall y, y <> m -> h1 !! y = h !! y) by (intros y Hy; unfold h1; by rewrite lookup_insert_ne).
        assert (Ha1 : h1 !! a = Some (CNum (NumN k b true v None None))) by (by rewrite H1).
        assert (HmF : m ∉ {[n]} ∪ (F0 ∪ F1)). { intros Hin. destruct (orep_alloc c Hc _ _ _ _ _ Hrep Hin). congruence. }
        clearbody h1.
        assert (Hor : forall p t G, G ⊆ F0 ∪ F1 -> orep h p t G -> orep h1 p t G).
        { intros p t G HG Ho. eapply (orep_agree c Hc); [|exact Ho]. intros y Hy. apply H1. intros ->. clear -HmF HG Hy. set_solver. }
        assert (Hrec : wp (insert_ c fuel (if bitat W k b' then c1 else c0) (Some a)) h1 {[a]}
          (fun r0 h' _ => copied h1 h' (if bitat W k b' then F1 else F0) (eq a) r0 (f_ins c (if bitat W k b' then r else l) k b v) k b)).
        { simpl in Hfuel. destruct (bitat W k b').
          - apply IHr; try done; [lia|apply Hor; [clear; set_solver|done]|clear -HaF; set_solver].
          - apply IHl; try done; [lia|apply Hor; [clear; set_solver|done]|clear -HaF; set_solver]. }
        apply wp_bind. eapply wp_mono.
        { eapply (wp_call _ _ {[a]} ({[m]} ∪ {[a]})); [exact Hrec|clear; set_solver]. }
        cbn beta. intros x h2 WS2 [(WS1 & (G & N & Ho & HG & HN & HNo & HGa) & _) [Hun (Hg1 & Hg2 & Hg3)]].
        clear Hrec IHl IHr.
        assert (Hm2 : h2 !! m = Some (CNum (NumN k' b' lf' v' c0 c1))).
        { apply Hun; [done|]. clear -Hma. set_solver. }
        apply wp_bind. eapply wp_set_chld; [exact Hm2|apply Hg1; by apply elem_of_union_l, elem_of_singleton|]. cbn [wp bind].
        rewrite with_bbit by (done || lia). cbn [nn_key nn_bits nn_leaf nn_val nn_c0 nn_c1].
        set (cell := CNum _).
        assert (HGF : G ⊆ F0 ∪ F1) by (clear -HG; destruct (bitat W k b'); set_solver).
        assert (HmN : m ∉ N). { intros Hin. destruct (HN _ Hin) as [?|E]; congruence. }
        assert (HmG : m ∉ G ∪ N) by (clear -HmN HGF HmF; set_solver).
        assert (HNF : forall y, y ∈ N -> y ∈ F0 ∪ F1 -> False).
        { intros y Hy Hy2. destruct (HN _ Hy) as [<-|E]; [clear -Hy2 HaF; set_solver|].
          rewrite H1 in E by (by intros ->). assert (Hin : y ∈ {[n]} ∪ (F0 ∪ F1)) by (clear -Hy2; set_solver). destruct (orep_alloc c Hc _ _ _ _ _ Hrep Hin). congruence. }
        assert (Ho' : orep (<[m := cell]> h2) x (f_ins c (if bitat W k b' then r else l) k b v) (G ∪ N)).
        { eapply (orep_agree c Hc); [|exact Ho]. intros y Hy. apply lookup_insert_ne. by intros ->. }
        assert (Hoth : forall p t G, G ⊆ F0 ∪ F1 -> orep h p t G -> orep (<[m := cell]> h2) p t G).
        { intros p t G' HG' Ho1. eapply (orep_agree c Hc); [|exact Ho1]. intros y Hy. destruct (orep_alloc c Hc _ _ _ _ _ Ho1 Hy) as [z Hz].
          assert (y <> m) by (intros ->; congruence). rewrite lookup_insert_ne by done. rewrite Hz. apply Hun; [by rewrite H1|].
          clear -HaF HG' Hy. set_solver. }
        exists ((if bitat W k b' then F0 else F1) ∪ G), ({[m]} ∪ N). split_and!.
        -- destruct (bitat W k b') eqn:Ebit.
           ++ exists m, c0, x, F0, (G ∪ N). unfold cell. rewrite lookup_insert. split_and!; [done|done|apply Hoth; [clear; set_solver|done]|done|clear -HmF; set_solver|done| |clear; set_solver].
              apply elem_of_disjoint. intros y Hy Hy2. apply elem_of_union in Hy2 as [Hy2|Hy2]; [clear -Hy Hy2 HG Hdj; set_solver|eapply HNF; [exact Hy2|clear -Hy; set_solver]].
           ++ exists m, x, c1, (G ∪ N), F1. unfold cell. rewrite lookup_insert. split_and!; [done|done|done|apply Hoth; [clear; set_solver|done]|done|clear -HmF; set_solver| |clear; set_solver].
              apply elem_of_disjoint. intros y Hy2 Hy. apply elem_of_union in Hy2 as [Hy2|Hy2]; [clear -Hy Hy2 HG Hdj; set_solver|eapply HNF; [exact Hy2|clear -Hy; set_solver]].
        -- clear -HGF. destruct (bitat W k b'); set_solver.
        -- intros y Hy. apply elem_of_union in Hy as [Hy|Hy]; [apply elem_of_singleton in Hy as ->; by right|].
           destruct (HN _ Hy) as [?|E]; [by left|right]. rewrite <- H1; [done|]. by intros ->.
        -- intros y Hy. apply elem_of_union in Hy as [Hy|Hy].
           ++ apply elem_of_singleton in Hy as ->. eexists. rewrite lookup_insert. split; [reflexivity|]. destruct (bitat W k b'); cbn [nn_bits nn_key]; (split; [lia|done]).
           ++ eapply over_agree; [|by apply HNo]. apply lookup_insert_ne. by intros ->.
        -- intros y Hy. apply elem_of_union in Hy as [Hy|Hy].
           ++ destruct (bitat W k b') eqn:Ebit.
              ** eapply (child_aside _ l); [done|exact Hl|exact Hc0|exact Hy|]. right. by rewrite Ebit.
              ** eapply (child_aside _ r); [done|exact Hr|exact Hc1|exact Hy|]. right. by rewrite Ebit.
           ++ destruct (HGa _ Hy) as (nn & E & Hnn). exists nn. split; [|done]. rewrite <- H1; [done|]. intros ->. clear -Hy HGF HmF. set_solver.
Qed.
Lemma n_insert_exact h p t F k bits v : wf c t -> k < 2 ^ W -> orep h p t F ->
  wp (n_insert c p k bits v) h ∅ (fun r h' _ => copied h h' F (fun _ => False) r (f_ins c t k (clamp c bits) v) k (clamp c bits) /\ h ⊆ h').
Proof using Hc.
  intros Hw Hk Ho. unfold n_insert, new_node. apply wp_bind, wp_bind, wp_alloc. intros a Ha. cbn [wp bind].
  assert (HaF : a ∉ F) by (intros Hin; destruct (orep_alloc c Hc _ _ _ _ _ Ho Hin); congruence).
  replace ({[a]} ∪ ∅) with ({[a]} : gset loc) by set_solver.
  set (h1 := <[a := _]> h). eapply wp_mono.
  - apply wp_frame. apply (insert_exact t (nfuel c) h1 p F a k (clamp c bits) v); try done.
    + by apply depth_fuel.
    + apply clamp_le.
    + eapply (orep_agree c Hc); [|exact Ho]. intros y Hy. apply lookup_insert_ne. by intros ->.
    + unfold h1. by rewrite lookup_insert.
  - cbn beta. intros r h' _ [(F1 & N & A1 & A2 & A3 & A4 & A5) [Hun _]]. split.
    + exists F1, N. split_and!; [done|done| |done|].
      * intros x Hx. right. destruct (A3 x Hx) as [<-|E]; [done|]. destruct (decide (x = a)) as [->|?]; [done|]. unfold h1 in E. by rewrite lookup_insert_ne in E.
      * intros x Hx. destruct (A5 x Hx) as (nn & E & H). exists nn. split; [|done]. unfold h1 in E. rewrite lookup_insert_ne in E; [done|]. intros ->. apply HaF, A2, Hx.
    + apply map_subseteq_spec. intros l x Hl. assert (l <> a) by (intros ->; congruence). apply Hun; [unfold h1; by rewrite lookup_insert_ne|]. clear -H. set_solver.
Qed.

Definition del_post h h' (F : gset loc) (p : ptr) (t : ntree) (k b : N) (r : ptr * bool) : Prop :=
  h ⊆ h' /\ r.2 = (f_del c t k b).2 /\ (r.2 = false -> r.1 = p /\ (f_del c t k b).1 = t) /\
  (r.2 = true -> copied h h' F (fun _ => False) r.1 (f_del c t k b).1 k b).
Lemma orep_mono h h' p t F : h ⊆ h' -> orep h p t F -> orep h' p t F.
Proof using Hc.
  intros Hs Ho. eapply (orep_agree c Hc); [|exact Ho]. intros y Hy. destruct (orep_alloc c Hc _ _ _ _ _ Ho Hy) as [z Hz]. rewrite Hz. by eapply lookup_weaken.
Qed.
Lemma orep_eq h p t F G : F = G -> orep h p t F -> orep h p t G.
Proof. by intros ->. Qed.

Lemma del_exact t : forall fuel h p F k b,
  wf c t -> (depth t < fuel)%nat -> k < 2 ^ W -> b <= W -> orep h p t F -> t <> NE ->
  wp (del_ c fuel p k b) h ∅ (fun r h' _ => del_post h h' F p t k b r).
Proof using Hc.
  induction t as [|k' b' lf' v' l IHl r IHr]; intros fuel h p F k b Hw Hfuel Hk Hb Hrep Hne; [done|].
  destruct fuel as [|fuel]; [simpl in Hfuel; lia|].
  pose proof Hw as (Hk' & Hb' & Hl & Hr & Hwl & Hwr & Hf).
  pose proof Hrep as (n & c0 & c1 & F0 & F1 & -> & Hn & Hc0 & Hc1 & Hn0 & Hn1 & Hdj & ->).
  unfold del_post. cbn [del_ f_del]. apply wp_bind. eapply wp_ld_num; [exact Hn|].
  cbn [nn_key nn_bits nn_leaf nn_val nn_c0 nn_c1].
  destruct (N.leb_spec b b').
  - rewrite same_masked_eq by done. cbn [wp bind]. destruct (same c k' k b); cbn [wp fst snd]; [|done].
    split_and!; [done|done|done|]. intros _. exists ∅, ∅. split_and!; [split; [done|clear; set_solver]|clear; set_solver|..]; intros x Hx; by apply not_elem_of_empty in Hx.
  - rewrite same_masked_eq by done. cbn [wp bind].
    destruct (same_spec c k' k b' Hk' Hk Hb') as [Hag|Hag]; cbn [negb]; [|done].
    rewrite chld_bbit by (done || lia). rewrite chld_bbit' by (done || lia). cbn [nn_c0 nn_c1]. simpl in Hfuel.
    assert (Hstep : forall (x : loc) (tc : ntree) (co : ptr) (to : ntree) (Fc Fo : gset loc) (mk : ptr -> numnode U) (T : ntree -> ntree),
      orep h (Some x) tc Fc -> orep h co to Fo -> Fc ⊆ F0 ∪ F1 -> Fo ⊆ F0 ∪ F1 -> Fc ## Fo ->
      (forall y, y ∈ Fo -> aside h y k b) ->
      (forall p0, with_chld (NumN k' b' lf' v' c0 c1) (bbit c k b') p0 = mk p0) ->
      (forall p0, nn_key (mk p0) = k' /\ nn_bits (mk p0) = b') ->
      (forall h3 m tc' cc G, h3 !! m = Some (CNum (mk cc)) -> orep h3 cc tc' G -> orep h3 co to Fo -> m ∉ G -> m ∉ Fo -> G ## Fo ->
         orep h3 (Some m) (T tc') ({[m]} ∪ (G ∪ Fo))) ->
      wp (del_ c fuel (Some x) k b) h ∅ (fun r h' _ => del_post h h' Fc (Some x) tc k b r) ->
      wp (r0 <- del_ c fuel (Some x) k b;;
          (let '(ch, ok) := r0 in
           if negb ok then Ret (Some n, false)
           else if match ch with Some _ => false | None => negb lf' end then Ret (co, true)
           else m <- new_node k' b' lf' v';; mn <- ld_num m;;
             st_num m (NumN (nn_key mn) (nn_bits mn) (nn_leaf mn) (nn_val mn) c0 c1);;;
             set_chld m (bbit c k b') ch;;; Ret (m, true))) h ∅
        (fun r0 h' _ => let R := (let '(tc', ok) := f_del c tc k b in
            if negb ok then (NT k' b' lf' v' l r, false)
            else if is_NE tc' && negb lf' then (to, true) else (T tc', true)) in
          h ⊆ h' /\ r0.2 = R.2 /\ (r0.2 = false -> r0.1 = Some n /\ R.1 = NT k' b' lf' v' l r) /\
          (r0.2 = true -> copied h h' ({[n]} ∪ (F0 ∪ F1)) (fun _ => False) r0.1 R.1 k b))).
    { intros x tc co to Fc Fo mk T Hx Hco HFc HFo HFd Has Hmk Hmk2 HT Hrec. apply wp_bind. eapply wp_mono; [exact Hrec|].
      cbn beta. intros [ch ok] h' WS (Hsub & Hok & _ & Hch). cbn [fst snd] in Hch, Hok. subst ok.
      destruct (f_del c tc k b) as [tc' []]; cbn [fst snd negb] in *; cbv iota zeta.
      - destruct (Hch eq_refl) as (G & N & Ho & HG & HN & HNo & HGa). clear Hch.
        assert (E : (match ch with Some _ => false | None => negb lf' end) = is_NE tc' && negb lf').
        { destruct tc'; [destruct Ho as [-> _]; done|]. by destruct Ho as (? & ? & ? & ? & ? & -> & _). }
        rewrite E. clear E. destruct (is_NE tc' && negb lf').
        + cbn [wp fst snd]. split_and!; [done|done|done|]. intros _. exists Fo, ∅. split_and!; [|clear -HFo; set_solver|..].
          * eapply orep_eq; [|eapply orep_mono; [exact Hsub|exact Hco]]. clear; set_solver.
          * intros y Hy. by apply not_elem_of_empty in Hy.
          * intros y Hy. by apply not_elem_of_empty in Hy.
          * exact Has.
        + unfold new_node. apply wp_bind, wp_bind, wp_alloc. intros m Hm. cbn [wp bind].
          apply wp_bind. eapply wp_ld_num; [by rewrite lookup_insert|].
          cbn [nn_key nn_bits nn_leaf nn_val nn_c0 nn_c1].
          apply wp_bind. eapply wp_st_num; [set_solver|by rewrite lookup_insert|].
          rewrite insert_insert. apply wp_bind.
          eapply wp_set_chld; [by rewrite lookup_insert|clear; set_solver|]. rewrite insert_insert.
          cbn [wp fst snd]. rewrite Hmk.
          assert (Hs2 : h' ⊆ <[m := CNum (mk ch)]> h') by (by apply insert_subseteq).
          assert (Hmo : m ∉ G ∪ N) by (intros Hin; destruct (orep_alloc c Hc _ _ _ _ _ Ho Hin); congruence).
          assert (Hmh : h !! m = None) by (eapply lookup_weaken_None; eauto).
          assert (HmF : forall p t F, orep h p t F -> m ∉ F) by (intros p1 t1 F2 Ho1 Hin; destruct (orep_alloc c Hc _ _ _ _ _ Ho1 Hin); congruence).
          assert (HNF : N ## Fo).
          { apply elem_of_disjoint. intros y Hy Hy2. destruct (HN y Hy) as [[]|E]. destruct (orep_alloc c Hc _ _ _ _ _ Hco Hy2). congruence. }
          split_and!; [by etrans|done|done|]. intros _. exists (G ∪ Fo), ({[m]} ∪ N). split_and!.
          * eapply orep_eq; [|apply (HT _ m tc' ch (G ∪ N)); [by rewrite lookup_insert|by eapply orep_mono|eapply orep_mono; [|exact Hco]; by etrans|done|by eapply HmF|clear -HNF HG HFd; set_solver]]. clear; set_solver.
          * clear -HG HFc HFo. set_solver.
          * intros y Hy. apply elem_of_union in Hy as [Hy|Hy]; [apply elem_of_singleton in Hy as ->; by right|by apply HN].
          * intros y Hy. apply elem_of_union in Hy as [Hy|Hy].
            -- apply elem_of_singleton in Hy as ->. destruct (Hmk2 ch) as [K1 K2]. exists (mk ch). rewrite lookup_insert, K1, K2. split_and!; [done|lia|done].
            -- eapply over_agree; [|by apply HNo]. apply lookup_insert_ne. intros ->. clear -Hy Hmo. set_solver.
          * intros y Hy. apply elem_of_union in Hy as [Hy|Hy]; auto.
      - cbn [wp fst snd]. split_and!; [done|done|done|done]. }
    destruct (bitat W k b') eqn:Ebit.
    + destruct c1 as [x|].
      2:{ destruct r; [|by destruct Hc1 as (? & ? & ? & ? & ? & ? & _)]. simpl. split_and!; try done. }
      eapply (Hstep x r c0 l F1 F0 (fun p0 => NumN k' b' lf' v' c0 p0) (fun t' => NT k' b' lf' v' l t')); try done.
      * clear; set_solver.
      * clear; set_solver.
      * intros y Hy. eapply (child_aside _ l); [done|exact Hl|exact Hc0|exact Hy|]. right. by rewrite Ebit.
      * intros p0. rewrite with_bbit by (done || lia). by rewrite Ebit.
      * intros h3 m tc' cc G E1 E2 E3 E4 E5 E6. exists m, c0, cc, F0, G. split_and!; try done. clear; set_solver.
      * apply IHr; try done; [lia|]. intros ->. by destruct Hc1.
    + destruct c0 as [x|].
      2:{ destruct l; [|by destruct Hc0 as (? & ? & ? & ? & ? & ? & _)]. simpl. split_and!; try done. }
      eapply (Hstep x l c1 r F0 F1 (fun p0 => NumN k' b' lf' v' p0 c1) (fun t' => NT k' b' lf' v' t' r)); try done.
      * clear; set_solver.
      * clear; set_solver.
      * intros y Hy. eapply (child_aside _ r); [done|exact Hr|exact Hc1|exact Hy|]. right. by rewrite Ebit.
      * intros p0. rewrite with_bbit by (done || lia). by rewrite Ebit.
      * intros h3 m tc' cc G E1 E2 E3 E4 E5 E6. exists m, cc, c1, G, F1. split_and!; try done.
      * apply IHl; try done; [lia|]. intros ->. by destruct Hc0.
Qed.
Lemma n_delete_exact h p t F k bits : wf c t -> k < 2 ^ W -> orep h p t F ->
  wp (n_delete c p k bits) h ∅ (fun r h' _ => del_post h h' F p t k (clamp c bits) r).
Proof using Hc.
  intros Hw Hk Hrep. destruct t as [|k' b' lf' v' l r]; [destruct Hrep as [-> ->]; done|].
  pose proof Hrep as (n & c0 & c1 & F0 & F1 & -> & _). unfold n_delete.
  apply del_exact; [done|by apply depth_fuel|done|apply clamp_le|done|done].
Qed.

(** ** InplaceInsert overwrites the last node above the key and makes [N]. *)
Definition hitx h h' (x : loc) (M : gset loc) (k b : N) (v : value) : Prop := exists xk xb xl xv x0 x1,
  h !! x = Some (CNum (NumN xk xb xl xv x0 x1)) /\ (forall y, y ∈ dom h -> y <> x -> h' !! y = h !! y) /\ agree W xb xk k /\ xb <= b /\
  (forall y, y ∈ M -> h !! y = None) /\
  ((xb = b /\ M = ∅ /\ h' !! x = Some (CNum (NumN k b true v x0 x1))) \/
   (xb < b /\ exists n' tc Fc, orep h (if bitat W k xb then x1 else x0) tc Fc /\ orep h' n' (f_ins c tc k b v) (Fc ∪ M) /\ (forall y, y ∈ Fc -> aside h y k b) /\
      h' !! x = Some (CNum (if bitat W k xb then NumN xk xb xl xv x0 n' else NumN xk xb xl xv n' x1)))).

Lemma inplace_hitx t : forall fuel h n F k b v pa pk pb pl pv p0 p1 br r WS,
  wf c t -> (depth t < fuel)%nat -> k < 2 ^ W -> b <= W -> orep h n t F -> dom h ⊆ WS -> h !! pa = Some (CNum (NumN pk pb pl pv p0 p1)) -> pa ∉ F ->
  n = (if bitat W k pb then p1 else p0) -> br = bbit c k pb -> pb < b -> agree W pb pk k ->
  wp (inplace_loop c fuel k b v (Some pa) br n r) h WS (fun ret h' _ => ret = r /\ exists x N, hitx h h' x N k b v /\ (x = pa \/ x ∈ F)).
Proof using Hc.
  induction t as [|k' b' lf' v' l IHl r IHr]; intros fuel h n F k b v pa pk pb pl pv p0 p1 br ret WS Hw Hfuel Hk Hb Hrep HWS Hpa HpaF Hn Hbr Hpb Hag.
  - destruct fuel as [|fuel]; [simpl in Hfuel; lia|]. destruct Hrep as [En ->]. rewrite En. cbn [inplace_loop]. unfold new_node. apply wp_bind, wp_bind, wp_alloc. intros a Ha. cbn [wp bind].
    assert (Hne : a <> pa) by (intros ->; congruence).
    apply wp_bind. eapply wp_set_chld; [rewrite lookup_insert_ne by done; exact Hpa|apply elem_of_union_r, HWS; by apply elem_of_dom_2 in Hpa|].
    cbn [wp]. split; [done|]. exists pa, {[a]}. split; [|by left]. exists pk, pb, pl, pv, p0, p1. split_and!; [done| |done|lia| |].
    + intros y Hy Hne2. rewrite lookup_insert_ne by done. apply lookup_insert_ne. intros ->. apply elem_of_dom in Hy as [? Hy]. congruence.
    + intros y Hy. apply elem_of_singleton in Hy. by subst y.
    + right. split; [done|]. exists (Some a), NE, ∅. split_and!.
      * rewrite <- Hn. split; done.
      * cbn [f_ins orep]. exists a, None, None, ∅, ∅. split_and!; try done; [|clear; set_solver].
        rewrite lookup_insert_ne by done. by rewrite lookup_insert.
      * intros y Hy. by apply not_elem_of_empty in Hy.
      * rewrite lookup_insert, Hbr, with_bbit by (done || lia). by destruct (bitat W k pb).
  - destruct fuel as [|fuel]; [simpl in Hfuel; lia|].
    pose proof Hw as (Hk' & Hb' & Hl & Hr & Hwl & Hwr & Hf).
    pose proof Hrep as (a & c0 & c1 & F0 & F1 & En & Ha & Hc0 & Hc1 & Ha0 & Ha1 & Hd & EF). rewrite En.
    cbn [inplace_loop]. apply wp_bind. eapply wp_ld_num; [exact Ha|].
    cbn [nn_key nn_bits nn_leaf nn_val nn_c0 nn_c1].
    rewrite ncsb_eq by done. cbn [bind].
    destruct (pcsb_spec c k' b' k b Hk' Hk Hb' Hb) as (Hn1 & Hn2 & Hn3 & Hn4).
    remember (pcsb c k' b' k b) as nc eqn:Enc0.
    destruct (N.ltb_spec nc b').
    + apply wp_bind_ret. eapply wp_mono.
      { eapply (wp_call _ _ ∅); [|apply empty_subseteq].
        eapply (split_wp c Hc h (Some a) _ _ k' b' lf' v' l r k b v nc); [reflexivity|by rewrite <- En|done..]. }
      cbn beta. intros m h1 WS' [(WS1 & Ho & HWS1 & (_ & _ & Hg1)) [Hun (Hg2 & _ & _)]].
      assert (Hpa' : h1 !! pa = Some (CNum (NumN pk pb pl pv p0 p1))) by (apply Hun; [done|apply not_elem_of_empty]).
      apply wp_bind. eapply wp_set_chld; [exact Hpa'|apply Hg2, HWS; by apply elem_of_dom_2 in Hpa|].
      cbn [wp]. split; [done|]. exists pa, WS1. split; [|by left]. exists pk, pb, pl, pv, p0, p1.
      assert (HW0 : forall y, y ∈ WS1 -> h !! y = None).
      { intros y Hy. destruct (Hg1 _ Hy) as [Hin2|?]; [by apply not_elem_of_empty in Hin2|done]. }
      assert (HpaW : pa ∉ WS1) by (intros Hin; apply HW0 in Hin; congruence).
      split_and!; [done| |done|lia|done|].
      * intros y Hy Hne2. rewrite lookup_insert_ne by done. apply elem_of_dom in Hy as [cy Hy]. rewrite Hy. apply Hun; [done|apply not_elem_of_empty].
      * right. split; [done|]. exists m, (NT k' b' lf' v' l r), F. split_and!.
        -- by rewrite <- Hn.
        -- eapply (orep_agree c Hc h1).
           ++ intros y Hy. apply lookup_insert_ne. intros <-. apply elem_of_union in Hy as [?|?]; done.
           ++ cbn [f_ins]. rewrite <- Enc0. destruct (N.ltb_spec nc b'); [|lia]. eapply orep_eq; [|exact Ho]. clear; set_solver.
        -- intros y Hy. eapply root_aside; [exact Hw|exact Hrep|exact Hy|]. destruct (N.eq_dec nc b) as [->|]; [by left|right]. exists nc. split; [done|]. apply Hn4; [done|lia].
        -- rewrite lookup_insert, Hbr, with_bbit by (done || lia). by destruct (bitat W k pb).
    + assert (Enc : nc = b') by lia. destruct (N.eqb_spec b b') as [Eb|Eb].
      * apply wp_bind. eapply wp_st_num; [apply HWS; by apply elem_of_dom_2 in Ha|by eexists|]. cbn [wp].
        split; [done|]. exists a, ∅. split; [|right; rewrite EF; by apply elem_of_union_l, elem_of_singleton]. exists k', b', lf', v', c0, c1. split_and!; [done| |rewrite <- Enc; done|lia| |].
        -- intros y Hy Hne2. by rewrite lookup_insert_ne.
        -- intros y Hy. by apply not_elem_of_empty in Hy.
        -- left. split_and!; [done|done|]. rewrite lookup_insert. by rewrite Eb.
      * rewrite chld_bbit by (done || lia). cbn [nn_c0 nn_c1]. rewrite Enc.
        simpl in Hfuel. rewrite Enc in Hn3. destruct (bitat W k b') eqn:Ebit.
        -- eapply wp_mono; [eapply (IHr fuel h c1 F1 k b v a k' b' lf' v' c0 c1); try done; [lia|by rewrite Ebit|lia]|]. cbn beta. intros r2 h2 WS2 [-> (x & N & Hh & Hin)]. split; [done|]. exists x, N. split; [done|]. right. rewrite EF. clear -Hin. set_solver.
        -- eapply wp_mono; [eapply (IHl fuel h c0 F0 k b v a k' b' lf' v' c0 c1); try done; [lia|by rewrite Ebit|lia]|]. cbn beta. intros r2 h2 WS2 [-> (x & N & Hh & Hin)]. split; [done|]. exists x, N. split; [done|]. right. rewrite EF. clear -Hin. set_solver.
Qed.
Lemma n_inplace_exact h WS p t F k bits v : k < 2 ^ W -> dom h ⊆ WS -> wf c t -> orep h p t F ->
  wp (n_inplace_insert c p k bits v) h WS (fun r h' _ => exists N, (forall y, y ∈ N -> h !! y = None) /\
    ((h ⊆ h' /\ orep h' r (f_ins c t k (clamp c bits) v) (F ∪ N) /\ (forall y, y ∈ F -> aside h y k (clamp c bits))) \/
     (r = p /\ exists x, x ∈ F /\ hitx h h' x N k (clamp c bits) v))).
Proof using Hc.
  intros Hk HWS Hw Hrep. unfold n_inplace_insert. pose proof (clamp_le c bits) as Hb. set (b := clamp c bits) in *. clearbody b.
  unfold nfuel. replace (N.to_nat W + 2)%nat with (S (N.to_nat W + 1)) by lia. pose proof (depth_fuel c t Hw) as Hd. unfold nfuel in Hd.
  destruct t as [|k' b' lf' v' l r].
  - destruct Hrep as [-> ->]. cbn [inplace_loop]. unfold new_node. apply wp_bind, wp_bind, wp_alloc. intros a Ha. cbn [wp bind]. exists {[a]}. split.
    { intros y Hy. apply elem_of_singleton in Hy. by subst y. }
    left. split_and!; [by apply insert_subseteq| |intros y Hy; by apply not_elem_of_empty in Hy].
    cbn [f_ins orep]. exists a, None, None, ∅, ∅. rewrite lookup_insert. split_and!; try done. clear; set_solver.
  - pose proof Hw as (Hk' & Hb' & Hl & Hr & Hwl & Hwr & Hf). pose proof Hrep as (a & c0 & c1 & F0 & F1 & -> & Ha & Hc0 & Hc1 & Ha0 & Ha1 & Hdj & EF).
    cbn [inplace_loop]. apply wp_bind. eapply wp_ld_num; [exact Ha|]. cbn [nn_key nn_bits nn_leaf nn_val nn_c0 nn_c1]. rewrite ncsb_eq by done. cbn [bind].
    destruct (pcsb_spec c k' b' k b Hk' Hk Hb' Hb) as (Hn1 & Hn2 & Hn3 & Hn4). remember (pcsb c k' b' k b) as nc eqn:Enc0.
    destruct (N.ltb_spec nc b').
    + apply wp_bind_ret. eapply wp_mono.
      { eapply (wp_call _ _ ∅); [|apply empty_subseteq]. eapply (split_wp c Hc h (Some a) _ _ k' b' lf' v' l r k b v nc); [reflexivity|exact Hrep|done..]. }
      cbn beta. intros m2 h1 WS' [(WS1 & Ho & HWS1 & (_ & _ & Hg1)) [Hun _]]. cbn [wp].
      exists WS1. split. { intros y Hy. destruct (Hg1 _ Hy) as [Hin2|?]; [by apply not_elem_of_empty in Hin2|done]. }
      left. split_and!.
      * apply map_subseteq_spec. intros y z Hy. apply Hun; [done|apply not_elem_of_empty].
      * cbn [f_ins]. rewrite <- Enc0. destruct (N.ltb_spec nc b'); [|lia]. eapply orep_eq; [|exact Ho]. clear; set_solver.
      * intros y Hy. eapply root_aside; [exact Hw|exact Hrep|exact Hy|]. destruct (N.eq_dec nc b) as [->|]; [by left|right]. exists nc. split; [done|]. apply Hn4; [done|lia].
    + assert (Enc : nc = b') by lia. destruct (N.eqb_spec b b') as [Eb|Eb].
      * apply wp_bind. eapply wp_st_num; [apply HWS; by apply elem_of_dom_2 in Ha|by eexists|]. cbn [wp]. exists ∅. split; [intros y Hy; by apply not_elem_of_empty in Hy|].
        right. split; [done|]. exists a. split; [rewrite EF; clear; set_solver|].
        exists k', b', lf', v', c0, c1. split_and!; [done|intros; by rewrite lookup_insert_ne|by rewrite <- Enc|lia|intros y Hy; by apply not_elem_of_empty in Hy|]. left. split_and!; [done|done|]. rewrite lookup_insert. by rewrite Eb.
      * rewrite Enc. rewrite chld_bbit by (done || lia). cbn [nn_c0 nn_c1]. simpl in Hd. rewrite Enc in Hn3.
        assert (Hfin : forall (x : loc) (N : gset loc) h2, hitx h h2 x N k b v -> x = a \/ x ∈ F0 ∪ F1 -> exists N : gset loc, (forall y, y ∈ N -> h !! y = None) /\
          ((h ⊆ h2 /\ orep h2 (Some a) (f_ins c (NT k' b' lf' v' l r) k b v) (F ∪ N) /\ (forall y, y ∈ F -> aside h y k b)) \/ (Some a = Some a /\ exists x, x ∈ F /\ hitx h h2 x N k b v))).
        { intros x N h2 Hh Hx. exists N. split; [by destruct Hh as (? & ? & ? & ? & ? & ? & _ & _ & _ & _ & HN & _)|]. right. split; [done|]. exists x. split; [|done]. rewrite EF. clear -Hx. set_solver. }
        destruct (bitat W k b') eqn:Ebit.
        -- eapply wp_mono; [eapply (inplace_hitx r _ h c1 F1 k b v a k' b' lf' v' c0 c1); try done; [lia|by rewrite Ebit|lia]|]. cbn beta. intros r2 h2 WS2 [-> (x & N & Hh & Hin)]. eapply Hfin; [exact Hh|]. clear -Hin. set_solver.
        -- eapply wp_mono; [eapply (inplace_hitx l _ h c0 F0 k b v a k' b' lf' v' c0 c1); try done; [lia|by rewrite Ebit|lia]|]. cbn beta. intros r2 h2 WS2 [-> (x & N & Hh & Hin)]. eapply Hfin; [exact Hh|]. clear -Hin. set_solver.
Qed.
Lemma share_exact h h' x N k b v : hitx h h' x N k b v -> k < 2 ^ W -> b <= W -> exists xn, h !! x = Some (CNum xn) /\ nn_bits xn <= b /\ agree W (nn_bits xn) (nn_key xn) k /\
  (exists xn', h' !! x = Some (CNum xn') /\ nn_bits xn' = nn_bits xn /\ agree W (nn_bits xn) (nn_key xn') (nn_key xn)) /\
  forall t p F, wf c t -> orep h p t F ->
  (x ∉ F -> orep h' p t F) /\ (x ∈ F -> orep h' p (f_ins c t k b v) (F ∪ N) /\ forall y nn, y ∈ F -> h !! y = Some (CNum nn) -> nn_bits nn <= b -> agree W (nn_bits nn) (nn_key nn) k -> nn_bits nn <= nn_bits xn).
Proof using Hc.
  intros (xk & xb & xl & xv & x0 & x1 & Hx & Hkeep & Hag & Hxb & HN & Hcase) Hk Hb. eexists. split; [exact Hx|]. cbn [nn_bits nn_key]. split_and!; [done|done| |].
  { destruct Hcase as [(-> & -> & E)|(Hlt & n' & tc & Fc & _ & _ & _ & E)]; (eexists; split; [exact E|]).
    - cbn [nn_bits nn_key]. split; [done|by apply agree_sym].
    - destruct (bitat W k xb); cbn [nn_bits nn_key]; (split; [done|apply agree_refl]). }
  assert (Hout : forall t p F, orep h p t F -> x ∉ F -> orep h' p t F).
  { intros t p F Ho HxF. eapply (orep_agree c Hc h); [|exact Ho]. intros y Hy. apply Hkeep; [|by intros ->]. apply elem_of_dom. by eapply orep_alloc. }
  assert (HNd : forall t p F, orep h p t F -> F ## N).
  { intros t p F Ho. apply elem_of_disjoint. intros y Hy Hy2. destruct (orep_alloc c Hc _ _ _ _ _ Ho Hy). rewrite HN in H; done. }
  assert (HxN : x ∉ N) by (intros Hin; apply HN in Hin; congruence).
  induction t as [|tk tb tl tv l IHl r IHr]; intros p F Hw Ho; (split; [by apply Hout|]).
  { destruct Ho as [_ ->]. intros H. by apply not_elem_of_empty in H. }
  intros HxF. pose proof Hw as (Htk & Htb & Hl & Hr & Hwl & Hwr & Hf). pose proof Ho as (a & c0 & c1 & F0 & F1 & -> & Ha & Hc0 & Hc1 & Ha0 & Ha1 & Hd & EF). subst F.
  pose proof (HNd _ _ _ Hc0) as N0. pose proof (HNd _ _ _ Hc1) as N1.
  destruct (decide (x = a)) as [<-|Hne].
  - rewrite Hx in Ha. injection Ha as <- <- <- <- <- <-. split.
    + pose proof (Hout _ _ _ Hc0 Ha0) as O0. pose proof (Hout _ _ _ Hc1 Ha1) as O1. cbn [f_ins].
      destruct (pcsb_spec c xk xb k b Htk Hk Htb Hb) as (Hn1 & Hn2 & Hn3 & Hn4). set (nc := pcsb c xk xb k b) in *. clearbody nc.
      assert (nc = xb) as ->. { destruct (N.lt_ge_cases nc xb); [|lia]. exfalso. apply Hn4; [done|lia|]. by apply Hag. }
      destruct (N.ltb_spec xb xb); [lia|].
      destruct Hcase as [(-> & -> & Hx')|(Hlt & n' & tc & Fc & Htc & Hn' & _ & Hx')].
      * rewrite N.eqb_refl. exists x, x0, x1, F0, F1. split_and!; try done. clear; set_solver.
      * destruct (N.eqb_spec b xb); [lia|]. destruct (bitat W k xb).
        -- pose proof (nrep_det _ _ _ _ (orep_nrep _ _ _ _ Htc) (orep_nrep _ _ _ _ Hc1)) as ->. pose proof (orep_fun _ _ _ _ _ Htc Hc1) as ->. exists x, x0, n', F0, (F1 ∪ N). split_and!; [done..| |done|clear -Ha1 HxN; set_solver|clear -Hd N0; set_solver|clear; set_solver]; done.
        -- pose proof (nrep_det _ _ _ _ (orep_nrep _ _ _ _ Htc) (orep_nrep _ _ _ _ Hc0)) as ->. pose proof (orep_fun _ _ _ _ _ Htc Hc0) as ->. exists x, n', x1, (F0 ∪ N), F1. split_and!; [done..| |clear -Ha0 HxN; set_solver|done|clear -Hd N1; set_solver|clear; set_solver]; done.
    + intros y nn Hy Ey G1 G2. apply elem_of_union in Hy as [Hy|Hy]; [apply elem_of_singleton in Hy as ->; rewrite Hx in Ey; injection Ey as <-; cbn [nn_bits]; lia|]. exfalso.
      assert (Has : aside h y k b).
      { destruct Hcase as [(-> & _ & _)|(Hlt & n' & tc & Fc & Htc & _ & Has & _)].
        - apply elem_of_union in Hy as [Hy|Hy]; [eapply (child_aside _ l); [done|exact Hl|exact Hc0|exact Hy|]|eapply (child_aside _ r); [done|exact Hr|exact Hc1|exact Hy|]]; left; lia.
        - destruct (bitat W k xb) eqn:Ebit.
          + pose proof (nrep_det _ _ _ _ (orep_nrep _ _ _ _ Htc) (orep_nrep _ _ _ _ Hc1)) as ->. pose proof (orep_fun _ _ _ _ _ Htc Hc1) as ->. apply elem_of_union in Hy as [Hy|Hy]; [|auto]. eapply (child_aside _ l); [done|exact Hl|exact Hc0|exact Hy|]. right. by rewrite Ebit.
          + pose proof (nrep_det _ _ _ _ (orep_nrep _ _ _ _ Htc) (orep_nrep _ _ _ _ Hc0)) as ->. pose proof (orep_fun _ _ _ _ _ Htc Hc0) as ->. apply elem_of_union in Hy as [Hy|Hy]; [auto|]. eapply (child_aside _ r); [done|exact Hr|exact Hc1|exact Hy|]. right. by rewrite Ebit. }
      destruct Has as (nn2 & E2 & Has). rewrite Ey in E2. injection E2 as <-. by apply Has.
  - assert (Hx01 : x ∈ F0 \/ x ∈ F1) by (clear -HxF Hne; set_solver).
    assert (HaN : a ∉ N) by (intros Hin; apply HN in Hin; congruence).
    assert (Ha' : h' !! a = Some (CNum (NumN tk tb tl tv c0 c1))) by (rewrite Hkeep; [done|by apply elem_of_dom_2 in Ha|done]).
    assert (Hgo : forall d, (tb < xb /\ agree W tb tk xk /\ bitat W xk tb = d) -> f_ins c (NT tk tb tl tv l r) k b v = if d then NT tk tb tl tv l (f_ins c r k b v) else NT tk tb tl tv (f_ins c l k b v) r).
    { intros d (D1 & D2 & D3). cbn [f_ins]. destruct (pcsb_spec c tk tb k b Htk Hk Htb Hb) as (Hn1 & Hn2 & Hn3 & Hn4). set (nc := pcsb c tk tb k b) in *. clearbody nc.
      assert (Hat : agree W tb tk k) by (eapply agree_trans; [exact D2|]; eapply agree_le; [|exact Hag]; lia).
      assert (nc = tb) as ->. { destruct (N.lt_ge_cases nc tb); [|lia]. exfalso. apply Hn4; [done|lia|]. by apply Hat. }
      destruct (N.ltb_spec tb tb); [lia|]. destruct (N.eqb_spec b tb); [lia|]. rewrite <- (Hag tb) by done. by rewrite D3. }
    destruct Hx01 as [H0|H1].
    + destruct (orep_child c Hc _ _ _ _ _ _ _ _ Hwl Hl Hc0 H0) as (nn & En & D1 & D2 & D3). rewrite Hx in En. injection En as <-. cbn [nn_bits nn_key] in *.
      destruct (IHl _ _ Hwl Hc0) as [_ H]. destruct (H H0) as (A3 & A4). split.
      * rewrite (Hgo false) by done. exists a, c0, c1, (F0 ∪ N), F1. split_and!; [done|done|done|apply (Hout _ _ _ Hc1); clear -H0 Hd; set_solver|clear -Ha0 HaN; set_solver|done|clear -Hd N1; set_solver|clear; set_solver].
      * intros y ny Hy Ey G1 G2. apply elem_of_union in Hy as [Hy|Hy]; [apply elem_of_singleton in Hy as ->; rewrite Ha in Ey; injection Ey as <-; cbn [nn_bits]; lia|]. apply elem_of_union in Hy as [Hy|Hy]; [by eapply A4|]. exfalso.
        destruct (orep_child c Hc _ _ _ _ _ _ _ _ Hwr Hr Hc1 Hy) as (n2 & E2 & B1 & B2 & B3). rewrite Ey in E2. injection E2 as <-.
        rewrite (G2 tb) in B3 by done. rewrite (Hag tb) in D3 by done. congruence.
    + destruct (orep_child c Hc _ _ _ _ _ _ _ _ Hwr Hr Hc1 H1) as (nn & En & D1 & D2 & D3). rewrite Hx in En. injection En as <-. cbn [nn_bits nn_key] in *.
      destruct (IHr _ _ Hwr Hc1) as [_ H]. destruct (H H1) as (A3 & A4). split.
      * rewrite (Hgo true) by done. exists a, c0, c1, F0, (F1 ∪ N). split_and!; [done|done|apply (Hout _ _ _ Hc0); clear -H1 Hd; set_solver|done|done|clear -Ha1 HaN; set_solver|clear -Hd N0; set_solver|clear; set_solver].
      * intros y ny Hy Ey G1 G2. apply elem_of_union in Hy as [Hy|Hy]; [apply elem_of_singleton in Hy as ->; rewrite Ha in Ey; injection Ey as <-; cbn [nn_bits]; lia|]. apply elem_of_union in Hy as [Hy|Hy]; [|by eapply A4]. exfalso.
        destruct (orep_child c Hc _ _ _ _ _ _ _ _ Hwl Hl Hc0 Hy) as (n2 & E2 & B1 & B2 & B3). rewrite Ey in E2. injection E2 as <-.
        rewrite (G2 tb) in B3 by done. rewrite (Hag tb) in D3 by done. congruence.
Qed.
End exact.
