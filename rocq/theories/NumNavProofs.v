(** * Following the children of a node. *)
From Verif Require Import Prog History NumModel NumBits NumSpec NumFun NumSim NumInplace NumAbs NumPropProofs NumNavSpec IpUpdProofs.
Open Scope N_scope.

(** A client going down: [for _, b := range path { if n == nil { break };
    n0, n1 := n.Children(); if b { n = n1 } else { n = n0 } }]. *)
Fixpoint walk {U} (p : ptr) (path : list bool) : prog U ptr :=
  match path, p with
  | [], _ => Ret p
  | _, None => Ret None
  | b :: path, Some _ => c <- n_children p ;; walk (if b : bool then c.2 else c.1) path
  end.
(** Reading the fields of a node. *)
Definition fields {U} (p : ptr) : prog U (option (numnode U)) :=
  match p with None => Ret None | Some _ => n <- ld_num p ;; Ret (Some n) end.

(** ** Prefixes. *)
Lemma covers_refl q : covers q q.
Proof. split; [lia|]. by rewrite N.sub_diag, N.div_1_r. Qed.
Lemma covers_trans a b d : covers a b -> covers b d -> covers a d.
Proof.
  intros [H1 E1] [H2 E2]. split; [lia|]. rewrite <- E1, <- E2.
  rewrite N.div_div by (apply N.pow_nonzero; done). rewrite <- N.pow_add_r. do 2 f_equal. lia.
Qed.
Lemma covers_antisym a b : covers a b -> covers b a -> a = b.
Proof.
  intros [H1 E1] [H2 E2]. destruct a as [a1 a2], b as [b1 b2]. simpl in *. assert (a1 = b1) as -> by lia.
  rewrite N.sub_diag in E1. change (2 ^ 0) with 1 in E1. rewrite N.div_1_r in E1. by rewrite E1.
Qed.
Lemma covers_ext q d : covers q (ext q d).
Proof.
  unfold ext. split; cbn [fst snd]; [lia|]. replace (q.1 + 1 - q.1) with 1 by lia. change (2 ^ 1) with 2.
  destruct d; [|rewrite N.add_0_r; rewrite N.mul_comm; by apply N.div_mul].
  symmetry. apply (N.div_unique _ _ _ 1); lia.
Qed.
(** Two prefixes of the same one are comparable. *)
Lemma covers_total a b d : covers a d -> covers b d -> a.1 <= b.1 -> covers a b.
Proof.
  intros [H1 E1] [H2 E2] Hle. split; [done|]. rewrite <- E1, <- E2.
  rewrite N.div_div by (apply N.pow_nonzero; done). rewrite <- N.pow_add_r. do 2 f_equal. lia.
Qed.
Lemma ext_apart q d0 d1 : covers (ext q false) d0 -> covers (ext q true) d1 ->
  forall L, covers L d0 -> covers L d1 -> L.1 <= q.1.
Proof.
  intros H0 H1 L HL0 HL1. destruct (N.le_gt_cases (L.1) (q.1)) as [?|Hlt]; [done|]. exfalso.
  assert (covers (ext q false) L) as C0 by (apply (covers_total _ _ d0); [done..|simpl; lia]).
  assert (covers (ext q true) L) as C1 by (apply (covers_total _ _ d1); [done..|simpl; lia]).
  destruct C0 as [_ E0], C1 as [_ E1]. unfold ext in *. cbn [fst snd] in *. lia.
Qed.

Section nav.
Context {U : Type}.
Local Notation heap := (heap U).
Local Notation ntree := (@ntree U).

(** The specification leaves no choice. *)
Lemma crown_covers (m : nmap U) q L1 L2 : crown m q L1 -> crown m q L2 -> covers L1 L2.
Proof.
  intros (C1 & B1 & A1) (C2 & [[x B2]|[(p0 & x0 & E0 & Hc0) (p1 & x1 & E1 & Hc1)]] & A2); [by eapply A1|].
  assert (covers q p0) as Q0 by (eapply covers_trans; [exact C2|]; eapply covers_trans; [apply covers_ext|exact Hc0]).
  assert (covers q p1) as Q1 by (eapply covers_trans; [exact C2|]; eapply covers_trans; [apply covers_ext|exact Hc1]).
  pose proof (A1 _ _ E0 Q0). pose proof (A1 _ _ E1 Q1).
  apply (covers_total _ _ p0); [done| |by eapply ext_apart].
  eapply covers_trans; [apply covers_ext|exact Hc0].
Qed.
Lemma crown_unique (m : nmap U) q L1 L2 : crown m q L1 -> crown m q L2 -> L1 = L2.
Proof. intros. apply covers_antisym; by eapply crown_covers. Qed.
Lemma crown_occupied (m : nmap U) q L : crown m q L -> occupied m q.
Proof.
  intros (C & [[x B]|[(p0 & x0 & E0 & Hc0) _]] & _); [by exists L, x|].
  exists p0, x0. split; [done|]. eapply covers_trans; [exact C|]. eapply covers_trans; [apply covers_ext|exact Hc0].
Qed.
Lemma nav_unique (m : nmap U) q path r1 r2 : nav m q path r1 -> nav m q path r2 -> r1 = r2.
Proof.
  intros H1. revert r2. induction H1 as [q path Hn|q L Hc|q L b path r Hc H IH]; intros r2 H2; inversion H2; subst; try done.
  - by destruct Hn; eapply crown_occupied.
  - by destruct Hn; eapply crown_occupied.
  - exfalso. by eapply H, crown_occupied.
  - f_equal. by eapply crown_unique.
  - exfalso. eapply H0, crown_occupied; eauto.
  - apply IH. by rewrite (crown_unique m q L L0).
Qed.

Variable c : cfg.
Hypothesis Hc : cfg_ok c.
Local Notation W := (cW c).

Lemma half_bit x y (d e : bool) : (if e then 1 else 0) = x mod 2 -> (x = 2 * y + (if d then 1 else 0) <-> x / 2 = y /\ e = d).
Proof. intros H. pose proof (N.div_mod x 2). destruct d, e; (split; [intros ?|intros [? ?]]; try done; lia). Qed.
Lemma covers_ext_norm k b d k1 b1 : k < 2 ^ W -> k1 < 2 ^ W -> b <= W -> b1 <= W ->
  covers (ext (norm W k b) d) (norm W k1 b1) <-> (b < b1 /\ agree W b k1 k /\ bitat W k1 b = d).
Proof.
  intros Hk Hk1 Hb Hb1. rewrite (agree_shiftr W b k1 k) by done. rewrite !N.shiftr_div_pow2.
  unfold covers, ext, norm. cbn [fst snd]. clear Hc Hk Hk1.
  assert (b + 1 <= b1 <-> b < b1) as -> by lia.
  assert (b < b1 -> (k1 / 2 ^ (W - b1) / 2 ^ (b1 - (b + 1)) = 2 * (k / 2 ^ (W - b)) + (if d then 1 else 0) <->
     k1 / 2 ^ (W - b) = k / 2 ^ (W - b) /\ bitat W k1 b = d)) as H; [|tauto].
  intros Hlt. rewrite N.div_div by (apply N.pow_nonzero; done). rewrite <- N.pow_add_r.
  replace (W - b1 + (b1 - (b + 1))) with (W - 1 - b) by (clear -Hlt Hb1; lia).
  assert (k1 / 2 ^ (W - b) = k1 / 2 ^ (W - 1 - b) / 2) as ->.
  { rewrite N.div_div by (try apply N.pow_nonzero; done). replace (W - b) with (N.succ (W - 1 - b)) by (clear -Hlt Hb1; lia).
    rewrite N.pow_succ_r'. by rewrite N.mul_comm. }
  apply half_bit. unfold bitat. rewrite <- N.testbit_spec'. by destruct (N.testbit k1 (W - 1 - b)).
Qed.

(** [t] holds what [m] has at or below [q]. *)
Definition part (m : nmap U) (q : pfx) (t : ntree) : Prop :=
  forall k b v, (k, b, v) ∈ f_enum t <-> (m !! norm W k b = Some (k, v) /\ covers q (norm W k b)).
Definition mok (m : nmap U) : Prop := forall q k v, m !! q = Some (k, v) -> q = norm W k q.1 /\ k < 2 ^ W /\ q.1 <= W.
Definition under (q : pfx) (t : ntree) : Prop :=
  match t with NE => True | NT k b _ _ _ _ => covers q (norm W k b) end.

Lemma nabs_mok t m : wf c t -> nabs c t m -> mok m.
Proof. intros Hw Ha q k v Hq. apply Ha in Hq as [Hin Eq]. apply (enum_wf c) in Hin as [? ?]; done. Qed.
Lemma covers_all k b : k < 2 ^ W -> covers (0, 0) (norm W k b) .
Proof.
  intros Hk. unfold covers, norm. simpl. split; [lia|]. rewrite N.div_div by (apply N.pow_nonzero; done). apply N.div_small.
  rewrite <- N.pow_add_r. eapply N.lt_le_trans; [exact Hk|]. apply N.pow_le_mono_r; lia.
Qed.
Lemma nabs_part t m : wf c t -> nabs c t m -> part m (0, 0) t /\ under (0, 0) t.
Proof.
  intros Hw Ha. split.
  - intros k b v. rewrite (nabs_elem c t m k b v Ha). split; [|by intros []]. intros Hin. split; [done|].
    apply (enum_wf c) in Hin as [? ?]; [|done]. by apply covers_all.
  - destruct t; [done|]. destruct Hw as (? & _). by apply covers_all.
Qed.

Lemma root_covers k b lf v (l r : ntree) k1 b1 v1 : wf c (NT k b lf v l r) -> (k1, b1, v1) ∈ f_enum (NT k b lf v l r) -> covers (norm W k b) (norm W k1 b1).
Proof.
  intros Hw Hin. pose proof (enum_under c _ Hw _ _ _ Hin) as (? & ? & ? & ?). pose proof Hw as (? & ? & _).
  apply covers_norm; [done..|]. split; [done|]. by apply agree_sym.
Qed.
Lemma part_root m q k b lf v l r : wf c (NT k b lf v l r) -> part m q (NT k b lf v l r) -> covers q (norm W k b) ->
  part m (norm W k b) (NT k b lf v l r).
Proof.
  intros Hw Hp Hq k1 b1 v1. split.
  - intros Hin. split; [by apply Hp in Hin as []|]. by eapply root_covers.
  - intros [E Hco]. apply Hp. split; [done|]. by eapply covers_trans.
Qed.
Lemma part_child m k b lf v l r (d : bool) : wf c (NT k b lf v l r) -> mok m -> part m (norm W k b) (NT k b lf v l r) ->
  part m (ext (norm W k b) d) (if d then r else l) /\ under (ext (norm W k b) d) (if d then r else l).
Proof.
  intros Hw Hm Hp. pose proof Hw as (Hk & Hb & Hl & Hr & Hwl & Hwr & Hlf). split.
  - intros k1 b1 v1. split.
    + intros Hin. assert ((k1, b1, v1) ∈ f_enum (NT k b lf v l r)) as Hin'.
      { simpl. rewrite !elem_of_app. destruct d; auto. }
      split; [by apply Hp in Hin' as []|]. apply (enum_wf c) in Hin' as [? ?]; [|done].
      apply covers_ext_norm; [done..|].
      assert (b < b1 /\ b1 <= W /\ k1 < 2 ^ W /\ agree W b k k1 /\ bitat W k1 b = d) as (? & ? & ? & ? & ?).
      { destruct d; (eapply enum_child; [|eauto|exact Hin]; done). }
      split_and!; [done|by apply agree_sym|done].
    + intros [E Hco]. pose proof (Hm _ _ _ E) as (_ & Hk1 & Hb1). simpl in Hb1.
      assert ((k1, b1, v1) ∈ f_enum (NT k b lf v l r)) as Hin.
      { apply Hp. split; [done|]. eapply covers_trans; [apply covers_ext|exact Hco]. }
      apply covers_ext_norm in Hco as (Hlt & _ & Hbit); [|done..].
      simpl in Hin. rewrite !elem_of_app in Hin. destruct Hin as [Hin|[Hin|Hin]].
      * destruct lf; [|by apply elem_of_nil in Hin]. apply elem_of_list_singleton in Hin. injection Hin as -> -> ->. lia.
      * apply (enum_child c _ _ _ _ _ _ _ Hwl Hl) in Hin as Hin2. destruct Hin2 as (_ & _ & _ & _ & Hd). rewrite <- Hbit, Hd. done.
      * apply (enum_child c _ _ _ _ _ _ _ Hwr Hr) in Hin as Hin2. destruct Hin2 as (_ & _ & _ & _ & Hd). rewrite <- Hbit, Hd. done.
  - assert (forall t, ok_child c k b d t -> wf c t -> under (ext (norm W k b) d) t) as H.
    { intros [|k2 b2 ? ? ? ?]; [done|]. intros (? & ? & ?) (? & ? & _). apply covers_ext_norm; [done..|]. split_and!; [done|by apply agree_sym|done]. }
    destruct d; auto.
Qed.
Lemma part_occupied m q t : wf c t -> part m q t -> t <> NE -> occupied m q.
Proof.
  intros Hw Hp Hne. destruct (wf_nonempty c t Hw Hne) as ([[k b] v] & Hin). apply Hp in Hin as [E Hco]. by eexists _, _.
Qed.
Lemma part_free m q : mok m -> part m q NE -> ~ occupied m q.
Proof.
  intros Hm Hp (p & [k v] & E & Hco). pose proof (Hm _ _ _ E) as (Ep & _ & _). rewrite Ep in E, Hco.
  assert ((k, p.1, v) ∈ f_enum (@NE U)) as Hin by (by apply Hp). by apply elem_of_nil in Hin.
Qed.
Lemma part_crown m q k b lf v l r : wf c (NT k b lf v l r) -> mok m -> part m q (NT k b lf v l r) -> covers q (norm W k b) ->
  crown m q (norm W k b).
Proof.
  intros Hw Hm Hp Hq. pose proof (part_root _ _ _ _ _ _ _ _ Hw Hp Hq) as Hp'. pose proof Hw as (Hk & Hb & Hl & Hr & Hwl & Hwr & Hlf).
  split; [done|]. split.
  - destruct lf.
    + left. exists (k, v). apply (Hp k b v). simpl. apply elem_of_list_here.
    + right. destruct (Hlf eq_refl) as (? & ? & _). split.
      * eapply (part_occupied _ _ l); [done| |done]. by apply (part_child m k b false v l r false).
      * eapply (part_occupied _ _ r); [done| |done]. by apply (part_child m k b false v l r true).
  - intros p [k1 v1] E Hco. pose proof (Hm _ _ _ E) as (Ep & _ & _). rewrite Ep in E, Hco |- *.
    eapply root_covers; [done|]. by apply Hp.
Qed.
Lemma part_shows m q k b lf v l r : wf c (NT k b lf v l r) -> mok m -> part m q (NT k b lf v l r) -> covers q (norm W k b) ->
  shows W m (norm W k b) k b lf v.
Proof.
  intros Hw Hm Hp Hq. pose proof Hw as (Hk & Hb & Hl & Hr & Hwl & Hwr & Hlf).
  split; [done|]. split; [done|]. split; [done|]. destruct lf.
  - assert ((k, b, v) ∈ f_enum (NT k b true v l r)) as Hin by (simpl; apply elem_of_list_here).
    apply Hp in Hin as [-> _]. done.
  - destruct (Hlf eq_refl) as (? & ? & ? & Hmask). destruct (m !! norm W k b) as [[k1 v1]|] eqn:E.
    + exfalso. pose proof (Hm _ _ _ E) as (Ep & ? & _). simpl in Ep.
      assert ((k1, b, v1) ∈ f_enum (NT k b false v l r)) as Hin by (apply Hp; rewrite <- Ep; done).
      simpl in Hin. rewrite elem_of_app in Hin. destruct Hin as [Hin|Hin].
      * eapply enum_child in Hin; [|exact Hwl|exact Hl]. lia.
      * eapply enum_child in Hin; [|exact Hwr|exact Hr]. lia.
    + split; [done|]. split; [|done]. unfold start, norm. simpl. rewrite <- Hmask at 1.
      apply N.bits_inj. intros i. rewrite N.land_spec, pmask_spec by done.
      destruct (N.lt_ge_cases i (W - b)) as [Hi|Hi].
      * rewrite N.mul_pow2_bits_low by done. rewrite (proj2 (N.leb_gt _ _)) by done. apply andb_false_r.
      * rewrite N.mul_pow2_bits_high by done. rewrite N.div_pow2_bits. replace (i - (W - b) + (W - b)) with i by lia.
        rewrite (proj2 (N.leb_le _ _)) by done. destruct (N.ltb_spec i W); [apply andb_true_r|].
        rewrite (testbit_high k W i) by done. done.
Qed.

(** What a walk ends in: a part of the tree. *)
Definition ends (h : heap) (m : nmap U) (R : option pfx) (p : ptr) : Prop :=
  exists t, nrep h p t /\ wf c t /\
    match R, t with
    | None, NE => True
    | Some L, NT k b _ _ _ _ => L = norm W k b /\ part m L t
    | _, _ => False
    end.
Lemma walk_wp m t : forall (h : heap) WS q p path, wf c t -> mok m -> nrep h p t -> part m q t -> under q t ->
  wp (walk p path) h WS (fun r h' _ => h' = h /\ exists R, nav m q path R /\ ends h m R r).
Proof.
  induction t as [|k b lf v l IHl r IHr]; intros h WS q p path Hw Hm Hrep Hp Hu.
  { simpl in Hrep. subst p. destruct path; cbn [walk wp]; (split; [done|]; exists None; split; [apply nav_none; by apply part_free|exists NE; done]). }
  pose proof Hw as (Hk & Hb & Hl & Hr & Hwl & Hwr & Hlf). simpl in Hu.
  pose proof (part_root _ _ _ _ _ _ _ _ Hw Hp Hu) as Hp'. pose proof (part_crown _ _ _ _ _ _ _ _ Hw Hm Hp Hu) as Hcr.
  pose proof Hrep as (a & c0 & c1 & -> & Ha & H0 & H1).
  destruct path as [|d path]; cbn [walk].
  - cbn [wp]. split; [done|]. eexists. split; [by apply nav_here|]. eexists. split; [exact Hrep|]. split; [exact Hw|]. done.
  - unfold n_children. apply wp_bind. apply wp_bind. eapply wp_ld_num; [exact Ha|]. cbn [wp nn_c0 nn_c1 fst snd].
    destruct (part_child m k b lf v l r d Hw Hm Hp') as [Hpc Huc].
    eapply wp_mono with (Q := fun r h' _ => h' = h /\ exists R, nav m (ext (norm W k b) d) path R /\ ends h m R r).
    + destruct d; [apply IHr|apply IHl]; done.
    + cbn beta. intros x h' _ [-> (R & HR & He)]. split; [done|]. exists R. split; [|done]. by eapply nav_down.
Qed.
Lemma fields_wp m (h : heap) WS R p : mok m -> ends h m R p ->
  wp (fields p) h WS (fun x h' _ => h' = h /\
    match R, x with
    | None, None => True
    | Some L, Some n => shows W m L (nn_key n) (nn_bits n) (nn_leaf n) (nn_val n)
    | _, _ => False
    end).
Proof.
  intros Hm (t & Hrep & Hw & HR). destruct t as [|k b lf v l r].
  - destruct R; [done|]. simpl in Hrep. subst p. done.
  - destruct R as [L|]; [|done]. destruct HR as [-> Hp]. destruct Hrep as (a & c0 & c1 & -> & Ha & _).
    cbn [fields]. apply wp_bind. eapply wp_ld_num; [exact Ha|]. cbn [wp]. split; [done|]. cbn [nn_key nn_bits nn_leaf nn_val].
    eapply part_shows; [done..|]. apply covers_refl.
Qed.

(** The node that FindNode returns heads all that is stored below it. *)
Lemma exact_part m t : forall fuel (h : heap) p q k b,
  wf c t -> mok m -> (depth t < fuel)%nat -> k < 2 ^ W -> b <= W -> nrep h p t -> t <> NE -> part m q t -> under q t ->
  wp (exact_ c fuel p k b) h ∅ (fun r h' _ => h' = h /\ (r <> None -> ends h m (Some (norm W k b)) r)).
Proof.
  induction t as [|k' b' lf' v' l IHl r IHr]; intros fuel h p q k b Hw Hm Hfuel Hk Hb Hrep Hne Hp Hu; [done|].
  destruct fuel as [|fuel]; [simpl in Hfuel; lia|].
  pose proof Hw as (Hk' & Hb' & Hl & Hr & Hwl & Hwr & Hf). simpl in Hu.
  pose proof (part_root _ _ _ _ _ _ _ _ Hw Hp Hu) as Hp'.
  pose proof Hrep as (n & c0 & c1 & -> & Hn & Hc0 & Hc1).
  cbn [exact_]. apply wp_bind. eapply wp_ld_num; [exact Hn|].
  cbn [nn_key nn_bits nn_leaf nn_val nn_c0 nn_c1].
  destruct (N.ltb_spec b b'); [done|].
  destruct (N.eqb_spec b' b) as [Eb|Eb].
  - rewrite leaf_and_same_eq by done. cbn [wp bind nn_key nn_bits nn_leaf].
    destruct (lf' && same c k' k b') eqn:E; [|done].
    cbn [wp]. split; [done|]. intros _. apply andb_true_iff in E as [-> E]. eexists. split; [exact Hrep|]. split; [done|]. subst b'.
    assert (norm W k' b = norm W k b) as En.
    { apply norm_agree; [done..|]. by destruct (same_spec c k' k b Hk' Hk Hb). }
    rewrite En. rewrite En in Hp'. done.
  - rewrite same_masked_eq by done. cbn [wp bind].
    destruct (negb (same c k' k b')); [done|].
    rewrite chld_bbit by (try done; lia). cbn [nn_c0 nn_c1]. simpl in Hfuel.
    assert (Hpost : forall (d : bool) (x : loc), nrep h (Some x) (if d then r else l) ->
      wp (r0 <- exact_ c fuel (Some x) k b;; match r0 with Some _ => Ret r0 | None => Ret None end) h ∅
         (fun r0 h' _ => h' = h /\ (r0 <> None -> ends h m (Some (norm W k b)) r0))).
    { intros d x Hx. destruct (part_child m k' b' lf' v' l r d Hw Hm Hp') as [Hpc Huc]. apply wp_bind.
      eapply wp_mono with (Q := fun r0 h' _ => h' = h /\ (r0 <> None -> ends h m (Some (norm W k b)) r0)).
      - destruct d.
        + eapply IHr; [done|done|lia|done|done|done| |exact Hpc|exact Huc]. intros ->. simpl in Hx. done.
        + eapply IHl; [done|done|lia|done|done|done| |exact Hpc|exact Huc]. intros ->. simpl in Hx. done.
      - cbn beta. intros y h' WS [-> Hy]. destruct y; done. }
    destruct (bitat W k b').
    + destruct c1 as [x|]; [|done]. by apply (Hpost true).
    + destruct c0 as [x|]; [|done]. by apply (Hpost false).
Qed.
Lemma find_part m t (h : heap) p q k bits :
  wf c t -> mok m -> k < 2 ^ W -> nrep h p t -> part m q t -> under q t ->
  wp (n_find_node c p k bits) h ∅ (fun r h' _ => h' = h /\ (r <> None -> ends h m (Some (norm W k (adj W bits))) r)).
Proof.
  intros Hw Hm Hk Hrep Hp Hu. destruct t as [|k' b' lf' v' l r]; [simpl in Hrep; subst p; done|].
  pose proof Hrep as (n & c0 & c1 & -> & Hn & Hc0 & Hc1). unfold n_find_node. apply wp_bind. rewrite <- clamp_adj.
  eapply wp_mono; [eapply exact_part; [exact Hw|exact Hm|by apply depth_fuel|exact Hk|apply clamp_le|exact Hrep|done|exact Hp|exact Hu]|].
  cbn beta. intros x h' WS [-> Hx]. destruct x; done.
Qed.
End nav.

(** ** The statements. *)
Section proofs.
Context {U : Type}.
Local Notation heap := (heap U).
Implicit Types h : heap.
Definition shown (W : N) (m : nmap U) (R : option pfx) (x : option (numnode U)) : Prop :=
  match R, x with
  | None, None => True
  | Some L, Some n => shows W m L (nn_key n) (nn_bits n) (nn_leaf n) (nn_val n)
  | _, _ => False
  end.

Lemma pf_walk c h ops ver path :
  num_cfg c -> Forall (nop_ok (cW c)) ops ->
  wp (r <- run_hist (n_exec c) ops [None] ;; n <- walk (nth ver r.1 None) path ;; fields n) h ∅
     (fun x h' _ => h ⊆ h' /\
        let m := nth ver (n_contents (cW c) ops [∅]) ∅ in
        exists R, nav m (0, 0) path R /\ shown (cW c) m R x).
Proof.
  intros Hc Hops. apply num_cfg_ok in Hc.
  eapply wp_mono; [apply (n_after (U:=U) c Hc) with (body := fun p => n <- walk p path ;; fields n) (Q := fun (m : nmap U) x _ _ =>
     exists R, nav m (0, 0) path R /\ shown (cW c) m R x); [done|]|].
  - intros h' p m _ (t & Hw & Hr & Ha). pose proof (nabs_mok c t m Hw Ha) as Hm. destruct (nabs_part c t m Hw Ha) as [Hp Hu].
    apply wp_bind. eapply wp_mono; [eapply walk_wp; [exact Hw|exact Hm|exact Hr|exact Hp|exact Hu]|].
    cbn beta. intros n h2 W2 [-> (R & HR & He)].
    eapply wp_mono; [by eapply fields_wp|]. cbn beta. intros x h3 W3 [_ Hx]. exists R. split; [done|exact Hx].
  - cbn beta. intros res h' _ [? [_ ?]]. done.
Qed.

Lemma pf_find_walk c h ops ver key bits path :
  num_cfg c -> Forall (nop_ok (cW c)) ops -> key < 2 ^ cW c ->
  wp (r <- run_hist (n_exec c) ops [None] ;;
      n <- n_find_node c (nth ver r.1 None) key bits ;; n <- walk n path ;; fields n) h ∅
     (fun x h' _ => h ⊆ h' /\
        let m := nth ver (n_contents (cW c) ops [∅]) ∅ in
        let q := norm (cW c) key (adj (cW c) bits) in
        match m !! q with
        | None => x = None
        | Some _ => exists R, nav m q path R /\ shown (cW c) m R x
        end).
Proof.
  intros Hc Hops Hk. apply num_cfg_ok in Hc.
  eapply wp_mono; [apply (n_after (U:=U) c Hc) with (body := fun p => n <- n_find_node c p key bits ;; n <- walk n path ;; fields n) (Q := fun (m : nmap U) x _ _ =>
     match m !! norm (cW c) key (adj (cW c) bits) with
        | None => x = None
        | Some _ => exists R, nav m (norm (cW c) key (adj (cW c) bits)) path R /\ shown (cW c) m R x
        end); [done|]|].
  - intros h' p m _ (t & Hw & Hr & Ha). pose proof (nabs_mok c t m Hw Ha) as Hm. destruct (nabs_part c t m Hw Ha) as [Hp Hu].
    apply wp_bind. eapply wp_mono; [apply wp_and; [eapply find_part; [exact Hc|exact Hw|exact Hm|exact Hk|exact Hr|exact Hp|exact Hu]|by eapply n_find_node_wp]|].
    cbn beta. intros n h2 W2 [[-> He] [_ Hn]]. rewrite (clamp_adj c) in Hn.
    pose proof (clamp_le c bits) as Hle. rewrite clamp_adj in Hle.
    pose proof (nabs_exact c t m key (adj (cW c) bits) Hw Hk Hle Ha) as E. unfold s_exact in E.
    destruct (f_exact c t key (adj (cW c) bits)) as [[[k1 b1] v1]|] eqn:Ef.
    + apply exact_spec in Ef as (Hin & Eb & Hag); [|done..]. simpl in Eb, Hag. subst b1.
      pose proof Hin as Hin'. apply (enum_wf c) in Hin' as [? ?]; [|done].
      apply (nabs_elem c t m _ _ _ Ha) in Hin.
      replace (norm (cW c) key (adj (cW c) bits)) with (norm (cW c) k1 (adj (cW c) bits)) in * by (by apply norm_agree).
      rewrite Hin. destruct n as [n|]; [|destruct Hn as (? & ? & ? & ? & _); done].
      destruct (He ltac:(done)) as (t' & Hr' & Hw' & Ht'). destruct t' as [|k2 b2 lf2 v2 l2 r2]; [done|]. destruct Ht' as [EL Hp'].
      apply wp_bind.
      eapply wp_mono; [eapply walk_wp; [exact Hw'|exact Hm|exact Hr'|exact Hp'|]|].
      { simpl. rewrite EL. apply covers_refl. }
      cbn beta. intros n' h2 W3 [-> (R & HR & He')].
      eapply wp_mono; [by eapply fields_wp|]. cbn beta. intros x h3 W4 [_ Hx]. exists R. split; [done|exact Hx].
    + destruct (m !! norm (cW c) key (adj (cW c) bits)) as [[? ?]|]; [done|]. simpl in Hn. subst n. destruct path; done.
  - cbn beta. intros res h' _ [? [_ ?]]. done.
Qed.
End proofs.
