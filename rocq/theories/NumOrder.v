(** * Radix trees: order of enumeration, and uniqueness of the shape. *)
From Verif Require Import Prog NumModel NumBits NumFun.
From Coq Require Import ZifyBool ZifyNat ZifyN Sorted.
Open Scope N_scope.

Section order.
Context {U : Type}.
Local Notation ntree := (ntree U).
Local Notation entry := (entry U).
Variable c : cfg.
Local Notation W := (cW c).

(** Order of entries: by masked key, then by prefix length. *)
Definition mkey (e : entry) : N := N.shiftl (N.shiftr e.1.1 (W - e.1.2)) (W - e.1.2).
Definition entry_lt (e1 e2 : entry) : Prop :=
  mkey e1 < mkey e2 \/ (mkey e1 = mkey e2 /\ e1.1.2 < e2.1.2).

Lemma shiftr_shiftl_le x n : N.shiftl (N.shiftr x n) n <= x.
Proof.
  rewrite N.shiftl_mul_pow2, N.shiftr_div_pow2.
  rewrite N.mul_comm. apply N.mul_div_le. apply N.pow_nonzero. done.
Qed.

Lemma shiftr_mono x y n : x <= y -> N.shiftr x n <= N.shiftr y n.
Proof. intros H. rewrite !N.shiftr_div_pow2. apply N.div_le_mono; [|done]. apply N.pow_nonzero. done. Qed.

Lemma shiftl_mono x y n : x <= y -> N.shiftl x n <= N.shiftl y n.
Proof. intros H. rewrite !N.shiftl_mul_pow2. apply N.mul_le_mono_r. done. Qed.

Lemma mkey_shiftr k b v b0 : b0 <= b -> b <= W ->
  N.shiftr (mkey (k, b, v)) (W - b0) = N.shiftr k (W - b0).
Proof.
  intros H1 H2. unfold mkey. simpl. apply N.bits_inj. intros i. rewrite !N.shiftr_spec'.
  rewrite N.shiftl_spec_high by lia. rewrite N.shiftr_spec'. f_equal. lia.
Qed.

(** The masked key of a prefix is at most that of any longer prefix it contains. *)
Lemma mkey_prefix_le k b v k1 b1 v1 : b <= b1 -> b1 <= W -> k < 2 ^ W -> k1 < 2 ^ W ->
  agree W b k k1 -> mkey (k, b, v) <= mkey (k1, b1, v1).
Proof.
  intros Hb Hb1 Hk Hk1 Ha. apply agree_shiftr in Ha; [|done..|lia].
  unfold mkey at 1. simpl. rewrite Ha.
  rewrite <- (mkey_shiftr k1 b1 v1 b) by lia. apply shiftr_shiftl_le.
Qed.

Lemma mkey_branch_lt k1 b1 v1 k2 b2 v2 b : b < b1 -> b1 <= W -> b < b2 -> b2 <= W ->
  k1 < 2 ^ W -> k2 < 2 ^ W -> agree W b k1 k2 -> bitat W k1 b = false -> bitat W k2 b = true ->
  mkey (k1, b1, v1) < mkey (k2, b2, v2).
Proof.
  intros. apply agree_shiftr in H5; [|done..|lia].
  assert (E : forall k, N.shiftr k (W - (b + 1)) = 2 * N.shiftr k (W - b) + N.b2n (bitat W k b)).
  { intros k. unfold bitat. replace (W - 1 - b) with (W - (b + 1)) by lia.
    replace (W - b) with (W - (b + 1) + 1) by lia. rewrite <- N.shiftr_shiftr.
    set (x := N.shiftr k (W - (b + 1))).
    replace (N.testbit k (W - (b + 1))) with (N.testbit x 0).
    - rewrite <- N.div2_spec, N.bit0_odd. apply N.div2_odd.
    - unfold x. rewrite N.shiftr_spec'. f_equal. }
  assert (L : N.shiftr (mkey (k1, b1, v1)) (W - (b + 1)) < N.shiftr (mkey (k2, b2, v2)) (W - (b + 1))).
  { rewrite !mkey_shiftr by lia. rewrite !E, H5, H6, H7. simpl. lia. }
  destruct (N.lt_ge_cases (mkey (k1, b1, v1)) (mkey (k2, b2, v2))) as [?|Hge]; [done|].
  apply (shiftr_mono _ _ (W - (b + 1))) in Hge. lia.
Qed.

Lemma StronglySorted_app' {A} (R : A -> A -> Prop) l1 l2 :
  StronglySorted R l1 -> StronglySorted R l2 ->
  (forall x y, x ∈ l1 -> y ∈ l2 -> R x y) -> StronglySorted R (l1 ++ l2).
Proof.
  intros H1 H2 H. induction H1 as [|x l1 Hs IH Hf]; [done|]. simpl. constructor.
  - apply IH. intros. apply H; [by apply elem_of_list_further|done].
  - apply Forall_app. split; [done|]. apply Forall_forall. intros y Hy. apply H; [apply elem_of_list_here|done].
Qed.

Lemma enum_sorted t : wf c t -> StronglySorted entry_lt (f_enum t).
Proof.
  induction t as [|k b lf v l IHl r IHr]; [constructor|].
  intros (Hk & Hb & Hl & Hr & Hwl & Hwr & Hf). cbn [f_enum].
  apply StronglySorted_app'.
  - destruct lf; repeat constructor.
  - apply StronglySorted_app'; [auto|auto|].
    intros [[k1 b1] v1] [[k2 b2] v2] H1 H2.
    destruct (enum_child c _ _ _ _ _ _ _ Hwl Hl H1) as (? & ? & ? & Ha1 & E1).
    destruct (enum_child c _ _ _ _ _ _ _ Hwr Hr H2) as (? & ? & ? & Ha2 & E2).
    left. eapply (mkey_branch_lt _ _ _ _ _ _ b); try done.
    eapply agree_trans; [apply agree_sym; exact Ha1|exact Ha2].
  - intros x [[k2 b2] v2] Hx Hin. destruct lf; [|by apply elem_of_nil in Hx].
    apply elem_of_list_singleton in Hx as ->.
    assert (H2 : b < b2 /\ b2 <= W /\ k2 < 2 ^ W /\ agree W b k k2).
    { apply elem_of_app in Hin as [Hin|Hin].
      - destruct (enum_child c _ _ _ _ _ _ _ Hwl Hl Hin) as (? & ? & ? & ? & _). done.
      - destruct (enum_child c _ _ _ _ _ _ _ Hwr Hr Hin) as (? & ? & ? & ? & _). done. }
    destruct H2 as (H2 & ? & ? & Ha).
    pose proof (mkey_prefix_le k b v k2 b2 v2 ltac:(lia) ltac:(done) ltac:(done) ltac:(done) Ha) as Hle.
    unfold entry_lt. simpl. lia.
Qed.

(** The shape is determined by the content. *)
Lemma root_bits_le (t1 t2 : ntree) : wf c t1 -> wf c t2 -> (forall e, e ∈ f_enum t1 <-> e ∈ f_enum t2) ->
  match t1, t2 with
  | NT _ b1 _ _ _ _, NT _ b2 _ _ _ _ => b2 <= b1
  | _, _ => True
  end.
Proof.
  intros H1 H2 Heq. pose proof (enum_under c t2 H2) as Hu2.
  destruct t1 as [|k1 b1 lf1 v1 l1 r1]; [done|].
  destruct t2 as [|k2 b2 lf2 v2 l2 r2]; [done|].
  destruct (N.le_gt_cases b2 b1) as [?|Hlt]; [done|exfalso].
  destruct H1 as (Hk & Hb & Hl & Hr & Hwl & Hwr & Hf).
  destruct lf1.
  - assert (Hin : (k1, b1, v1) ∈ f_enum (NT k2 b2 lf2 v2 l2 r2))
      by (apply Heq; cbn [f_enum]; apply elem_of_list_here).
    apply Hu2 in Hin. lia.
  - destruct (Hf eq_refl) as (Hl1 & Hr1 & _).
    destruct (wf_nonempty c l1 Hwl Hl1) as ([[kl bl] vl] & Hinl).
    destruct (wf_nonempty c r1 Hwr Hr1) as ([[kr br] vr] & Hinr).
    destruct (enum_child c _ _ _ _ _ _ _ Hwl Hl Hinl) as (? & ? & ? & _ & El).
    destruct (enum_child c _ _ _ _ _ _ _ Hwr Hr Hinr) as (? & ? & ? & _ & Er).
    assert (HA : (kl, bl, vl) ∈ f_enum (NT k2 b2 lf2 v2 l2 r2)).
    { apply Heq. cbn [f_enum]. rewrite !elem_of_app. auto. }
    assert (HB : (kr, br, vr) ∈ f_enum (NT k2 b2 lf2 v2 l2 r2)).
    { apply Heq. cbn [f_enum]. rewrite !elem_of_app. auto. }
    apply Hu2 in HA as (_ & _ & _ & A1), HB as (_ & _ & _ & A2).
    specialize (A1 b1 Hlt). specialize (A2 b1 Hlt). congruence.
Qed.

Lemma shape_unique (t1 t2 : ntree) : wf c t1 -> wf c t2 ->
  (forall e, e ∈ f_enum t1 <-> e ∈ f_enum t2) -> t1 = t2.
Proof.
  revert t2. induction t1 as [|k1 b1 lf1 v1 l1 IHl r1 IHr]; intros t2 H1 H2 Heq.
  - destruct t2 as [|k2 b2 lf2 v2 l2 r2]; [done|].
    destruct (wf_nonempty c _ H2) as (e & He); [done|]. apply Heq in He. by apply elem_of_nil in He.
  - destruct t2 as [|k2 b2 lf2 v2 l2 r2].
    { destruct (wf_nonempty c _ H1) as (e & He); [done|]. apply Heq in He. by apply elem_of_nil in He. }
    pose proof (root_bits_le _ _ H1 H2 Heq) as Hle1.
    pose proof (root_bits_le _ _ H2 H1 (fun e => iff_sym (Heq e))) as Hle2. simpl in Hle1, Hle2.
    assert (b2 = b1) by lia. subst b2. clear Hle1 Hle2.
    pose proof H1 as (Hk1 & Hb1 & Hl1 & Hr1 & Hwl1 & Hwr1 & Hf1).
    pose proof H2 as (Hk2 & Hb2 & Hl2 & Hr2 & Hwl2 & Hwr2 & Hf2).
    assert (Hroot : forall k lf (v : value U) l r k' v', wf c (NT k b1 lf v l r) -> (k', b1, v') ∈ f_enum (NT k b1 lf v l r) ->
       lf = true /\ k' = k /\ v' = v).
    { intros k lf v l r k' v' (? & ? & Hl & Hr & Hwl & Hwr & Hf) Hin.
      cbn [f_enum] in Hin. rewrite !elem_of_app in Hin. destruct Hin as [Hin|[Hin|Hin]].
      - destruct lf; [|by apply elem_of_nil in Hin]. by apply elem_of_list_singleton in Hin as [= -> ->].
      - destruct (enum_child c _ _ _ _ _ _ _ Hwl Hl Hin). lia.
      - destruct (enum_child c _ _ _ _ _ _ _ Hwr Hr Hin). lia. }
    assert (Hkv : lf1 = lf2 /\ k1 = k2 /\ v1 = v2).
    { destruct lf1.
      - assert (Hin : (k1, b1, v1) ∈ f_enum (NT k2 b1 lf2 v2 l2 r2)) by (apply Heq; apply elem_of_list_here).
        apply Hroot in Hin as (-> & -> & ->); done.
      - destruct lf2.
        + assert (Hin : (k2, b1, v2) ∈ f_enum (NT k1 b1 false v1 l1 r1)) by (apply Heq; apply elem_of_list_here).
          apply Hroot in Hin as (? & _); done.
        + destruct (Hf1 eq_refl) as (_ & _ & -> & E1), (Hf2 eq_refl) as (_ & _ & -> & E2).
          split_and!; [done| |done].
          destruct (wf_nonempty c _ H1) as ([[k b] v] & He); [done|].
          pose proof He as He'. apply Heq in He'.
          apply (enum_under c _ H1) in He as (_ & _ & _ & A1).
          apply (enum_under c _ H2) in He' as (_ & _ & _ & A2).
          apply (bitat_inj W); [done..|]. intros i Hi.
          rewrite <- E1, <- E2. rewrite !land_mask_bit by lia. destruct (i <? b1) eqn:Ei; [|done].
          rewrite (A1 i), (A2 i) by lia. done. }
    destruct Hkv as (<- & <- & <-).
    assert (Hsplit : forall (l r : ntree) e, wf c (NT k1 b1 lf1 v1 l r) ->
       ((e ∈ f_enum l <-> e ∈ f_enum (NT k1 b1 lf1 v1 l r) /\ b1 < e.1.2 /\ bitat W e.1.1 b1 = false) /\
        (e ∈ f_enum r <-> e ∈ f_enum (NT k1 b1 lf1 v1 l r) /\ b1 < e.1.2 /\ bitat W e.1.1 b1 = true))).
    { intros l r [[k b] v] (? & ? & Hl & Hr & Hwl & Hwr & Hf).
      assert (Hs : (k, b, v) ∈ (if lf1 then [(k1, b1, v1)] else []) -> b = b1).
      { destruct lf1; [|by intros ?%elem_of_nil]. by intros [= -> -> ->]%elem_of_list_singleton. }
      pose proof (enum_child c l k1 b1 false k b v Hwl Hl) as Pl.
      pose proof (enum_child c r k1 b1 true k b v Hwr Hr) as Pr.
      cbn [f_enum]. rewrite !elem_of_app. simpl. split; split.
      - intros Hin. destruct (Pl Hin) as (? & ? & ? & ? & ?). auto.
      - intros ([Hin|[Hin|Hin]] & ? & ?); [apply Hs in Hin; lia|done|].
        destruct (Pr Hin) as (? & ? & ? & ? & ?). congruence.
      - intros Hin. destruct (Pr Hin) as (? & ? & ? & ? & ?). auto.
      - intros ([Hin|[Hin|Hin]] & ? & ?); [apply Hs in Hin; lia| |done].
        destruct (Pl Hin) as (? & ? & ? & ? & ?). congruence. }
    f_equal.
    + apply IHl; [done|done|]. intros e. rewrite (proj1 (Hsplit l1 r1 e H1)), (proj1 (Hsplit l2 r2 e H2)), Heq. done.
    + apply IHr; [done|done|]. intros e. rewrite (proj2 (Hsplit l1 r1 e H1)), (proj2 (Hsplit l2 r2 e H2)), Heq. done.
Qed.
End order.
