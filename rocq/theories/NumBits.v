(** * Bit-level facts used by the radix tree. *)
From Verif Require Import Prog NumModel.
From Coq Require Import ZifyBool ZifyNat ZifyN.
Open Scope N_scope.

(** Bit number [i] of a [W]-bit key counted from the most significant one. *)
Definition bitat (W k i : N) : bool := N.testbit k (W - 1 - i).
(** [k1] and [k2] have the same first [b] bits. *)
Definition agree (W b k1 k2 : N) : Prop := forall i, i < b -> bitat W k1 i = bitat W k2 i.

Definition pmask (W b : N) : N := N.shiftl (N.ones b) (W - b).

Record cfg_ok (c : cfg) : Prop := {
  cfg_pos : 1 <= cW c;
  cfg_le : cW c <= 255;
  cfg_masks : forall b, b <= cW c -> nth_error (cmasks c) (N.to_nat b) = Some (pmask (cW c) b) }.

Lemma masks_check (W : nat) (l : list N) :
  forallb (fun b => match nth_error l b with
                    | Some m => m =? pmask (N.of_nat W) (N.of_nat b)
                    | None => false end) (seq 0 (S W)) = true ->
  forall b, b <= N.of_nat W -> nth_error l (N.to_nat b) = Some (pmask (N.of_nat W) b).
Proof.
  intros H b Hb. rewrite forallb_forall in H. specialize (H (N.to_nat b)).
  rewrite N2Nat.id in H. destruct (nth_error l (N.to_nat b)) as [m|].
  - f_equal. apply N.eqb_eq. apply H. apply in_seq. lia.
  - assert (false = true); [apply H; apply in_seq; lia|done].
Qed.

Lemma c32_ok : cfg_ok c32.
Proof.
  split; [done|done|]. simpl cW. apply (masks_check 32). vm_compute. done.
Qed.
Lemma c64_ok : cfg_ok c64.
Proof.
  split; [done|done|]. simpl cW. apply (masks_check 64). vm_compute. done.
Qed.

Lemma testbit_high k W i : k < 2 ^ W -> W <= i -> N.testbit k i = false.
Proof.
  intros Hk Hi. rewrite N.testbit_eqb. apply N.eqb_neq.
  rewrite N.div_small; [done|]. eapply N.lt_le_trans; [exact Hk|].
  apply N.pow_le_mono_r; lia.
Qed.

Lemma pmask_spec W b i : b <= W -> N.testbit (pmask W b) i = (W - b <=? i) && (i <? W).
Proof.
  intros Hb. unfold pmask. destruct (N.leb_spec (W - b) i) as [H|H].
  - rewrite N.shiftl_spec_high by lia. simpl.
    destruct (N.ltb_spec i W).
    + rewrite N.ones_spec_low by lia. lia.
    + rewrite N.ones_spec_high by lia. lia.
  - rewrite N.shiftl_spec_low by lia. done.
Qed.

Lemma bnot_spec c x i : N.testbit (bnot c x) i = xorb (N.testbit x i) (i <? cW c).
Proof.
  unfold bnot. rewrite N.lxor_spec. f_equal.
  destruct (N.ltb_spec i (cW c)).
  - by rewrite N.ones_spec_low.
  - by rewrite N.ones_spec_high.
Qed.

Lemma agree_refl W b k : agree W b k k.
Proof. by intros i ?. Qed.
Lemma agree_sym W b k1 k2 : agree W b k1 k2 -> agree W b k2 k1.
Proof. intros H i Hi. by rewrite H. Qed.
Lemma agree_trans W b k1 k2 k3 : agree W b k1 k2 -> agree W b k2 k3 -> agree W b k1 k3.
Proof. intros H1 H2 i Hi. by rewrite H1, H2. Qed.
Lemma agree_le W b b' k1 k2 : b' <= b -> agree W b k1 k2 -> agree W b' k1 k2.
Proof. intros Hb H i Hi. apply H. lia. Qed.
Lemma agree_0 W k1 k2 : agree W 0 k1 k2.
Proof. intros i Hi. lia. Qed.

Lemma bitat_inj W k1 k2 : k1 < 2 ^ W -> k2 < 2 ^ W -> agree W W k1 k2 -> k1 = k2.
Proof.
  intros H1 H2 H. apply N.bits_inj. intros i.
  destruct (N.lt_ge_cases i W) as [Hi|Hi].
  - specialize (H (W - 1 - i)). unfold bitat in H.
    replace (W - 1 - (W - 1 - i)) with i in H by lia. apply H. lia.
  - by rewrite (testbit_high k1 W), (testbit_high k2 W).
Qed.

Lemma agree_shiftr W b k1 k2 : k1 < 2 ^ W -> k2 < 2 ^ W -> b <= W ->
  agree W b k1 k2 <-> N.shiftr k1 (W - b) = N.shiftr k2 (W - b).
Proof.
  intros H1 H2 Hb. split.
  - intros H. apply N.bits_inj. intros i. rewrite !N.shiftr_spec'.
    destruct (N.lt_ge_cases i b) as [Hi|Hi].
    + specialize (H (b - 1 - i)). unfold bitat in H.
      replace (W - 1 - (b - 1 - i)) with (i + (W - b)) in H by lia. apply H. lia.
    + rewrite (testbit_high k1 W), (testbit_high k2 W); [done|done|lia|done|lia].
  - intros H i Hi. unfold bitat.
    assert (E : forall k, N.testbit k (W - 1 - i) = N.testbit (N.shiftr k (W - b)) (b - 1 - i)).
    { intros k. rewrite N.shiftr_spec'. f_equal. lia. }
    by rewrite !E, H.
Qed.

Lemma same_masked_spec W k1 k2 b : k1 < 2 ^ W -> k2 < 2 ^ W -> b <= W ->
  reflect (agree W b k1 k2) (N.land (N.lxor k1 k2) (pmask W b) =? 0).
Proof.
  intros H1 H2 Hb. apply iff_reflect. rewrite N.eqb_eq. split.
  - intros H. apply N.bits_inj. intros i. rewrite N.land_spec, N.lxor_spec, N.bits_0, pmask_spec by done.
    destruct ((W - b <=? i) && (i <? W)) eqn:E; [|by rewrite andb_false_r].
    rewrite andb_true_r. specialize (H (W - 1 - i)). unfold bitat in H.
    replace (W - 1 - (W - 1 - i)) with i in H by lia. rewrite H by lia. by rewrite xorb_nilpotent.
  - intros H i Hi. unfold bitat.
    assert (E : N.testbit (N.land (N.lxor k1 k2) (pmask W b)) (W - 1 - i) = false)
      by (rewrite H; apply N.bits_0).
    rewrite N.land_spec, N.lxor_spec, pmask_spec in E by done.
    replace ((W - b <=? W - 1 - i) && (W - 1 - i <? W)) with true in E by lia.
    rewrite andb_true_r in E. by apply Bool.xorb_eq.
Qed.

(** Number of common significant bits, as computed by insert. *)
Definition pcsb (c : cfg) (k1 b1 k2 b2 : N) : N :=
  lzeros c (N.lor (N.lor (N.lxor k1 k2) (bnot c (pmask (cW c) b1))) (bnot c (pmask (cW c) b2))).

Lemma size_spec x : (forall i, N.size x <= i -> N.testbit x i = false) /\
  (0 < N.size x -> N.testbit x (N.size x - 1) = true).
Proof.
  destruct (N.eq_dec x 0) as [->|Hx].
  - split; [intros; apply N.bits_0|simpl; lia].
  - pose proof (N.size_log2 x Hx) as Hs. split.
    + intros i Hi. apply N.bits_above_log2. lia.
    + intros _. rewrite Hs. replace (N.succ (N.log2 x) - 1) with (N.log2 x) by lia.
      by apply N.bit_log2.
Qed.

Lemma pcsb_spec c k1 b1 k2 b2 :
  let W := cW c in
  k1 < 2 ^ W -> k2 < 2 ^ W -> b1 <= W -> b2 <= W ->
  let r := pcsb c k1 b1 k2 b2 in
  r <= b1 /\ r <= b2 /\ agree W r k1 k2 /\
  (r < b1 -> r < b2 -> bitat W k1 r <> bitat W k2 r).
Proof.
  intros W H1 H2 Hb1 Hb2 r. unfold pcsb, lzeros in r.
  set (x := N.lor _ _) in r. fold W in r.
  destruct (size_spec x) as [Hz Ho].
  assert (Hbit : forall i, N.testbit x i =
     (xorb (N.testbit k1 i) (N.testbit k2 i)
      || xorb ((W - b1 <=? i) && (i <? W)) (i <? W)
      || xorb ((W - b2 <=? i) && (i <? W)) (i <? W))).
  { intros i. unfold x. rewrite !N.lor_spec, N.lxor_spec, !bnot_spec, !pmask_spec by done. done. }
  assert (Hs : N.size x <= W).
  { destruct (N.le_gt_cases (N.size x) W) as [?|Hgt]; [done|exfalso].
    assert (Ho' := Ho ltac:(lia)). rewrite Hbit in Ho'.
    rewrite (testbit_high k1 W), (testbit_high k2 W) in Ho' by (done || lia).
    simpl in Ho'. lia. }
  assert (Hlow : forall i, i < r -> i < b1 /\ i < b2 /\ bitat W k1 i = bitat W k2 i).
  { intros i Hi. assert (Hz' := Hz (W - 1 - i) ltac:(lia)). rewrite Hbit in Hz'.
    apply orb_false_iff in Hz' as [[Ha Hb]%orb_false_iff Hc].
    apply Bool.xorb_eq in Ha, Hb, Hc. unfold bitat. split_and!; [lia|lia|done]. }
  split_and!.
  - destruct (N.le_gt_cases r b1) as [?|Hgt]; [done|].
    destruct (Hlow b1 Hgt) as (? & _). lia.
  - destruct (N.le_gt_cases r b2) as [?|Hgt]; [done|].
    destruct (Hlow b2 Hgt) as (_ & ? & _). lia.
  - intros i Hi. by apply Hlow.
  - intros Hr1 Hr2. assert (Ho' := Ho ltac:(lia)). rewrite Hbit in Ho'.
    unfold bitat. replace (W - 1 - r) with (N.size x - 1) by lia.
    replace (xorb ((W - b1 <=? N.size x - 1) && (N.size x - 1 <? W)) (N.size x - 1 <? W)) with false in Ho' by lia.
    replace (xorb ((W - b2 <=? N.size x - 1) && (N.size x - 1 <? W)) (N.size x - 1 <? W)) with false in Ho' by lia.
    rewrite !orb_false_r in Ho'. intros E. rewrite E, xorb_nilpotent in Ho'. done.
Qed.

Lemma bbit_spec c k b : cfg_ok c -> b < cW c ->
  bbit c k b = if bitat (cW c) k b then 1 else 0.
Proof.
  intros [? ? _] Hb. unfold bbit, shamt, bitat.
  rewrite (N.mod_small b) by lia.
  replace (cW c - 1 + 256 - b) with ((cW c - 1 - b) + 1 * 256) by lia.
  rewrite N.mod_add by done. rewrite N.mod_small by lia.
  apply N.bits_inj. intros i. rewrite N.land_spec, N.shiftr_spec'.
  destruct (N.eq_dec i 0) as [->|Hi].
  - change (N.testbit 1 0) with true. rewrite andb_true_r, N.add_0_l. by destruct (N.testbit k _).
  - replace (N.testbit 1 i) with false.
    2:{ symmetry. apply (testbit_high 1 1); [done|lia]. }
    rewrite andb_false_r. destruct (N.testbit k _); [|by rewrite N.bits_0].
    symmetry. apply (testbit_high 1 1); [done|lia].
Qed.

Lemma land_mask_bit W k b i : b <= W -> i < W ->
  bitat W (N.land k (pmask W b)) i = if i <? b then bitat W k i else false.
Proof.
  intros Hb Hi. unfold bitat. rewrite N.land_spec, pmask_spec by done.
  destruct (i <? b) eqn:E.
  - replace ((W - b <=? W - 1 - i) && (W - 1 - i <? W)) with true by lia. apply andb_true_r.
  - replace ((W - b <=? W - 1 - i) && (W - 1 - i <? W)) with false by lia. apply andb_false_r.
Qed.

Lemma land_mask_lt W k b : k < 2 ^ W -> N.land k (pmask W b) < 2 ^ W.
Proof.
  intros Hk. destruct (N.eq_dec (N.land k (pmask W b)) 0) as [->|Hne]; [lia|].
  apply N.log2_lt_pow2; [lia|].
  assert (Hk0 : k <> 0) by (intros ->; by rewrite N.land_0_l in Hne).
  eapply N.le_lt_trans; [apply N.log2_land|].
  eapply N.le_lt_trans; [apply N.le_min_l|]. apply N.log2_lt_pow2; lia.
Qed.

Lemma land_mask_agree W k b : b <= W -> agree W b (N.land k (pmask W b)) k.
Proof.
  intros Hb i Hi. rewrite land_mask_bit by lia. by replace (i <? b) with true by lia.
Qed.

Lemma clamp_le c bits : clamp c bits <= cW c.
Proof. unfold clamp. destruct (Z.ltb_spec bits 0), (Z.ltb_spec (Z.of_N (cW c)) bits); lia. Qed.
