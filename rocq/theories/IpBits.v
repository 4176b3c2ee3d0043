(** * Addresses, masks and keys of iptree. *)
From Verif Require Import Prog NumModel NumBits NumSpec IpModel IpSpec.
From Coq Require Import ZifyBool ZifyNat ZifyN.
Open Scope N_scope.

(** ** Big-endian numbers. *)
Lemma b2n_lt b : b2n b < 256.
Proof. by destruct b. Qed.
Lemma n2b_b2n x : b2n (n2b x) = x mod 256.
Proof.
  unfold n2b, b2n. destruct (Byte.of_N (x mod 256)) as [b|] eqn:E; [by apply Byte.to_of_N in E|].
  apply Byte.of_N_None_iff in E. pose proof (N.mod_lt x 256). lia.
Qed.
Lemma b2n_inj a b : b2n a = b2n b -> a = b.
Proof. unfold b2n. intros H. apply (f_equal Byte.of_N) in H. rewrite !Byte.of_to_N in H. congruence. Qed.
Lemma be_acc x : forall a, fold_left (fun a b => a * 256 + Byte.to_N b) x a = a * 256 ^ nlen x + be x.
Proof.
  unfold be, nlen. induction x as [|b x IH]; intros a; [simpl; lia|]. cbn [fold_left length].
  rewrite IH. rewrite (IH (0 * 256 + Byte.to_N b)). rewrite Nat2N.inj_succ, N.pow_succ_r by lia. lia.
Qed.
Lemma be_cons b x : be (b :: x) = b2n b * 256 ^ nlen x + be x.
Proof. unfold be at 1. cbn [fold_left]. rewrite be_acc. unfold b2n. lia. Qed.
Lemma nlen_cons b x : nlen (b :: x) = nlen x + 1.
Proof. unfold nlen. simpl length. lia. Qed.
Lemma nlen_app x y : nlen (x ++ y) = nlen x + nlen y.
Proof. unfold nlen. rewrite app_length. lia. Qed.
Lemma be_lt x : be x < 256 ^ nlen x.
Proof.
  induction x as [|b x IH]; [done|]. rewrite be_cons, nlen_cons. rewrite N.add_1_r, N.pow_succ_r by lia.
  pose proof (b2n_lt b). nia.
Qed.
Lemma be_app x y : be (x ++ y) = be x * 256 ^ nlen y + be y.
Proof.
  induction x as [|b x IH]; [simpl; lia|]. rewrite <- app_comm_cons, !be_cons, IH, nlen_app, N.pow_add_r. lia.
Qed.
Lemma be_inj x : forall y, length x = length y -> be x = be y -> x = y.
Proof.
  induction x as [|b x IH]; intros [|b' y]; try done. intros [= Hl]. rewrite !be_cons.
  assert (nlen x = nlen y) as -> by (unfold nlen; lia). intros E. pose proof (be_lt x). pose proof (be_lt y).
  assert (nlen x = nlen y) as Hn by (unfold nlen; lia). rewrite Hn in *.
  destruct (N.div_mod_unique (256 ^ nlen y) (b2n b) (b2n b') (be x) (be y)) as [?%b2n_inj ?]; [done|done|lia|]. subst. f_equal. by apply IH.
Qed.
Lemma pow256 n : 256 ^ n = 2 ^ (8 * n).
Proof. rewrite N.pow_mul_r. done. Qed.

(** ** pack and unpack. *)
Lemma lor_shiftl a b n : b < 2 ^ n -> N.lor (N.shiftl a n) b = a * 2 ^ n + b.
Proof.
  intros Hb. rewrite <- N.lxor_lor, <- N.add_nocarry_lxor.
  - by rewrite N.shiftl_mul_pow2.
  - apply N.bits_inj. intros i. rewrite N.land_spec, N.bits_0. destruct (N.lt_ge_cases i n).
    + by rewrite N.shiftl_spec_low.
    + by rewrite (testbit_high b n i), andb_false_r.
  - apply N.bits_inj. intros i. rewrite N.land_spec, N.bits_0. destruct (N.lt_ge_cases i n).
    + by rewrite N.shiftl_spec_low.
    + by rewrite (testbit_high b n i), andb_false_r.
Qed.
Lemma lor_step a b n m : n = m + 8 -> N.lor (N.shiftl a n) (N.shiftl (b2n b) m) = N.shiftl (a * 256 + b2n b) m.
Proof.
  intros ->. replace (N.shiftl a (m + 8)) with (N.shiftl (N.shiftl a 8) m) by (rewrite N.shiftl_shiftl; f_equal; lia).
  rewrite <- N.shiftl_lor, lor_shiftl; [done|apply b2n_lt].
Qed.
Lemma lor_last a b : N.lor (N.shiftl a 8) (b2n b) = a * 256 + b2n b.
Proof. apply lor_shiftl, b2n_lt. Qed.
Lemma pack32_be x : length x = 4%nat -> pack32 x = be x.
Proof.
  destruct x as [|a [|b [|c [|d [|]]]]]; intros [=]. unfold pack32, ix. cbn [nth_error].
  rewrite !lor_step by done. rewrite lor_last. unfold be. cbn [fold_left]. fold (b2n a) (b2n b) (b2n c) (b2n d). lia.
Qed.
Lemma pack64_be x y : length x = 8%nat -> pack64 (x ++ y) = be x.
Proof.
  destruct x as [|a [|b [|c [|d [|e [|f [|g [|i [|]]]]]]]]]; intros [=]. unfold pack64, ix. cbn [nth_error Datatypes.app].
  rewrite !lor_step by done. rewrite lor_last. unfold be. cbn [fold_left]. fold (b2n a) (b2n b) (b2n c) (b2n d) (b2n e) (b2n f) (b2n g) (b2n i). lia.
Qed.
Lemma byte_of x n : b2n (n2b (N.land (N.shiftr x n) 255)) = (x / 2 ^ n) mod 256.
Proof.
  rewrite n2b_b2n. change 255 with (N.ones 8). rewrite N.land_ones, N.shiftr_div_pow2. change (2 ^ 8) with 256.
  apply N.mod_small, N.mod_lt. done.
Qed.
Lemma byte_of0 x : b2n (n2b (N.land x 255)) = x mod 256.
Proof. rewrite <- (N.shiftr_0_r x) at 1. rewrite byte_of. change (2 ^ 0) with 1. by rewrite N.div_1_r. Qed.
Lemma be_unpack32 k : k < 2 ^ 32 -> be (unpack32 k) = k.
Proof.
  intros Hk. unfold unpack32. rewrite !be_cons. rewrite !byte_of, byte_of0. unfold nlen, be. simpl length. cbn [fold_left].
  change (2 ^ 32) with 4294967296 in Hk. change (256 ^ N.of_nat 3) with 16777216. change (256 ^ N.of_nat 2) with 65536. change (256 ^ N.of_nat 1) with 256. change (256 ^ N.of_nat 0) with 1.
  change (2 ^ 24) with 16777216. change (2 ^ 16) with 65536. change (2 ^ 8) with 256. zify. Z.to_euclidean_division_equations. lia.
Qed.
Lemma be_unpack64 k : k < 2 ^ 64 -> be (unpack64 k) = k.
Proof.
  intros Hk. unfold unpack64. rewrite !be_cons. rewrite !byte_of, byte_of0. unfold nlen, be. simpl length. cbn [fold_left].
  assert (Hs : forall n, k / 2 ^ n = 256 * (k / 2 ^ (n + 8)) + (k / 2 ^ n) mod 256).
  { intros n. rewrite N.pow_add_r. change (2 ^ 8) with 256. rewrite <- N.div_div by (done || apply N.pow_nonzero; done). by apply N.div_mod. }
  pose proof (Hs 0) as H0. pose proof (Hs 8) as H1. pose proof (Hs 16) as H2. pose proof (Hs 24) as H3. pose proof (Hs 32) as H4. pose proof (Hs 40) as H5. pose proof (Hs 48) as H6. pose proof (Hs 56) as H7.
  assert (H8 : k / 2 ^ (56 + 8) = 0) by (by apply N.div_small).
  rewrite H8 in H7. change (2 ^ 0) with 1 in H0. rewrite N.div_1_r in H0.
  change (0 + 8) with 8 in H0. change (8 + 8) with 16 in H1. change (16 + 8) with 24 in H2. change (24 + 8) with 32 in H3.
  change (32 + 8) with 40 in H4. change (40 + 8) with 48 in H5. change (48 + 8) with 56 in H6.
  set (k mod 256) in *. set (k / 2 ^ 8) in *. set (k / 2 ^ 16) in *. set (k / 2 ^ 24) in *. set (k / 2 ^ 32) in *. set (k / 2 ^ 40) in *. set (k / 2 ^ 48) in *. set (k / 2 ^ 56) in *.
  change (256 ^ N.of_nat 7) with 72057594037927936. change (256 ^ N.of_nat 6) with 281474976710656. change (256 ^ N.of_nat 5) with 1099511627776. change (256 ^ N.of_nat 4) with 4294967296.
  change (256 ^ N.of_nat 3) with 16777216. change (256 ^ N.of_nat 2) with 65536. change (256 ^ N.of_nat 1) with 256. change (256 ^ N.of_nat 0) with 1.
  clearbody n n0 n1 n2 n3 n4 n5 n6. lia.
Qed.
Lemma unpack64_len k : length (unpack64 k) = 8%nat.
Proof. done. Qed.

(** ** Masks. *)
Lemma is_mask_nil n : is_mask [] n <-> n = 0.
Proof. unfold is_mask, nlen, be. simpl. split; [intros [? _]; lia|]. intros ->. done. Qed.
Lemma be_zeros x : be x = 0 <-> Forall (fun b => b = x00) x.
Proof.
  induction x as [|b x IH]; [split; [constructor|done]|]. rewrite be_cons, Forall_cons, <- IH.
  assert (0 < 256 ^ nlen x) by (apply N.neq_0_lt_0, N.pow_nonzero; done). split.
  - intros E. assert (b2n b = 0) by nia. split; [by apply b2n_inj|nia].
  - intros [-> ->]. done.
Qed.
Lemma is_mask_cons v m n : is_mask (v :: m) n <->
  (v = xff /\ 8 <= n /\ is_mask m (n - 8)) \/ (n < 8 /\ b2n v = 256 - 2 ^ (8 - n) /\ Forall (fun b => b = x00) m).
Proof.
  unfold is_mask. rewrite be_cons, nlen_cons, pow256. set (L := nlen m). pose proof (be_lt m) as Hm. rewrite pow256 in Hm. fold L in Hm.
  pose proof (b2n_lt v) as Hv. split.
  - intros [Hn E]. destruct (N.le_gt_cases 8 n) as [Hg|Hg].
    + left. assert (E2 : (2 ^ n - 1) * 2 ^ (8 * (L + 1) - n) = 2 ^ (8 * L) * 255 + (2 ^ (n - 8) - 1) * 2 ^ (8 * L - (n - 8))).
      { replace (8 * (L + 1) - n) with (8 * L - (n - 8)) by lia. replace (2 ^ (8 * L)) with (2 ^ (n - 8) * 2 ^ (8 * L - (n - 8))) by (rewrite <- N.pow_add_r; f_equal; lia).
        replace (2 ^ n) with (2 ^ (n - 8) * 256) by (change 256 with (2 ^ 8); rewrite <- N.pow_add_r; f_equal; lia).
        assert (0 < 2 ^ (n - 8)) by (apply N.neq_0_lt_0, N.pow_nonzero; done). nia. }
      assert (Hlt : (2 ^ (n - 8) - 1) * 2 ^ (8 * L - (n - 8)) < 2 ^ (8 * L)).
      { replace (2 ^ (8 * L)) with (2 ^ (n - 8) * 2 ^ (8 * L - (n - 8))) by (rewrite <- N.pow_add_r; f_equal; lia).
        assert (0 < 2 ^ (n - 8)) by (apply N.neq_0_lt_0, N.pow_nonzero; done). assert (0 < 2 ^ (8 * L - (n - 8))) by (apply N.neq_0_lt_0, N.pow_nonzero; done). nia. }
      destruct (N.div_mod_unique (2 ^ (8 * L)) (b2n v) 255 (be m) ((2 ^ (n - 8) - 1) * 2 ^ (8 * L - (n - 8)))) as [E3 E4]; [done|done|lia|].
      split_and!; [by apply b2n_inj|done|lia|done].
    + right. assert (E2 : (2 ^ n - 1) * 2 ^ (8 * (L + 1) - n) = 2 ^ (8 * L) * (256 - 2 ^ (8 - n)) + 0).
      { replace (8 * (L + 1) - n) with ((8 - n) + 8 * L) by lia. rewrite N.pow_add_r.
        replace 256 with (2 ^ n * 2 ^ (8 - n)) by (change 256 with (2 ^ 8); rewrite <- N.pow_add_r; f_equal; lia).
        assert (0 < 2 ^ n) by (apply N.neq_0_lt_0, N.pow_nonzero; done). nia. }
      destruct (N.div_mod_unique (2 ^ (8 * L)) (b2n v) (256 - 2 ^ (8 - n)) (be m) 0) as [E3 E4]; [done|apply N.neq_0_lt_0, N.pow_nonzero; done|lia|].
      split_and!; [done|done|by apply be_zeros].
  - intros [(-> & Hg & Hn & E)|(Hg & Ev & Hz)].
    + split; [lia|]. rewrite E. change (b2n xff) with 255.
      replace (8 * (L + 1) - n) with (8 * L - (n - 8)) by lia. replace (2 ^ (8 * L)) with (2 ^ (n - 8) * 2 ^ (8 * L - (n - 8))) by (rewrite <- N.pow_add_r; f_equal; lia).
      replace (2 ^ n) with (2 ^ (n - 8) * 256) by (change 256 with (2 ^ 8); rewrite <- N.pow_add_r; f_equal; lia).
      assert (0 < 2 ^ (n - 8)) by (apply N.neq_0_lt_0, N.pow_nonzero; done). nia.
    + split; [lia|]. apply be_zeros in Hz. rewrite Hz, Ev.
      replace (8 * (L + 1) - n) with ((8 - n) + 8 * L) by lia. rewrite N.pow_add_r.
      replace 256 with (2 ^ n * 2 ^ (8 - n)) by (change 256 with (2 ^ 8); rewrite <- N.pow_add_r; f_equal; lia).
      assert (0 < 2 ^ n) by (apply N.neq_0_lt_0, N.pow_nonzero; done). nia.
Qed.
Lemma is_mask_fun m n n' : is_mask m n -> is_mask m n' -> n = n'.
Proof.
  intros [H1 E1] [H2 E2]. rewrite E1 in E2. set (L := 8 * nlen m) in *.
  assert (Hx : forall n, n <= L -> (2 ^ n - 1) * 2 ^ (L - n) = 2 ^ L - 2 ^ (L - n)).
  { intros k Hk. rewrite N.mul_sub_distr_r, <- N.pow_add_r. replace (k + (L - k)) with L by lia. lia. }
  rewrite !Hx in E2 by done.
  assert (2 ^ (L - n) <= 2 ^ L) by (apply N.pow_le_mono_r; lia). assert (2 ^ (L - n') <= 2 ^ L) by (apply N.pow_le_mono_r; lia).
  assert (E : 2 ^ (L - n) = 2 ^ (L - n')) by lia. apply N.pow_inj_r in E; lia.
Qed.
Lemma count_ones_check : forallb (fun v => byte_eqb v xff || let '(k, r) := count_ones 8 (b2n v) in
  if r =? 0 then (k <? 8) && (b2n v =? 256 - 2 ^ (8 - k)) else forallb (fun n => negb (b2n v =? 256 - 2 ^ (8 - N.of_nat n))) (seq 0 8))
  (map (fun n => n2b (N.of_nat n)) (seq 0 256)) = true.
Proof. vm_compute. done. Qed.
Lemma byte_eqb_spec a b : reflect (a = b) (byte_eqb a b).
Proof. unfold byte_eqb. destruct (Byte.eqb a b) eqn:E; constructor; [by apply Byte.byte_dec_bl|]. intros ->. by rewrite Byte.byte_dec_lb in E. Qed.
Lemma count_ones_spec v : v <> xff -> let '(k, r) := count_ones 8 (b2n v) in
  if r =? 0 then k < 8 /\ b2n v = 256 - 2 ^ (8 - k) else forall n, n < 8 -> b2n v <> 256 - 2 ^ (8 - n).
Proof.
  intros Hv. pose proof count_ones_check as H. rewrite forallb_forall in H. specialize (H v).
  destruct (count_ones 8 (b2n v)) as [k r]. destruct (byte_eqb_spec v xff) as [|_]; [done|]. cbn [orb] in H.
  assert (Hin : In v (map (fun n => n2b (N.of_nat n)) (seq 0 256))).
  { apply in_map_iff. exists (N.to_nat (b2n v)). pose proof (b2n_lt v). split; [|apply in_seq; lia].
    apply b2n_inj. rewrite n2b_b2n, N2Nat.id. by apply N.mod_small. }
  specialize (H Hin). destruct (r =? 0).
  - apply andb_true_iff in H as [?%N.ltb_lt ?%N.eqb_eq]. done.
  - intros n Hn. rewrite forallb_forall in H. specialize (H (N.to_nat n)). rewrite N2Nat.id in H.
    assert (Hs : In (N.to_nat n) (seq 0 8)) by (apply in_seq; lia). specialize (H Hs). apply negb_true_iff, N.eqb_neq in H. done.
Qed.
Lemma forallb_zeros m : forallb (fun b => byte_eqb b x00) m = true <-> Forall (fun b => b = x00) m.
Proof.
  induction m as [|b m IH]; [split; [constructor|done]|]. simpl. rewrite Forall_cons, andb_true_iff, IH. destruct (byte_eqb_spec b x00); naive_solver.
Qed.
Lemma simple_mask_spec m : forall a, match simple_mask_length m a with
  | Some r => exists n, r = a + n /\ is_mask m n
  | None => forall n, ~ is_mask m n end.
Proof.
  induction m as [|v m IH]; intros a; cbn [simple_mask_length].
  - exists 0. split; [lia|by apply is_mask_nil].
  - destruct (byte_eqb_spec v xff) as [->|Hv].
    + specialize (IH (a + 8)). destruct (simple_mask_length m (a + 8)) as [r|].
      * destruct IH as (n & -> & Hn). exists (n + 8). split; [lia|]. apply is_mask_cons. left. split_and!; [done|lia|].
        by replace (n + 8 - 8) with n by lia.
      * intros n [(_ & _ & Hn)|(Hn & E & _)]%is_mask_cons; [by eapply IH|]. change (b2n xff) with 255 in E.
        assert (2 ^ 1 <= 2 ^ (8 - n)) by (apply N.pow_le_mono_r; lia). change (2 ^ 1) with 2 in *. lia.
    + pose proof (count_ones_spec v Hv) as Hc. destruct (count_ones 8 (b2n v)) as [k r]. destruct (r =? 0); cbn [negb].
      * destruct Hc as [Hk E]. destruct (forallb (fun b => byte_eqb b x00) m) eqn:Ez.
        -- exists k. split; [done|]. apply is_mask_cons. right. split_and!; [done|done|by apply forallb_zeros].
        -- intros n [(? & _)|(_ & _ & Hz)]%is_mask_cons; [done|]. apply forallb_zeros in Hz. congruence.
      * intros n [(? & _)|(Hn & E & _)]%is_mask_cons; [done|]. by eapply Hc.
Qed.
Lemma mask_size_spec m : match simple_mask_length m 0 with
  | Some n => is_mask m n /\ mask_size m = (n, 8 * nlen m)
  | None => (forall n, ~ is_mask m n) /\ mask_size m = (0, 0) end.
Proof.
  pose proof (simple_mask_spec m 0) as H. unfold mask_size. destruct (simple_mask_length m 0) as [r|]; [|done].
  destruct H as (n & -> & Hn). by rewrite N.add_0_l.
Qed.
Lemma cidr_loop_spec l : forall n, n <= 8 * N.of_nat l -> is_mask (cidr_loop l n) n /\ length (cidr_loop l n) = l.
Proof.
  induction l as [|l IH]; intros n Hn; cbn [cidr_loop].
  - split; [|done]. apply is_mask_nil. lia.
  - destruct (N.leb_spec 8 n) as [Hg|Hg].
    + destruct (IH (n - 8)) as [H1 H2]; [lia|]. split; [|by simpl; rewrite H2]. apply is_mask_cons. left. done.
    + destruct (IH 0) as [H1 H2]; [lia|]. split; [|by simpl; rewrite H2]. apply is_mask_cons. right. split_and!; [done| |].
      * rewrite n2b_b2n. assert (E : forallb (fun n => N.lxor (N.shiftr 255 (N.of_nat n)) 255 mod 256 =? 256 - 2 ^ (8 - N.of_nat n)) (seq 0 8) = true) by (vm_compute; done).
        rewrite forallb_forall in E. specialize (E (N.to_nat n)). rewrite N2Nat.id in E. apply N.eqb_eq, E. apply in_seq. lia.
      * destruct H1 as [_ H1]. apply be_zeros. rewrite H1. change (2 ^ 0) with 1. lia.
Qed.
Lemma cidr_mask_spec n l : n <= 8 * N.of_nat l -> is_mask (cidr_mask n (8 * N.of_nat l)) n /\ length (cidr_mask n (8 * N.of_nat l)) = l.
Proof.
  intros Hn. unfold cidr_mask. replace (8 * N.of_nat l <? n) with false by lia.
  replace (N.to_nat (8 * N.of_nat l / 8)) with l; [by apply cidr_loop_spec|]. rewrite N.mul_comm, N.div_mul by done. lia.
Qed.

(** ** Masking an address. *)
Lemma land_split a b x y n : x < 2 ^ n -> y < 2 ^ n -> N.land (a * 2 ^ n + x) (b * 2 ^ n + y) = N.land a b * 2 ^ n + N.land x y.
Proof.
  intros Hx Hy. rewrite <- !lor_shiftl by done. assert (Hxy : N.land x y < 2 ^ n).
  { destruct (N.eq_dec (N.land x y) 0) as [->|Hne]; [apply N.neq_0_lt_0, N.pow_nonzero; done|]. apply N.log2_lt_pow2; [lia|].
    pose proof (N.log2_land x y). destruct (N.eq_dec x 0) as [->|Hx0]; [done|]. assert (N.log2 x < n) by (apply N.log2_lt_pow2; [lia|done]). lia. }
  rewrite <- lor_shiftl by done. apply N.bits_inj. intros i. rewrite !N.land_spec, !N.lor_spec, N.land_spec.
  destruct (N.lt_ge_cases i n) as [Hi|Hi].
  - by rewrite !N.shiftl_spec_low.
  - rewrite !N.shiftl_spec_high by lia. rewrite N.land_spec, (testbit_high x n i), (testbit_high y n i) by done. by rewrite !orb_false_r.
Qed.
Lemma be_land x : forall y, length x = length y ->
  be (map (fun x => n2b (N.land (b2n x.1) (b2n x.2))) (combine x y)) = N.land (be x) (be y) /\
  length (map (fun x => n2b (N.land (b2n x.1) (b2n x.2))) (combine x y)) = length x.
Proof.
  induction x as [|a x IH]; intros [|b y]; try done. intros [= Hl]. destruct (IH y Hl) as [E1 E2]. cbn [combine map length fst snd].
  split; [|by rewrite E2]. rewrite !be_cons, E1. assert (Hn : nlen y = nlen x) by (unfold nlen; lia).
  assert (nlen (map (fun x => n2b (N.land (b2n x.1) (b2n x.2))) (combine x y)) = nlen x) as -> by (unfold nlen; lia).
  rewrite Hn. pose proof (be_lt x) as H1. pose proof (be_lt y) as H2. rewrite Hn in H2. rewrite !pow256 in *. rewrite land_split by done.
  f_equal. f_equal. rewrite n2b_b2n. apply N.mod_small. pose proof (b2n_lt a). change 256 with (2 ^ 8) in *. 
  destruct (N.eq_dec (N.land (b2n a) (b2n b)) 0) as [->|Hne]; [done|]. apply N.log2_lt_pow2; [lia|].
  pose proof (N.log2_land (b2n a) (b2n b)). destruct (N.eq_dec (b2n a) 0) as [->|Hx0]; [done|]. assert (N.log2 (b2n a) < 8) by (apply N.log2_lt_pow2; [lia|done]). lia.
Qed.
Lemma mask_pmask m n : is_mask m n -> be m = pmask (8 * nlen m) n.
Proof. intros [_ ->]. unfold pmask. rewrite N.shiftl_mul_pow2, N.ones_equiv, N.pred_sub. done. Qed.
Lemma land_pmask W k n : k < 2 ^ W -> n <= W -> N.land k (pmask W n) = k / 2 ^ (W - n) * 2 ^ (W - n).
Proof.
  intros Hk Hn. rewrite <- N.shiftl_mul_pow2, <- N.shiftr_div_pow2. apply N.bits_inj. intros i. rewrite N.land_spec, pmask_spec by done.
  destruct (N.leb_spec (W - n) i) as [H|H]; cbn [andb].
  - rewrite N.shiftl_spec_high by lia. rewrite N.shiftr_spec by lia. replace (i - (W - n) + (W - n)) with i by lia.
    destruct (N.ltb_spec i W); [by rewrite andb_true_r|]. by rewrite (testbit_high k W i).
  - rewrite N.shiftl_spec_low by lia. by rewrite andb_false_r.
Qed.
Lemma bytes_eq_spec a b : reflect (a = b) (bytes_eq a b).
Proof. unfold bytes_eq. by destruct (List.list_eq_dec Byte.byte_eq_dec a b); constructor. Qed.
Lemma ip_mask_spec ip m n : length ip = length m -> is_mask m n -> length (ip_mask ip m) = length ip /\ be (ip_mask ip m) = start (8 * nlen ip) (norm (8 * nlen ip) (be ip) n).
Proof.
  intros Hl Hm. unfold ip_mask.
  replace ((length m =? 16)%nat && (length ip =? 4)%nat) with false by lia. cbn [andb].
  replace ((length m =? 4)%nat && (length ip =? 16)%nat) with false by lia. cbn [andb].
  replace (length ip =? length m)%nat with true by lia. destruct (be_land ip m Hl) as [E1 E2]. rewrite E1, E2. split; [done|].
  assert (Hn : nlen m = nlen ip) by (unfold nlen; lia). rewrite (mask_pmask m n Hm), Hn. unfold start, norm. cbn [fst snd].
  apply land_pmask; [pose proof (be_lt ip) as H; by rewrite pow256 in H|]. destruct Hm as [Hm _]. lia.
Qed.

(** ** Halves of IPv6 prefixes. *)
Definition hi (q : pfx) : pfx := (64, q.2 / 2 ^ (q.1 - 64)).
Definition lo (q : pfx) : pfx := (q.1 - 64, q.2 mod 2 ^ (q.1 - 64)).
Definition valid_pfx (W : N) (q : pfx) : Prop := q.1 <= W /\ q.2 < 2 ^ q.1.
Lemma norm_valid W k n : k < 2 ^ W -> n <= W -> valid_pfx W (norm W k n).
Proof.
  intros Hk Hn. split; [done|]. unfold norm. cbn [fst snd]. apply N.div_lt_upper_bound; [apply N.pow_nonzero; done|].
  rewrite <- N.pow_add_r. by replace (W - n + n) with W by lia.
Qed.
Lemma pow2_pos n : 0 < 2 ^ n.
Proof. apply N.neq_0_lt_0, N.pow_nonzero. done. Qed.
Lemma pow2_nz n : 2 ^ n <> 0.
Proof. apply N.pow_nonzero. done. Qed.
Lemma norm_low a b n : b < 2 ^ 64 -> n <= 64 -> norm 128 (a * 2 ^ 64 + b) n = norm 64 a n.
Proof.
  intros Hb Hn. unfold norm. f_equal. replace (128 - n) with (64 + (64 - n)) by lia. rewrite N.pow_add_r, <- N.div_div by apply pow2_nz.
  f_equal. rewrite N.div_add_l by apply pow2_nz. rewrite (N.div_small b) by done. lia.
Qed.
Lemma norm_high a b n : b < 2 ^ 64 -> 64 <= n <= 128 ->
  norm 128 (a * 2 ^ 64 + b) n = (n, a * 2 ^ (n - 64) + b / 2 ^ (128 - n)) /\ b / 2 ^ (128 - n) < 2 ^ (n - 64).
Proof.
  intros Hb Hn. unfold norm. replace (2 ^ 64) with (2 ^ (n - 64) * 2 ^ (128 - n)) by (rewrite <- N.pow_add_r; f_equal; lia).
  split.
  - f_equal. rewrite N.mul_assoc, N.div_add_l by apply pow2_nz. done.
  - apply N.div_lt_upper_bound; [apply pow2_nz|]. rewrite <- N.pow_add_r. by replace (128 - n + (n - 64)) with 64 by lia.
Qed.
Lemma norm_hi a b n : a < 2 ^ 64 -> b < 2 ^ 64 -> 64 <= n <= 128 -> hi (norm 128 (a * 2 ^ 64 + b) n) = norm 64 a 64.
Proof.
  intros Ha Hb Hn. destruct (norm_high a b n Hb Hn) as [-> H]. unfold hi, norm. cbn [fst snd]. f_equal.
  rewrite N.div_add_l by apply pow2_nz. rewrite (N.div_small _ _ H). change (2 ^ (64 - 64)) with 1. rewrite N.div_1_r. lia.
Qed.
Lemma norm_lo a b n : b < 2 ^ 64 -> 64 <= n <= 128 -> lo (norm 128 (a * 2 ^ 64 + b) n) = norm 64 b (n - 64).
Proof.
  intros Hb Hn. destruct (norm_high a b n Hb Hn) as [-> H]. unfold lo, norm. cbn [fst snd]. f_equal.
  rewrite N.add_comm, N.mod_add by apply pow2_nz. rewrite N.mod_small by done. f_equal. f_equal. lia.
Qed.
Lemma cov_low p q : p.1 <= 64 -> 64 <= q.1 -> covers p q <-> covers p (hi q).
Proof.
  intros Hp Hq. unfold covers, hi. cbn [fst snd]. rewrite N.div_div by apply pow2_nz. rewrite <- N.pow_add_r.
  replace (q.1 - 64 + (64 - p.1)) with (q.1 - p.1) by lia. split; intros [? ?]; (split; [lia|done]).
Qed.
Lemma cov_high p q : 64 <= p.1 -> 64 <= q.1 -> covers p q <-> hi p = hi q /\ covers (lo p) (lo q).
Proof.
  intros Hp Hq. destruct p as [n x], q as [m y]. unfold covers, hi, lo in *. cbn [fst snd] in *.
  assert (Hd : n <= m -> y / 2 ^ (m - n) = y / 2 ^ (m - 64) * 2 ^ (n - 64) + (y mod 2 ^ (m - 64)) / 2 ^ (m - n) /\ (y mod 2 ^ (m - 64)) / 2 ^ (m - n) < 2 ^ (n - 64)).
  { intros Hle. assert (E : 2 ^ (m - 64) = 2 ^ (n - 64) * 2 ^ (m - n)) by (rewrite <- N.pow_add_r; f_equal; lia). split.
    - rewrite (N.div_mod y (2 ^ (m - 64))) at 1 by apply pow2_nz. rewrite E at 1.
      replace (2 ^ (n - 64) * 2 ^ (m - n) * (y / 2 ^ (m - 64))) with ((y / 2 ^ (m - 64) * 2 ^ (n - 64)) * 2 ^ (m - n)) by lia.
      by rewrite N.div_add_l by apply pow2_nz.
    - apply N.div_lt_upper_bound; [apply pow2_nz|]. rewrite N.mul_comm, <- E. apply N.mod_lt, pow2_nz. }
  split.
  - intros [Hle Ex]. destruct (Hd Hle) as [E1 E2]. rewrite E1 in Ex. subst x.
    rewrite N.div_add_l by apply pow2_nz. rewrite (N.div_small _ _ E2), N.add_0_r. split; [reflexivity|]. split; [clear -Hle; lia|].
    replace (m - 64 - (n - 64)) with (m - n) by (clear -Hle Hp; lia). rewrite (N.add_comm (_ * _)), N.mod_add by apply pow2_nz. rewrite (N.mod_small _ _ E2). reflexivity.
  - intros [[= Eh] [Hle El]]. assert (Hle2 : n <= m) by (clear -Hle Hp Hq; lia). split; [exact Hle2|]. destruct (Hd Hle2) as [E1 E2].
    replace (m - 64 - (n - 64)) with (m - n) in El by (clear -Hle2 Hp; lia). rewrite E1, <- Eh, El. symmetry. rewrite N.mul_comm. apply N.div_mod, pow2_nz.
Qed.
Lemma hi_lo_inj p q : 64 <= p.1 -> 64 <= q.1 -> hi p = hi q -> lo p = lo q -> p = q.
Proof.
  destruct p as [n x], q as [m y]. unfold hi, lo. cbn [fst snd]. intros Hp Hq [= E1] [= E2 E3]. assert (n = m) as -> by (clear -Hp Hq E2; lia).
  f_equal. rewrite (N.div_mod x (2 ^ (m - 64))), (N.div_mod y (2 ^ (m - 64))) by apply pow2_nz. congruence.
Qed.
Lemma lo_valid q : 64 <= q.1 <= 128 -> valid_pfx 64 (lo q).
Proof. intros H. split; [unfold lo; cbn [fst snd]; lia|]. apply N.mod_lt, pow2_nz. Qed.
Lemma hi_valid q : valid_pfx 128 q -> 64 <= q.1 -> valid_pfx 64 (hi q).
Proof.
  intros [H1 H2] H3. split; [done|]. unfold hi. cbn [fst snd]. apply N.div_lt_upper_bound; [apply pow2_nz|].
  rewrite <- N.pow_add_r. by replace (q.1 - 64 + 64) with q.1 by lia.
Qed.
(** The prefix with the given halves. *)
Definition join (x : N) (l : pfx) : pfx := (l.1 + 64, x * 2 ^ l.1 + l.2).
Lemma hi_join x l : l.2 < 2 ^ l.1 -> hi (join x l) = (64, x).
Proof.
  intros H. unfold hi, join. cbn [fst snd]. replace (l.1 + 64 - 64) with l.1 by lia. rewrite N.div_add_l by apply pow2_nz. rewrite N.div_small by done. f_equal. lia.
Qed.
Lemma lo_join x l : l.2 < 2 ^ l.1 -> lo (join x l) = l.
Proof.
  destruct l as [n y]. intros H. unfold lo, join. cbn [fst snd] in *. replace (n + 64 - 64) with n by lia.
  rewrite N.add_comm, N.mod_add by apply pow2_nz. by rewrite N.mod_small.
Qed.
Lemma join_valid x l : x < 2 ^ 64 -> valid_pfx 64 l -> valid_pfx 128 (join x l) /\ 64 <= (join x l).1.
Proof.
  destruct l as [n y]. intros Hx [H1 H2]. unfold valid_pfx, join. cbn [fst snd] in *. split_and!; [lia| |lia].
  rewrite N.pow_add_r. nia.
Qed.
Lemma join_hi_lo q : 64 <= q.1 -> join (hi q).2 (lo q) = q.
Proof.
  destruct q as [n x]. intros H. unfold join, hi, lo. cbn [fst snd] in *. f_equal; [lia|]. rewrite (N.div_mod x (2 ^ (n - 64))) at 3 by apply pow2_nz. lia.
Qed.
(** The first address of a network. *)
Lemma start_low x n : n <= 64 -> start 128 (n, x) = start 64 (n, x) * 2 ^ 64.
Proof. intros H. unfold start. cbn [fst snd]. rewrite <- N.mul_assoc, <- N.pow_add_r. f_equal. f_equal. lia. Qed.
Lemma start_join x l : l.1 <= 64 -> start 128 (join x l) = x * 2 ^ 64 + start 64 l.
Proof.
  intros H. unfold start, join. cbn [fst snd]. rewrite N.mul_add_distr_r, <- N.mul_assoc, <- N.pow_add_r.
  replace (l.1 + (128 - (l.1 + 64))) with 64 by lia. by replace (128 - (l.1 + 64)) with (64 - l.1) by lia.
Qed.
Lemma start_lt W q : valid_pfx W q -> start W q < 2 ^ W.
Proof.
  intros [H1 H2]. unfold start. replace (2 ^ W) with (2 ^ q.1 * 2 ^ (W - q.1)) by (rewrite <- N.pow_add_r; f_equal; lia).
  pose proof (pow2_pos (W - q.1)). nia.
Qed.
Lemma norm_start W q : q.1 <= W -> norm W (start W q) q.1 = q.
Proof. intros H. destruct q as [n x]. unfold norm, start. cbn [fst snd]. by rewrite N.div_mul by apply pow2_nz. Qed.
Lemma covers_trans p q r : covers p q -> covers q r -> covers p r.
Proof.
  intros [H1 E1] [H2 E2]. split; [lia|]. rewrite <- E1, <- E2, N.div_div by apply pow2_nz. rewrite <- N.pow_add_r. f_equal. f_equal. lia.
Qed.
Lemma covers_refl p : covers p p.
Proof. split; [lia|]. rewrite N.sub_diag. change (2 ^ 0) with 1. apply N.div_1_r. Qed.
Lemma covers_same_len p p' q : covers p q -> covers p' q -> p.1 = p'.1 -> p = p'.
Proof. destruct p as [n x], p' as [n' x']. intros [_ E1] [_ E2]. cbn [fst snd] in *. intros ->. congruence. Qed.

(** ** Keys. *)
Lemma ip4_key_spec n : match ip4_key n with
  | Some (k, b) => net_is (Some n) (false, norm 32 k b) /\ k < 2 ^ 32 /\ b <= 32
  | None => forall q, ~ net_is (Some n) (false, q) end.
Proof.
  destruct n as [ip m]. unfold ip4_key. cbn [fst snd]. destruct (Nat.eqb_spec (length ip) 4) as [Hl|Hl]; cbn [negb].
  2: { intros q H. inversion H; subst; congruence. }
  pose proof (mask_size_spec m) as Hm. destruct (simple_mask_length m 0) as [r|].
  - destruct Hm as [Hm ->]. destruct (N.eqb_spec (8 * nlen m) 32) as [Hs|Hs]; cbn [negb].
    + rewrite pack32_be by done. split_and!.
      * constructor; [done|unfold nlen in Hs; lia|done].
      * pose proof (be_lt ip) as H. rewrite pow256 in H. unfold nlen in H. by rewrite Hl in H.
      * destruct Hm as [Hm _]. lia.
    + intros q H. inversion H; subst. unfold nlen in Hs. lia.
  - destruct Hm as [Hm ->]. cbn [N.eqb negb]. intros q H. inversion H; subst. by eapply Hm.
Qed.
Lemma ip6_key_spec n : match ip6_key n with
  | Some (hk, hb, lk, lb) => exists q, net_is (Some n) (true, q) /\ hk < 2 ^ 64 /\ lk < 2 ^ 64 /\ valid_pfx 128 q /\
      (q.1 < 64 -> hb = q.1 /\ norm 64 hk hb = q) /\
      (64 <= q.1 -> hb = 64 /\ lb <= 64 /\ norm 64 hk 64 = hi q /\ norm 64 lk lb = lo q /\ hk = (hi q).2)
  | None => forall q, ~ net_is (Some n) (true, q) end.
Proof.
  destruct n as [ip m]. unfold ip6_key. cbn [fst snd]. destruct (Nat.eqb_spec (length ip) 16) as [Hl|Hl]; cbn [negb].
  2: { intros q H. inversion H; subst; congruence. }
  pose proof (mask_size_spec m) as Hm. destruct (simple_mask_length m 0) as [r|].
  - destruct Hm as [Hm ->]. destruct (N.eqb_spec (8 * nlen m) 128) as [Hs|Hs]; cbn [negb].
    + assert (Hn : net_is (Some (ip, m)) (true, norm 128 (be ip) r)) by (constructor; [done|unfold nlen in Hs; lia|done]).
      assert (Hr : r <= 128) by (destruct Hm as [Hm _]; lia).
      assert (E : ip = firstn 8 ip ++ skipn 8 ip) by (symmetry; apply firstn_skipn).
      assert (L1 : length (firstn 8 ip) = 8%nat) by (rewrite firstn_length; lia).
      assert (L2 : length (skipn 8 ip) = 8%nat) by (rewrite skipn_length; lia).
      assert (P1 : pack64 ip = be (firstn 8 ip)) by (rewrite E at 1; by apply pack64_be).
      assert (P2 : pack64 (skipn 8 ip) = be (skipn 8 ip)) by (rewrite <- (app_nil_r (skipn 8 ip)) at 1; by apply pack64_be).
      assert (B1 : be (firstn 8 ip) < 2 ^ 64) by (pose proof (be_lt (firstn 8 ip)) as H; rewrite pow256 in H; unfold nlen in H; by rewrite L1 in H).
      assert (B2 : be (skipn 8 ip) < 2 ^ 64) by (pose proof (be_lt (skipn 8 ip)) as H; rewrite pow256 in H; unfold nlen in H; by rewrite L2 in H).
      assert (E3 : be ip = be (firstn 8 ip) * 2 ^ 64 + be (skipn 8 ip)) by (rewrite E at 1; rewrite be_app; rewrite pow256; unfold nlen; by rewrite L2).
      rewrite E3 in Hn. set (a := be (firstn 8 ip)) in *. set (b := be (skipn 8 ip)) in *.
      assert (Hv : valid_pfx 128 (norm 128 (a * 2 ^ 64 + b) r)).
      { apply norm_valid; [|done]. change (2 ^ 128) with (2 ^ 64 * 2 ^ 64). nia. }
      destruct (N.ltb_spec 64 r) as [Hg|Hg]; rewrite P1, P2; exists (norm 128 (a * 2 ^ 64 + b) r); split_and!; try done.
      * intros H. unfold norm in H. cbn [fst] in H. lia.
      * intros _. rewrite norm_hi, norm_lo by (done || lia). split_and!; [done|lia|done|done|]. unfold norm. cbn [snd].
        change (2 ^ (64 - 64)) with 1. by rewrite N.div_1_r.
      * intros _. split; [done|]. by rewrite norm_low.
      * intros H. unfold norm in H. cbn [fst] in H. assert (r = 64) as -> by lia. rewrite norm_hi, norm_lo by (done || lia).
        split_and!; [done|lia|done|done|]. unfold norm. cbn [snd]. change (2 ^ (64 - 64)) with 1. by rewrite N.div_1_r.
    + intros q H. inversion H; subst. unfold nlen in Hs. lia.
  - destruct Hm as [Hm ->]. cbn [N.eqb negb]. intros q H. inversion H; subst. by eapply Hm.
Qed.
Lemma ip6_key_be n : match ip6_key n with Some (hk, hb, lk, lb) => be n.1 = hk * 2 ^ 64 + lk | None => True end.
Proof.
  destruct n as [ip m]. unfold ip6_key. cbn [fst snd]. destruct (Nat.eqb_spec (length ip) 16) as [Hl|Hl]; cbn [negb]; [|done].
  destruct (mask_size m) as [r w]. destruct (N.eqb_spec w 128) as [Hs|Hs]; cbn [negb]; [|done].
  assert (E : ip = firstn 8 ip ++ skipn 8 ip) by (symmetry; apply firstn_skipn).
  assert (L1 : length (firstn 8 ip) = 8%nat) by (rewrite firstn_length; lia).
  assert (L2 : length (skipn 8 ip) = 8%nat) by (rewrite skipn_length; lia).
  assert (P1 : pack64 ip = be (firstn 8 ip)) by (rewrite E at 1; by apply pack64_be).
  assert (P2 : pack64 (skipn 8 ip) = be (skipn 8 ip)) by (rewrite <- (app_nil_r (skipn 8 ip)) at 1; by apply pack64_be).
  assert (E3 : be ip = be (firstn 8 ip) * 2 ^ 64 + be (skipn 8 ip)) by (rewrite E at 1; rewrite be_app; rewrite pow256; unfold nlen; by rewrite L2).
  destruct (64 <? r); by rewrite P1, P2.
Qed.
Lemma net_is_fun n q q' : net_is n q -> net_is n q' -> q = q'.
Proof.
  intros H1 H2. destruct H1 as [ip m k ? ? Hk|ip m k ? ? Hk]; inversion H2 as [? ? k' ? ? Hk'|? ? k' ? ? Hk']; subst; try congruence;
    assert (k' = k) as -> by (by eapply is_mask_fun); done.
Qed.
Lemma net_is_valid n q : net_is n q -> valid_pfx (width q.1) q.2.
Proof.
  intros H. destruct H as [ip m k Hi Hm [Hk _]|ip m k Hi Hm [Hk _]]; cbn [fst snd width]; apply norm_valid.
  all: try (pose proof (be_lt ip) as H; rewrite pow256 in H; unfold nlen in *; rewrite ?Hi, ?Hm in *; first [exact H|lia]).
Qed.
Lemma full_mask l : is_mask (cidr_mask (8 * N.of_nat l) (8 * N.of_nat l)) (8 * N.of_nat l) /\ length (cidr_mask (8 * N.of_nat l) (8 * N.of_nat l)) = l.
Proof. apply cidr_mask_spec. lia. Qed.
Lemma norm_full W k : norm W k W = (W, k).
Proof. unfold norm. rewrite N.sub_diag. change (2 ^ 0) with 1. by rewrite N.div_1_r. Qed.
Lemma net_of_ip_spec ip : match net_of_ip ip with
  | Some n => exists q, net_is (Some n) q /\ addr_is ip q
  | None => forall q, ~ addr_is ip q end.
Proof.
  unfold net_of_ip, to4, to16. destruct (full_mask 4) as [M4 L4]. destruct (full_mask 16) as [M6 L6].
  change (8 * N.of_nat 4) with 32 in *. change (8 * N.of_nat 16) with 128 in *.
  destruct (Nat.eqb_spec (length ip) 4) as [Hl|Hl].
  { destruct ip as [|i0 ip]; [done|]. exists (false, (32, be (i0 :: ip))). split; [|by constructor]. rewrite <- (norm_full 32). by constructor. }
  destruct (Nat.eqb_spec (length ip) 16) as [Hl6|Hl6]; cbn [andb].
  - destruct (bytes_eq_spec (firstn 12 ip) v4_in_v6) as [Hp|Hp].
    + assert (Hs : length (skipn 12 ip) = 4%nat) by (rewrite skipn_length; lia).
      assert (E : ip = repeat x00 10 ++ [xff; xff] ++ skipn 12 ip) by (rewrite <- (firstn_skipn 12 ip) at 1; by rewrite Hp).
      destruct (skipn 12 ip) as [|i0 tl] eqn:Et; [done|]. rewrite E. exists (false, (32, be (i0 :: tl))). split; [|by constructor].
      rewrite <- (norm_full 32). by constructor.
    + destruct ip as [|i0 ip]; [done|]. exists (true, (128, be (i0 :: ip))). split; [rewrite <- (norm_full 128); by constructor|].
      constructor; [done|]. intros (ip4 & H4 & E). rewrite E in Hp. done.
  - intros q H. inversion H as [? H4|? H4|? H6]; subst; try congruence. rewrite !app_length, repeat_length in Hl6. simpl in Hl6. lia.
Qed.
Lemma addr_is_fun ip q q' : addr_is ip q -> addr_is ip q' -> q = q'.
Proof.
  intros H1 H2. destruct H1 as [ip H|ip H|ip H Hn]; inversion H2 as [ip' H'|ip' H'|ip' H' Hn']; subst; try done; try congruence.
  - exfalso. apply Hn'. by exists ip.
  - exfalso. apply Hn. by exists ip'.
Qed.
(** What the methods make of a key. *)
Definition key_net (k : ikey) : ipnet := match k with KNet n => n | KAddr ip => net_of_ip ip end.
Lemma key_net_spec k r : ikey_is k r -> match r with Some q => net_is (key_net k) q | None => forall q, ~ net_is (key_net k) q end.
Proof.
  intros H. destruct H as [n q H|n H|ip q H|ip H]; cbn [key_net]; try done; pose proof (net_of_ip_spec ip) as Hs; destruct (net_of_ip ip) as [n|].
  - destruct Hs as (q' & H1 & H2). by rewrite (addr_is_fun _ _ _ H H2).
  - by apply Hs in H.
  - destruct Hs as (q' & H1 & H2). by apply H in H2.
  - intros q Hq. inversion Hq.
Qed.
Lemma ikey_total k : exists r, ikey_is k r.
Proof.
  destruct k as [n|ip].
  - destruct n as [n|]; [|exists None; constructor; intros q H; inversion H].
    pose proof (ip4_key_spec n) as H4. destruct (ip4_key n) as [[k b]|]; [destruct H4 as [H4 _]; eexists; by constructor|].
    pose proof (ip6_key_spec n) as H6. destruct (ip6_key n) as [[[[k b] lk] lb]|]; [destruct H6 as (q & H6 & _); eexists; by constructor|].
    exists None. constructor. intros [[] q] H; [by eapply H6|by eapply H4].
  - pose proof (net_of_ip_spec ip) as H. destruct (net_of_ip ip) as [n|]; [destruct H as (q & _ & H); exists (Some q); by constructor|].
    exists None. by constructor.
Qed.
