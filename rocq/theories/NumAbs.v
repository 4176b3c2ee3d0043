(** * Radix trees implement the finite-map specification. *)
From Verif Require Import Prog History NumModel NumBits NumFun NumSim NumOrder NumSpec NumInplace.
From Coq Require Import ZifyBool ZifyNat ZifyN.
Open Scope N_scope.

Section abs.
Context {U : Type}.
Local Notation heap := (heap U).
Local Notation ntree := (ntree U).
Local Notation nmap := (nmap U).
Variable c : cfg.
Hypothesis Hc : cfg_ok c.
Local Notation W := (cW c).

(** The content of a tree. *)
Definition nabs (t : ntree) (m : nmap) : Prop :=
  forall q k v, m !! q = Some (k, v) <-> ((k, q.1, v) ∈ f_enum t /\ q = norm W k q.1).

Lemma clamp_adj bits : clamp c bits = adj W bits.
Proof.
  unfold clamp, adj. destruct (Z.ltb_spec bits 0), (Z.ltb_spec (Z.of_N W) bits); lia.
Qed.

Lemma norm_agree k1 k2 b : k1 < 2 ^ W -> k2 < 2 ^ W -> b <= W ->
  norm W k1 b = norm W k2 b <-> agree W b k1 k2.
Proof.
  intros H1 H2 Hb. rewrite agree_shiftr by done. rewrite !N.shiftr_div_pow2. unfold norm. split; [by intros [= ?]|by intros ->].
Qed.

Lemma covers_norm k1 b1 k2 b2 : k1 < 2 ^ W -> k2 < 2 ^ W -> b1 <= W -> b2 <= W ->
  covers (norm W k1 b1) (norm W k2 b2) <-> (b1 <= b2 /\ agree W b1 k2 k1).
Proof.
  intros H1 H2 Hb1 Hb2. unfold covers, norm. simpl. rewrite (agree_shiftr W b1 k2 k1) by done.
  rewrite !N.shiftr_div_pow2. split.
  - intros [Hle E]. split; [done|]. rewrite N.div_div in E by (apply N.pow_nonzero; done).
    rewrite <- N.pow_add_r in E. replace (W - b2 + (b2 - b1)) with (W - b1) in E by lia. done.
  - intros [Hle E]. split; [done|]. rewrite N.div_div by (apply N.pow_nonzero; done).
    rewrite <- N.pow_add_r. replace (W - b2 + (b2 - b1)) with (W - b1) by lia. done.
Qed.

Lemma nabs_elem t m k b v : nabs t m -> m !! norm W k b = Some (k, v) <-> (k, b, v) ∈ f_enum t.
Proof. intros H. rewrite (H (norm W k b) k v). simpl. tauto. Qed.

Lemma nabs_empty : nabs NE ∅.
Proof. intros q k v. rewrite lookup_empty. simpl. rewrite elem_of_nil. naive_solver. Qed.

Lemma nabs_ins t m k b v : wf c t -> k < 2 ^ W -> b <= W -> nabs t m ->
  nabs (f_ins c t k b v) (s_insert W m k b v).
Proof.
  intros Hw Hk Hb Ha q k1 v1. rewrite ins_elem by done. unfold s_insert.
  destruct (decide (norm W k b = q)) as [<-|Hne].
  - rewrite lookup_insert. simpl. split.
    + intros [= <- <-]. auto.
    + intros [[[= -> ->]|[Hin Hno]] Hq]; [done|]. exfalso.
      apply (enum_wf c) in Hin as [? ?]; [|done]. apply Hno. split; [done|]. apply norm_agree; done.
  - rewrite lookup_insert_ne by done. rewrite (Ha q k1 v1). split.
    + intros [Hin Hq]. split; [|done]. right. split; [done|]. intros [E Hag].
      apply (enum_wf c) in Hin as [? ?]; [|done]. apply Hne. rewrite E in Hq. rewrite Hq. apply norm_agree; [done..|].
      by apply agree_sym.
    + intros [[[= -> E ->]|[Hin _]] Hq]; [|done]. rewrite E in Hq. congruence.
Qed.

Lemma nabs_del t m k b : wf c t -> k < 2 ^ W -> b <= W -> nabs t m ->
  nabs (f_del c t k b).1 (s_delete W m k b).
Proof.
  intros Hw Hk Hb Ha q k1 v1. pose proof (del_elem c t k b (k1, q.1, v1) Hw Hk Hb) as Hde.
  etrans; [|apply and_iff_compat_r; symmetry; exact Hde]. unfold s_delete.
  rewrite map_filter_lookup_Some. rewrite (Ha q k1 v1). unfold contained. simpl.
  split.
  - intros [[Hin Hq] Hn]. split_and!; [done| |done]. intros [Hle Hag].
    apply (enum_wf c) in Hin as [? ?]; [|done]. apply Hn. rewrite Hq. apply covers_norm; done.
  - intros [[Hin Hn] Hq]. split_and!; [done|done|]. intros Hcov.
    apply (enum_wf c) in Hin as [? ?]; [|done]. apply Hn. rewrite Hq in Hcov. by apply covers_norm in Hcov.
Qed.

Lemma nabs_deleted t m k b : wf c t -> k < 2 ^ W -> b <= W -> nabs t m ->
  s_deleted W m k b (f_del c t k b).2.
Proof.
  intros Hw Hk Hb Ha. unfold s_deleted. rewrite del_flag by done. split.
  - intros ([[k1 b1] v1] & Hin & Hcon). exists (norm W k1 b1). split.
    + apply (nabs_elem _ _ _ _ _ Ha) in Hin. by eexists.
    + apply (enum_wf c) in Hin as [? ?]; [|done]. by apply covers_norm.
  - intros (q & [[k1 v1] Hq] & Hcov). apply Ha in Hq as [Hin Hq]. exists (k1, q.1, v1). split; [done|].
    apply (enum_wf c) in Hin as [? ?]; [|done]. rewrite Hq in Hcov. by apply covers_norm in Hcov.
Qed.

Lemma nabs_exact t m k b : wf c t -> k < 2 ^ W -> b <= W -> nabs t m ->
  match f_exact c t k b with Some e => (e.2, true) | None => (VNil, false) end = s_exact W m k b.
Proof.
  intros Hw Hk Hb Ha. unfold s_exact.
  destruct (f_exact c t k b) as [[[k1 b1] v1]|] eqn:E.
  - apply exact_spec in E as (Hin & Eb & Hag); [|done..]. simpl in *. subst b1.
    pose proof Hin as Hin'. apply (enum_wf c) in Hin' as [? ?]; [|done].
    apply (nabs_elem _ _ _ _ _ Ha) in Hin.
    replace (norm W k b) with (norm W k1 b) by (by apply norm_agree). by rewrite Hin.
  - destruct (m !! norm W k b) as [[k1 v1]|] eqn:E2; [|done].
    apply Ha in E2 as [Hin Hq]. simpl in Hin, Hq.
    assert (Hx : f_exact c t k b = Some (k1, b, v1)); [|congruence].
    apply exact_spec; [done..|]. split_and!; [done|done|]. simpl.
    apply (enum_wf c) in Hin as [? ?]; [|done]. apply norm_agree; done.
Qed.

Lemma nabs_match t m k b : wf c t -> k < 2 ^ W -> b <= W -> nabs t m ->
  s_longest m (norm W k b) (match f_match c t k b with Some e => (e.2, true) | None => (VNil, false) end).
Proof.
  intros Hw Hk Hb Ha. pose proof (match_spec c t k b Hw Hk Hb) as Hm.
  assert (Hcov : forall q k1 v1, m !! q = Some (k1, v1) -> covers q (norm W k b) ->
    is_match c t k b (k1, q.1, v1)).
  { intros q k1 v1 Hq Hcv. apply Ha in Hq as [Hin Hq]. rewrite Hq in Hcv.
    pose proof Hin as Hin'. apply (enum_wf c) in Hin' as [? ?]; [|done].
    apply covers_norm in Hcv as [? Hag]; [|done..]. split_and!; [done|done|]. by apply agree_sym. }
  destruct (f_match c t k b) as [[[k1 b1] v1]|].
  - left. destruct Hm as [(Hin & Hle & Hag) Hmax]. simpl in *.
    pose proof Hin as Hin'. apply (enum_wf c) in Hin' as [? ?]; [|done].
    exists (norm W k1 b1), k1, v1. split_and!.
    + by apply nabs_elem with t.
    + apply covers_norm; [done..|]. split; [done|by apply agree_sym].
    + done.
    + intros p' [k2 v2] Hp' Hcv. apply (Hmax (k2, p'.1, v2)). by apply Hcov.
  - right. split; [done|]. intros p [k2 v2] Hp Hcv. eapply Hm. eapply Hcov; eauto.
Qed.

Lemma entry_lt_spec e1 e2 : entry_lt (U := U) c e1 e2 <-> nentry_lt W e1 e2.
Proof.
  unfold entry_lt, nentry_lt, mkey, start, norm. simpl. rewrite !N.shiftl_mul_pow2, !N.shiftr_div_pow2. done.
Qed.

Lemma StronglySorted_impl {A} (R1 R2 : A -> A -> Prop) l :
  (forall x y, R1 x y -> R2 x y) -> StronglySorted R1 l -> StronglySorted R2 l.
Proof. intros H. induction 1; constructor; [done|]. eapply Forall_impl; eauto. Qed.

Lemma nabs_enum t m : wf c t -> nabs t m -> s_enum W m (f_enum t).
Proof.
  intros Hw Ha. split; [|exact Ha]. eapply StronglySorted_impl; [|by apply enum_sorted].
  intros x y. apply entry_lt_spec.
Qed.

(** ** The client-visible relation: [p] is a well-formed tree storing [m]. *)
Definition ntree_at (h : heap) (p : ptr) (m : nmap) : Prop :=
  exists t, wf c t /\ nrep h p t /\ nabs t m.

Lemma ntree_at_mono h h' p m : h ⊆ h' -> ntree_at h p m -> ntree_at h' p m.
Proof. intros Hs (t & ? & ? & ?). exists t. split_and!; try done. by eapply nrep_mono. Qed.

Lemma ntree_at_nil h : ntree_at h None ∅.
Proof. exists NE. split_and!; [done|done|apply nabs_empty]. Qed.

(** One client call; results as the client sees them. *)
Definition n_exec (vs : list ptr) (o : nop U) : prog U (list ptr * nout U) :=
  match o with
  | NInsert i key bits v =>
    r <- n_insert c (nth i vs None) key bits v ;; Ret (vs ++ [r], ONone)
  | NDelete i key bits =>
    r <- n_delete c (nth i vs None) key bits ;; Ret (vs ++ [r.1], OBool r.2)
  | NMatch i key bits =>
    r <- n_match c (nth i vs None) key bits ;; Ret (vs, OVal r)
  | NExact i key bits =>
    r <- n_exact c (nth i vs None) key bits ;; Ret (vs, OVal r)
  | NEnumerate i =>
    l <- n_enumerate c (nth i vs None) ;; Ret (vs, OList (map as_entry l))
  end.

Lemma nth_R h vs ms i : Forall2 (ntree_at h) vs ms -> ntree_at h (nth i vs None) (nth i ms ∅).
Proof.
  intros H. revert i. induction H as [|x y vs ms Hxy H IH]; intros [|i]; simpl;
    try apply ntree_at_nil; auto.
Qed.

Lemma Forall2_mono_heap h h' vs ms : h ⊆ h' -> Forall2 (ntree_at h) vs ms -> Forall2 (ntree_at h') vs ms.
Proof. intros Hs H. eapply Forall2_impl; [exact H|]. intros. by eapply ntree_at_mono. Qed.

Lemma n_insert_at h p m k bits v : k < 2 ^ W -> ntree_at h p m ->
  wp (n_insert c p k bits v) h ∅ (fun r h' _ =>
    ntree_at h' r (s_insert W m k (adj W bits) v) /\ h ⊆ h').
Proof.
  intros Hk (t & Hw & Hr & Ha). eapply wp_mono; [by eapply n_insert_wp|].
  cbn beta. intros r h' _ [Hr' Hs]. split; [|done]. rewrite <- clamp_adj.
  exists (f_ins c t k (clamp c bits) v). split_and!.
  - apply ins_wf; [done|done|apply clamp_le].
  - done.
  - apply nabs_ins; [done|done|apply clamp_le|done].
Qed.

Lemma n_delete_at h p m k bits : k < 2 ^ W -> ntree_at h p m ->
  wp (n_delete c p k bits) h ∅ (fun r h' _ =>
    ntree_at h' r.1 (s_delete W m k (adj W bits)) /\ s_deleted W m k (adj W bits) r.2 /\
    (r.2 = false -> r.1 = p) /\ h ⊆ h').
Proof.
  intros Hk (t & Hw & Hr & Ha). eapply wp_mono; [by eapply n_delete_wp|].
  cbn beta. intros r h' _ (Hs & Hr' & Hf & Hp). rewrite <- clamp_adj. split_and!; [|rewrite Hf|done|done].
  - exists (f_del c t k (clamp c bits)).1. split_and!.
    + by apply del_wf.
    + done.
    + apply nabs_del; [done|done|apply clamp_le|done].
  - apply nabs_deleted; [done|done|apply clamp_le|done].
Qed.

Lemma n_match_at h p m k bits : k < 2 ^ W -> ntree_at h p m ->
  wp (n_match c p k bits) h ∅ (fun r h' _ => s_longest m (norm W k (adj W bits)) r /\ h' = h).
Proof.
  intros Hk (t & Hw & Hr & Ha). eapply wp_mono; [by eapply n_match_wp|].
  cbn beta. intros r h' _ (-> & ->). split; [|done]. rewrite <- clamp_adj.
  apply nabs_match; [done|done|apply clamp_le|done].
Qed.

Lemma n_exact_at h p m k bits : k < 2 ^ W -> ntree_at h p m ->
  wp (n_exact c p k bits) h ∅ (fun r h' _ => r = s_exact W m k (adj W bits) /\ h' = h).
Proof.
  intros Hk (t & Hw & Hr & Ha). eapply wp_mono; [by eapply n_exact_wp|].
  cbn beta. intros r h' _ (-> & ->). split; [|done]. rewrite <- clamp_adj.
  apply nabs_exact; [done|done|apply clamp_le|done].
Qed.

Lemma n_enumerate_at h p m : ntree_at h p m ->
  wp (n_enumerate c p) h ∅ (fun l h' _ => s_enum W m (map as_entry l) /\
     Forall (fun x => h !! x.1 = Some (CNum x.2)) l /\ h' = h).
Proof.
  intros (t & Hw & Hr & Ha). eapply wp_mono; [by eapply n_enumerate_wp|].
  cbn beta. intros r h' _ (-> & -> & Hf). split_and!; [|done|done]. by apply nabs_enum.
Qed.

Lemma n_exec_ok h vs ms o : Forall2 (ntree_at h) vs ms -> nop_ok W o ->
  wp (n_exec vs o) h ∅ (fun r h' WS => exists ms', nstep W ms o ms' r.2 /\ Forall2 (ntree_at h') r.1 ms').
Proof.
  intros HR Hok. destruct o as [i k bits v|i k bits|i k bits|i k bits|i]; simpl in Hok; cbn [n_exec];
    apply wp_bind; pose proof (nth_R h vs ms i HR) as Hi.
  - eapply wp_mono; [by apply n_insert_at|]. cbn beta. intros r h' WS [Hr Hs]. simpl.
    eexists. split; [done|]. apply Forall2_app; [by eapply Forall2_mono_heap|by repeat constructor].
  - eapply wp_mono; [by apply n_delete_at|]. cbn beta. intros [r b] h' WS (Hr & Hd & _ & Hs). simpl in *.
    eexists. split; [split; [done|]; by exists b|]. apply Forall2_app; [by eapply Forall2_mono_heap|by repeat constructor].
  - eapply wp_mono; [by apply n_match_at|]. cbn beta. intros r h' WS [Hr ->]. cbn [wp fst snd nstep]. exists ms. split; [|done]. eauto.
  - eapply wp_mono; [by apply n_exact_at|]. cbn beta. intros r h' WS [-> ->]. cbn [wp fst snd nstep]. exists ms. split; [|done]. eauto.
  - eapply wp_mono; [by apply n_enumerate_at|]. cbn beta. intros r h' WS (Hr & _ & ->). cbn [wp fst snd nstep]. exists ms. split; [|done]. eauto.
Qed.

Lemma n_history h ops : Forall (nop_ok W) ops ->
  wp (run_hist n_exec ops [None]) h ∅ (fun r h' _ =>
    exists ms, spec_run (nstep W) ops [∅] ms r.2 /\ Forall2 (ntree_at h') r.1 ms).
Proof.
  intros Hops. eapply run_hist_wp with (okop := nop_ok W).
  - intros. by apply n_exec_ok.
  - done.
  - repeat constructor. apply ntree_at_nil.
Qed.

Lemma spec_run_contents ops : forall ms ms' (outs : list (nout U)),
  spec_run (nstep W) ops ms ms' outs -> ms' = n_contents W ops ms.
Proof.
  induction ops as [|o ops IH]; intros ms ms' [|x outs]; simpl; try done.
  intros (ms1 & Hst & Hsp). apply IH in Hsp.
  destruct o; simpl in Hst; destruct Hst as [-> _]; done.
Qed.

Definition n_reach (ops : list (nop U)) : list nmap := n_contents W ops [∅].

(** Running any [body] on some version after any history. *)
Lemma n_after {A} (h : heap) (ops : list (nop U)) (i : nat) (body : ptr -> prog U A) (Q : nmap -> A -> heap -> gset loc -> Prop) :
  Forall (nop_ok W) ops ->
  (forall (h' : heap) (p : ptr) (m : nmap), h ⊆ h' -> ntree_at h' p m -> wp (body p) h' ∅ (fun a h'' W' => Q m a h'' W')) ->
  wp (r <- run_hist n_exec ops [None] ;; body (nth i r.1 None)) h ∅
     (fun a h' _ => h ⊆ h' /\ exists W', Q (nth i (n_reach ops) ∅) a h' W').
Proof.
  intros Hops Hbody. apply wp_bind. eapply wp_mono.
  { eapply (wp_cow _ _ ∅). eapply wp_mono; [by apply n_history|]. cbn beta. intros r h' _ H. exact H. }
  cbn beta. intros [vs outs] h1 W1 ((ms & Hsp & HR) & Hs & _). simpl in *.
  apply spec_run_contents in Hsp as ->.
  eapply wp_mono.
  { eapply (wp_call _ _ ∅ W1); [|apply empty_subseteq]. apply wp_frame.
    apply (Hbody h1 (nth i vs None) (nth i (n_reach ops) ∅)); [done|]. by apply nth_R. }
  cbn beta. intros a h2 W2 [(W3 & (HQ & _) & _) [Hun _]]. split; [|eauto].
  etrans; [exact Hs|]. apply map_subseteq_spec. intros l x Hl. apply Hun; [done|set_solver].
Qed.

(** Trees with the same content are equal, node by node. *)
Lemma ntree_at_unique h1 h2 p1 p2 m : ntree_at h1 p1 m -> ntree_at h2 p2 m ->
  exists t, wf c t /\ nrep h1 p1 t /\ nrep h2 p2 t.
Proof.
  intros (t1 & Hw1 & Hr1 & Ha1) (t2 & Hw2 & Hr2 & Ha2).
  assert (t1 = t2); [|subst; eauto].
  apply (shape_unique c); [done|done|]. intros [[k b] v].
  rewrite <- (nabs_elem t1 m k b v Ha1), <- (nabs_elem t2 m k b v Ha2). done.
Qed.

Lemma ntree_at_fun h p m1 m2 : ntree_at h p m1 -> ntree_at h p m2 -> m1 = m2.
Proof.
  intros (t1 & Hw1 & Hr1 & Ha1) (t2 & Hw2 & Hr2 & Ha2).
  assert (t1 = t2) as -> by (by eapply nrep_det).
  apply map_eq. intros q. apply option_eq. intros [k v]. by rewrite (Ha1 q k v), (Ha2 q k v).
Qed.

(** ** Trees that are not shared. *)
Definition nowned (h : heap) (p : ptr) (m : nmap) (F : gset loc) : Prop :=
  exists t, wf c t /\ orep h p t F /\ nabs t m.

Lemma nowned_at h p m F : nowned h p m F -> ntree_at h p m.
Proof. intros (t & ? & ? & ?). exists t. split_and!; [done|by eapply orep_nrep|done]. Qed.

Lemma n_inplace_at h p m F k bits v : k < 2 ^ W -> nowned h p m F ->
  wp (n_inplace_insert c p k bits v) h F (fun r h' WS' =>
    exists F', nowned h' r (s_insert W m k (adj W bits) v) F' /\ F' ⊆ WS').
Proof.
  intros Hk (t & Hw & Hr & Ha). eapply wp_mono; [by eapply n_inplace_insert_wp|].
  cbn beta. intros r h' WS' (F' & Ho & HF). exists F'. split; [|done]. rewrite <- clamp_adj.
  exists (f_ins c t k (clamp c bits) v). split_and!.
  - apply ins_wf; [done|done|apply clamp_le].
  - done.
  - apply nabs_ins; [done|done|apply clamp_le|done].
Qed.

(** Building a tree by a sequence of in-place insertions. *)
Fixpoint n_build (items : list (N * Z * value U)) (p : ptr) : prog U ptr :=
  match items with
  | [] => Ret p
  | (k, bits, v) :: items => p' <- n_inplace_insert c p k bits v ;; n_build items p'
  end.
Fixpoint s_build (items : list (N * Z * value U)) (m : nmap) : nmap :=
  match items with
  | [] => m
  | (k, bits, v) :: items => s_build items (s_insert W m k (adj W bits) v)
  end.

Lemma n_build_at items : forall h p m F, Forall (fun x => x.1.1 < 2 ^ W) items -> nowned h p m F ->
  wp (n_build items p) h F (fun r h' WS' => exists F', nowned h' r (s_build items m) F' /\ F' ⊆ WS').
Proof.
  induction items as [|[[k bits] v] items IH]; intros h p m F Hok Ho.
  - simpl. eauto.
  - inversion Hok as [|? ? Hk Hok']; subst. simpl in Hk. cbn [n_build s_build]. apply wp_bind.
    eapply wp_mono; [by apply n_inplace_at|]. cbn beta. intros r h' WS' (F' & Ho' & HF).
    eapply wp_mono; [eapply (wp_call _ _ F'); [by apply (IH h' r (s_insert W m k (adj W bits) v) F')|done]|].
    cbn beta. intros r2 h2 WS2 [(WS3 & (F2 & Ho2 & HF2) & ? & _) _]. exists F2. split; [done|set_solver].
Qed.

(** ** Compactness. *)
(** A node without a value has two children, and a child is longer than its parent. *)
Fixpoint compact_shape (t : ntree) : Prop :=
  match t with
  | NE => True
  | NT _ b has _ l r =>
    (has = false -> l <> NE /\ r <> NE) /\
    match l with NE => True | NT _ b' _ _ _ _ => b < b' end /\
    match r with NE => True | NT _ b' _ _ _ _ => b < b' end /\
    compact_shape l /\ compact_shape r
  end.
Lemma wf_compact_shape (t : ntree) : wf c t -> compact_shape t.
Proof.
  induction t as [|k b lf v l IHl r IHr]; [done|]. cbn [wf compact_shape].
  intros (_ & _ & Hl & Hr & Hwl & Hwr & Hlf). split_and!; [naive_solver|..|auto|auto].
  - destruct l; [done|]. apply Hl.
  - destruct r; [done|]. apply Hr.
Qed.

Lemma ntree_at_compact h p m : ntree_at h p m ->
  exists t, nrep h p t /\ compact_shape t /\ (N.of_nat (depth t) <= W + 1) /\
    (nodes t <= 2 * size m - (if decide (m = ∅) then 0 else 1))%nat.
Proof.
  intros (t & Hw & Hr & Ha). exists t. split; [done|]. split; [by apply wf_compact_shape|]. split.
  { pose proof (depth_bound c t Hw). destruct t; simpl in *; lia. }
  pose proof (nabs_enum t m Hw Ha) as [Hs _].
  assert (Hnd : NoDup (f_enum t)).
  { clear -Hs. induction Hs as [|x l Hs IH Hf]; constructor; [|done].
    intros Hin. rewrite Forall_forall in Hf. specialize (Hf x Hin).
    unfold nentry_lt in Hf. lia. }
  assert (Hsz : size m = length (f_enum t)).
  { assert (Hp : map_to_list m ≡ₚ map (fun e => (norm W e.1.1 e.1.2, (e.1.1, e.2))) (f_enum t)).
    { apply NoDup_Permutation.
      - apply NoDup_map_to_list.
      - clear Hs. assert (Hinj : forall e1 e2, e1 ∈ f_enum t -> e2 ∈ f_enum t ->
           (norm W e1.1.1 e1.1.2, (e1.1.1, e1.2)) = (norm W e2.1.1 e2.1.2, (e2.1.1, e2.2)) -> e1 = e2).
        { intros [[k1 b1] v1] [[k2 b2] v2] _ _. simpl. unfold norm. intros [= -> _ -> ->]. done. }
        revert Hinj. induction Hnd as [|x l Hx Hnd IH]; intros Hinj; [constructor|]. simpl. constructor.
        + intros (y & Hy & Hyin)%elem_of_list_fmap. apply Hinj in Hy; [subst; done|apply elem_of_list_here|by apply elem_of_list_further].
        + apply IH. intros. apply Hinj; [by apply elem_of_list_further..|done].
      - intros [q [k v]]. rewrite elem_of_map_to_list, (Ha q k v). rewrite elem_of_list_fmap. split.
        + intros [Hin Hq]. exists (k, q.1, v). simpl. split; [by rewrite <- Hq|done].
        + intros ([[k1 b1] v1] & Heq & Hin). simpl in Heq. injection Heq as -> -> ->. simpl. done. }
    unfold size, map_size. rewrite Hp. apply map_length. }
  rewrite Hsz. case_decide as Em.
  - subst m. rewrite map_size_empty in Hsz. destruct t as [|k b lf v l r]; [simpl; lia|].
    destruct (nodes_bound c _ Hw) as [_ ?]; [done|]. lia.
  - destruct t as [|k b lf v l r]; [simpl; lia|].
    destruct (nodes_bound c _ Hw) as [? ?]; [done|]. lia.
Qed.
End abs.
