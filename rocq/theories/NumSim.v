(** * The memory model of the radix tree implements the functional version. *)
From Verif Require Import Prog NumModel NumBits NumFun.
From Coq Require Import ZifyBool ZifyNat ZifyN.
Open Scope N_scope.

Section sim.
Context {U : Type}.
Local Notation heap := (heap U).
Local Notation ntree := (ntree U).
Local Notation value := (value U).
Variable c : cfg.
Hypothesis Hc : cfg_ok c.
Local Notation W := (cW c).

(** [p] points to a radix tree in [h] (nodes may be shared). *)
Fixpoint nrep (h : heap) (p : ptr) (t : ntree) : Prop :=
  match t with
  | NE => p = None
  | NT k b lf v l r => exists a c0 c1, p = Some a /\
      h !! a = Some (CNum (NumN k b lf v c0 c1)) /\ nrep h c0 l /\ nrep h c1 r
  end.

Lemma nrep_mono h h' p t : h ⊆ h' -> nrep h p t -> nrep h' p t.
Proof.
  intros Hs. revert p. induction t as [|k b lf v l IHl r IHr]; simpl; intros p; [done|].
  intros (a & c0 & c1 & -> & Ha & Hl & Hr). exists a, c0, c1. split_and!; auto.
  eapply lookup_weaken; eauto.
Qed.

Lemma nrep_det h p t1 t2 : nrep h p t1 -> nrep h p t2 -> t1 = t2.
Proof.
  revert p t2. induction t1 as [|k b lf v l IHl r IHr]; intros p t2; simpl.
  - intros ->. destruct t2; [done|]. simpl. naive_solver.
  - intros (a & c0 & c1 & -> & Ha & Hl & Hr). destruct t2; simpl; [done|].
    intros (a' & c0' & c1' & [= <-] & Ha' & Hl' & Hr'). rewrite Ha in Ha'. injection Ha' as -> -> -> -> -> ->.
    f_equal; eauto.
Qed.

Lemma mask_eq b : b <= W -> @mask U c b = Ret (pmask W b).
Proof. intros Hb. unfold mask. by rewrite (cfg_masks c Hc b Hb). Qed.

Lemma ncsb_eq k1 b1 k2 b2 : b1 <= W -> b2 <= W -> @ncsb U c k1 b1 k2 b2 = Ret (pcsb c k1 b1 k2 b2).
Proof. intros H1 H2. unfold ncsb. rewrite !mask_eq by done. done. Qed.

Lemma same_masked_eq k1 k2 b : b <= W -> @same_masked U c k1 k2 b = Ret (same c k1 k2 b).
Proof. intros H1. unfold same_masked. rewrite mask_eq by done. done. Qed.

Lemma leaf_and_same_eq nn k : nn_bits nn <= W ->
  @leaf_and_same U c nn k = Ret (nn_leaf nn && same c (nn_key nn) k (nn_bits nn)).
Proof.
  intros H1. unfold leaf_and_same. rewrite same_masked_eq by done. by destruct (nn_leaf nn).
Qed.

Lemma chld_bbit (n : numnode U) k b : b < W ->
  chld n (bbit c k b) = if bitat W k b then nn_c1 n else nn_c0 n.
Proof. intros Hb. rewrite bbit_spec by done. by destruct (bitat W k b). Qed.
Lemma chld_bbit' (n : numnode U) k b : b < W ->
  chld n (1 - bbit c k b) = if bitat W k b then nn_c0 n else nn_c1 n.
Proof. intros Hb. rewrite bbit_spec by done. by destruct (bitat W k b). Qed.
Lemma with_bbit (n : numnode U) k b p : b < W ->
  with_chld n (bbit c k b) p =
  if bitat W k b then NumN (nn_key n) (nn_bits n) (nn_leaf n) (nn_val n) (nn_c0 n) p
  else NumN (nn_key n) (nn_bits n) (nn_leaf n) (nn_val n) p (nn_c1 n).
Proof. intros Hb. rewrite bbit_spec by done. by destruct (bitat W k b). Qed.
Lemma with_bbit' (n : numnode U) k b p : b < W ->
  with_chld n (1 - bbit c k b) p =
  if bitat W k b then NumN (nn_key n) (nn_bits n) (nn_leaf n) (nn_val n) p (nn_c1 n)
  else NumN (nn_key n) (nn_bits n) (nn_leaf n) (nn_val n) (nn_c0 n) p.
Proof. intros Hb. rewrite bbit_spec by done. by destruct (bitat W k b). Qed.

Lemma wp_set_chld a n b x (h : heap) WS (Q : unit -> heap -> gset loc -> Prop) :
  h !! a = Some (CNum n) -> a ∈ WS ->
  Q tt (<[a := CNum (with_chld n b x)]> h) WS ->
  wp (set_chld (Some a) b x) h WS Q.
Proof.
  intros Ha Hw HQ. unfold set_chld. apply wp_bind. eapply wp_ld_num; [exact Ha|].
  eapply wp_st_num; [done|by eexists|done].
Qed.

(** ** Copy-on-write insertion. *)
Definition ins_post (h0 h : heap) (a : loc) (t' : ntree) (r : ptr) (h' : heap) : Prop :=
  exists h1, h0 ⊆ h1 /\ h1 ⊆ h' /\ nrep h1 r t' /\
    (forall x, is_Some (h1 !! x) -> is_Some (h0 !! x) \/ x = a \/ h !! x = None).

Lemma insert_wp t : forall fuel (h0 h : heap) p a k b v,
  wf c t -> (depth t < fuel)%nat -> k < 2 ^ W -> b <= W ->
  nrep h0 p t -> h0 ⊆ h -> h0 !! a = None ->
  h !! a = Some (CNum (NumN k b true v None None)) ->
  wp (insert_ c fuel p (Some a)) h {[a]} (fun r h' _ => ins_post h0 h a (f_ins c t k b v) r h').
Proof.
  induction t as [|k' b' lf' v' l IHl r IHr];
    intros fuel h0 h p a k b v Hw Hfuel Hk Hb Hrep H0 Ha0 Ha.
  - destruct fuel as [|fuel]; [simpl in Hfuel; lia|]. simpl in Hrep. subst p. simpl.
    exists (<[a := CNum (NumN k b true v None None)]> h0).
    split_and!.
    + by apply insert_subseteq.
    + apply insert_subseteq_l; done.
    + exists a, None, None. rewrite lookup_insert. done.
    + intros x. destruct (decide (x = a)) as [->|?]; [auto|]. rewrite lookup_insert_ne by done. auto.
  - destruct fuel as [|fuel]; [simpl in Hfuel; lia|].
    pose proof Hw as (Hk' & Hb' & Hl & Hr & Hwl & Hwr & Hf).
    destruct Hrep as (n & c0 & c1 & -> & Hn & Hc0 & Hc1).
    assert (Hn' : h !! n = Some (CNum (NumN k' b' lf' v' c0 c1))) by (eapply lookup_weaken; eauto).
    assert (Hna : n <> a) by (intros ->; congruence).
    cbn [insert_]. apply wp_bind. eapply wp_ld_num; [exact Hn'|].
    apply wp_bind. eapply wp_ld_num; [exact Ha|]. cbn [nn_key nn_bits nn_leaf nn_val nn_c0 nn_c1].
    rewrite ncsb_eq by done. cbn [bind]. cbn [f_ins].
    destruct (pcsb_spec c k' b' k b Hk' Hk Hb' Hb) as (Hn1 & Hn2 & Hn3 & Hn4).
    set (nc := pcsb c k' b' k b) in *. clearbody nc.
    destruct (N.ltb_spec nc b').
    + destruct (N.eqb_spec nc b) as [Eb|Eb].
      * apply wp_bind. eapply wp_set_chld; [exact Ha|set_solver|]. cbn [wp bind].
        rewrite with_bbit by lia. cbn [nn_key nn_bits nn_leaf nn_val nn_c0 nn_c1].
        assert (Hpost : forall c0' c1' t',
          (forall h1, h0 ⊆ h1 -> h1 !! a = Some (CNum (NumN k b true v c0' c1')) -> nrep h1 (Some a) t') ->
          ins_post h0 h a t' (Some a) (<[a:=CNum (NumN k b true v c0' c1')]> h)).
        { intros c0' c1' t' Ht'. exists (<[a := CNum (NumN k b true v c0' c1')]> h0). split_and!.
          - by apply insert_subseteq.
          - by apply insert_mono.
          - apply Ht'; [by apply insert_subseteq|]. by rewrite lookup_insert.
          - intros x. destruct (decide (x = a)) as [->|?]; [auto|]. rewrite lookup_insert_ne by done. auto. }
        destruct (bitat W k' nc); apply Hpost; intros h1 Hh1 Ha1;
          (eexists a, _, _; split_and!; [done|exact Ha1| |]); try done;
          (eapply nrep_mono; [exact Hh1|]; exists n, c0, c1; done).
      * rewrite mask_eq by lia. cbn [bind]. unfold new_node. apply wp_bind. apply wp_bind. apply wp_alloc.
        intros m Hm. cbn [wp bind].
        assert (Hma : m <> a) by (intros ->; congruence).
        assert (Hm0 : h0 !! m = None) by (eapply lookup_weaken_None; eauto).
        apply wp_bind. eapply wp_set_chld; [by rewrite lookup_insert|set_solver|].
        apply wp_bind. eapply wp_set_chld; [by rewrite lookup_insert|set_solver|]. cbn [wp bind].
        rewrite !insert_insert. rewrite with_bbit, with_bbit' by lia.
        set (cell := CNum _). assert (Ecell : cell = CNum (if bitat W k' nc
           then NumN (N.land k (pmask W nc)) nc false VNil (Some a) (Some n)
           else NumN (N.land k (pmask W nc)) nc false VNil (Some n) (Some a))).
        { unfold cell. destruct (bitat W k' nc); done. }
        rewrite Ecell. clear cell Ecell.
        exists (<[m := CNum (if bitat W k' nc
           then NumN (N.land k (pmask W nc)) nc false VNil (Some a) (Some n)
           else NumN (N.land k (pmask W nc)) nc false VNil (Some n) (Some a))]>
             (<[a := CNum (NumN k b true v None None)]> h0)).
        assert (Hsub : h0 ⊆ <[a := CNum (NumN k b true v None None)]> h0) by (by apply insert_subseteq).
        assert (Hm1 : <[a := CNum (NumN k b true v None None)]> h0 !! m = None)
          by (by rewrite lookup_insert_ne by done).
        split_and!.
        -- etrans; [exact Hsub|]. by apply insert_subseteq.
        -- apply insert_mono. apply insert_subseteq_l; done.
        -- assert (Hra : forall h1, <[a := CNum (NumN k b true v None None)]> h0 ⊆ h1 ->
               nrep h1 (Some a) (NT k b true v NE NE)).
           { intros h1 Hh1. exists a, None, None. split_and!; try done.
             eapply lookup_weaken; [|exact Hh1]. by rewrite lookup_insert. }
           assert (Hrn : forall h1, h0 ⊆ h1 -> nrep h1 (Some n) (NT k' b' lf' v' l r)).
           { intros h1 Hh1. eapply nrep_mono; [exact Hh1|]. exists n, c0, c1. done. }
           destruct (bitat W k' nc); (eexists m, _, _; split_and!; [done|by rewrite lookup_insert| |]).
           ++ apply Hra. by apply insert_subseteq.
           ++ apply Hrn. etrans; [exact Hsub|]. by apply insert_subseteq.
           ++ apply Hrn. etrans; [exact Hsub|]. by apply insert_subseteq.
           ++ apply Hra. by apply insert_subseteq.
        -- intros x. destruct (decide (x = m)) as [->|?]; [auto|]. rewrite lookup_insert_ne by done.
           destruct (decide (x = a)) as [->|?]; [auto|]. rewrite lookup_insert_ne by done. auto.
    + destruct (N.eqb_spec b b') as [Eb|Eb].
      * apply wp_bind. eapply wp_st_num; [set_solver|by eexists|]. cbn [wp bind].
        exists (<[a := CNum (NumN k b true v c0 c1)]> h0). split_and!.
        -- by apply insert_subseteq.
        -- by apply insert_mono.
        -- exists a, c0, c1. rewrite lookup_insert. split_and!; try done;
             (eapply nrep_mono; [|eassumption]); by apply insert_subseteq.
        -- intros x. destruct (decide (x = a)) as [->|?]; [auto|]. rewrite lookup_insert_ne by done. auto.
      * assert (Enc : nc = b') by lia. subst nc.
        unfold new_node. apply wp_bind. apply wp_bind. apply wp_alloc. intros m Hm. cbn [wp bind].
        assert (Hma : m <> a) by (intros ->; congruence).
        assert (Hm0 : h0 !! m = None) by (eapply lookup_weaken_None; eauto).
        exists (CNum (NumN k' b' lf' v' None None)). rewrite lookup_insert. split; [done|].
        cbn [wp bind]. split; [set_solver|]. split; [by rewrite lookup_insert|].
        eexists. rewrite lookup_insert. split; [done|]. rewrite insert_insert.
        cbn [bind nn_key nn_bits nn_leaf nn_val nn_c0 nn_c1]. rewrite chld_bbit by lia. cbn [nn_c0 nn_c1].
        set (h1 := <[m := CNum (NumN k' b' lf' v' c0 c1)]> h).
        assert (H01 : h0 ⊆ h1) by (etrans; [exact H0|]; by apply insert_subseteq).
        assert (Ha1 : h1 !! a = Some (CNum (NumN k b true v None None)))
          by (unfold h1; by rewrite lookup_insert_ne by done).
        assert (Hrec : wp (insert_ c fuel (if bitat W k b' then c1 else c0) (Some a)) h1 {[a]}
          (fun r0 h' _ => ins_post h0 h1 a (f_ins c (if bitat W k b' then r else l) k b v) r0 h')).
        { simpl in Hfuel. destruct (bitat W k b').
          - apply IHr; try done. lia.
          - apply IHl; try done. lia. }
        apply wp_bind. eapply wp_mono.
        { eapply (wp_call _ _ {[a]} ({[m]} ∪ {[a]})); [exact Hrec|set_solver]. }
        cbn beta. intros x h2 WS2 [(WS1 & (hx & Hx0 & Hx2 & Hxr & Hxd) & _) [Hun (Hg1 & Hg2 & Hg3)]].
        clear Hrec.
        assert (Hm2 : h2 !! m = Some (CNum (NumN k' b' lf' v' c0 c1))).
        { apply Hun; [unfold h1; by rewrite lookup_insert|].
          set_solver. }
        apply wp_bind. eapply wp_set_chld; [exact Hm2|set_solver|]. cbn [wp bind].
        rewrite with_bbit by lia. cbn [nn_key nn_bits nn_leaf nn_val nn_c0 nn_c1].
        assert (Hxm : hx !! m = None).
        { destruct (hx !! m) eqn:E; [|done]. destruct (Hxd m) as [[? ?]|[?|E']]; [by eexists|congruence|congruence|].
          unfold h1 in E'. by rewrite lookup_insert in E'. }
        assert (Hpost : forall cell t',
          (forall h3, <[m := cell]> hx ⊆ h3 -> nrep h3 (Some m) t') ->
          ins_post h0 h a t' (Some m) (<[m := cell]> h2)).
        { intros cell t' Ht'. exists (<[m := cell]> hx). split_and!.
          - etrans; [exact Hx0|]. by apply insert_subseteq.
          - by apply insert_mono.
          - by apply Ht'.
          - intros y. destruct (decide (y = m)) as [->|?]; [auto|]. rewrite lookup_insert_ne by done.
            intros Hy. destruct (Hxd y Hy) as [?|[?|E']]; [auto|auto|]. right. right.
            unfold h1 in E'. by rewrite lookup_insert_ne in E'. }
        assert (Hhx : forall h3 cell, <[m := cell]> hx ⊆ h3 -> hx ⊆ h3).
        { intros h3 cell Hs. etrans; [|exact Hs]. by apply insert_subseteq. }
        destruct (bitat W k b'); apply Hpost; intros h3 Hh3;
          (eexists m, _, _; split_and!; [done|eapply lookup_weaken; [by rewrite lookup_insert|exact Hh3]| |]);
          (eapply nrep_mono; [eapply Hhx; exact Hh3|]); try exact Hxr;
          (eapply nrep_mono; [exact Hx0|done]).
Qed.

Lemma n_insert_wp (h : heap) p t k bits v :
  wf c t -> k < 2 ^ W -> nrep h p t ->
  wp (n_insert c p k bits v) h ∅
     (fun r h' _ => nrep h' r (f_ins c t k (clamp c bits) v) /\ h ⊆ h').
Proof.
  intros Hw Hk Hrep. unfold n_insert, new_node. apply wp_bind, wp_bind, wp_alloc. intros a Ha.
  cbn [wp bind]. replace ({[a]} ∪ ∅) with ({[a]} : gset loc) by set_solver. eapply wp_mono.
  - apply (insert_wp t (nfuel c) h _ p a k (clamp c bits) v); try done.
    + by apply depth_fuel.
    + apply clamp_le.
    + by apply insert_subseteq.
    + by rewrite lookup_insert.
  - cbn beta. intros r h' _ (h1 & H1 & H2 & H3 & _). split; [by eapply nrep_mono|by etrans].
Qed.

(** ** Lookups. *)
Definition node_at (h : heap) (r : ptr) (e : option (entry U)) : Prop :=
  match e with
  | None => r = None
  | Some (k, b, v) => exists a c0 c1, r = Some a /\ h !! a = Some (CNum (NumN k b true v c0 c1))
  end.

Lemma match_wp t : forall fuel (h : heap) p k b,
  wf c t -> (depth t < fuel)%nat -> b <= W -> nrep h p t -> t <> NE ->
  wp (match_ c fuel p k b) h ∅ (fun r h' _ => h' = h /\ node_at h r (f_match c t k b)).
Proof.
  induction t as [|k' b' lf' v' l IHl r IHr]; intros fuel h p k b Hw Hfuel Hb Hrep Hne; [done|].
  destruct fuel as [|fuel]; [simpl in Hfuel; lia|].
  pose proof Hw as (Hk' & Hb' & Hl & Hr & Hwl & Hwr & Hf).
  destruct Hrep as (n & c0 & c1 & -> & Hn & Hc0 & Hc1).
  cbn [match_ f_match]. apply wp_bind. eapply wp_ld_num; [exact Hn|].
  cbn [nn_key nn_bits nn_leaf nn_val nn_c0 nn_c1].
  destruct (N.ltb_spec b b'); [done|].
  destruct (N.eqb_spec b' b) as [Eb|Eb].
  - rewrite leaf_and_same_eq by done. cbn [wp bind nn_key nn_bits nn_leaf].
    destruct (lf' && same c k' k b') eqn:E; [|done].
    cbn [wp]. split; [done|]. apply andb_true_iff in E as [-> _]. exists n, c0, c1. done.
  - rewrite same_masked_eq by done. cbn [wp bind].
    destruct (negb (same c k' k b')); [done|].
    rewrite chld_bbit by lia. cbn [nn_c0 nn_c1].
    assert (Hrec : wp (match (if bitat W k b' then c1 else c0) with
         | Some x => match_ c fuel (Some x) k b | None => Ret None end) h ∅
       (fun r0 h' _ => h' = h /\ node_at h r0 (f_match c (if bitat W k b' then r else l) k b))).
    { simpl in Hfuel. destruct (bitat W k b').
      - destruct c1 as [x|]; [|destruct r; [done|simpl in Hc1; naive_solver]].
        apply IHr; try done; [lia|]. intros ->. simpl in Hc1. done.
      - destruct c0 as [x|]; [|destruct l; [done|simpl in Hc0; naive_solver]].
        apply IHl; try done; [lia|]. intros ->. simpl in Hc0. done. }
    apply wp_bind. eapply wp_mono; [exact Hrec|]. cbn beta. intros x h' WS [-> Hx].
    destruct (f_match c (if bitat W k b' then r else l) k b) as [[[k1 b1] v1]|].
    + simpl in Hx. destruct Hx as (ax & cx0 & cx1 & -> & Hax). split; [done|]. exists ax, cx0, cx1. done.
    + simpl in Hx. subst x. destruct lf'; simpl; [|done]. split; [done|]. exists n, c0, c1. done.
Qed.

Lemma n_match_wp (h : heap) p t k bits :
  wf c t -> nrep h p t ->
  wp (n_match c p k bits) h ∅ (fun r h' _ => h' = h /\
     r = match f_match c t k (clamp c bits) with Some e => (e.2, true) | None => (VNil, false) end).
Proof.
  intros Hw Hrep. destruct t as [|k' b' lf' v' l r]; [simpl in Hrep; subst p; done|].
  pose proof Hrep as (n & c0 & c1 & -> & Hn & Hc0 & Hc1). unfold n_match. apply wp_bind.
  eapply wp_mono; [eapply match_wp; [exact Hw|by apply depth_fuel|apply clamp_le|exact Hrep|done]|].
  cbn beta. intros x h' WS [-> Hx].
  destruct (f_match c _ k (clamp c bits)) as [[[k1 b1] v1]|].
  - simpl in Hx. destruct Hx as (ax & cx0 & cx1 & -> & Hax). apply wp_bind.
    eapply wp_ld_num; [exact Hax|]. done.
  - simpl in Hx. subst x. done.
Qed.

Lemma exact_wp t : forall fuel (h : heap) p k b,
  wf c t -> (depth t < fuel)%nat -> b <= W -> nrep h p t -> t <> NE ->
  wp (exact_ c fuel p k b) h ∅ (fun r h' _ => h' = h /\ node_at h r (f_exact c t k b)).
Proof.
  induction t as [|k' b' lf' v' l IHl r IHr]; intros fuel h p k b Hw Hfuel Hb Hrep Hne; [done|].
  destruct fuel as [|fuel]; [simpl in Hfuel; lia|].
  pose proof Hw as (Hk' & Hb' & Hl & Hr & Hwl & Hwr & Hf).
  destruct Hrep as (n & c0 & c1 & -> & Hn & Hc0 & Hc1).
  cbn [exact_ f_exact]. apply wp_bind. eapply wp_ld_num; [exact Hn|].
  cbn [nn_key nn_bits nn_leaf nn_val nn_c0 nn_c1].
  destruct (N.ltb_spec b b'); [done|].
  destruct (N.eqb_spec b' b) as [Eb|Eb].
  - rewrite leaf_and_same_eq by done. cbn [wp bind nn_key nn_bits nn_leaf].
    destruct (lf' && same c k' k b') eqn:E; [|done].
    cbn [wp]. split; [done|]. apply andb_true_iff in E as [-> _]. exists n, c0, c1. done.
  - rewrite same_masked_eq by done. cbn [wp bind].
    destruct (negb (same c k' k b')); [done|].
    rewrite chld_bbit by lia. cbn [nn_c0 nn_c1]. simpl in Hfuel.
    assert (Hpost : forall (x : loc) tc, nrep h (Some x) tc ->
      (nrep h (Some x) tc -> tc <> NE -> wp (exact_ c fuel (Some x) k b) h ∅ (fun r h' _ => h' = h /\ node_at h r (f_exact c tc k b))) ->
      wp (r0 <- exact_ c fuel (Some x) k b;; match r0 with Some _ => Ret r0 | None => Ret None end) h ∅
         (fun r0 h' _ => h' = h /\ node_at h r0 (f_exact c tc k b))).
    { intros x tc Hx Hrec. apply wp_bind. eapply wp_mono; [apply Hrec; [done|]|].
      - intros ->. simpl in Hx. done.
      - cbn beta. intros y h' WS [-> Hy]. destruct y; done. }
    destruct (bitat W k b').
    + destruct c1 as [x|]; [|destruct r; [done|simpl in Hc1; naive_solver]].
      apply Hpost; [done|]. intros. apply IHr; try done; lia.
    + destruct c0 as [x|]; [|destruct l; [done|simpl in Hc0; naive_solver]].
      apply Hpost; [done|]. intros. apply IHl; try done; lia.
Qed.

Lemma n_find_node_wp (h : heap) p t k bits :
  wf c t -> nrep h p t ->
  wp (n_find_node c p k bits) h ∅ (fun r h' _ => h' = h /\ node_at h r (f_exact c t k (clamp c bits))).
Proof.
  intros Hw Hrep. destruct t as [|k' b' lf' v' l r]; [simpl in Hrep; subst p; done|].
  pose proof Hrep as (n & c0 & c1 & -> & Hn & Hc0 & Hc1). unfold n_find_node. apply wp_bind.
  eapply wp_mono; [eapply exact_wp; [exact Hw|by apply depth_fuel|apply clamp_le|exact Hrep|done]|].
  cbn beta. intros x h' WS [-> Hx]. destruct x; done.
Qed.

Lemma n_exact_wp (h : heap) p t k bits :
  wf c t -> nrep h p t ->
  wp (n_exact c p k bits) h ∅ (fun r h' _ => h' = h /\
     r = match f_exact c t k (clamp c bits) with Some e => (e.2, true) | None => (VNil, false) end).
Proof.
  intros Hw Hrep. unfold n_exact. apply wp_bind.
  eapply wp_mono; [by eapply n_find_node_wp|].
  cbn beta. intros x h' WS [-> Hx].
  destruct (f_exact c _ k (clamp c bits)) as [[[k1 b1] v1]|].
  - simpl in Hx. destruct Hx as (ax & cx0 & cx1 & -> & Hax). apply wp_bind.
    eapply wp_ld_num; [exact Hax|]. done.
  - simpl in Hx. subst x. done.
Qed.

(** ** Enumeration. *)
Definition as_entry (x : loc * numnode U) : entry U := (nn_key x.2, nn_bits x.2, nn_val x.2).

Lemma enumerate_wp t : forall fuel (h : heap) p,
  (depth t < fuel)%nat -> nrep h p t -> t <> NE ->
  wp (enumerate_ c fuel p) h ∅ (fun xs h' _ => h' = h /\ map as_entry xs = f_enum t /\
     Forall (fun x => h !! x.1 = Some (CNum x.2)) xs).
Proof.
  induction t as [|k' b' lf' v' l IHl r IHr]; intros fuel h p Hfuel Hrep Hne; [done|].
  destruct fuel as [|fuel]; [simpl in Hfuel; lia|]. simpl in Hfuel.
  destruct Hrep as (n & c0 & c1 & -> & Hn & Hc0 & Hc1).
  cbn [enumerate_ f_enum]. apply wp_bind. eapply wp_ld_num; [exact Hn|].
  cbn [nn_key nn_bits nn_leaf nn_val nn_c0 nn_c1].
  assert (Hl : wp (match c0 with Some _ => enumerate_ c fuel c0 | None => Ret [] end) h ∅
    (fun xs h' _ => h' = h /\ map as_entry xs = f_enum l /\ Forall (fun x => h !! x.1 = Some (CNum x.2)) xs)).
  { destruct c0 as [x|]; [|destruct l; [done|simpl in Hc0; naive_solver]].
    apply IHl; [lia|done|]. intros ->. simpl in Hc0. done. }
  assert (Hr : wp (match c1 with Some _ => enumerate_ c fuel c1 | None => Ret [] end) h ∅
    (fun xs h' _ => h' = h /\ map as_entry xs = f_enum r /\ Forall (fun x => h !! x.1 = Some (CNum x.2)) xs)).
  { destruct c1 as [x|]; [|destruct r; [done|simpl in Hc1; naive_solver]].
    apply IHr; [lia|done|]. intros ->. simpl in Hc1. done. }
  apply wp_bind. eapply wp_mono; [exact Hl|]. cbn beta. intros xs h' WS1 (-> & Exs & Fxs).
  assert (Hr' : wp (match c1 with Some _ => enumerate_ c fuel c1 | None => Ret [] end) h WS1
    (fun xs h' _ => h' = h /\ map as_entry xs = f_enum r /\ Forall (fun x => h !! x.1 = Some (CNum x.2)) xs)).
  { eapply wp_mono; [eapply (wp_call _ _ ∅ WS1); [exact Hr|set_solver]|].
    cbn beta. intros ? ? ? [(? & ? & _) _]. done. }
  apply wp_bind. eapply wp_mono; [exact Hr'|]. cbn beta. intros ys h' WS2 (-> & Eys & Fys).
  cbn [wp]. split_and!; [done| |].
  - rewrite !map_app, Exs, Eys. by destruct lf'.
  - rewrite !Forall_app. split_and!; [|done|done]. destruct lf'; [|done].
    apply Forall_singleton. done.
Qed.

Lemma n_enumerate_wp (h : heap) p t : wf c t -> nrep h p t ->
  wp (n_enumerate c p) h ∅ (fun xs h' _ => h' = h /\ map as_entry xs = f_enum t /\
     Forall (fun x => h !! x.1 = Some (CNum x.2)) xs).
Proof.
  intros Hw Hrep. destruct t as [|k' b' lf' v' l r]; [simpl in Hrep; subst p; done|].
  pose proof Hrep as (n & c0 & c1 & -> & Hn & Hc0 & Hc1). unfold n_enumerate.
  apply enumerate_wp; [by apply depth_fuel|done|done].
Qed.

(** ** Deletion. *)
Lemma del_wp t : forall fuel (h : heap) p k b,
  wf c t -> (depth t < fuel)%nat -> b <= W -> nrep h p t -> t <> NE ->
  wp (del_ c fuel p k b) h ∅ (fun r h' _ => h ⊆ h' /\ nrep h' r.1 (f_del c t k b).1 /\
     r.2 = (f_del c t k b).2 /\ (r.2 = false -> r.1 = p)).
Proof.
  induction t as [|k' b' lf' v' l IHl r IHr]; intros fuel h p k b Hw Hfuel Hb Hrep Hne; [done|].
  destruct fuel as [|fuel]; [simpl in Hfuel; lia|].
  pose proof Hw as (Hk' & Hb' & Hl & Hr & Hwl & Hwr & Hf).
  pose proof Hrep as (n & c0 & c1 & -> & Hn & Hc0 & Hc1).
  cbn [del_ f_del]. apply wp_bind. eapply wp_ld_num; [exact Hn|].
  cbn [nn_key nn_bits nn_leaf nn_val nn_c0 nn_c1].
  destruct (N.leb_spec b b').
  - rewrite same_masked_eq by done. cbn [wp bind]. destruct (same c k' k b); cbn [wp]; done.
  - rewrite same_masked_eq by done. cbn [wp bind].
    destruct (negb (same c k' k b')); [done|].
    rewrite chld_bbit by lia. rewrite chld_bbit' by lia. cbn [nn_c0 nn_c1]. simpl in Hfuel.
    assert (Hstep : forall (x : loc) (tc : ntree) (cother : ptr) (tother : ntree) (d : bool) (mk : ptr -> numnode U) (T : ntree -> ntree),
      nrep h (Some x) tc -> nrep h cother tother ->
      (forall p0, with_chld (NumN k' b' lf' v' c0 c1) (bbit c k b') p0 = mk p0) ->
      (forall (h3 : heap) m tc' cc, h ⊆ h3 -> h3 !! m = Some (CNum (mk cc)) -> nrep h3 cc tc' -> nrep h3 (Some m) (T tc')) ->
      (nrep h (Some x) tc -> tc <> NE -> wp (del_ c fuel (Some x) k b) h ∅ (fun r h' _ => h ⊆ h' /\ nrep h' r.1 (f_del c tc k b).1 /\
          r.2 = (f_del c tc k b).2 /\ (r.2 = false -> r.1 = Some x))) ->
      wp (r0 <- del_ c fuel (Some x) k b;;
          (let '(ch, ok) := r0 in
           if negb ok then Ret (Some n, false)
           else if match ch with Some _ => false | None => negb lf' end then Ret (cother, true)
           else m <- new_node k' b' lf' v';; mn <- ld_num m;;
             st_num m (NumN (nn_key mn) (nn_bits mn) (nn_leaf mn) (nn_val mn) c0 c1);;;
             set_chld m (bbit c k b') ch;;; Ret (m, true))) h ∅
        (fun r0 h' _ => h ⊆ h' /\ nrep h' r0.1 (let '(tc', ok) := f_del c tc k b in
            if negb ok then (NT k' b' lf' v' l r, false)
            else if is_NE tc' && negb lf' then (tother, true) else (T tc', true)).1 /\
          r0.2 = (let '(tc', ok) := f_del c tc k b in
            if negb ok then (NT k' b' lf' v' l r, false)
            else if is_NE tc' && negb lf' then (tother, true) else (T tc', true)).2 /\
          (r0.2 = false -> r0.1 = Some n))).
    { intros x tc co to d mk T Hx Hco Hmk HT Hrec. apply wp_bind. eapply wp_mono; [apply Hrec; [done|]|].
      { intros ->. simpl in Hx. done. }
      cbn beta. intros [ch ok] h' WS (Hsub & Hch & Hok & _). simpl in Hch, Hok. subst ok.
      destruct (f_del c tc k b) as [tc' []]; simpl fst in *; simpl snd in *; simpl negb; cbv iota.
      - assert (E : (match ch with Some _ => false | None => negb lf' end) = is_NE tc' && negb lf').
        { destruct tc'; simpl in Hch; [by subst ch|]. by destruct Hch as (? & ? & ? & -> & _). }
        rewrite E. clear E. destruct (is_NE tc' && negb lf').
        + cbn [wp fst snd]. split_and!; [done| |done|done]. by eapply nrep_mono.
        + unfold new_node. apply wp_bind, wp_bind, wp_alloc. intros m Hm. cbn [wp bind].
          apply wp_bind. eapply wp_ld_num; [by rewrite lookup_insert|].
          cbn [nn_key nn_bits nn_leaf nn_val nn_c0 nn_c1].
          apply wp_bind. eapply wp_st_num; [set_solver|by rewrite lookup_insert|].
          rewrite insert_insert. apply wp_bind.
          eapply wp_set_chld; [by rewrite lookup_insert|set_solver|]. rewrite insert_insert.
          cbn [wp fst snd]. rewrite Hmk.
          assert (Hs2 : h' ⊆ <[m := CNum (mk ch)]> h') by (by apply insert_subseteq).
          split_and!; [by etrans| |done|done].
          eapply HT; [by etrans|by rewrite lookup_insert|by eapply nrep_mono].
      - cbn [wp fst snd]. split_and!; [done| |done|done].
        eapply nrep_mono; [exact Hsub|exact Hrep]. }
    destruct (bitat W k b') eqn:Ebit.
    + destruct c1 as [x|].
      2:{ destruct r; [|simpl in Hc1; naive_solver]. simpl. split_and!; try done. }
      eapply (Hstep x r c0 l true (fun p0 => NumN k' b' lf' v' c0 p0) (fun t' => NT k' b' lf' v' l t')); try done.
      * intros p0. rewrite with_bbit by lia. by rewrite Ebit.
      * intros h3 m tc' cc Hs3 Hm3 Hr3. exists m, c0, cc. split_and!; try done. by eapply nrep_mono.
      * intros _ Hnr. apply IHr; try done; lia.
    + destruct c0 as [x|].
      2:{ destruct l; [|simpl in Hc0; naive_solver]. simpl. split_and!; try done. }
      eapply (Hstep x l c1 r true (fun p0 => NumN k' b' lf' v' p0 c1) (fun t' => NT k' b' lf' v' t' r)); try done.
      * intros p0. rewrite with_bbit by lia. by rewrite Ebit.
      * intros h3 m tc' cc Hs3 Hm3 Hr3. exists m, cc, c1. split_and!; try done. by eapply nrep_mono.
      * intros _ Hnr. apply IHl; try done; lia.
Qed.

Lemma n_delete_wp (h : heap) p t k bits :
  wf c t -> nrep h p t ->
  wp (n_delete c p k bits) h ∅ (fun r h' _ => h ⊆ h' /\ nrep h' r.1 (f_del c t k (clamp c bits)).1 /\
     r.2 = (f_del c t k (clamp c bits)).2 /\ (r.2 = false -> r.1 = p)).
Proof.
  intros Hw Hrep. destruct t as [|k' b' lf' v' l r]; [simpl in Hrep; subst p; done|].
  pose proof Hrep as (n & c0 & c1 & -> & Hn & Hc0 & Hc1). unfold n_delete.
  apply del_wp; [done|by apply depth_fuel|apply clamp_le|done|done].
Qed.
End sim.
