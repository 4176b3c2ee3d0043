(** * Radix trees on memory with the addresses of their nodes: finding a node,
    enumerating below it, replacing its value in place. *)
From Verif Require Import Prog NumModel NumBits NumFun NumSim NumOrder NumSpec NumAbs NumFoot.
From Coq Require Import ZifyBool ZifyNat ZifyN.
Open Scope N_scope.

Section loc.
Context {U : Type}.
Local Notation heap := (heap U).
Local Notation value := (value U).
Local Notation ntree := (ntree U).
Local Notation numnode := (numnode U).
Local Notation nmap := (@gmap pfx (@prod_eq_dec N N_eq_dec N N_eq_dec) (@prod_countable N N_eq_dec N_countable N N_eq_dec N_countable) (prod N value)).
Implicit Types h : heap.
Implicit Types t : ntree.
Variable c : cfg.
Hypothesis Hc : cfg_ok c.
Local Notation W := (cW c).

(** [xs]: the leaves of the tree, in order, with their addresses. *)
Fixpoint lrep h (p : ptr) (t : ntree) (xs : list (loc * numnode)) : Prop :=
  match t with
  | NE => p = None /\ xs = []
  | NT k b lf v l r => exists a c0 c1 xs0 xs1, p = Some a /\ h !! a = Some (CNum (NumN k b lf v c0 c1)) /\
      lrep h c0 l xs0 /\ lrep h c1 r xs1 /\ xs = (if lf then [(a, NumN k b lf v c0 c1)] else []) ++ xs0 ++ xs1
  end.
Lemma lrep_nrep h t : forall p xs, lrep h p t xs -> nrep h p t.
Proof.
  induction t as [|k b lf v l IHl r IHr]; intros p xs; cbn [lrep nrep]; [by intros [? _]|].
  intros (a & c0 & c1 & xs0 & xs1 & -> & Ha & H0 & H1 & ->). exists a, c0, c1. split_and!; [done|done|by eapply IHl|by eapply IHr].
Qed.
Lemma nrep_lrep h t : forall p, nrep h p t -> exists xs, lrep h p t xs.
Proof.
  induction t as [|k b lf v l IHl r IHr]; intros p; cbn [lrep nrep]; [intros ->; by exists []|].
  intros (a & c0 & c1 & -> & Ha & H0 & H1). destruct (IHl _ H0) as [xs0 L0], (IHr _ H1) as [xs1 L1]. eexists. exists a, c0, c1, xs0, xs1. done.
Qed.
Lemma lrep_mono h h' t : h ⊆ h' -> forall p xs, lrep h p t xs -> lrep h' p t xs.
Proof.
  intros Hs. induction t as [|k b lf v l IHl r IHr]; intros p xs; cbn [lrep]; [done|].
  intros (a & c0 & c1 & xs0 & xs1 & -> & Ha & H0 & H1 & ->). exists a, c0, c1, xs0, xs1. split_and!; [done|by eapply lookup_weaken|by apply IHl|by apply IHr|done].
Qed.
Lemma lrep_enum h t : forall p xs, lrep h p t xs -> map as_entry xs = f_enum t.
Proof.
  induction t as [|k b lf v l IHl r IHr]; intros p xs; cbn [lrep f_enum]; [by intros [_ ->]|].
  intros (a & c0 & c1 & xs0 & xs1 & -> & Ha & H0 & H1 & ->). rewrite !map_app, (IHl _ _ H0), (IHr _ _ H1). by destruct lf.
Qed.
Lemma lrep_cells h t : forall p xs, lrep h p t xs -> Forall (fun x => h !! x.1 = Some (CNum x.2) /\ nn_leaf x.2 = true) xs.
Proof.
  induction t as [|k b lf v l IHl r IHr]; intros p xs; cbn [lrep]; [by intros [_ ->]|].
  intros (a & c0 & c1 & xs0 & xs1 & -> & Ha & H0 & H1 & ->). rewrite !Forall_app. split_and!; [|by eapply IHl|by eapply IHr].
  destruct lf; [by apply Forall_singleton|done].
Qed.
Lemma lrep_det h t : forall p t' xs xs', lrep h p t xs -> lrep h p t' xs' -> t = t' /\ xs = xs'.
Proof.
  induction t as [|k b lf v l IHl r IHr]; intros p t' xs xs' H H'.
  - destruct H as [-> ->]. destruct t'; [by destruct H' as [_ ->]|]. destruct H' as (? & ? & ? & ? & ? & ? & _). done.
  - destruct H as (a & c0 & c1 & xs0 & xs1 & -> & Ha & H0 & H1 & ->). destruct t' as [|k' b' lf' v' l' r']; [by destruct H'|].
    destruct H' as (a' & c0' & c1' & xs0' & xs1' & [= <-] & Ha' & H0' & H1' & ->). rewrite Ha in Ha'. injection Ha' as <- <- <- <- <- <-.
    destruct (IHl _ _ _ _ H0 H0') as [-> ->], (IHr _ _ _ _ H1 H1') as [-> ->]. done.
Qed.
Lemma lrep_NE h p t xs : lrep h p t xs -> p = None <-> t = NE.
Proof. destruct t; cbn [lrep]; [by intros [-> _]|]. intros (? & ? & ? & ? & ? & -> & _). done. Qed.

Lemma enumerate_loc t : forall fuel h p xs, (depth t < fuel)%nat -> lrep h p t xs -> t <> NE ->
  forall WS, wp (enumerate_ c fuel p) h WS (fun r h' WS' => r = xs /\ h' = h /\ WS ⊆ WS').
Proof.
  induction t as [|k' b' lf' v' l IHl r IHr]; intros fuel h p xs Hfuel Hrep Hne WS; [done|].
  destruct fuel as [|fuel]; [simpl in Hfuel; lia|]. simpl in Hfuel.
  destruct Hrep as (n & c0 & c1 & xs0 & xs1 & -> & Hn & Hc0 & Hc1 & ->).
  cbn [enumerate_]. apply wp_bind. eapply wp_ld_num; [exact Hn|]. cbn [nn_key nn_bits nn_leaf nn_val nn_c0 nn_c1].
  assert (Hch : forall t' p' xs' WS1, (t' <> NE -> forall WS, wp (enumerate_ c fuel p') h WS (fun r h' WS' => r = xs' /\ h' = h /\ WS ⊆ WS')) -> lrep h p' t' xs' ->
    wp (match p' with Some _ => enumerate_ c fuel p' | None => Ret [] end) h WS1 (fun r h' WS' => r = xs' /\ h' = h /\ WS1 ⊆ WS')).
  { intros t' p' xs' WS1 IH Hr. destruct p' as [x|].
    - apply IH. intros ->. by destruct Hr.
    - destruct t'; [|by destruct Hr as (? & ? & ? & ? & ? & ? & _)]. destruct Hr as [_ ->]. done. }
  apply wp_bind. eapply wp_mono; [eapply (Hch l); [|exact Hc0]; intros; apply IHl; [lia|done|done]|]. cbn beta. intros ? ? WS1 (-> & -> & HW1).
  apply wp_bind. eapply wp_mono; [eapply (Hch r); [|exact Hc1]; intros; apply IHr; [lia|done|done]|]. cbn beta. intros ? ? WS2 (-> & -> & HW2).
  cbn [wp]. split_and!; [done|done|]. by etrans.
Qed.
Lemma n_enumerate_loc h p t xs WS : wf c t -> lrep h p t xs -> wp (n_enumerate c p) h WS (fun r h' WS' => r = xs /\ h' = h /\ WS ⊆ WS').
Proof using Hc.
  intros Hw Hr. unfold n_enumerate. destruct p as [a|].
  - eapply enumerate_loc; [by apply depth_fuel|done|]. intros ->. by destruct Hr.
  - assert (t = NE) as -> by (by eapply lrep_NE). destruct Hr as [_ ->]. done.
Qed.

Lemma sorted_app_r {A} (R : A -> A -> Prop) (l1 l2 : list A) : StronglySorted R (l1 ++ l2) -> StronglySorted R l2.
Proof. induction l1 as [|x l1 IH]; [done|]. cbn [Datatypes.app]. intros H. inversion H; subst. auto. Qed.

(** ** The node of an entry and what is below it. *)
Definition target_at h (r : ptr) (xs : list (loc * numnode)) (k b : N) (e : option (entry U)) : Prop :=
  match e with
  | None => r = None
  | Some e => exists a c0 c1 l r' ys A B, r = Some a /\ lrep h (Some a) (NT e.1.1 e.1.2 true e.2 l r') ((a, NumN e.1.1 e.1.2 true e.2 c0 c1) :: ys) /\
      wf c (NT e.1.1 e.1.2 true e.2 l r') /\ xs = A ++ (a, NumN e.1.1 e.1.2 true e.2 c0 c1) :: ys ++ B /\
      forall x, x ∈ A ++ B -> ~ contained c k b (as_entry x)
  end.
Lemma not_contained_lt k b (e : entry U) : e.1.2 < b -> ~ contained c k b e.
Proof. intros H [H' _]. lia. Qed.
Lemma exact_loc t : forall fuel h p xs k b,
  wf c t -> (depth t < fuel)%nat -> k < 2 ^ W -> b <= W -> lrep h p t xs -> t <> NE ->
  wp (exact_ c fuel p k b) h ∅ (fun r h' _ => h' = h /\ target_at h r xs k b (f_exact c t k b)).
Proof using Hc.
  induction t as [|k' b' lf' v' l IHl r IHr]; intros fuel h p xs k b Hw Hfuel Hk Hb Hrep Hne; [done|].
  destruct fuel as [|fuel]; [simpl in Hfuel; lia|]. assert (Hrep2 := Hrep).
  pose proof Hw as (Hk' & Hb' & Hl & Hr & Hwl & Hwr & Hf).
  destruct Hrep as (n & c0 & c1 & xs0 & xs1 & -> & Hn & Hc0 & Hc1 & Exs).
  cbn [exact_ f_exact]. apply wp_bind. eapply wp_ld_num; [exact Hn|].
  cbn [nn_key nn_bits nn_leaf nn_val nn_c0 nn_c1].
  destruct (N.ltb_spec b b'); [done|].
  destruct (N.eqb_spec b' b) as [Eb|Eb].
  - rewrite leaf_and_same_eq by done. cbn [wp bind nn_key nn_bits nn_leaf].
    destruct (lf' && same c k' k b') eqn:E; [|done].
    cbn [wp]. split; [done|]. apply andb_true_iff in E as [-> _]. rewrite Exs in Hrep2. exists n, c0, c1, l, r, (xs0 ++ xs1), [], []. cbn [fst snd].
    split_and!; [done|exact Hrep2|done|by rewrite app_nil_r|]. intros x Hx. by apply elem_of_nil in Hx.
  - rewrite same_masked_eq by done. cbn [wp bind].
    destruct (same_spec c k' k b' Hk' Hk Hb') as [Hag|Hag]; cbn [negb]; [|done].
    rewrite (chld_bbit c Hc) by (clear -H Eb Hb; lia). cbn [nn_c0 nn_c1]. simpl in Hfuel.
    assert (Hpost : forall (x : loc) tc xc A0 B0, xs = A0 ++ xc ++ B0 -> (forall x, x ∈ A0 ++ B0 -> ~ contained c k b (as_entry x)) ->
      wp (exact_ c fuel (Some x) k b) h ∅ (fun r h' _ => h' = h /\ target_at h r xc k b (f_exact c tc k b)) ->
      wp (r0 <- exact_ c fuel (Some x) k b;; match r0 with Some _ => Ret r0 | None => Ret None end) h ∅
         (fun r0 h' _ => h' = h /\ target_at h r0 xs k b (f_exact c tc k b))).
    { intros x tc xc A0 B0 Ex Hout Hrec. apply wp_bind. eapply wp_mono; [exact Hrec|].
      cbn beta. intros y h' WS [-> Hy].
      assert (Hy' : target_at h y xs k b (f_exact c tc k b)).
      { destruct (f_exact c tc k b) as [e|]; [|done]. destruct Hy as (a & d0 & d1 & tl & tr & ys & A & B & -> & Y1 & Y2 & Y3 & Y4).
        exists a, d0, d1, tl, tr, ys, (A0 ++ A), (B ++ B0). split_and!; [done|done|done| |].
        - rewrite Ex, Y3. rewrite <- !app_assoc. cbn [Datatypes.app]. by rewrite <- !app_assoc.
        - intros z Hz. rewrite !elem_of_app in Hz. destruct Hz as [[Hz|Hz]|[Hz|Hz]].
          + apply Hout. apply elem_of_app. by left.
          + apply Y4. apply elem_of_app. by left.
          + apply Y4. apply elem_of_app. by right.
          + apply Hout. apply elem_of_app. by right. }
      destruct y; cbn [wp]; done. }
    assert (Hhere : forall x, x ∈ (if lf' then [(n, NumN k' b' lf' v' c0 c1)] else []) -> ~ contained c k b (as_entry x)).
    { intros x Hx. destruct lf'; [|by apply elem_of_nil in Hx]. apply elem_of_list_singleton in Hx as ->. apply not_contained_lt. unfold as_entry. cbn [fst snd nn_key nn_bits nn_val]. lia. }
    assert (Hother : forall tc pc xc d, wf c tc -> ok_child c k' b' d tc -> lrep h pc tc xc -> bitat W k b' <> d -> forall x, x ∈ xc -> ~ contained c k b (as_entry x)).
    { intros tc pc xc d Hwc Hok Hlr Hd x Hx [_ Hcc]. apply (elem_of_list_fmap_1 as_entry) in Hx. change (as_entry <$> xc) with (map as_entry xc) in Hx. rewrite (lrep_enum _ _ _ _ Hlr) in Hx.
      destruct (as_entry x) as [[k1 b1] v1]. destruct (enum_child c tc k' b' d k1 b1 v1 Hwc Hok Hx) as (_ & _ & _ & _ & Hbit). apply Hd. rewrite <- Hbit. cbn [fst snd] in Hcc. symmetry. apply Hcc. lia. }
    destruct (bitat W k b') eqn:Ebit.
    + destruct c1 as [x|]; [|assert (r = NE) as -> by (by eapply lrep_NE); done].
      apply (Hpost x r xs1 ((if lf' then [(n, NumN k' b' lf' v' c0 (Some x))] else []) ++ xs0) []).
      * rewrite Exs, app_nil_r. by rewrite <- app_assoc.
      * intros z. rewrite app_nil_r, elem_of_app. intros [Hz|Hz]; [by apply Hhere|]. by eapply (Hother l c0 xs0 false).
      * apply IHr; try done; [lia|]. intros ->. by destruct Hc1.
    + destruct c0 as [x|]; [|assert (l = NE) as -> by (by eapply lrep_NE); done].
      apply (Hpost x l xs0 (if lf' then [(n, NumN k' b' lf' v' (Some x) c1)] else []) xs1).
      * done.
      * intros z. rewrite elem_of_app. intros [Hz|Hz]; [by apply Hhere|]. by eapply (Hother r c1 xs1 true).
      * apply IHl; try done; [lia|]. intros ->. by destruct Hc0.
Qed.

(** ** Replacing a value. *)
Definition set_val (n : numnode) (v : value) : numnode := NumN (nn_key n) (nn_bits n) (nn_leaf n) v (nn_c0 n) (nn_c1 n).
Fixpoint same_shape (t t' : ntree) : Prop :=
  match t, t' with
  | NE, NE => True
  | NT k b lf v l r, NT k' b' lf' v' l' r' => k = k' /\ b = b' /\ lf = lf' /\ (lf = false -> v = v') /\ same_shape l l' /\ same_shape r r'
  | _, _ => False
  end.
Lemma same_shape_NE t t' : same_shape t t' -> t = NE <-> t' = NE.
Proof. destruct t, t'; simpl; done. Qed.
Lemma same_shape_wf t : forall t', same_shape t t' -> wf c t -> wf c t'.
Proof.
  assert (Hok : forall k b d t t', same_shape t t' -> ok_child c k b d t -> ok_child c k b d t').
  { intros k b d [|] [|]; simpl; try done. by intros (-> & -> & _). }
  induction t as [|k b lf v l IHl r IHr]; intros [|k' b' lf' v' l' r']; simpl; try done.
  intros (<- & <- & <- & Hv & Sl & Sr) (Hk & Hb & Hl & Hr & Hwl & Hwr & Hf). split_and!; try done.
  - by eapply Hok.
  - by eapply Hok.
  - by apply IHl.
  - by apply IHr.
  - intros E. destruct (Hf E) as (F1 & F2 & F3 & F4). split_and!; [|..|done].
    + rewrite <- (same_shape_NE _ _ Sl). done.
    + rewrite <- (same_shape_NE _ _ Sr). done.
    + by rewrite <- Hv.
Qed.

(** ** Trees with footprint. *)
Definition tr h (F : gset loc) (p : ptr) (xs : list (loc * numnode)) : Prop :=
  exists h0 t, h0 ⊆ h /\ dom h0 = F /\ wf c t /\ lrep h0 p t xs.
Lemma content_of t : wf c t -> exists m : nmap, nabs c t m.
Proof using Hc.
  intros Hw. exists (list_to_map (map (fun e : entry U => (norm W e.1.1 e.1.2, (e.1.1, e.2))) (f_enum t))). intros q k v.
  assert (Hnd : NoDup (map (fun e : entry U => (norm W e.1.1 e.1.2, (e.1.1, e.2))) (f_enum t)).*1).
  { assert (Hs : StronglySorted (nentry_lt W) (f_enum t)).
    { eapply StronglySorted_impl; [|by apply enum_sorted]. intros x y. apply entry_lt_spec. }
    clear Hw. induction Hs as [|x l Hs IH Hf]; simpl; constructor; [|done]. intros Hin. apply elem_of_list_fmap in Hin as ([q0 kv0] & E & Hin).
    apply elem_of_list_fmap in Hin as (y & [= -> ->] & Hy). cbn [fst] in E. rewrite Forall_forall in Hf. specialize (Hf _ Hy). unfold nentry_lt in Hf. rewrite <- E in Hf.
    unfold norm in E. injection E as E1 E2. lia. }
  rewrite <- elem_of_list_to_map by done. rewrite elem_of_list_fmap. split.
  - intros ([[k1 b1] v1] & [= -> -> ->] & Hin). done.
  - intros [Hin Hq]. exists (k, q.1, v). cbn [fst snd]. by rewrite <- Hq.
Qed.
Lemma ntree_in_tr h F p m : ntree_in c h F p m -> exists xs, tr h F p xs /\ s_enum W m (map as_entry xs).
Proof using Hc.
  intros (h0 & Hs & Hd & (t & Hw & Hr & Ha)). destruct (nrep_lrep _ _ _ Hr) as [xs Hxs]. exists xs. split; [by exists h0, t|].
  rewrite (lrep_enum _ _ _ _ Hxs). by apply nabs_enum.
Qed.
Lemma tr_ntree_in h F p xs : tr h F p xs -> exists m, ntree_in c h F p m /\ s_enum W m (map as_entry xs).
Proof using Hc.
  intros (h0 & t & Hs & Hd & Hw & Hl). destruct (content_of t Hw) as [m Hm]. exists m. split.
  - exists h0. split_and!; [done|done|]. exists t. split_and!; [done|by eapply lrep_nrep|done].
  - rewrite (lrep_enum _ _ _ _ Hl). by apply nabs_enum.
Qed.
Lemma tr_cells h F p xs : tr h F p xs -> forall x, x ∈ xs -> h !! x.1 = Some (CNum x.2) /\ nn_leaf x.2 = true /\ x.1 ∈ F.
Proof.
  intros (h0 & t & Hs & <- & Hw & Hl) x Hx. apply lrep_cells in Hl. rewrite Forall_forall in Hl. destruct (Hl x Hx) as [H1 H2].
  split_and!; [by eapply lookup_weaken|done|by eapply elem_of_dom_2].
Qed.
Lemma tr_enumerate h F p xs WS : tr h F p xs -> wp (n_enumerate c p) h WS (fun r h' WS' => r = xs /\ h' = h /\ WS ⊆ WS').
Proof using Hc. intros (h0 & t & Hs & Hd & Hw & Hl). eapply n_enumerate_loc; [exact Hw|]. by eapply lrep_mono. Qed.
Lemma tr_sorted h F p xs : tr h F p xs -> StronglySorted (nentry_lt W) (map as_entry xs).
Proof using Hc. intros H. apply tr_ntree_in in H as (m & _ & Hs & _). exact Hs. Qed.
Lemma tr_nodup h F p xs : tr h F p xs -> NoDup (map fst xs).
Proof using Hc.
  intros H. pose proof (tr_sorted _ _ _ _ H) as Hs. pose proof (tr_cells _ _ _ _ H) as Hcells. clear H. induction xs as [|x xs IH]; [constructor|].
  cbn [map] in *. inversion Hs as [|? ? Hs' Hf]; subst. constructor; [|apply IH; [done|]; intros y Hy; apply Hcells; by right].
  intros Hin. apply elem_of_list_fmap in Hin as (y & E & Hy). destruct (Hcells x ltac:(by left)) as [H1 _]. destruct (Hcells y ltac:(by right)) as [H2 _].
  rewrite E in H1. rewrite H1 in H2. injection H2 as H2. rewrite Forall_forall in Hf. specialize (Hf (as_entry y)).
  assert (Hlt : nentry_lt W (as_entry x) (as_entry y)) by (apply Hf; by apply (elem_of_list_fmap_1 as_entry)).
  unfold as_entry, nentry_lt in Hlt. rewrite H2 in Hlt. cbn [fst snd] in Hlt. lia.
Qed.
Lemma tr_det h F F' p xs xs' : tr h F p xs -> tr h F' p xs' -> xs = xs'.
Proof.
  intros (h0 & t & Hs & Hd & Hw & Hl) (h0' & t' & Hs' & Hd' & Hw' & Hl'). apply (lrep_mono _ h) in Hl; [|done]. apply (lrep_mono _ h) in Hl'; [|done]. by eapply lrep_det.
Qed.

(** The prefix of an entry. *)
Definition pre (x : loc * numnode) : pfx := norm W (nn_key x.2) (nn_bits x.2).
Lemma tr_valid h F p xs x : tr h F p xs -> x ∈ xs -> nn_key x.2 < 2 ^ W /\ nn_bits x.2 <= W.
Proof using Hc.
  intros (h0 & t & Hs & Hd & Hw & Hl) Hx. apply (enum_wf c t (nn_key x.2) (nn_bits x.2) (nn_val x.2) Hw). rewrite <- (lrep_enum _ _ _ _ Hl).
  by apply (elem_of_list_fmap_1 as_entry).
Qed.
Lemma tr_find h F p xs k b WS : tr h F p xs -> k < 2 ^ W -> b <= W ->
  wp (n_find_node c p k (Z.of_N b)) h WS (fun r h' WS' => h' = h /\ WS ⊆ WS' /\
    match r with
    | None => forall x, x ∈ xs -> pre x <> norm W k b
    | Some a => exists n ys A B FT, tr h FT (Some a) ((a, n) :: ys) /\ xs = A ++ (a, n) :: ys ++ B /\ pre (a, n) = norm W k b /\
        (forall x, x ∈ A ++ B -> ~ covers (norm W k b) (pre x)) /\ (forall x, x ∈ ys -> covers (norm W k b) (pre x) /\ pre x <> norm W k b)
    end).
Proof using Hc.
  intros Htr Hk Hb. pose proof (fun x => tr_valid h F p xs x Htr) as Hval. pose proof (tr_sorted _ _ _ _ Htr) as Hsort. destruct Htr as (h0 & t & Hs & Hd & Hw & Hl). apply (lrep_mono _ h) in Hl; [|done].
  assert (Hwp : wp (n_find_node c p k (Z.of_N b)) h ∅ (fun r h' _ => h' = h /\ target_at h r xs k b (f_exact c t k b))).
  { unfold n_find_node. destruct p as [a|].
    - assert (clamp c (Z.of_N b) = b) as -> by (rewrite clamp_adj; unfold adj; lia). apply wp_bind.
      eapply wp_mono; [eapply exact_loc; [exact Hw|by apply depth_fuel|done|done|exact Hl|]|].
      + intros ->. by destruct Hl.
      + cbn beta. intros r h' WS' [-> Hr]. destruct r; done.
    - assert (t = NE) as -> by (by eapply lrep_NE). done. }
  eapply wp_mono; [apply (wp_call _ _ ∅ WS _ Hwp); apply empty_subseteq|]. cbn beta. intros r h' WS' ((W1 & [-> Hr] & _) & _ & Hg).
  split; [done|]. split; [apply Hg|]. pose proof (exact_spec c t k b) as He.
  destruct (f_exact c t k b) as [[[k1 b1] v1]|] eqn:E.
  - destruct (proj1 (He _ Hw Hk Hb) eq_refl) as (Hin & Eb1 & Hag). cbn [fst snd] in Eb1, Hag. subst b1.
    destruct Hr as (a & c0 & c1 & tl & tr' & ys & A & B & -> & R1 & R2 & R3 & R4). cbn [fst snd] in *.
    exists (NumN k1 b true v1 c0 c1), ys, A, B, (dom h). assert (Hk1 : k1 < 2 ^ W) by apply R2.
    split_and!.
    + exists h. eexists. split_and!; [done|done|exact R2|exact R1].
    + done.
    + unfold pre. cbn [snd nn_key nn_bits]. by apply norm_agree.
    + intros x Hx. assert (Hx' : x ∈ xs) by (rewrite R3; clear -Hx; set_solver). destruct (Hval x Hx') as [V1 V2]. unfold pre. rewrite covers_norm by done.
      intros [Hle Ha]. apply (R4 x Hx). split; cbn [as_entry fst snd]; [done|]. exact Ha.
    + intros x Hx. assert (Hx' : x ∈ xs) by (rewrite R3; clear -Hx; set_solver). destruct (Hval x Hx') as [V1 V2].
      assert (Hcov : covers (norm W k b) (pre x)).
      { unfold pre. apply covers_norm; [done..|]. pose proof (enum_under c _ R2 (nn_key x.2) (nn_bits x.2) (nn_val x.2)) as Hu.
        destruct Hu as (U1 & _ & _ & U2). { rewrite <- (lrep_enum _ _ _ _ R1). apply (elem_of_list_fmap_1 as_entry). by right. }
        split; [done|]. intros i Hi. rewrite <- (U2 i Hi). by apply Hag. }
      split; [done|]. rewrite R3 in Hsort. rewrite map_app in Hsort. apply sorted_app_r in Hsort. cbn [map] in Hsort. inversion Hsort as [|? ? _ Hf]; subst.
      rewrite Forall_forall in Hf. specialize (Hf (as_entry x)). assert (Hlt : nentry_lt W (k1, b, v1) (as_entry x)).
      { apply Hf. rewrite map_app. apply elem_of_app. left. by apply (elem_of_list_fmap_1 as_entry). }
      intros Epre. unfold nentry_lt in Hlt. cbn [as_entry fst snd] in Hlt. unfold pre in Epre.
      rewrite Epre in Hlt. assert (norm W k1 b = norm W k b) as E1 by (by apply norm_agree). rewrite E1 in Hlt. unfold norm in Epre. injection Epre as E2 E3. lia.
  - cbn [target_at] in Hr. subst r. intros x Hx Epre. destruct (Hval x Hx) as [V1 V2].
    enough (None = Some (as_entry x)) by done. apply He; [done..|]. split_and!.
    + rewrite <- (lrep_enum _ _ _ _ Hl). by apply (elem_of_list_fmap_1 as_entry).
    + unfold pre, norm in Epre. injection Epre as Ep _. exact Ep.
    + unfold pre in Epre. assert (Ep := Epre). unfold norm in Ep. injection Ep as Ep _. rewrite Ep in *. cbn [as_entry fst snd]. by apply norm_agree.
Qed.
Lemma land_pmask_div k b : k < 2 ^ W -> b <= W -> N.land k (pmask W b) = k / 2 ^ (W - b) * 2 ^ (W - b).
Proof using.
  intros Hk Hb. rewrite <- N.shiftr_div_pow2, <- N.shiftl_mul_pow2. apply N.bits_inj. intros i. rewrite N.land_spec, pmask_spec by done.
  destruct (N.leb_spec (W - b) i) as [Hi|Hi]; cbn [andb].
  - rewrite N.shiftl_spec_high, N.shiftr_spec by lia. replace (i - (W - b) + (W - b)) with i by lia. destruct (N.ltb_spec i W) as [Hw|Hw]; [apply andb_true_r|].
    rewrite andb_false_r. destruct (N.eq_dec k 0) as [->|Hk0]; [by rewrite N.bits_0|]. symmetry. apply N.bits_above_log2. apply N.log2_lt_pow2 in Hk; lia.
  - rewrite N.shiftl_spec_low by done. apply andb_false_r.
Qed.
Lemma covers_is_norm q k b : k < 2 ^ W -> b <= W -> covers q (norm W k b) -> q = norm W k q.1.
Proof using.
  intros Hk Hb [H1 H2]. destruct q as [n x]. unfold norm in *. cbn [fst snd] in *. f_equal. rewrite <- H2. rewrite N.div_div by (apply N.pow_nonzero; done).
  rewrite <- N.pow_add_r. f_equal. f_equal. lia.
Qed.
Lemma tr_root h F p xs : tr h F p xs -> xs <> [] -> exists a n, p = Some a /\ h !! a = Some (CNum n) /\
  nn_key n < 2 ^ W /\ nn_bits n <= W /\
  (if nn_leaf n then exists ys, xs = (a, n) :: ys /\ forall x, x ∈ ys -> covers (pre (a, n)) (pre x) /\ pre x <> pre (a, n)
   else (forall x, x ∈ xs -> covers (pre (a, n)) (pre x) /\ pre x <> pre (a, n)) /\ nn_key n = start W (pre (a, n)) /\
        forall q, (forall x, x ∈ xs -> covers q (pre x)) -> q.1 <= nn_bits n).
Proof using Hc.
  intros Htr Hne. pose proof (fun x => tr_valid h F p xs x Htr) as Hval. destruct Htr as (h0 & t & Hs & Hd & Hw & Hl). apply (lrep_mono _ h) in Hl; [|done].
  destruct t as [|k b lf v l r]; [by destruct Hl|]. pose proof (lrep_enum _ _ _ _ Hl) as He. pose proof Hw as (Hk & Hb & Ol & Or & Wl & Wr & Hinner).
  destruct Hl as (a & c0 & c1 & xs0 & xs1 & -> & Ha & L0 & L1 & Exs). exists a. eexists. split_and!; [done|exact Ha|done|done|].
  assert (Hch : forall x, x ∈ xs0 ++ xs1 -> x ∈ xs -> covers (norm W k b) (pre x) /\ pre x <> norm W k b).
  { intros x Hx Hx'. destruct (Hval x Hx') as [V1 V2].
    assert (Hb' : b < nn_bits x.2 /\ agree W b k (nn_key x.2)).
    { apply elem_of_app in Hx as [Hx|Hx]; apply (elem_of_list_fmap_1 as_entry) in Hx; change (as_entry <$> ?l) with (map as_entry l) in Hx.
      - rewrite (lrep_enum _ _ _ _ L0) in Hx. destruct (enum_child c l k b false _ _ _ Wl Ol Hx) as (? & _ & _ & ? & _). done.
      - rewrite (lrep_enum _ _ _ _ L1) in Hx. destruct (enum_child c r k b true _ _ _ Wr Or Hx) as (? & _ & _ & ? & _). done. }
    destruct Hb' as [B1 B2]. split.
    - unfold pre. apply covers_norm; [done..|]. split; [lia|]. intros i Hi. symmetry. by apply B2.
    - intros E. unfold pre, norm in E. injection E as E _. lia. }
  cbn [nn_leaf]. destruct lf.
  - exists (xs0 ++ xs1). split; [exact Exs|]. intros x Hx. apply Hch; [done|]. rewrite Exs. apply elem_of_app. by right.
  - split_and!; [intros x Hx; apply Hch; [|done]; rewrite Exs in Hx; exact Hx| |].
    + destruct (Hinner eq_refl) as (_ & _ & _ & E). unfold pre, start, norm. cbn [fst snd nn_key nn_bits]. rewrite <- E at 1. by apply land_pmask_div.
    + intros q Hq. cbn [nn_bits]. destruct (Hinner eq_refl) as (Nl & Nr & _). destruct (N.le_gt_cases q.1 b) as [?|Hgt]; [done|exfalso].
      destruct (wf_nonempty c l Wl Nl) as [[[k1 b1] v1] E1]. destruct (wf_nonempty c r Wr Nr) as [[[k2 b2] v2] E2].
      destruct (enum_child c l k b false _ _ _ Wl Ol E1) as (_ & V1 & W1 & A1 & B1). destruct (enum_child c r k b true _ _ _ Wr Or E2) as (_ & V2 & W2 & A2 & B2).
      assert (G : forall ks bs vs ys (tt : ntree), lrep h ys.1 tt ys.2 -> (ks, bs, vs) ∈ f_enum tt -> ys.2 ⊆ xs -> covers q (norm W ks bs)).
      { intros ks bs vs [pp ys] tt HL He' Hs'. cbn [fst snd] in *. rewrite <- (lrep_enum _ _ _ _ HL) in He'. apply elem_of_list_fmap in He' as (x & Ex & Hx). injection Ex as -> -> _. apply Hq. by apply Hs'. }
      assert (S0 : xs0 ⊆ xs) by (rewrite Exs; clear; set_solver). assert (S1 : xs1 ⊆ xs) by (rewrite Exs; clear; set_solver).
      pose proof (G k1 b1 v1 (c0, xs0) l L0 E1 S0) as C1. pose proof (G k2 b2 v2 (c1, xs1) r L1 E2 S1) as C2.
      assert (N1 : q.1 <= b1) by apply C1. assert (N2 : q.1 <= b2) by apply C2.
      assert (D1 : q = norm W k1 q.1) by (by apply covers_is_norm with b1). assert (D2 : q = norm W k2 q.1) by (by apply covers_is_norm with b2).
      assert (D : covers (norm W k1 q.1) (norm W k2 q.1)) by (rewrite <- D1, <- D2; split; [done|]; rewrite N.sub_diag; apply N.div_1_r).
      apply covers_norm in D; [|done|done|lia|lia]. destruct D as [_ D]. rewrite (D b Hgt) in B2. congruence.
Qed.
End loc.
