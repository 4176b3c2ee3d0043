(** * Radix trees as mathematical trees: auxiliary functional version of
    NumModel.v (related to it in NumSim.v) and its properties. *)
From Verif Require Import Prog NumModel NumBits.
From Coq Require Import ZifyBool ZifyNat ZifyN.
Open Scope N_scope.

Section fun_model.
Context {U : Type}.
Local Notation value := (value U).

Inductive ntree :=
| NE
| NT (k b : N) (lf : bool) (v : value) (l r : ntree).

Definition entry := (N * N * value)%type. (* key, bits, value *)

Fixpoint f_enum (t : ntree) : list entry :=
  match t with
  | NE => []
  | NT k b lf v l r => (if lf then [(k, b, v)] else []) ++ f_enum l ++ f_enum r
  end.

Variable c : cfg.
Local Notation W := (cW c).

Fixpoint f_ins (t : ntree) (k b : N) (v : value) : ntree :=
  match t with
  | NE => NT k b true v NE NE
  | NT k' b' lf' v' l r =>
    let n := pcsb c k' b' k b in
    if n <? b' then
      if n =? b then
        if bitat W k' n then NT k b true v NE t else NT k b true v t NE
      else
        if bitat W k' n
        then NT (N.land k (pmask W n)) n false VNil (NT k b true v NE NE) t
        else NT (N.land k (pmask W n)) n false VNil t (NT k b true v NE NE)
    else if b =? b' then NT k b true v l r
    else if bitat W k n then NT k' b' lf' v' l (f_ins r k b v)
         else NT k' b' lf' v' (f_ins l k b v) r
  end.

Definition same (k1 k2 b : N) : bool := N.land (N.lxor k1 k2) (pmask W b) =? 0.

Fixpoint f_match (t : ntree) (k b : N) : option entry :=
  match t with
  | NE => None
  | NT k' b' lf' v' l r =>
    if b <? b' then None
    else if b' =? b then if lf' && same k' k b' then Some (k', b', v') else None
    else if negb (same k' k b') then None
    else match f_match (if bitat W k b' then r else l) k b with
         | Some e => Some e
         | None => if lf' then Some (k', b', v') else None
         end
  end.

Fixpoint f_exact (t : ntree) (k b : N) : option entry :=
  match t with
  | NE => None
  | NT k' b' lf' v' l r =>
    if b <? b' then None
    else if b' =? b then if lf' && same k' k b' then Some (k', b', v') else None
    else if negb (same k' k b') then None
    else f_exact (if bitat W k b' then r else l) k b
  end.

Definition is_NE (t : ntree) : bool := match t with NE => true | _ => false end.

Fixpoint f_del (t : ntree) (k b : N) : ntree * bool :=
  match t with
  | NE => (NE, false)
  | NT k' b' lf' v' l r =>
    if b <=? b' then if same k' k b then (NE, true) else (t, false)
    else if negb (same k' k b') then (t, false)
    else if bitat W k b' then
      let '(r', ok) := f_del r k b in
      if negb ok then (t, false)
      else if is_NE r' && negb lf' then (l, true)
      else (NT k' b' lf' v' l r', true)
    else
      let '(l', ok) := f_del l k b in
      if negb ok then (t, false)
      else if is_NE l' && negb lf' then (r, true)
      else (NT k' b' lf' v' l' r, true)
  end.

(** Well-formedness. *)
Definition ok_child (k b : N) (d : bool) (t : ntree) : Prop :=
  match t with
  | NE => True
  | NT k' b' _ _ _ _ => b < b' /\ agree W b k k' /\ bitat W k' b = d
  end.

Fixpoint wf (t : ntree) : Prop :=
  match t with
  | NE => True
  | NT k b lf v l r =>
    k < 2 ^ W /\ b <= W /\
    ok_child k b false l /\ ok_child k b true r /\ wf l /\ wf r /\
    (lf = false -> l <> NE /\ r <> NE /\ v = VNil /\ N.land k (pmask W b) = k)
  end.

Fixpoint depth (t : ntree) : nat :=
  match t with NE => 0 | NT _ _ _ _ l r => S (max (depth l) (depth r)) end.
Fixpoint nodes (t : ntree) : nat :=
  match t with NE => 0 | NT _ _ _ _ l r => S (nodes l + nodes r) end.

Lemma depth_bound t : wf t ->
  match t with NE => True | NT _ b _ _ _ _ => N.of_nat (depth t) + b <= W + 1 end.
Proof.
  induction t as [|k b lf v l IHl r IHr]; [done|].
  intros (Hk & Hb & Hl & Hr & Hwl & Hwr & Hf). simpl.
  assert (N.of_nat (depth l) + b <= W).
  { destruct l as [|k1 b1 lf1 v1 l1 r1]; [simpl; lia|].
    specialize (IHl Hwl). destruct Hl as (? & _). cbv beta iota in IHl. lia. }
  assert (N.of_nat (depth r) + b <= W).
  { destruct r as [|k1 b1 lf1 v1 l1 r1]; [simpl; lia|].
    specialize (IHr Hwr). destruct Hr as (? & _). cbv beta iota in IHr. lia. }
  lia.
Qed.

Lemma depth_fuel t : wf t -> (depth t < nfuel c)%nat.
Proof.
  intros H. pose proof (depth_bound t H) as Hd. unfold nfuel.
  destruct t as [|? ? ? ? ? ?]; [simpl; lia|]. simpl in *. lia.
Qed.

Lemma nodes_bound t : wf t -> t <> NE -> (nodes t <= 2 * length (f_enum t) - 1 /\ 1 <= length (f_enum t))%nat.
Proof.
  induction t as [|k b lf v l IHl r IHr]; [done|].
  intros (Hk & Hb & Hl & Hr & Hwl & Hwr & Hf) _. simpl. rewrite !app_length.
  assert (Hl' : l = NE \/ l <> NE) by (destruct l; auto).
  assert (Hr' : r = NE \/ r <> NE) by (destruct r; auto).
  destruct lf; simpl.
  - destruct Hl' as [->|Hl']; destruct Hr' as [->|Hr']; simpl;
      try (specialize (IHl Hwl Hl')); try (specialize (IHr Hwr Hr')); lia.
  - destruct (Hf eq_refl) as (? & ? & _ & _).
    specialize (IHl Hwl ltac:(done)). specialize (IHr Hwr ltac:(done)). lia.
Qed.

(** Everything below a node extends its prefix. *)
Lemma enum_under t : wf t ->
  match t with NE => True | NT k b _ _ _ _ =>
    forall k1 b1 v1, (k1, b1, v1) ∈ f_enum t -> b <= b1 /\ b1 <= W /\ k1 < 2 ^ W /\ agree W b k k1 end.
Proof.
  induction t as [|k b lf v l IHl r IHr]; [done|].
  intros (Hk & Hb & Hl & Hr & Hwl & Hwr & Hf) k1 b1 v1. simpl.
  rewrite !elem_of_app. intros [Hin|[Hin|Hin]].
  - destruct lf; [|by apply elem_of_nil in Hin].
    apply elem_of_list_singleton in Hin as [= -> -> ->].
    split_and!; [lia|lia|done|apply agree_refl].
  - destruct l as [|k2 b2 lf2 v2 l2 r2]; [by apply elem_of_nil in Hin|].
    destruct (IHl Hwl _ _ _ Hin) as (? & ? & ? & Ha). destruct Hl as (? & Ha2 & _).
    split_and!; [lia|lia|done|]. eapply agree_trans; [exact Ha2|].
    eapply agree_le; [|exact Ha]. lia.
  - destruct r as [|k2 b2 lf2 v2 l2 r2]; [by apply elem_of_nil in Hin|].
    destruct (IHr Hwr _ _ _ Hin) as (? & ? & ? & Ha). destruct Hr as (? & Ha2 & _).
    split_and!; [lia|lia|done|]. eapply agree_trans; [exact Ha2|].
    eapply agree_le; [|exact Ha]. lia.
Qed.

Lemma enum_child t k b d k1 b1 v1 : wf t -> ok_child k b d t -> (k1, b1, v1) ∈ f_enum t ->
  b < b1 /\ b1 <= W /\ k1 < 2 ^ W /\ agree W b k k1 /\ bitat W k1 b = d.
Proof.
  intros Hw Hc Hin. pose proof (enum_under t Hw) as Hu.
  destruct t as [|k2 b2 lf2 v2 l2 r2]; [by apply elem_of_nil in Hin|].
  destruct (Hu _ _ _ Hin) as (? & ? & ? & Ha). destruct Hc as (? & Ha2 & <-).
  split_and!; [lia|lia|done| |].
  - eapply agree_trans; [exact Ha2|]. eapply agree_le; [|exact Ha]. lia.
  - symmetry. apply Ha. lia.
Qed.

Lemma enum_wf t k b v : wf t -> (k, b, v) ∈ f_enum t -> k < 2 ^ W /\ b <= W.
Proof.
  intros Hw Hin. pose proof (enum_under t Hw) as Hu.
  destruct t as [|k2 b2 lf2 v2 l2 r2]; [by apply elem_of_nil in Hin|].
  by destruct (Hu _ _ _ Hin) as (? & ? & ? & ?).
Qed.

(** A prefix is stored at most once. *)
Lemma enum_unique t k1 k2 b v1 v2 : wf t ->
  (k1, b, v1) ∈ f_enum t -> (k2, b, v2) ∈ f_enum t -> agree W b k1 k2 -> k1 = k2 /\ v1 = v2.
Proof.
  induction t as [|k0 b0 lf v l IHl r IHr]; [by intros _ ?%elem_of_nil|].
  intros Hw H1 H2 Ha. pose proof Hw as (Hk & Hb & Hl & Hr & Hwl & Hwr & Hf).
  simpl in H1, H2. rewrite !elem_of_app in H1, H2.
  assert (Hself : forall k' v', (k', b, v') ∈ (if lf then [(k0, b0, v)] else []) -> k' = k0 /\ b = b0 /\ v' = v).
  { intros k' v' Hin. destruct lf; [|by apply elem_of_nil in Hin].
    by apply elem_of_list_singleton in Hin as [= -> -> ->]. }
  destruct H1 as [H1|[H1|H1]], H2 as [H2|[H2|H2]].
  - apply Hself in H1 as (-> & _ & ->), H2 as (-> & _ & ->). done.
  - apply Hself in H1 as (-> & -> & ->). eapply enum_child in H2 as (? & ?); eauto. lia.
  - apply Hself in H1 as (-> & -> & ->). eapply enum_child in H2 as (? & ?); eauto. lia.
  - apply Hself in H2 as (-> & -> & ->). eapply enum_child in H1 as (? & ?); eauto. lia.
  - auto.
  - eapply enum_child in H1 as (? & ? & ? & ? & E1); eauto.
    eapply enum_child in H2 as (? & ? & ? & ? & E2); eauto.
    specialize (Ha b0 ltac:(lia)). congruence.
  - apply Hself in H2 as (-> & -> & ->). eapply enum_child in H1 as (? & ?); eauto. lia.
  - eapply enum_child in H1 as (? & ? & ? & ? & E1); eauto.
    eapply enum_child in H2 as (? & ? & ? & ? & E2); eauto.
    specialize (Ha b0 ltac:(lia)). congruence.
  - auto.
Qed.

(** Insert. *)
Lemma ins_ok_child t k b v pk pb d :
  wf t -> k < 2 ^ W -> b <= W -> pb < b -> agree W pb pk k -> bitat W k pb = d ->
  ok_child pk pb d t -> ok_child pk pb d (f_ins t k b v).
Proof.
  intros Hw Hk Hb Hpb Ha Hd Hc. destruct t as [|k' b' lf' v' l r]; [done|].
  destruct Hc as (Hb' & Ha' & Hd'). destruct Hw as (Hk' & Hb'W & _).
  simpl. destruct (pcsb_spec c k' b' k b Hk' Hk Hb'W Hb) as (Hn1 & Hn2 & Hn3 & Hn4).
  set (n := pcsb c k' b' k b) in *. clearbody n.
  assert (Hpn : pb < n).
  { destruct (N.lt_ge_cases pb n) as [?|Hge]; [done|exfalso].
    apply Hn4; [lia|lia|].
    destruct (N.eq_dec n pb) as [->|Hne]; [congruence|].
    rewrite <- (Ha' n), <- (Ha n) by lia. done. }
  destruct (N.ltb_spec n b').
  - destruct (N.eqb_spec n b).
    + destruct (bitat W k' n); done.
    + assert (G : pb < n /\ agree W pb pk (N.land k (pmask W n)) /\ bitat W (N.land k (pmask W n)) pb = d).
      { split_and!; [done| |].
        - eapply agree_trans; [exact Ha|]. eapply agree_le; [|apply agree_sym, land_mask_agree]; lia.
        - rewrite land_mask_bit by lia. by replace (pb <? n) with true by lia. }
      destruct (bitat W k' n); exact G.
  - destruct (N.eqb_spec b b'); [done|]. destruct (bitat W k n); done.
Qed.

Lemma ins_not_NE t k b v : f_ins t k b v <> NE.
Proof. destruct t; simpl; [done|]. repeat case_match; done. Qed.

Lemma pmask_idem k n : N.land (N.land k (pmask W n)) (pmask W n) = N.land k (pmask W n).
Proof. rewrite <- N.land_assoc. by rewrite N.land_diag. Qed.

Lemma ins_wf t k b v : wf t -> k < 2 ^ W -> b <= W -> wf (f_ins t k b v).
Proof.
  intros Hw Hk Hb. induction t as [|k' b' lf' v' l IHl r IHr]; [by simpl|].
  pose proof Hw as (Hk' & Hb' & Hl & Hr & Hwl & Hwr & Hf).
  simpl. destruct (pcsb_spec c k' b' k b Hk' Hk Hb' Hb) as (Hn1 & Hn2 & Hn3 & Hn4).
  set (n := pcsb c k' b' k b) in *. clearbody n.
  destruct (N.ltb_spec n b').
  - destruct (N.eqb_spec n b) as [En|En].
    + destruct (bitat W k' n) eqn:Ebit; (split_and!; [done|done| | | | |done]);
        try exact I; try exact Hw; subst b.
      * split_and!; [done| |done]. by apply agree_sym.
      * split_and!; [done| |done]. by apply agree_sym.
    + assert (Hlt : n < b) by lia. specialize (Hn4 ltac:(done) Hlt).
      assert (Hc1 : ok_child (N.land k (pmask W n)) n (bitat W k' n) (NT k' b' lf' v' l r)).
      { split_and!; [done| |done]. eapply agree_trans; [apply land_mask_agree; lia|].
        by apply agree_sym. }
      assert (Hc2 : ok_child (N.land k (pmask W n)) n (bitat W k n) (NT k b true v NE NE)).
      { split_and!; [done| |done]. apply land_mask_agree; lia. }
      assert (Hk2 : wf (NT k b true v NE NE)) by done.
      destruct (bitat W k' n) eqn:Ebit;
        (assert (Ek : bitat W k n = negb (bitat W k' n)) by (destruct (bitat W k n) eqn:E1, (bitat W k' n) eqn:E2; simpl; congruence));
        rewrite Ek, Ebit in Hc2; simpl in Hc2;
        (split_and!; [by apply land_mask_lt|lia| | | | |]); try exact Hw; try done;
        intros _; split_and!; try done; apply pmask_idem.
  - assert (En : n = b') by lia.
    destruct (N.eqb_spec b b') as [Eb|Eb].
    + subst b. assert (Hkk : forall t' d, ok_child k' b' d t' -> ok_child k b' d t').
      { intros [|k2 b2 ? ? ? ?] d; [done|]. intros (? & Hx & ?). split_and!; [done| |done].
        eapply agree_trans; [|exact Hx]. apply agree_sym. by rewrite <- En. }
      split_and!; [done|done|auto|auto|done|done|done].
    + assert (b' < b) by lia.
      destruct (bitat W k n) eqn:Ebit.
      * split_and!; [done|done|done| |done|auto|].
        -- apply ins_ok_child; try done; [by rewrite <- En|by rewrite <- En].
        -- intros Hlf. destruct (Hf Hlf) as (? & ? & ? & ?). split_and!; [done|apply ins_not_NE|done|done].
      * split_and!; [done|done| |done|auto|done|].
        -- apply ins_ok_child; try done; [by rewrite <- En|by rewrite <- En].
        -- intros Hlf. destruct (Hf Hlf) as (? & ? & ? & ?). split_and!; [apply ins_not_NE|done|done|done].
Qed.

(** The content after an insertion. *)
Lemma ins_elem t k b v k1 b1 v1 : wf t -> k < 2 ^ W -> b <= W ->
  (k1, b1, v1) ∈ f_enum (f_ins t k b v) <->
  (k1, b1, v1) = (k, b, v) \/ ((k1, b1, v1) ∈ f_enum t /\ ~ (b1 = b /\ agree W b k1 k)).
Proof.
  intros Hw Hk Hb. induction t as [|k' b' lf' v' l IHl r IHr].
  { simpl. rewrite elem_of_list_singleton, elem_of_nil. tauto. }
  pose proof Hw as (Hk' & Hb' & Hl & Hr & Hwl & Hwr & Hf).
  pose proof (enum_under _ Hw k1 b1 v1) as Hund.
  cbn [f_ins]. destruct (pcsb_spec c k' b' k b Hk' Hk Hb' Hb) as (Hn1 & Hn2 & Hn3 & Hn4).
  set (n := pcsb c k' b' k b) in *. clearbody n.
  destruct (N.ltb_spec n b').
  - assert (Hnot : (k1, b1, v1) ∈ f_enum (NT k' b' lf' v' l r) -> ~ (b1 = b /\ agree W b k1 k)).
    { intros Hin [-> Ha]. destruct (Hund Hin) as (? & ? & ? & Hag).
      apply Hn4; [done|lia|]. rewrite (Hag n), (Ha n) by lia. done. }
    assert (G : forall X : list entry, ((k1, b1, v1) ∈ X <-> (k1, b1, v1) = (k, b, v) \/ (k1, b1, v1) ∈ f_enum (NT k' b' lf' v' l r)) ->
      ((k1, b1, v1) ∈ X <-> (k1, b1, v1) = (k, b, v) \/ ((k1, b1, v1) ∈ f_enum (NT k' b' lf' v' l r) /\ ~ (b1 = b /\ agree W b k1 k)))).
    { intros X HX. rewrite HX. tauto. }
    destruct (N.eqb_spec n b) as [En|En]; [|]; destruct (bitat W k' n) eqn:Ebit; apply G;
      set (T := NT k' b' lf' v' l r); simpl; rewrite ?elem_of_app, ?elem_of_cons, ?elem_of_app, ?elem_of_nil; tauto.
  - assert (En : n = b') by lia.
    destruct (N.eqb_spec b b') as [Eb|Eb].
    + subst b. simpl. rewrite elem_of_cons, !elem_of_app.
      assert (Hch : forall t' d, wf t' -> ok_child k' b' d t' -> (k1, b1, v1) ∈ f_enum t' -> b1 <> b').
      { intros t' d Hwt Hok Hin. eapply enum_child in Hin; eauto. lia. }
      assert (Hs : (k1, b1, v1) ∈ (if lf' then [(k', b', v')] else []) -> b1 = b' /\ agree W b' k1 k).
      { destruct lf'; [|by intros ?%elem_of_nil].
        intros [= -> -> ->]%elem_of_list_singleton. split; [done|]. by rewrite <- En. }
      specialize (Hch l false Hwl Hl) as Hcl. specialize (Hch r true Hwr Hr) as Hcr.
      tauto.
    + assert (Hbb : b' < b) by lia.
      assert (Hs : (k1, b1, v1) ∈ (if lf' then [(k', b', v')] else []) -> ~ (b1 = b /\ agree W b k1 k)).
      { destruct lf'; [|by intros ?%elem_of_nil].
        intros [= -> -> ->]%elem_of_list_singleton. intros [? ?]. lia. }
      assert (Ho : forall t' d, wf t' -> ok_child k' b' d t' -> (k1, b1, v1) ∈ f_enum t' ->
         d <> bitat W k n -> ~ (b1 = b /\ agree W b k1 k)).
      { intros t' d Hwt Hok Hin Hd [-> Ha]. destruct (enum_child _ _ _ _ _ _ _ Hwt Hok Hin) as (? & ? & ? & ? & E).
        apply Hd. rewrite En, <- E. apply Ha. lia. }
      destruct (bitat W k n) eqn:Ebit; cbn [f_enum]; rewrite !elem_of_app.
      * rewrite IHr by done. specialize (Ho l false Hwl Hl). intuition congruence.
      * rewrite IHl by done. specialize (Ho r true Hwr Hr). intuition congruence.
Qed.

Lemma same_spec k1 k2 b : k1 < 2 ^ W -> k2 < 2 ^ W -> b <= W -> reflect (agree W b k1 k2) (same k1 k2 b).
Proof. apply same_masked_spec. Qed.

(** Exact lookup. *)
Lemma exact_spec t k b e : wf t -> k < 2 ^ W -> b <= W ->
  f_exact t k b = Some e <-> (e ∈ f_enum t /\ e.1.2 = b /\ agree W b e.1.1 k).
Proof.
  intros Hw Hk Hb. destruct e as [[k1 b1] v1]. cbn [fst snd].
  induction t as [|k' b' lf' v' l IHl r IHr].
  { simpl. rewrite elem_of_nil. naive_solver. }
  pose proof Hw as (Hk' & Hb' & Hl & Hr & Hwl & Hwr & Hf).
  pose proof (enum_under _ Hw k1 b1 v1) as Hund.
  cbn [f_exact]. destruct (N.ltb_spec b b').
  { split; [done|]. intros (Hin & -> & _). specialize (Hund Hin). lia. }
  destruct (N.eqb_spec b' b) as [->|Hne].
  - assert (Hlow : (k1, b1, v1) ∈ f_enum (NT k' b lf' v' l r) -> b1 = b -> lf' = true /\ (k1, b1, v1) = (k', b, v')).
    { simpl. rewrite !elem_of_app. intros [Hin|[Hin|Hin]] ->.
      - destruct lf'; [|by apply elem_of_nil in Hin]. by apply elem_of_list_singleton in Hin.
      - eapply enum_child in Hin; eauto. lia.
      - eapply enum_child in Hin; eauto. lia. }
    destruct (same_spec k' k b) as [Hag|Hag]; try done.
    + destruct lf'; simpl; split.
      * intros [= <- <- <-]. split_and!; [|done|done]. apply elem_of_list_here.
      * intros (Hin & -> & _). destruct (Hlow Hin eq_refl) as (_ & ->). done.
      * done.
      * intros (Hin & -> & _). destruct (Hlow Hin eq_refl) as (? & _). done.
    + rewrite andb_false_r. split; [done|]. intros (Hin & -> & Ha).
      destruct (Hlow Hin eq_refl) as (_ & [= -> ->]). done.
  - destruct (same_spec k' k b') as [Hag|Hag]; try done; simpl negb; cbv iota.
    2:{ split; [done|]. intros (Hin & -> & Ha). destruct (Hund Hin) as (? & ? & ? & Ha'). exfalso.
        apply Hag. eapply agree_trans; [exact Ha'|]. eapply agree_le; [|exact Ha]. lia. }
    assert (Hs : (k1, b1, v1) ∈ (if lf' then [(k', b', v')] else []) -> b1 = b -> False).
    { destruct lf'; [|by intros ?%elem_of_nil]. intros [= -> -> ->]%elem_of_list_singleton. lia. }
    assert (Ho : forall t' d, wf t' -> ok_child k' b' d t' -> (k1, b1, v1) ∈ f_enum t' ->
         d <> bitat W k b' -> b1 = b -> agree W b k1 k -> False).
    { intros t' d Hwt Hok Hin Hd -> Ha. destruct (enum_child _ _ _ _ _ _ _ Hwt Hok Hin) as (? & ? & ? & ? & E).
      apply Hd. rewrite <- E. apply Ha. lia. }
    destruct (bitat W k b') eqn:Ebit.
    + rewrite IHr by done. specialize (Ho l false Hwl Hl). cbn [f_enum]. rewrite !elem_of_app.
      intuition congruence.
    + rewrite IHl by done. specialize (Ho r true Hwr Hr). cbn [f_enum]. rewrite !elem_of_app.
      intuition congruence.
Qed.

(** Longest match. *)
Definition is_match (t : ntree) (k b : N) (e : entry) : Prop :=
  e ∈ f_enum t /\ e.1.2 <= b /\ agree W e.1.2 e.1.1 k.

Lemma match_spec t k b : wf t -> k < 2 ^ W -> b <= W ->
  match f_match t k b with
  | Some e => is_match t k b e /\ forall e', is_match t k b e' -> e'.1.2 <= e.1.2
  | None => forall e', ~ is_match t k b e'
  end.
Proof.
  intros Hw Hk Hb. induction t as [|k' b' lf' v' l IHl r IHr].
  { intros e (Hin & _). by apply elem_of_nil in Hin. }
  pose proof Hw as (Hk' & Hb' & Hl & Hr & Hwl & Hwr & Hf).
  pose proof (enum_under _ Hw) as Hund. cbv beta iota in Hund.
  cbn [f_match]. destruct (N.ltb_spec b b').
  { intros [[k1 b1] v1] (Hin & Hle & _). simpl in Hle. specialize (Hund _ _ _ Hin). lia. }
  assert (Hroot : forall k1 b1 v1, (k1, b1, v1) ∈ f_enum (NT k' b' lf' v' l r) <->
     (lf' = true /\ k1 = k' /\ b1 = b' /\ v1 = v') \/ (k1, b1, v1) ∈ f_enum l \/ (k1, b1, v1) ∈ f_enum r).
  { intros k1 b1 v1. cbn [f_enum]. rewrite !elem_of_app.
    destruct lf'; rewrite ?elem_of_list_singleton, ?elem_of_nil; naive_solver. }
  assert (Hdis : ~ agree W b' k' k -> forall e', ~ is_match (NT k' b' lf' v' l r) k b e').
  { intros Hag [[k1 b1] v1] (Hin & Hle & Ha). simpl in Hle, Ha.
    destruct (Hund _ _ _ Hin) as (? & ? & ? & Ha'). apply Hag.
    eapply agree_trans; [exact Ha'|]. eapply agree_le; [|exact Ha]. lia. }
  destruct (N.eqb_spec b' b) as [->|Hne].
  - destruct (same_spec k' k b) as [Hag|Hag]; try done.
    + destruct lf'; simpl andb; cbv iota.
      * split.
        -- split_and!; [apply Hroot; auto|done|done].
        -- intros e' (_ & ? & _). done.
      * intros [[k1 b1] v1] (Hin & Hle & _). simpl in Hle.
        apply Hroot in Hin as [(? & _)|[Hin|Hin]]; [done| |]; eapply enum_child in Hin; eauto; lia.
    + rewrite andb_false_r. by apply Hdis.
  - destruct (same_spec k' k b') as [Hag|Hag]; try done; simpl negb; cbv iota; [|by apply Hdis].
    assert (Ho : forall t' d k1 b1 v1, wf t' -> ok_child k' b' d t' -> (k1, b1, v1) ∈ f_enum t' ->
         d <> bitat W k b' -> agree W b1 k1 k -> False).
    { intros t' d k1 b1 v1 Hwt Hok Hin Hd Ha. destruct (enum_child _ _ _ _ _ _ _ Hwt Hok Hin) as (? & ? & ? & ? & E).
      apply Hd. rewrite <- E. apply Ha. lia. }
    set (ch := if bitat W k b' then r else l).
    assert (Hwc : wf ch) by (unfold ch; by destruct (bitat W k b')).
    assert (Hokc : ok_child k' b' (bitat W k b') ch) by (unfold ch; by destruct (bitat W k b')).
    assert (IH : match f_match ch k b with
      | Some e => is_match ch k b e /\ forall e', is_match ch k b e' -> e'.1.2 <= e.1.2
      | None => forall e', ~ is_match ch k b e' end)
      by (unfold ch; destruct (bitat W k b'); [exact (IHr Hwr)|exact (IHl Hwl)]).
    assert (Hcase : forall k1 b1 v1, is_match (NT k' b' lf' v' l r) k b (k1, b1, v1) <->
       (lf' = true /\ k1 = k' /\ b1 = b' /\ v1 = v') \/ is_match ch k b (k1, b1, v1)).
    { intros k1 b1 v1. split.
      - intros (Hin & Hle & Ha). simpl in Hle, Ha. apply Hroot in Hin as [?|[Hin|Hin]]; [by left| |].
        + right. unfold ch. destruct (bitat W k b') eqn:Ebit; [|by split_and!].
          exfalso. eapply (Ho l false); eauto; congruence.
        + right. unfold ch. destruct (bitat W k b') eqn:Ebit; [by split_and!|].
          exfalso. eapply (Ho r true); eauto; congruence.
      - intros [(-> & -> & -> & ->)|(Hin & Hle & Ha)].
        + split_and!; [apply Hroot; auto|done|done].
        + split_and!; [|done|done]. apply Hroot. right. unfold ch in Hin. destruct (bitat W k b'); auto. }
    clearbody ch. destruct (f_match ch k b) as [[[k1 b1] v1]|].
    + destruct IH as (Hm & Hmax). split; [apply Hcase; by right|].
      intros [[k2 b2] v2] [(_ & -> & -> & ->)|H2]%Hcase; [|by apply Hmax].
      destruct Hm as (Hin & _). eapply enum_child in Hin; eauto. simpl. lia.
    + destruct lf'.
      * split.
        -- apply Hcase. by left.
        -- intros [[k2 b2] v2] [(_ & -> & -> & ->)|H2]%Hcase; [done|]. by apply IH in H2.
      * intros [[k2 b2] v2] [(? & _)|H2]%Hcase; [done|]. by apply IH in H2.
Qed.

(** Delete. *)
Definition contained (k b : N) (e : entry) : Prop := b <= e.1.2 /\ agree W b e.1.1 k.

Lemma wf_nonempty t : wf t -> t <> NE -> exists e, e ∈ f_enum t.
Proof.
  intros Hw Hne. destruct (nodes_bound t Hw Hne) as [_ H].
  destruct (f_enum t) as [|e es]; [simpl in H; lia|]. exists e. apply elem_of_list_here.
Qed.

Lemma del_ok_child t k b pk pb d : wf t -> ok_child pk pb d t -> ok_child pk pb d (f_del t k b).1.
Proof.
  intros Hw Hc. destruct t as [|k' b' lf' v' l r]; [done|].
  pose proof Hw as (Hk' & Hb' & Hl & Hr & Hwl & Hwr & Hf).
  assert (Hgc : forall t' d', ok_child k' b' d' t' -> ok_child pk pb d t').
  { destruct Hc as (? & Ha & Hd). intros [|k2 b2 lf2 v2 l2 r2] d'; [done|].
    intros (? & Ha2 & _). split_and!; [lia| |].
    - eapply agree_trans; [exact Ha|]. eapply agree_le; [|exact Ha2]. lia.
    - rewrite <- Hd. symmetry. apply Ha2. lia. }
  cbn [f_del]. destruct (b <=? b'); [destruct (same k' k b); done|].
  destruct (negb (same k' k b')); [done|].
  destruct (bitat W k b').
  - destruct (f_del r k b) as [r' []]; simpl; [|done].
    destruct (is_NE r' && negb lf'); [|done]. eapply Hgc; eauto.
  - destruct (f_del l k b) as [l' []]; simpl; [|done].
    destruct (is_NE l' && negb lf'); [|done]. eapply Hgc; eauto.
Qed.

Lemma del_false t k b : (f_del t k b).2 = false -> (f_del t k b).1 = t.
Proof.
  destruct t as [|k' b' lf' v' l r]; [done|]. cbn [f_del].
  destruct (b <=? b'); [destruct (same k' k b); done|].
  destruct (negb (same k' k b')); [done|].
  destruct (bitat W k b').
  - destruct (f_del r k b) as [r' []]; simpl; [|done]. destruct (is_NE r' && negb lf'); done.
  - destruct (f_del l k b) as [l' []]; simpl; [|done]. destruct (is_NE l' && negb lf'); done.
Qed.

Lemma del_wf t k b : wf t -> wf (f_del t k b).1.
Proof.
  induction t as [|k' b' lf' v' l IHl r IHr]; [done|]. intros Hw.
  pose proof Hw as (Hk' & Hb' & Hl & Hr & Hwl & Hwr & Hf).
  cbn [f_del]. destruct (b <=? b'); [destruct (same k' k b); done|].
  destruct (negb (same k' k b')); [done|].
  destruct (bitat W k b').
  - pose proof (del_ok_child r k b _ _ _ Hwr Hr) as Hok. specialize (IHr Hwr).
    destruct (f_del r k b) as [r' []]; simpl in Hok, IHr |- *; [|done].
    destruct (is_NE r' && negb lf') eqn:E; [done|].
    cbn [wf]. split_and!; try done. intros ->. destruct (Hf eq_refl) as (? & ? & ? & ?).
    split_and!; [done| |done|done]. intros ->. done.
  - pose proof (del_ok_child l k b _ _ _ Hwl Hl) as Hok. specialize (IHl Hwl).
    destruct (f_del l k b) as [l' []]; simpl in Hok, IHl |- *; [|done].
    destruct (is_NE l' && negb lf') eqn:E; [done|].
    cbn [wf]. split_and!; try done. intros ->. destruct (Hf eq_refl) as (? & ? & ? & ?).
    split_and!; [|done|done|done]. intros ->. done.
Qed.

Lemma del_elem t k b e : wf t -> k < 2 ^ W -> b <= W ->
  (e ∈ f_enum (f_del t k b).1 <-> e ∈ f_enum t /\ ~ contained k b e).
Proof.
  intros Hw Hk Hb. destruct e as [[k1 b1] v1]. unfold contained. cbn [fst snd].
  induction t as [|k' b' lf' v' l IHl r IHr].
  { simpl. rewrite elem_of_nil. tauto. }
  pose proof Hw as (Hk' & Hb' & Hl & Hr & Hwl & Hwr & Hf).
  pose proof (enum_under _ Hw k1 b1 v1) as Hund.
  cbn [f_del]. destruct (N.leb_spec b b').
  - destruct (same_spec k' k b) as [Hag|Hag]; try done; simpl.
    + rewrite elem_of_nil. split; [done|]. intros [Hin Hn]. apply Hn.
      destruct (Hund Hin) as (? & ? & ? & Ha). split; [lia|].
      eapply agree_trans; [|exact Hag]. apply agree_sym. eapply agree_le; [|exact Ha]. lia.
    + split; [|tauto]. intros Hin. split; [done|]. intros (? & Ha).
      destruct (Hund Hin) as (? & ? & ? & Ha'). apply Hag.
      eapply agree_trans; [|exact Ha]. eapply agree_le; [|exact Ha']. lia.
  - destruct (same_spec k' k b') as [Hag|Hag]; try done; simpl negb; cbv iota.
    2:{ simpl. split; [|tauto]. intros Hin. split; [done|]. intros (? & Ha).
        destruct (Hund Hin) as (? & ? & ? & Ha'). apply Hag.
        eapply agree_trans; [exact Ha'|]. eapply agree_le; [|exact Ha]. lia. }
    assert (Hs : (k1, b1, v1) ∈ (if lf' then [(k', b', v')] else []) -> ~ (b <= b1 /\ agree W b k1 k)).
    { destruct lf'; [|by intros ?%elem_of_nil].
      intros [= -> -> ->]%elem_of_list_singleton. lia. }
    assert (Ho : forall t' d, wf t' -> ok_child k' b' d t' -> (k1, b1, v1) ∈ f_enum t' ->
         d <> bitat W k b' -> ~ (b <= b1 /\ agree W b k1 k)).
    { intros t' d Hwt Hok Hin Hd (? & Ha). destruct (enum_child _ _ _ _ _ _ _ Hwt Hok Hin) as (? & ? & ? & ? & E).
      apply Hd. rewrite <- E. apply Ha. lia. }
    destruct (bitat W k b') eqn:Ebit.
    + specialize (IHr Hwr). pose proof (del_false r k b) as Hdf.
      specialize (Ho l false Hwl Hl).
      destruct (f_del r k b) as [r' []]; simpl in IHr, Hdf |- *.
      * destruct (is_NE r' && negb lf') eqn:E; simpl.
        -- apply andb_true_iff in E as [E1 E2]. destruct r'; [|done]. destruct lf'; [done|].
           simpl in IHr |- *. rewrite elem_of_nil in IHr. rewrite !elem_of_app. intuition congruence.
        -- rewrite !elem_of_app, IHr. intuition congruence.
      * rewrite Hdf in IHr by done. rewrite !elem_of_app. intuition congruence.
    + specialize (IHl Hwl). pose proof (del_false l k b) as Hdf.
      specialize (Ho r true Hwr Hr).
      destruct (f_del l k b) as [l' []]; simpl in IHl, Hdf |- *.
      * destruct (is_NE l' && negb lf') eqn:E; simpl.
        -- apply andb_true_iff in E as [E1 E2]. destruct l'; [|done]. destruct lf'; [done|].
           simpl in IHl |- *. rewrite elem_of_nil in IHl. rewrite !elem_of_app. intuition congruence.
        -- rewrite !elem_of_app, IHl. intuition congruence.
      * rewrite Hdf in IHl by done. rewrite !elem_of_app. intuition congruence.
Qed.

Lemma del_flag t k b : wf t -> k < 2 ^ W -> b <= W ->
  (f_del t k b).2 = true <-> exists e, e ∈ f_enum t /\ contained k b e.
Proof.
  intros Hw Hk Hb. induction t as [|k' b' lf' v' l IHl r IHr].
  { simpl. split; [done|]. by intros (? & ?%elem_of_nil & _). }
  pose proof Hw as (Hk' & Hb' & Hl & Hr & Hwl & Hwr & Hf).
  pose proof (enum_under _ Hw) as Hund. cbv beta iota in Hund.
  cbn [f_del]. destruct (N.leb_spec b b').
  - destruct (same_spec k' k b) as [Hag|Hag]; try done; simpl.
    + split; [intros _|done]. destruct (wf_nonempty _ Hw) as ([[k1 b1] v1] & Hin); [done|].
      exists (k1, b1, v1). split; [done|]. destruct (Hund _ _ _ Hin) as (? & ? & ? & Ha).
      split; simpl; [lia|]. eapply agree_trans; [|exact Hag]. apply agree_sym. eapply agree_le; [|exact Ha]. lia.
    + split; [done|]. intros ([[k1 b1] v1] & Hin & ? & Ha). simpl in *.
      destruct (Hund _ _ _ Hin) as (? & ? & ? & Ha'). exfalso. apply Hag.
      eapply agree_trans; [|exact Ha]. eapply agree_le; [|exact Ha']. lia.
  - destruct (same_spec k' k b') as [Hag|Hag]; try done; simpl negb; cbv iota.
    2:{ simpl. split; [done|]. intros ([[k1 b1] v1] & Hin & ? & Ha). simpl in *.
        destruct (Hund _ _ _ Hin) as (? & ? & ? & Ha'). exfalso. apply Hag.
        eapply agree_trans; [exact Ha'|]. eapply agree_le; [|exact Ha]. lia. }
    assert (Hs : forall e, e ∈ (if lf' then [(k', b', v')] else []) -> ~ contained k b e).
    { intros e. destruct lf'; [|by intros ?%elem_of_nil].
      intros ->%elem_of_list_singleton. intros [? _]. simpl in *. lia. }
    assert (Ho : forall t' d e, wf t' -> ok_child k' b' d t' -> e ∈ f_enum t' ->
         d <> bitat W k b' -> ~ contained k b e).
    { intros t' d [[k1 b1] v1] Hwt Hok Hin Hd (? & Ha). simpl in *.
      destruct (enum_child _ _ _ _ _ _ _ Hwt Hok Hin) as (? & ? & ? & ? & E).
      apply Hd. rewrite <- E. apply Ha. lia. }
    destruct (bitat W k b') eqn:Ebit.
    + specialize (IHr Hwr).
      assert (E : (let '(r', ok) := f_del r k b in
        if negb ok then (NT k' b' lf' v' l r, false) else if is_NE r' && negb lf' then (l, true)
        else (NT k' b' lf' v' l r', true)).2 = (f_del r k b).2).
      { destruct (f_del r k b) as [r' []]; simpl; [|done]. destruct (is_NE r' && negb lf'); done. }
      rewrite E, IHr. cbn [f_enum]. split.
      * intros (e & Hin & ?). exists e. rewrite !elem_of_app. auto.
      * intros (e & Hin & Hc). rewrite !elem_of_app in Hin. destruct Hin as [Hin|[Hin|Hin]].
        -- by apply Hs in Hin.
        -- exfalso. eapply (Ho l false); eauto.
        -- eauto.
    + specialize (IHl Hwl).
      assert (E : (let '(l', ok) := f_del l k b in
        if negb ok then (NT k' b' lf' v' l r, false) else if is_NE l' && negb lf' then (r, true)
        else (NT k' b' lf' v' l' r, true)).2 = (f_del l k b).2).
      { destruct (f_del l k b) as [l' []]; simpl; [|done]. destruct (is_NE l' && negb lf'); done. }
      rewrite E, IHl. cbn [f_enum]. split.
      * intros (e & Hin & ?). exists e. rewrite !elem_of_app. auto.
      * intros (e & Hin & Hc). rewrite !elem_of_app in Hin. destruct Hin as [Hin|[Hin|Hin]].
        -- by apply Hs in Hin.
        -- eauto.
        -- exfalso. eapply (Ho r true); eauto.
Qed.

End fun_model.
Global Arguments ntree : clear implicits.
Global Arguments entry : clear implicits.
