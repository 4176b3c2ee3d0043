(** * Proofs for Properties_ip_all.v *)
From Verif Require Import Prog History NumModel NumSpec NumAbs NumFoot IpModel IpSpec IpUpdSpec IpBits IpAbs IpAbs2 IpAbs3 IpAbs4 IpEnum IpHist IpPropProofs NumShare IpUpd IpUpd2 IpUpd3 IpUpd4 IpUpdProofs.
From Verif Require Import CallProofs WorkProofs ShareSpec Opaque ShareProofs MixProofs IpKinds IpKinds2 IpKinds3 IpKinds4 IpVersSpec IpVersProofs IpAllSpec.
Open Scope nat_scope.

(** The client: it calls UpdateDescendants and InplaceInsert on trees that are not nil only. *)
Definition a_exec {U St} (vs : list ptr) (o : aop (value U) St) : prog U (list ptr * aout (value U) St) :=
  match o with
  | AOp o => r <- w_exec vs o ;; Ret (r.1, AOut r.2)
  | AUpdate i n cb s =>
    match nth i vs None with
    | None => Ret (vs, ASt s)
    | Some a => s' <- ip_update cb (Some a) (Some n) s ;; Ret (vs, ASt s')
    end
  end.

Section any.
Context {U : Type}.
Local Notation heap := (heap U).
Local Notation value := (value U).
Implicit Types h : heap.
Lemma enum_of_get (G : net -> option value) e q v : enum_of G e -> G q = Some v <-> exists x, x ∈ e /\ canonical x.1.1 x.1.2 q /\ x.2 = v.
Proof.
  intros (ps & Hs & Hps & Hf). rewrite <- Hps. split.
  - intros H. apply elem_of_list_lookup in H as [j Hj]. destruct (Forall2_lookup_r _ _ _ _ _ Hf Hj) as (x & Hx & E & C). cbn [fst snd] in *. exists x. split_and!; [by eapply elem_of_list_lookup_2|done|done].
  - intros (x & Hx & C & <-). apply elem_of_list_lookup in Hx as [j Hj]. destruct (Forall2_lookup_l _ _ _ _ _ Hf Hj) as ([q2 v2] & Hq & E & C2). cbn [fst snd] in *. 
    pose proof (is_net_fun (U := unit) (1%positive, (x.1, VNil)) q2 q C2 C) as ->. apply elem_of_list_lookup_2 in Hq. rewrite E. exact Hq.
Qed.
Lemma itree_fun h t (G G' : net -> option value) : itree h t G -> itree h t G' -> forall q, G q = G' q.
Proof.
  intros H1 H2. assert (He : exists e, enum_of G e /\ enum_of G' e).
  { apply (wp_extract (ip_enumerate t) _ h ∅). eapply wp_mono; [apply wp_and; [apply (ip_enumerate_at h ∅ t G H1)|apply (ip_enumerate_at h ∅ t G' H2)]|]. cbn beta. intros e h2 W2 [[_ A] [_ B]]. by exists e. }
  destruct He as (e & A & B). intros q. destruct (G q) as [v|] eqn:E.
  - symmetry. apply (enum_of_get _ _ _ _ B). by apply (enum_of_get _ _ _ _ A).
  - destruct (G' q) as [v|] eqn:E'; [|done]. apply (enum_of_get _ _ _ _ B) in E'. apply (enum_of_get _ _ _ _ A) in E'. congruence.
Qed.
(** Enumerations that correspond entry by entry. *)
Lemma pair_get (R : value -> value -> Prop) (l l2 : ilog value) f f' q : nenumerates l f -> nenumerates l2 f' -> Forall2 (fun x y => x.1 = y.1 /\ R x.2 y.2) f f' ->
  match ilog_get l q, ilog_get l2 q with Some v, Some v' => R v v' | None, None => True | _, _ => False end.
Proof.
  intros H1 H2 Hf.
  assert (A : forall v, ilog_get l q = Some v -> exists v2, ilog_get l2 q = Some v2 /\ R v v2).
  { intros v H. apply (enum_get _ _ _ _ H1) in H as (x & Hx & C & <-). apply elem_of_list_lookup in Hx as [j Hj]. destruct (Forall2_lookup_l _ _ _ _ _ Hf Hj) as (y & Hy & E & D). exists y.2. split; [|done].
    apply (enum_get _ _ _ _ H2). exists y. split_and!; [by eapply elem_of_list_lookup_2|by rewrite <- E|done]. }
  assert (B : forall v, ilog_get l2 q = Some v -> ilog_get l q <> None).
  { intros v H. apply (enum_get _ _ _ _ H2) in H as (y & Hy & C & <-). apply elem_of_list_lookup in Hy as [j Hj]. destruct (Forall2_lookup_r _ _ _ _ _ Hf Hj) as (x & Hx & E & D).
    assert (H : ilog_get l q = Some x.2); [|by rewrite H]. apply (enum_get _ _ _ _ H1). exists x. split_and!; [by eapply elem_of_list_lookup_2|by rewrite E|done]. }
  destruct (ilog_get l q) as [v|] eqn:E.
  - destruct (A v eq_refl) as (v2 & -> & H). done.
  - destruct (ilog_get l2 q) as [v|] eqn:E2; [|done]. by destruct (B v eq_refl).
Qed.
Lemma nenum_ext (l l2 : ilog value) e : (forall q, ilog_get l q = ilog_get l2 q) -> nenumerates l e -> nenumerates l2 e.
Proof. intros E (ps & H1 & H2 & H3). exists ps. split_and!; [done| |done]. intros p v. rewrite H2. by rewrite E. Qed.
Lemma vrel_all h h' (K : kd -> gset loc) vs (gs gs' : list (ilog value)) : kgood h K -> vrel h h' -> Forall2 (kR h K) vs gs -> Forall2 (ipR h') vs gs' -> kgood h' K /\ Forall2 (kR h' K) vs gs'.
Proof.
  intros HG Hv Hk Hi. assert (HG' : kgood h' K). { by apply (kitree_vrel h h' K None (fun _ => None)). } split; [done|].
  revert gs Hk. induction Hi as [|t l' vs gs' Ht Hi IH]; intros gs Hk; inversion Hk as [|? l ? gs0 K1 K2]; subst; constructor; [|by eapply IH].
  destruct (kitree_vrel h h' K t _ HG Hv K1) as [_ [G' H]]. unfold kR. eapply kitree_ext; [|exact H]. apply (itree_fun h' t); [by eapply kitree_itree|exact Ht].
Qed.
End any.

Section tagged.
Context {U St : Type}.
Local Notation tag := (net * nat)%type.
Local Notation U' := (value U * tag)%type.
Local Notation erp := (erp (untag (U := U))).
Local Notation erv := (erv (untag (U := U))).
Local Notation slog := (ilog (nat * value U)).
Local Notation kinds := (kd -> gset loc).
(** The values are those of their networks. *)
Definition own (l : ilog (value U')) : Prop := forall q v, ilog_get l q = Some v -> exists y, v = tg q y /\ plain y.2.
Lemma get_in (l : slog) q y : ilog_get l q = Some y -> ILIns q y ∈ l.
Proof.
  induction l as [|[p v|p] l IH]; cbn [ilog_get]; [done|..].
  - destruct (decide (p = q)) as [->|]; [intros [= ->]; by left|]. intros H. right. by apply IH.
  - destruct (decide (ncovers p q)); [done|]. intros H. right. by apply IH.
Qed.
Lemma own_tl (l : slog) : lplain l -> own (tl l).
Proof. intros Hp q v. rewrite tl_get. intros H. apply fmap_Some in H as (y & H & ->). exists y. split; [done|]. apply (Hp q). by apply get_in. Qed.
Definition unt (v : value U') : nat * value U := match v with VUser (w, (_, i)) => (i, w) | _ => (0, VNil) end.
Lemma unt_tg q y : unt (tg q y) = y.
Proof. by destruct y. Qed.
Lemma relog (l2 : ilog (value U')) f : nenumerates l2 f -> own l2 -> exists l' : slog, lplain l' /\ forall q, ilog_get (tl l') q = ilog_get l2 q.
Proof.
  intros (ps & _ & Hps & _) Ho. exists (map (fun x => ILIns x.1 (unt x.2)) ps). split.
  - intros p x Hx. apply elem_of_list_fmap in Hx as ([p' v] & [= -> ->] & Hin). cbn [fst snd] in *. apply Hps in Hin. destruct (Ho _ _ Hin) as (y & -> & Hy). by rewrite unt_tg.
  - intros q. rewrite tl_get.
    assert (Hall : forall p v, (p, v) ∈ ps -> ilog_get l2 p = Some v) by (intros; by apply Hps).
    assert (Hin : forall v, ilog_get l2 q = Some v -> (q, v) ∈ ps) by (intros; by apply Hps).
    clear Hps. revert Hall Hin. induction ps as [|[p v] ps IH]; intros Hall Hin; cbn [map ilog_get fst snd].
    + destruct (ilog_get l2 q) as [v|]; [|done]. exfalso. specialize (Hin v eq_refl). by apply elem_of_nil in Hin.
    + pose proof (Hall p v ltac:(by left)) as Hv. destruct (decide (p = q)) as [->|Hne].
      * destruct (Ho _ _ Hv) as (y & -> & _). cbn [fmap option_fmap option_map]. by rewrite unt_tg, Hv.
      * apply IH; [intros p' v' Hin'; apply Hall; by right|]. intros v' E. apply Hin in E. apply elem_of_cons in E as [[= -> _]|E]; [done|exact E].
Qed.
Lemma walk_pairs (cb : St -> bytes * bytes * value U -> St * option (value U)) p s e s' e' : cb_plain cb -> uwalk (cbt cb) p s e s' e' ->
  Forall2 (fun x y : bytes * bytes * value U' => x.1 = y.1 /\ (y.2 = x.2 \/ exists w, plain w /\ y.2 = retag x.2 w)) e e'.
Proof.
  intros Hcb H. induction H as [s|s ip m q v s1 r e s2 e' Hc Hin Hne Hcall H IH|s ip m q v e s2 e' Hc Hout H IH]; constructor; try done; [|split; [done|by left]].
  split; [done|]. cbn [snd]. destruct r as [r|]; cbn [default]; [|by left]. right. unfold cbt in Hcall. cbn zeta in Hcall. destruct (cb s (erp (ip, m, v))) as [s3 [u|]] eqn:E; cbn [fst snd fmap option_fmap option_map] in Hcall; [|done].
  injection Hcall as _ <-. exists u. split; [|done]. by apply (Hcb s (erp (ip, m, v)) s3).
Qed.
Lemma retag_tg q (y : nat * value U) w : retag (tg q y) w = tg q (y.1, w).
Proof. done. Qed.
(** *** An update. *)
Definition updated (p : net) (li li' l l' : slog) : Prop := forall q,
  fst <$> ilog_get l' q = fst <$> ilog_get l q /\
  (ilog_get l' q = ilog_get l q \/ (ncovers p q /\ p <> q /\ ilog_get l q = ilog_get li q /\ ilog_get l' q = ilog_get li' q)).
Definition walked (v v' : value U') : Prop := v' = v \/ exists w, plain w /\ v' = retag v w.
Definition swapped (p : net) (li li2 : ilog (value U')) (v v' : value U') : Prop :=
  v = v' \/ exists q, ilog_get li q = Some v /\ ilog_get li2 q = Some v' /\ ncovers p q /\ p <> q.
Lemma swaps_get p e e' (li li2 l l2 : ilog (value U')) f f' q : nenumerates li e -> nenumerates li2 e' -> nenumerates l f -> nenumerates l2 f' -> Forall2 (swaps p e e') f f' ->
  match ilog_get l q, ilog_get l2 q with Some v, Some v' => swapped p li li2 v v' | None, None => True | _, _ => False end.
Proof.
  intros He He' Hf Hf' Hs. eapply (pair_get (swapped p li li2)); [exact Hf|exact Hf'|]. eapply Forall2_impl; [exact Hs|]. intros x y [E1 E2]. split; [done|].
  destruct E2 as [E2|(x0 & q0 & H1 & H2 & H3 & H4 & H5 & H6)]; [by left|]. right. exists q0. split_and!; [|..|done|done].
  - apply (enum_get _ _ _ _ He). by exists x0.
  - apply (enum_get _ _ _ _ He'). by exists (x0.1, y.2).
Qed.
Lemma updated_one p (li li' l l' : slog) (li2 l2 : ilog (value U')) : 
  (forall q, match ilog_get (tl li) q, ilog_get li2 q with Some v, Some v' => walked v v' | None, None => True | _, _ => False end) ->
  (forall q, match ilog_get (tl l) q, ilog_get l2 q with Some v, Some v' => swapped p (tl li) li2 v v' | None, None => True | _, _ => False end) ->
  (forall q, ilog_get (tl li') q = ilog_get li2 q) -> (forall q, ilog_get (tl l') q = ilog_get l2 q) -> updated p li li' l l'.
Proof.
  intros Hw Hs E1 E2 q. specialize (Hs q). rewrite <- E2 in Hs.
  destruct (ilog_get (tl l) q) as [v|] eqn:El, (ilog_get (tl l') q) as [v'|] eqn:El'; try done.
  2: { assert (ilog_get l' q = ilog_get l q) as -> by (apply tl_eq; congruence). split; [done|by left]. }
  destruct Hs as [<-|(q' & A1 & A2 & A3 & A4)]; [assert (ilog_get l' q = ilog_get l q) as -> by (apply tl_eq; congruence); split; [done|by left]|].
  assert (q' = q) as ->.
  { rewrite tl_get in El, A1. apply fmap_Some in El as (y & _ & ->). apply fmap_Some in A1 as (y' & _ & E). unfold tg, tagv in E. congruence. }
  pose proof (Hw q) as Hq. rewrite A1, A2 in Hq. rewrite <- E1 in A2.
  assert (B1 : ilog_get l q = ilog_get li q) by (apply tl_eq; congruence). assert (B2 : ilog_get l' q = ilog_get li' q) by (apply tl_eq; congruence).
  split; [|by right]. rewrite tl_get in El, El'. apply fmap_Some in El as (y & Y1 & Y2). apply fmap_Some in El' as (y' & Z1 & Z2). rewrite Y1, Z1. cbn [fmap option_fmap option_map]. f_equal.
  destruct Hq as [->|(w & _ & ->)]; [rewrite Y2 in Z2; by apply tg_inj in Z2 as ->|]. rewrite Y2, retag_tg in Z2. by apply tg_inj in Z2 as <-.
Qed.
Definition aop_sim (c : nat) (o' : aop (value U') St) (o : aop (value U) St) : Prop :=
  match o with
  | AOp o => exists o2, o' = AOp o2 /\ wop_sim c o2 o
  | AUpdate i n cb s => o' = AUpdate i n (cbt cb) s /\ cb_plain cb
  end.
Fixpoint aops_sim (c : nat) (ops' : list (aop (value U') St)) (ops : list (aop (value U) St)) : Prop :=
  match ops', ops with
  | [], [] => True
  | o' :: ops', o :: ops => aop_sim c o' o /\ aops_sim (S c) ops' ops
  | _, _ => False
  end.
Definition aout_sim (x' : aout (value U') St) (x : aout (value U) St) : Prop :=
  match x', x with AOut x', AOut x => out_sim untag x' x | ASt s', ASt s => s' = s | _, _ => False end.
Lemma aops_total ops : Forall aop_ok ops -> forall c, exists ops', aops_sim c ops' ops.
Proof.
  induction 1 as [|o ops Ho H IH]; intros c; [by exists []|]. destruct (IH (S c)) as [ops' H']. destruct o as [o|i n cb s].
  - destruct (wops_total [o] ltac:(by constructor) c) as [ops2 H2]. destruct ops2 as [|o' [|o'' ops2]]; cbn [wops_sim] in H2; [done| |by destruct H2]. destruct H2 as [Hs _]. exists (AOp o' :: ops'). split; [|done]. by exists o'.
  - exists (AUpdate i n (cbt cb) s :: ops'). done.
Qed.
Lemma ps_aexec c o' o vs : aop_sim c o' o -> psim untag (fun r' r => r'.1 = r.1 /\ aout_sim r'.2 r.2) (a_exec vs o') (a_exec vs o).
Proof.
  destruct o as [o|i n cb s]; cbn [aop_sim].
  - intros (o2 & -> & Hs). cbn [a_exec]. eapply psim_bind; [by apply (ps_wexec c)|]. intros [vs1 x'] [vs2 x] [E Hx]. cbn [fst snd] in *. subst. constructor. done.
  - intros [-> Hcb]. cbn [a_exec]. destruct (nth i vs None) as [a|]; [|by constructor]. eapply psim_bind; [apply (ps_update untag untag_plain (cbt cb) cb (cbt_sim cb Hcb))|]. intros s1 s2 ->. by constructor.
Qed.
Lemma ps_ahist ops' : forall c ops vs, aops_sim c ops' ops -> psim untag (fun r' r => r'.1 = r.1 /\ Forall2 aout_sim r'.2 r.2) (run_hist a_exec ops' vs) (run_hist a_exec ops vs).
Proof.
  induction ops' as [|o' ops' IH]; intros c [|o ops] vs; cbn [aops_sim]; try done; cbn [run_hist].
  - intros _. apply ps_ret. split; [done|constructor].
  - intros [Ho H]. eapply psim_bind; [by apply (ps_aexec c)|]. intros [vs1 x'] [vs2 x] [E Hx]. cbn [fst snd] in *. subst vs2.
    eapply psim_bind; [by apply (IH (S c))|]. intros [ws1 y'] [ws2 y] [E2 Hy]. cbn [fst snd] in *. subst. constructor. split; [done|]. by constructor.
Qed.
Lemma wR_next c (h : heap U') vs ids gs : wR c h vs ids gs -> wR (S c) h vs ids gs.
Proof. intros [H1 (f & H2 & H3) H4]. split; [done| |done]. exists f. split; [by eapply fok_new|done]. Qed.
Lemma a_update c (cb : St -> bytes * bytes * value U -> St * option (value U)) (h : heap U') (W : gset loc) vs ids gs i n s : dom h ⊆ W -> wR c h vs ids gs -> cb_plain cb ->
  wp (a_exec vs (AUpdate i n (cbt cb) s)) h W (fun r h' W' => exists s', r.2 = ASt s' /\ exists gs', wR (S c) h' r.1 ids gs' /\ astep c ids gs (AUpdate i n cb s) ids gs' (ASt s')).
Proof.
  intros HW HwR Hcb. pose proof HwR as [(K & HG & HR) (f & Hf & Hid) Hpl]. cbn [a_exec].
  assert (Hip : Forall2 (ipR h) vs (map tl gs)). { eapply Forall2_impl; [exact HR|]. intros t l. by apply kitree_itree. }
  assert (Etg : forall q, is_target (unstamp (nth i gs [])) (Some n) q <-> is_target (tl (nth i gs [])) (Some n) q).
  { intros q. rewrite <- tl_erl by (by apply lplain_nth). by rewrite erl_target. }
  destruct (ikey_total (KNet (Some n))) as [r Hr]. inversion Hr as [? p Hp|? Hno| |]; subst.
  2: { destruct (nth i vs None) as [a|] eqn:Ea.
    - apply wp_bind. eapply wp_mono; [by apply (ip_pf_update_none (cbt cb))|]. cbn beta. intros s' h' W' [-> ->]. cbn [wp fst snd]. exists s. split; [done|]. exists gs. split; [by apply wR_next|by apply as_no_net].
    - cbn [wp fst snd]. exists s. split; [done|]. exists gs. split; [by apply wR_next|by apply as_no_net]. }
  destruct (nth i vs None) as [a|] eqn:Ea.
  2: { cbn [wp fst snd]. exists s. split; [done|]. exists gs. split; [by apply wR_next|]. eapply as_no_target; [done|]. rewrite Etg.
    pose proof (ipR_nth h vs _ i Hip) as Ht. rewrite Ea, tl_nth in Ht. cbn [ipR itree] in Ht. intros [[v Hv]|[_ [(q' & [v Hv] & _) _]]]; rewrite Ht in Hv; done. }
  apply wp_bind. eapply wp_mono; [by apply (update_all (cbt cb) (cbt_plain cb) h W vs (map tl gs) i a n p s)|]. cbn beta. intros s' h' W' [(gs2 & e & e' & G1 & Htg & He & He' & Hw & Hv & Hall)|(Hno & -> & ->)]; cbn [wp fst snd]; exists s' || exists s; (split; [done|]).
  2: { exists gs. split; [by apply wR_next|]. eapply as_no_target; [done|]. rewrite Etg. by rewrite tl_nth in Hno. }
  destruct (vrel_all h h' K vs _ _ HG Hv HR G1) as [HG' HR'].
  rewrite tl_nth in Htg, He.
  assert (Hwk : forall q, match ilog_get (tl (nth i gs [])) q, ilog_get (nth i gs2 []) q with Some v, Some v' => walked v v' | None, None => True | _, _ => False end).
  { intros q. eapply (pair_get walked); [exact He|exact He'|]. eapply walk_pairs; [exact Hcb|exact Hw]. }
  assert (Hsw : forall j q, match ilog_get (tl (nth j gs [])) q, ilog_get (nth j gs2 []) q with Some v, Some v' => swapped p (tl (nth i gs [])) (nth i gs2 []) v v' | None, None => True | _, _ => False end).
  { intros j q. destruct (Hall j) as (f1 & f2 & F1 & F2 & F3). rewrite tl_nth in F1. by eapply (swaps_get p e e'). }
  assert (Howni : own (nth i gs2 [])).
  { intros q v E. specialize (Hwk q). rewrite E in Hwk. destruct (ilog_get (tl (nth i gs [])) q) as [v0|] eqn:E0; [|done]. destruct (own_tl _ (lplain_nth _ i Hpl) _ _ E0) as (y & -> & Hy).
    destruct Hwk as [->|(w & Hpw & ->)]; [by exists y|]. rewrite retag_tg. exists (y.1, w). done. }
  assert (Hown : forall j, own (nth j gs2 [])).
  { intros j q v E. specialize (Hsw j q). rewrite E in Hsw. destruct (ilog_get (tl (nth j gs [])) q) as [v0|] eqn:E0; [|done]. pose proof (own_tl _ (lplain_nth _ j Hpl) _ _ E0) as (y & -> & Hy).
    destruct Hsw as [<-|(q' & A1 & A2 & _)]; [by exists y|]. assert (q' = q) as ->.
    { rewrite tl_get in A1. apply fmap_Some in A1 as (y' & _ & E'). unfold tg, tagv in E'. congruence. }
    by apply Howni. }
  assert (Hlen : length gs2 = length gs). { rewrite <- (map_length tl gs). etrans; [symmetry; exact (Forall2_length _ _ _ G1)|exact (Forall2_length _ _ _ HR)]. }
  assert (Hgs : exists gs', length gs' = length gs2 /\ Forall lplain gs' /\ forall j q, ilog_get (tl (nth j gs' [])) q = ilog_get (nth j gs2 []) q).
  { assert (Hnth : forall j, exists f', nenumerates (nth j gs2 []) f') by (intros j; destruct (Hall j) as (_ & f2 & _ & F2 & _); by exists f2).
    clear -Hown Hnth. induction gs2 as [|l2 gs2 IH]; [exists []; split_and!; [done|constructor|by intros [|j]]|].
    destruct IH as (gs' & L & P & E); [intros j; exact (Hown (S j))|intros j; exact (Hnth (S j))|]. destruct (Hnth 0) as [f' Hf]. destruct (relog l2 f' Hf (Hown 0)) as (l' & Q1 & Q2).
    exists (l' :: gs'). split_and!; [cbn [length]; by f_equal|by constructor|]. intros [|j]; cbn [nth]; [done|apply E]. }
  destruct Hgs as (gs' & L & P & E).
  assert (HkR : Forall2 (kR h' K) vs (map tl gs')).
  { apply Forall2_same_length_lookup. split; [rewrite map_length, L; exact (Forall2_length _ _ _ HR')|]. intros j t l Ht Hl. unfold kR. pose proof Hl as Hl'.
    apply (nth_lookup_Some (map tl gs') j []) in Hl'. rewrite tl_nth in Hl'.
    pose proof (kR_nth h' K vs gs2 j HR') as Hj. apply (nth_lookup_Some vs j None) in Ht. rewrite Ht in Hj. eapply kitree_ext; [|exact Hj]. intros q. rewrite <- Hl'. symmetry. apply E. }
  exists gs'. split.
  - split; [by exists K| |done]. exists f. split; [|done]. eapply fok_new; [done|by apply vrel_dom].
  - assert (Hupd : forall j, updated p (nth i gs []) (nth i gs' []) (nth j gs []) (nth j gs' [])).
    { intros j. eapply (updated_one p _ _ _ _ (nth i gs2 []) (nth j gs2 [])); [exact Hwk|exact (Hsw j)|exact (E i)|exact (E j)]. }
    eapply (as_update _ _ _ i n p cb s (map erp e) (map erp e')).
    + done.
    + by rewrite Etg.
    + rewrite <- tl_erl by (by apply lplain_nth). by apply erl_enum.
    + rewrite <- tl_erl by (by apply lplain_nth). apply erl_enum. eapply nenum_ext; [|exact He']. intros q. symmetry. apply E.
    + by apply erl_walk.
    + exact (eq_trans L Hlen).
    + intros j q. apply (Hupd j q).
    + intros j q. apply (Hupd j q).
    + intros j j' m q Hj Hj'. apply tl_eq. pose proof (idok_nth f vs ids j Hid) as I1. pose proof (idok_nth f vs ids j' Hid) as I2. rewrite Hj in I1. rewrite Hj' in I2. destruct I1 as [I0 I1], I2 as [_ I2].
      pose proof (kR_nth h' K vs (map tl gs') j HkR) as K1. pose proof (kR_nth h' K vs (map tl gs') j' HkR) as K2. rewrite tl_nth in K1, K2. rewrite I2, <- I1 in K2. destruct (nth j vs None) as [b|]; [|done]. exact (kitree_det _ _ _ _ _ K1 K2 q).
Qed.
Lemma a_step c (o' : aop (value U') St) o (h : heap U') (W : gset loc) vs ids gs : dom h ⊆ W -> wR c h vs ids gs -> aop_sim c o' o ->
  wp (a_exec vs o') h W (fun r h' W' => dom h' ⊆ W' /\ forall x, aout_sim r.2 x -> exists ids' gs', wR (S c) h' r.1 ids' gs' /\ astep c ids gs o ids' gs' x).
Proof.
  intros HW HwR Hs. destruct o as [o|i n cb s]; cbn [aop_sim] in Hs.
  - destruct Hs as (o2 & -> & Hs). cbn [a_exec]. apply wp_bind. eapply wp_mono; [by apply (w_step c o2 o h W vs ids gs)|]. cbn beta. intros r h' W' [H1 H2]. cbn [wp fst snd]. split; [done|].
    intros [x|]; [|done]. cbn [aout_sim]. intros Hx. destruct (H2 x Hx) as (ids' & gs' & A & B). exists ids', gs'. split; [done|by constructor].
  - destruct Hs as [-> Hcb]. eapply wp_mono; [apply (wp_dom (St := unit) (fun _ _ => True)); [exact HW|by apply (a_update c cb h W vs ids gs i n s)]|]. cbn beta. intros r h' W' [(s' & E & gs' & H2 & H3) H1]. split; [done|].
    rewrite E. intros [|x]; [done|]. cbn [aout_sim]. intros <-. by exists ids, gs'.
Qed.
Lemma a_hist ops' : forall c ops (h : heap U') (W : gset loc) vs ids gs, dom h ⊆ W -> wR c h vs ids gs -> aops_sim c ops' ops ->
  wp (run_hist a_exec ops' vs) h W (fun r _ _ => forall outs, Forall2 aout_sim r.2 outs -> exists ids' gs', aspec c ids gs ops outs ids' gs').
Proof.
  induction ops' as [|o' ops' IH]; intros c [|o ops] h W vs ids gs HW HR; cbn [aops_sim]; try done; cbn [run_hist].
  - intros _. cbn [wp snd]. intros outs Ho. inversion Ho; subst. by exists ids, gs.
  - intros [Ho H]. apply wp_bind. eapply wp_mono; [by apply (a_step c o' o h W vs ids gs)|]. cbn beta. intros r h1 W1 (HW1 & A).
    assert (Hx : exists x, aout_sim r.2 x). { destruct r as [? [[|b|r|e]|s]]; cbn [snd]; [by exists (AOut IONone)|by exists (AOut (IOBool b))|by exists (AOut (IOVal (erv <$> r)))|by exists (AOut (IOList (map erp e)))|by exists (ASt s)]. }
    destruct Hx as [x Hx]. destruct (A x Hx) as (ids1 & gs1 & A1 & A2).
    apply wp_bind. eapply wp_mono; [by apply (IH (S c) ops h1 W1 r.1 ids1 gs1)|]. cbn beta. intros r2 h2 W2 B. cbn [wp snd]. intros outs Hout. inversion Hout as [|? y ? outs2 X1 X2]; subst.
    assert (y = x) as ->. { destruct r as [? [[|b|r|e]|s]], x as [[]|], y as [[]|]; cbn [snd aout_sim out_sim] in *; try done; congruence. }
    destruct (B outs2 X2) as (ids' & gs' & B2). exists ids', gs'. cbn [aspec]. exists ids1, gs1. done.
Qed.
Lemma pf_ip_all (h : heap U) (ops : list (aop (value U) St)) : Forall aop_ok ops ->
  wp (run_hist a_exec ops []) h ∅ (fun r h' _ => h ⊆ h' /\ exists ids gs, aspec 0 [] [] ops r.2 ids gs).
Proof.
  intros Hok. destruct (aops_total ops Hok 0) as [ops' Hs].
  assert (H0 : wR (U := U) 0 ∅ [] [] []).
  { split; [exists (fun _ => ∅); split; [split|constructor]|exists (fun _ => None); split; [done|constructor]|constructor]; intros; set_solver. }
  assert (Hw := a_hist ops' 0 ops ∅ ∅ [] [] [] ltac:(by rewrite dom_empty_L) H0 Hs).
  apply (psim_wp untag _ _ _ (ps_ahist ops' 0 ops [] Hs)) in Hw. assert (E : erh (untag (U := U)) ∅ = ∅) by (unfold erh; apply fmap_empty). rewrite E in Hw.
  eapply wp_mono; [apply (wp_part _ ∅ h ∅ ∅ _ (map_empty_subseteq h) (reflexivity _) Hw)|]. cbn beta. intros r h' _ (hp & W1 & _ & (r' & hp' & [_ H1] & _ & H2) & H3). split.
  - apply map_subseteq_spec. intros l x Hl. destruct (H3 l) as [_ E2]; [by eapply elem_of_dom_2|by rewrite dom_empty_L; apply not_elem_of_empty|]. by rewrite E2.
  - by apply (H2 r.2).
Qed.
End tagged.

(** ** What [aspec] says. *)
Section spec.
Context {V St : Type}.
Implicit Types (gs : list (ilog (nat * V))) (ids : list (option nat)).
Lemma unstamp_get (l : ilog (nat * V)) q : ilog_get (unstamp l) q = snd <$> ilog_get l q.
Proof. induction l as [|[p v|p] l IH]; cbn [unstamp map ilog_get]; [done|..]; by destruct (decide _). Qed.
Lemma unstamp_nth gs i : nth i (map unstamp gs) [] = unstamp (nth i gs []).
Proof. revert i. induction gs; intros [|i]; cbn [map nth]; auto. Qed.
(** *** Versions that are the same object. *)
Record obj (c : nat) ids gs : Prop := {
  ob_len : length ids = length gs;
  ob_lt : forall i n, nth i ids None = Some n -> n < c;
  ob_same : forall i j n q, nth i ids None = Some n -> nth j ids None = Some n -> ilog_get (nth i gs []) q = ilog_get (nth j gs []) q }.
Lemma obj_app c ids gs id l : obj c ids gs -> (id = Some c \/ exists i, id = nth i ids None /\ forall q, ilog_get l q = ilog_get (nth i gs []) q) -> obj (S c) (ids ++ [id]) (gs ++ [l]).
Proof.
  intros [O1 O2 O3] Hid.
  assert (Hn : forall i, (i < length ids /\ nth i (ids ++ [id]) None = nth i ids None /\ nth i (gs ++ [l]) [] = nth i gs []) \/ (nth i (ids ++ [id]) None = id /\ nth i (gs ++ [l]) [] = l) \/ nth i (ids ++ [id]) None = None).
  { intros i. destruct (decide (i < length ids)) as [Hi|Hi]; [left; rewrite !app_nth1 by lia; done|]. right. destruct (decide (i = length ids)) as [->|Hne].
    - left. rewrite O1 at 2. by rewrite !nth_middle.
    - right. apply nth_overflow. rewrite app_length. cbn [length]. lia. }
  split.
  - rewrite !app_length. cbn [length]. lia.
  - intros i n E. destruct (Hn i) as [(_ & E1 & _)|[(E1 & _)|E1]]; rewrite E1 in E; [specialize (O2 _ _ E); lia| |done]. destruct Hid as [->|(i0 & -> & _)]; [injection E as <-; lia|]. specialize (O2 _ _ E). lia.
  - assert (Hnew : forall i n q, nth i ids None = Some n -> id = Some n -> ilog_get (nth i gs []) q = ilog_get l q).
    { intros i n q E1 E2. destruct Hid as [->|(i0 & -> & H0)]; [injection E2 as <-; specialize (O2 _ _ E1); lia|]. rewrite H0. by apply (O3 i i0 n). }
    intros i j n q Ei Ej. destruct (Hn i) as [(_ & E1 & E2)|[(E1 & E2)|E1]]; rewrite E1 in Ei; [| |done]; destruct (Hn j) as [(_ & E3 & E4)|[(E3 & E4)|E3]]; rewrite E3 in Ej; try done; rewrite E2, E4.
    + by apply (O3 i j n).
    + by apply (Hnew i n).
    + symmetry. by apply (Hnew j n).
    + done.
Qed.
Lemma obj_next c ids gs : obj c ids gs -> obj (S c) ids gs.
Proof. intros [O1 O2 O3]. split; try done. intros i n E. specialize (O2 _ _ E). lia. Qed.
Lemma obj_step c ids gs (o : aop V St) ids' gs' x : obj c ids gs -> astep c ids gs o ids' gs' x -> obj (S c) ids' gs'.
Proof.
  intros HO Hs. destruct Hs as [o ids' gs' x Hw|i n cb s _|i n p cb s _ _|i n p cb s e e' s' gs' _ _ _ _ _ Hlen Hst Hch Hsame]; [|by apply obj_next|by apply obj_next|].
  - destruct Hw as [o ro x Hro Ha|i k v Hi|i k v q n gs' Hk Hi Hlen Hsame Hoth Hall]; [|by apply obj_next|].
    + destruct ro as [items|i k v|i k|i k|i]; cbn [stamped ilog_step objects]; try (by apply obj_next); (apply obj_app; [done|]).
      * by left.
      * destruct k as [k|]; [by left|]. right. by exists i.
      * cbn [ianswer] in Ha. destruct Ha as (b & -> & Hb). destruct b; [by left|]. right. exists i. split; [done|]. intros q. destruct k as [p|]; [|done]. cbn [del_log ilog_get]. destruct (decide (ncovers p q)) as [Hc|]; [|done].
        destruct (ilog_get (nth i gs []) q) as [y|] eqn:E; [|done]. exfalso. assert (false = true); [|done]. apply Hb. exists p, q, y.2. split_and!; [done|done|]. rewrite unstamp_nth, unstamp_get, E. done.
    + destruct HO as [O1 O2 O3]. split; [exact (eq_trans O1 (eq_sym Hlen))|intros j m E; specialize (O2 _ _ E); lia|]. intros j1 j2 m r. apply Hall.
  - destruct HO as [O1 O2 O3]. split; [exact (eq_trans O1 (eq_sym Hlen))|intros j m E; specialize (O2 _ _ E); lia|]. intros j1 j2 m r. apply Hsame.
Qed.
Lemma obj_spec (ops : list (aop V St)) : forall c ids gs outs ids' gs', obj c ids gs -> aspec c ids gs ops outs ids' gs' -> obj (c + length ops) ids' gs'.
Proof.
  induction ops as [|o ops IH]; intros c ids gs [|x outs] ids' gs' HO; cbn [aspec length]; try done.
  - intros [-> ->]. by rewrite Nat.add_0_r.
  - intros (ids1 & gs1 & Hs & H). rewrite <- plus_n_Sm. apply (IH (S c) ids1 gs1 outs); [by eapply obj_step|done].
Qed.
Lemma pf_same_object (ops : list (aop V St)) outs ids gs : aspec 0 [] [] ops outs ids gs -> forall i j n q, nth i ids None = Some n -> nth j ids None = Some n -> ilog_get (nth i gs []) q = ilog_get (nth j gs []) q.
Proof. intros H. apply (ob_same (0 + length ops)). eapply obj_spec; [|exact H]. split; [done|by intros [|i]|by intros [|i]]. Qed.
(** *** Versions that have nothing in common. *)
Lemma pf_all_unrelated c ids gs (o : aop V St) ids' gs' x i j : astep c ids gs o ids' gs' x -> (exists k v, o = AOp (WInplace i k v)) \/ (exists n cb s, o = AUpdate i n cb s) ->
  nth j ids None <> nth i ids None -> (forall q y, ilog_get (nth i gs []) q = Some y -> ilog_get (nth j gs []) q <> Some y) -> forall q, ilog_get (nth j gs' []) q = ilog_get (nth j gs []) q.
Proof.
  intros Hs Ho Hne Hno q. destruct Ho as [(k & v & ->)|(n & cb & s & ->)].
  - inversion Hs; subst. f_equal. by eapply pf_unrelated.
  - inversion Hs as [|?|?|? ? p ? ? e e' s' ? _ _ _ _ _ Hlen Hst Hch Hsame]; subst; [done|done|]. destruct (Hch j q) as [E|(_ & _ & E & _)]; [done|]. specialize (Hst j q).
    destruct (ilog_get (nth i gs []) q) as [y|] eqn:Ei; [exfalso; exact (Hno q y Ei E)|]. rewrite E in Hst |- *. exact (proj1 (fmap_None _ _) Hst).
Qed.
(** *** Where values come from. *)
Definition from (past : list (aop V St)) gs : Prop := forall ver q i v, ilog_get (nth ver gs []) q = Some (i, v) ->
  exists o w, past !! i = Some o /\ stores o q w /\ (never_updated past q -> v = w).
Lemma never_app past (o : aop V St) q : never_updated (past ++ [o]) q -> never_updated past q.
Proof. intros H i n cb s p Hin. apply (H i n cb s p). apply elem_of_app. by left. Qed.
Lemma from_old past (o : aop V St) gs ver q i v : from past gs -> ilog_get (nth ver gs []) q = Some (i, v) -> exists o2 w, (past ++ [o]) !! i = Some o2 /\ stores o2 q w /\ (never_updated (past ++ [o]) q -> v = w).
Proof.
  intros H E. destruct (H ver q i v E) as (o2 & w & E1 & E2 & E3). exists o2, w. split_and!; [|done|intros Hn; apply E3; by eapply never_app]. rewrite lookup_app_l; [done|]. by eapply lookup_lt_Some.
Qed.
Lemma from_new past (o : aop V St) q v : stores o q v -> exists o2 w, (past ++ [o]) !! (length past) = Some o2 /\ stores o2 q w /\ (never_updated (past ++ [o]) q -> v = w).
Proof. intros H. exists o, v. split_and!; [by apply list_lookup_middle|done|done]. Qed.
Lemma nth_app (l : ilog (nat * V)) gs ver : nth ver (gs ++ [l]) [] = nth ver gs [] \/ nth ver (gs ++ [l]) [] = l.
Proof.
  destruct (decide (ver < length gs)); [left; by apply app_nth1|]. rewrite app_nth2 by lia. destruct (ver - length gs) as [|[|n0]]; cbn [nth]; [by right|left..]; (rewrite nth_overflow; [done|lia]).
Qed.
Lemma build_get c (items : list (option net * V)) : forall (l : ilog (nat * V)) q y, ilog_get (build_log (map (fun x => (x.1, (c, x.2))) items) l) q = Some y -> (exists v, y = (c, v) /\ (Some q, v) ∈ items) \/ ilog_get l q = Some y.
Proof.
  induction items as [|[k v] items IH]; intros l q y; cbn [map build_log fst snd]; [by right|]. intros H. apply IH in H as [(w & -> & H)|H]; [left; exists w; split; [done|by right]|].
  destruct k as [k|]; [|by right]. cbn [ins_log ilog_get] in H. destruct (decide (k = q)) as [->|]; [|by right]. injection H as <-. left. exists v. split; [done|by left].
Qed.
Lemma from_step past ids gs (o : aop V St) ids' gs' x : from past gs -> astep (length past) ids gs o ids' gs' x -> from (past ++ [o]) gs'.
Proof.
  intros HF Hs. destruct Hs as [o ids' gs' x Hw|i n cb s _|i n p cb s _ _|i n p cb s e e' s' gs' Hn _ _ _ _ Hlen Hst Hch Hsame]; intros ver q c v E; try (by eapply from_old).
  - destruct Hw as [o ro x Hro Ha|i k w Hi|i k w qk n gs' Hk Hi Hlen Hsame Hoth Hall]; [|by eapply from_old|].
    + destruct Hro as [items items' Hit|i k r w Hk|i k r Hk|i k r Hk|i]; cbn [stamped ilog_step] in E; try (by eapply from_old).
      * destruct (nth_app (build_log (map (fun x => (x.1, (length past, x.2))) items') []) gs ver) as [E'|E']; rewrite E' in E; [by eapply from_old|]. apply build_get in E as [(v' & [= -> <-] & Hin)|E]; [|done]. apply from_new.
        apply elem_of_list_lookup in Hin as [j Hj]. destruct (Forall2_lookup_r _ _ _ _ _ Hit Hj) as ([k w] & Hx & H1 & H2). cbn [fst snd] in *. subst w. econstructor; [by eapply elem_of_list_lookup_2|done].
      * destruct (nth_app (ins_log r (length past, w) (nth i gs [])) gs ver) as [E'|E']; rewrite E' in E; [by eapply from_old|]. destruct r as [r|]; [|by eapply from_old]. cbn [ins_log ilog_get] in E. destruct (decide (r = q)) as [->|]; [|by eapply from_old]. injection E as <- <-. apply from_new. by constructor.
      * destruct (nth_app (del_log r (nth i gs [])) gs ver) as [E'|E']; rewrite E' in E; [by eapply from_old|]. destruct r as [r|]; [|by eapply from_old]. cbn [del_log ilog_get] in E. destruct (decide (ncovers r q)); [done|by eapply from_old].
    + assert (Hx : nth ver gs' [] = nth ver gs [] \/ nth ver gs' [] = ins_log qk (length past, w) (nth ver gs [])).
      { destruct (decide (nth ver ids None = Some n)) as [Hv|Hv]; [right; by apply Hsame|]. destruct (Hoth ver Hv) as [?|[? _]]; [by left|by right]. }
      destruct Hx as [Hx|Hx]; apply (f_equal (fun l => ilog_get l q)) in Hx; pose proof (eq_trans (eq_sym Hx) E) as E2; clear E; rename E2 into E; [by eapply from_old|]. destruct qk as [r|]; [|by eapply from_old]. cbn [ins_log ilog_get] in E. destruct (decide (r = q)) as [->|]; [|by eapply from_old]. injection E as <- <-. apply from_new. by constructor.
  - pose proof (eq_trans (f_equal (fmap fst) (eq_sym E)) (Hst ver q)) as Hq. destruct (ilog_get (nth ver gs []) q) as [[c0 v0]|] eqn:E0; [|done]. cbn [fmap option_fmap option_map fst] in Hq. injection Hq as ->.
    destruct (from_old past (AUpdate i n cb s) gs ver q c0 v0 HF E0) as (o2 & w & A1 & A2 & A3). exists o2, w. split_and!; [done|done|]. intros Hnu. rewrite <- (A3 Hnu).
    destruct (Hch ver q) as [X|(X1 & X2 & _)]; [pose proof (eq_trans (eq_sym E) (eq_trans X E0)) as X3; congruence|]. destruct X2. apply (Hnu i n cb s p); [apply elem_of_app; right; by left|done|done].
Qed.
Lemma from_spec (ops : list (aop V St)) : forall past ids gs outs ids' gs', from past gs -> aspec (length past) ids gs ops outs ids' gs' -> from (past ++ ops) gs'.
Proof.
  induction ops as [|o ops IH]; intros past ids gs [|x outs] ids' gs' HF; cbn [aspec]; try done.
  - intros [-> ->]. by rewrite app_nil_r.
  - intros (ids1 & gs1 & Hs & H). rewrite cons_middle, app_assoc. apply (IH (past ++ [o]) ids1 gs1 outs ids'); [by eapply from_step|]. rewrite app_length. cbn [length]. by rewrite Nat.add_1_r.
Qed.
Lemma pf_all_values (ops : list (aop V St)) outs ids gs : aspec 0 [] [] ops outs ids gs -> forall ver q c v, ilog_get (nth ver gs []) q = Some (c, v) ->
  exists o w, ops !! c = Some o /\ stores o q w /\ (never_updated ops q -> v = w).
Proof. intros H. apply (from_spec ops [] [] [] outs ids gs); [by intros [|ver]|done]. Qed.
End spec.
