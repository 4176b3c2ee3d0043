(** * Proofs for Properties_ip_derive.v *)
From Verif Require Import Prog History NumModel NumSpec NumAbs NumFoot NumLoc IpModel IpSpec IpUpdSpec IpBits IpAbs IpAbs2 IpAbs3 IpAbs4 IpEnum IpHist IpPropProofs NumShare IpUpd IpUpd2 IpUpd3 IpUpd4 IpUpdProofs.
From Verif Require Import CallProofs WorkProofs ShareSpec Opaque OpaqueBy ShareProofs MixProofs IpKinds IpKinds2 IpKinds3 IpKinds4 IpVersSpec IpVersProofs IpAllSpec IpAllProofs IpDeriveModel IpDeriveSpec.
Open Scope nat_scope.

(** ** What the specification says. *)
Scheme sruns_mut := Minimality for sruns Sort Prop
with updates_mut := Minimality for updates Sort Prop
with visits_mut := Minimality for visits Sort Prop.
Combined Scheme runs_mut from sruns_mut, updates_mut, visits_mut.

Section spec.
Context {V St : Type}.
Implicit Types (gs : list (ilog (nat * V))) (ids : list (option nat)) (past : list (dcall V)).
(** *** Versions that are there keep their networks, with the numbers of their entries. *)
Definition keeps gs gs' : Prop := length gs <= length gs' /\ forall j q, j < length gs -> fst <$> ilog_get (nth j gs' []) q = fst <$> ilog_get (nth j gs []) q.
Lemma keeps_refl gs : keeps gs gs.
Proof. split; [done|done]. Qed.
Lemma keeps_trans gs1 gs2 gs3 : keeps gs1 gs2 -> keeps gs2 gs3 -> keeps gs1 gs3.
Proof. intros [A1 A2] [B1 B2]. split; [lia|]. intros j q Hj. rewrite B2 by lia. by apply A2. Qed.
Lemma keeps_call c ids gs o ids' gs' (x : iout V) : wstep c ids gs (WCall o) ids' gs' x -> keeps gs gs'.
Proof.
  intros H. inversion H as [? ro ? Hr Ha| |]; subst. 
  assert (Happ : forall l, keeps gs (gs ++ [l])) by (intros l; split; [rewrite app_length; lia|]; intros j q Hj; by rewrite app_nth1).
  destruct ro; cbn [stamped ilog_step]; try apply Happ; apply keeps_refl.
Qed.
Lemma keeps_replaced i q r ids gs gs' : replaced i q r ids gs gs' -> keeps gs gs'.
Proof.
  destruct r as [w|]; cbn [replaced]; [|intros ->; apply keeps_refl]. intros (n & v & H1 & H2 & H3 & H4 & H5 & _). split; [lia|]. intros j q' _. destruct (decide (q' = q)) as [->|Hne]; [|by rewrite H4].
  destruct (H5 j) as [->|[-> ->]]; done.
Qed.
Lemma all_keep past ids gs :
  (forall (m : script V St) past' ids' gs' y, sruns past ids gs m past' ids' gs' y -> keeps gs gs') /\
  (forall i n (cb : St -> bytes * bytes * V -> script V St) s past' ids' gs' s', updates past ids gs i n cb s past' ids' gs' s' -> keeps gs gs') /\
  (forall i p (cb : St -> bytes * bytes * V -> script V St) s e past' ids' gs' s', visits past ids gs i p cb s e past' ids' gs' s' -> keeps gs gs').
Proof.
  apply (runs_mut V St (fun _ _ gs _ _ _ gs' _ => keeps gs gs') (fun _ _ gs _ _ _ _ _ _ gs' _ => keeps gs gs') (fun _ _ gs _ _ _ _ _ _ _ gs' _ => keeps gs gs')); intros; try apply keeps_refl; try done.
  - eapply keeps_trans; [by eapply keeps_call|done].
  - by eapply keeps_trans.
  - eapply keeps_trans; [done|]. eapply keeps_trans; [by eapply keeps_replaced|done].
Qed.
End spec.

(** ** Networks by computation. *)
Definition resolve_net (n : ipnet) : option net :=
  match n with
  | None => None
  | Some n =>
    match ip4_key n with
    | Some (k, b) => Some (false, norm 32 k b)
    | None => match ip6_key n with Some (hk, hb, lk, lb) => Some (true, if (hb <? 64)%N then norm 64 hk hb else join hk (norm 64 lk lb)) | None => None end
    end
  end.
Definition resolve (k : ikey) : option net := match k with KNet n => resolve_net n | KAddr ip => match net_of_ip ip with Some n => resolve_net (Some n) | None => None end end.
Lemma resolve_net_is n : match resolve_net n with Some q => net_is n q | None => forall q, ~ net_is n q end.
Proof.
  destruct n as [n|]; cbn [resolve_net]; [|intros q H; inversion H].
  pose proof (ip4_key_spec n) as H4. destruct (ip4_key n) as [[k b]|]; [by destruct H4|].
  pose proof (ip6_key_spec n) as H6. destruct (ip6_key n) as [[[[hk hb] lk] lb]|].
  - destruct H6 as (q & H6 & _ & _ & _ & A & B). destruct (N.ltb_spec hb 64) as [Hb|Hb].
    + assert (Hq : (q.1 < 64)%N) by (destruct (decide (q.1 < 64)%N); [done|]; destruct B as [B _]; lia). destruct (A Hq) as [_ ->]. exact H6.
    + assert (Hq : (64 <= q.1)%N) by (destruct (decide (q.1 < 64)%N); [|lia]; destruct A as [A _]; lia). destruct (B Hq) as (_ & _ & _ & -> & ->). rewrite join_hi_lo by done. exact H6.
  - intros [[] q] H; [by eapply H6|by eapply H4].
Qed.
Lemma resolve_is k : ikey_is k (resolve k).
Proof.
  destruct k as [n|ip]; cbn [resolve].
  - pose proof (resolve_net_is n) as H. destruct (resolve_net n); by constructor.
  - pose proof (net_of_ip_spec ip) as H. destruct (net_of_ip ip) as [n|]; [|by constructor]. destruct H as (q & H1 & H2). pose proof (resolve_net_is (Some n)) as H. destruct (resolve_net (Some n)) as [q'|]; [|by apply H in H1].
    constructor. assert (ikey_is (KNet (Some n)) (Some q)) as K1 by (by constructor). assert (ikey_is (KNet (Some n)) (Some q')) as K2 by (by constructor).
    pose proof (ikey_det _ _ _ K2 K1) as E. injection E as ->. exact H2.
Qed.
Definition resolve_op {V} (o : iop ikey V) : iop (option net) V :=
  match o with
  | IBuild items => IBuild (map (fun x => (resolve x.1, x.2)) items)
  | IInsert i k v => IInsert i (resolve k) v
  | IDelete i k => IDelete i (resolve k)
  | IGet i k => IGet i (resolve k)
  | IEnumerate i => IEnumerate i
  end.
Lemma resolve_op_ok {V} (o : iop ikey V) : iresolves o (resolve_op o).
Proof.
  destruct o as [items|i k v|i k|i k|i]; cbn [resolve_op]; constructor; try apply resolve_is. induction items as [|x items IH]; cbn [map]; constructor; [|done]. cbn [fst snd]. split; [apply resolve_is|done].
Qed.

(** ** Values that carry their network and the call that stored them. *)
Section tagged.
Context {U St : Type}.
Local Notation tag := (net * nat)%type.
Local Notation U' := (value U * tag)%type.
Local Notation erp := (erp (untag (U := U))).
Local Notation erv := (erv (untag (U := U))).
Local Notation slog := (ilog (nat * value U)).
Local Notation kinds := (kd -> gset loc).
Local Notation callback := (St -> bytes * bytes * value U -> script (value U) St).
Definition tagop (c : nat) (o : iop ikey (value U)) : iop ikey (value U') :=
  match o with
  | IBuild items => IBuild (map (fun x => (x.1, tagv (default tag0 (resolve x.1)) c x.2)) items)
  | IInsert i k v => IInsert i k (tagv (default tag0 (resolve k)) c v)
  | IDelete i k => IDelete i k
  | IGet i k => IGet i k
  | IEnumerate i => IEnumerate i
  end.
Lemma tagop_ok c o : iop_ok o -> iresolves (tagop c o) (tago c (resolve_op o)) /\ iop_ok (tagop c o) /\ op_sim untag (tagop c o) o.
Proof.
  destruct o as [items|i k v|i k|i k|i]; cbn [tagop resolve_op tago iop_ok op_sim]; intros Hok; split_and!; try done; try (constructor; apply resolve_is).
  - constructor. clear Hok. induction items as [|[k v] items IH]; cbn [map]; constructor; [|done]. cbn [fst snd]. split; [apply resolve_is|done].
  - clear Hok. induction items as [|[k v] items IH]; cbn [map]; by constructor.
  - induction Hok as [|[k v] items Hv Hok IH]; cbn [map]; constructor; [|done]. cbn [fst snd] in *. by rewrite erv_tag.
  - symmetry. by apply erv_tag.
Qed.
Definition tagw (c : nat) (o : wop (value U)) : wop (value U') :=
  match o with WCall o => WCall (tagop c o) | WInplace i k v => WInplace i k (tagv (default tag0 (resolve k)) c v) end.
Lemma tagw_ok c o : wop_ok o -> wop_sim c (tagw c o) o.
Proof.
  destruct o as [o|i k v]; cbn [tagw wop_sim wop_ok]; intros Hok.
  - destruct (tagop_ok c o Hok) as (A1 & A2 & A3). exists (tagop c o), (resolve_op o). split_and!; try done. apply resolve_op_ok.
  - exists (resolve k). split_and!; [done|apply resolve_is|done].
Qed.
Definition erx (x : iout (value U')) : iout (value U) :=
  match x with IONone => IONone | IOBool b => IOBool b | IOVal r => IOVal (erv <$> r) | IOList e => IOList (map erp e) end.
Lemma erx_sim x : out_sim untag x (erx x).
Proof. by destruct x. Qed.
Lemma erx_fun x y : out_sim untag x y -> y = erx x.
Proof. destruct x, y; cbn [out_sim erx]; try done; intros H; hnf in H; by subst. Qed.
(** Scripts with tags: the state carries the number of calls made so far. *)
Fixpoint tscript (v0 : value U') (m : script (value U) St) (c : nat) : script (value U') (nat * St) :=
  match m with
  | SDone s r => SDone (c, s) (retag v0 <$> r)
  | SCall o k => SCall (tagop c o) (fun x => tscript v0 (k (erx x)) (S c))
  | SUpdate i n cb s k => SUpdate i n (fun cs x => tscript x.2 (cb cs.2 (erp x)) cs.1) (S c, s) (fun cs => tscript v0 (k cs.2) cs.1)
  end.
Definition tcb (cb : callback) (cs : nat * St) (x : bytes * bytes * value U') : script (value U') (nat * St) := tscript x.2 (cb cs.2 (erp x)) cs.1.
Fixpoint tclient {A} (m : client (value U) St A) (c : nat) : client (value U') (nat * St) A :=
  match m with
  | CDone a => CDone a
  | CCall o k => CCall (tagw c o) (fun x => tclient (k (erx x)) (S c))
  | CUpdate i n cb s k => CUpdate i n (tcb cb) (S c, s) (fun cs => tclient (k cs.2) cs.1)
  end.
Definition res_sim (r' : list ptr * (nat * St * option (value U'))) (r : list ptr * (St * option (value U))) : Prop := r'.1 = r.1 /\ r'.2.1.2 = r.2.1 /\ r.2.2 = erv <$> r'.2.2.
Lemma ps_script m : script_ok m -> forall v0 c vs, psim untag res_sim (run_script vs (tscript v0 m c)) (run_script vs m).
Proof.
  induction m as [s r|o k IH|i n cb IHcb s k IH]; cbn [script_ok]; intros Hok v0 c vs; cbn [tscript run_script].
  - constructor. split_and!; [done|done|]. cbn [fst snd]. destruct r as [w|]; cbn [fmap option_fmap option_map]; [|done]. rewrite erv_retag; [done|]. by apply Hok.
  - destruct Hok as [Ho Hk]. eapply psim_bind; [by apply (ps_exec untag untag_plain vs); apply tagop_ok|]. intros [vs1 x'] [vs2 x] [E Hx]. cbn [fst snd] in *. subst vs2. apply erx_fun in Hx as ->. by apply IH.
  - destruct Hok as [Hcb Hk]. destruct (nth i vs None) as [a|]; [|by apply IH].
    eapply (psim_bind untag (fun y' y => y'.1 = y.1 /\ y'.2.2 = y.2)); [|intros [vs1 [c1 s1]] [vs2 s2] [E1 E2]; cbn [fst snd] in *; subst; by apply IH].
    apply (ps_update_by untag untag_plain (fun y' y => y'.1 = y.1 /\ y'.2.2 = y.2)); [|done]. intros [vs1 [c1 s1]] [vs2 s2] x [E1 E2]. cbn [fst snd] in *. subst.
    eapply psim_bind; [by apply IHcb|]. intros [vs3 [[c3 s3] r3]] [vs4 [s4 r4]] (F1 & F2 & F3). cbn [fst snd] in *. subst. by constructor.
Qed.
Lemma ps_run_update (cb : callback) vs i n c s : (forall s x, script_ok (cb s x)) -> psim untag (fun y' y => y'.1 = y.1 /\ y'.2.2 = y.2) (run_update vs i n (tcb cb) (c, s)) (run_update vs i n cb s).
Proof.
  intros Hcb. unfold run_update. destruct (nth i vs None) as [a|]; [|by constructor]. apply (ps_update_by untag untag_plain (fun y' y => y'.1 = y.1 /\ y'.2.2 = y.2)); [|done]. intros [vs1 [c1 s1]] [vs2 s2] x [E1 E2]. cbn [fst snd] in *. subst.
  eapply psim_bind; [by apply ps_script|]. intros [vs3 [[c3 s3] r3]] [vs4 [s4 r4]] (F1 & F2 & F3). cbn [fst snd] in *. subst. by constructor.
Qed.
Lemma ps_client {A} (m : client (value U) St A) : client_ok m -> forall c vs, psim untag (fun r' r => r' = r) (run_client vs (tclient m c)) (run_client vs m).
Proof.
  induction m as [a|o k IH|i n cb s k IH]; cbn [client_ok]; intros Hok c vs; cbn [tclient run_client].
  - by constructor.
  - destruct Hok as [Ho Hk]. eapply psim_bind; [apply (ps_wexec c); by apply tagw_ok|]. intros [vs1 x'] [vs2 x] [E Hx]. cbn [fst snd] in *. subst vs2. apply erx_fun in Hx as ->. by apply IH.
  - destruct Hok as [Hcb Hk]. eapply psim_bind; [by apply ps_run_update|]. intros [vs1 [c1 s1]] [vs2 s2] [E1 E2]. cbn [fst snd] in *. subst. by apply IH.
Qed.

(** *** One value of one node. *)
Lemma enum_le (h0 h : heap U') a xs yz l : itl h0 a xs yz -> vrel h0 h -> itree h (Some a) (ilog_get l) -> nenumerates l (map snd (map (reloadp h) (le xs yz))).
Proof.
  intros Hi Hv Ht. rewrite <- (le_reload _ _ _ _ Hi h Hv). pose proof (itl_vrel _ _ _ _ Hi h Hv) as Hi2. apply (wp_extract (ip_enumerate (Some a)) _ h ∅).
  eapply wp_mono; [apply wp_and; [apply (ip_enumerate_loc _ _ _ _ Hi2)|apply (ienum_at _ _ _ _ Ht)]|]. cbn beta. intros e h1 W1 [[-> ->] [_ He]]. exact He.
Qed.
Lemma entry (h0 h : heap U') a xs yz (l : slog) x : itl h0 a xs yz -> vrel h0 h -> itree h (Some a) (ilog_get (tl l)) -> x ∈ le xs yz ->
  exists q y, canonical x.2.1.1 x.2.1.2 q /\ val_at h x.1 = tg q y /\ ilog_get l q = Some y.
Proof.
  intros Hi Hv Ht Hx. pose proof (enum_le h0 h a xs yz _ Hi Hv Ht) as He.
  assert (Hin : (x.2.1, val_at h x.1) ∈ map snd (map (reloadp h) (le xs yz))). { apply (elem_of_list_fmap_1 (reloadp h)), (elem_of_list_fmap_1 snd) in Hx. exact Hx. }
  pose proof He as (ps & _ & Hps & Hf). apply elem_of_list_lookup in Hin as [j Hj]. destruct (Forall2_lookup_l _ _ _ _ _ Hf Hj) as ([q v] & Hq & Ev & Hc). apply elem_of_list_lookup_2 in Hq. apply Hps in Hq. cbn [fst snd] in *. subst v.
  rewrite tl_get in Hq. apply fmap_Some in Hq as (y & E & E2). by exists q, y.
Qed.
Lemma write_one (h h' : heap U') lo nn q n0 (u w : value U) t (l : slog) : h !! lo = Some (CNum nn) -> nn_leaf nn = true -> nn_val nn = tg q (n0, u) -> plain w -> h' = setv h lo (tg q (n0, w)) ->
  itree h t (ilog_get (tl l)) -> lplain l -> exists l' : slog, itree h' t (ilog_get (tl l')) /\ lplain l' /\
    forall q', ilog_get l' q' = ilog_get l q' \/ (q' = q /\ ilog_get l q = Some (n0, u) /\ ilog_get l' q = Some (n0, w)).
Proof.
  intros Hc Hlf Hval Hw Eh Ht Hp. assert (Hpl : plain (nn_val nn)) by (by rewrite Hval). assert (Hv : vrel h h') by (rewrite Eh, (vrel_setv _ _ _ _ Hc); by apply vrel_store).
  destruct (u_view h t _ Ht) as (les & L1 & L2 & L3). destruct (L3 h' Hv) as (l2 & M1 & M2).
  assert (Hpair : forall q', match ilog_get (tl l) q', ilog_get l2 q' with Some v, Some v' => v' = v \/ (v = tg q (n0, u) /\ v' = tg q (n0, w)) | None, None => True | _, _ => False end).
  { intros q'. eapply (pair_get (fun v v' => v' = v \/ (v = tg q (n0, u) /\ v' = tg q (n0, w)))); [exact L1|exact M2|]. clear L1 L3 M1 M2. induction les as [|x les IH]; cbn [map]; constructor; [|apply IH; intros y Hy; apply L2; by right].
    split; [done|]. destruct (L2 x ltac:(by left)) as [_ E]. unfold reloadp. cbn [snd]. destruct (decide (lo = x.1)) as [->|Hne].
    - right. split; [etrans; [symmetry; exact E|]; etrans; [exact (val_at_cell _ _ _ Hc)|exact Hval]|]. rewrite Eh. by eapply setv_eq.
    - left. etrans; [|exact E]. rewrite Eh. by apply setv_ne. }
  assert (Hown : own l2).
  { intros q' v E. specialize (Hpair q'). rewrite E in Hpair. destruct (ilog_get (tl l) q') as [v0|] eqn:E0; [|done]. destruct (own_tl _ Hp _ _ E0) as (y & -> & Hy). destruct Hpair as [->|[E1 ->]]; [by exists y|].
    assert (q' = q) as -> by (unfold tg, tagv in E1; congruence). by exists (n0, w). }
  destruct (relog l2 _ M2 Hown) as (l' & P1 & P2). exists l'. split_and!; [eapply itree_ext; [|exact M1]; intros q'; symmetry; apply P2|done|].
  intros q'. specialize (Hpair q'). rewrite <- P2, !tl_get in Hpair. destruct (ilog_get l q') as [y|] eqn:E1, (ilog_get l' q') as [y'|] eqn:E2; cbn [fmap option_fmap option_map] in Hpair; try done; [|by left].
  destruct Hpair as [E|[E E']]; [left; by apply tg_inj in E as ->|]. right. assert (q' = q) as -> by (unfold tg, tagv in E; congruence). apply tg_inj in E as ->, E' as ->. done.
Qed.
Lemma write_node c (h0 h : heap U') a xs yz vs ids gs i x nn q n0 (u w : value U) : wR c h vs ids gs -> nth i vs None = Some a -> itl h0 a xs yz -> vrel h0 h -> x ∈ le xs yz -> canonical x.2.1.1 x.2.1.2 q ->
  h !! x.1 = Some (CNum nn) -> nn_leaf nn = true -> nn_val nn = tg q (n0, u) -> plain w ->
  exists gs', wR c (setv h x.1 (tg q (n0, w))) vs ids gs' /\ replaced i q (Some w) ids gs gs'.
Proof.
  intros [(K & HG & HR) (f & Hf & Hid) Hpl] Ea Hi Hv0 Hx Hq Hc Hlf Hval Hw. set (h' := setv h x.1 (tg q (n0, w))).
  assert (Hplain : plain (nn_val nn)) by (by rewrite Hval). assert (Hv : vrel h h') by (unfold h'; rewrite (vrel_setv _ _ _ _ Hc); by apply vrel_store).
  assert (Hgs : exists gs', Forall2 (fun t l' => itree h' t (ilog_get (tl l'))) vs gs' /\ Forall lplain gs' /\ length gs' = length gs /\
    forall j q', ilog_get (nth j gs' []) q' = ilog_get (nth j gs []) q' \/ (q' = q /\ ilog_get (nth j gs []) q = Some (n0, u) /\ ilog_get (nth j gs' []) q = Some (n0, w))).
  { clear Ea Hid. revert gs HR Hpl. clear i. induction vs as [|t vs IH]; intros [|l gs] HR Hpl; cbn [map] in HR; inversion HR as [|? ? ? ? Hl HR']; subst.
    - exists []. split_and!; [constructor|done|done|]. intros [|j] q'; by left.
    - inversion Hpl as [|? ? Hp Hpl']; subst. destruct (IH gs HR' Hpl') as (gs' & A1 & A2 & A3 & A4).
      destruct (write_one h h' x.1 nn q n0 u w t l Hc Hlf Hval Hw eq_refl) as (l' & B1 & B2 & B3); [by eapply kitree_itree|done|].
      exists (l' :: gs'). split_and!; [by constructor|by constructor|cbn [length]; by f_equal|]. intros [|j] q'; cbn [nth]; [apply B3|apply A4]. }
  destruct Hgs as (gs' & A1 & A2 & A3 & A4).
  assert (Hip : Forall2 (ipR h') vs (map tl gs')). { clear -A1. induction A1; cbn [map]; by constructor. }
  destruct (vrel_all h h' K vs _ _ HG Hv HR Hip) as [HG' HR'].
  exists gs'. split.
  - split; [by exists K| |done]. exists f. split; [|done]. destruct Hf as [F1 F2]. split; [|done]. intros m lo E. destruct (F1 m lo E). split; [done|]. by apply (vrel_dom _ _ Hv).
  - assert (Hti : itree h' (Some a) (ilog_get (tl (nth i gs' [])))). { pose proof (ipR_nth h' vs _ i Hip) as H. rewrite Ea, tl_nth in H. exact H. }
    assert (Hti0 : itree h (Some a) (ilog_get (tl (nth i gs [])))). { pose proof (kR_nth h K vs _ i HR) as H. rewrite Ea, tl_nth in H. by eapply kitree_itree. }
    destruct (entry h0 h a xs yz (nth i gs []) x Hi Hv0 Hti0 Hx) as (q1 & y1 & C1 & V1 & G1). destruct (entry h0 h' a xs yz (nth i gs' []) x Hi (vrel_trans _ _ _ Hv0 Hv) Hti Hx) as (q2 & y2 & C2 & V2 & G2).
    pose proof (is_net_fun x q1 q C1 Hq) as ->. pose proof (is_net_fun x q2 q C2 Hq) as ->. rewrite (val_at_cell _ _ _ Hc), Hval in V1. apply tg_inj in V1 as <-. unfold h' in V2. rewrite (setv_eq _ _ _ _ Hc) in V2. apply tg_inj in V2 as <-.
    exists n0, u. split_and!; [done|done|done|..].
    + intros j q' Hne. destruct (A4 j q') as [E|(-> & _)]; done.
    + intros j. destruct (A4 j q) as [E|(_ & E)]; [by left|by right].
    + intros j j' m Hj Hj'. apply tl_eq. pose proof (idok_nth f vs ids j Hid) as I1. pose proof (idok_nth f vs ids j' Hid) as I2. rewrite Hj in I1. rewrite Hj' in I2. destruct I1 as [I0 I1], I2 as [_ I2].
      pose proof (kR_nth h' K vs (map tl gs') j HR') as K1. pose proof (kR_nth h' K vs (map tl gs') j' HR') as K2. rewrite tl_nth in K1, K2. rewrite I2, <- I1 in K2. destruct (nth j vs None) as [b|]; [|done]. exact (kitree_det _ _ _ _ _ K1 K2 q).
Qed.

(** *** One call. *)
Lemma vrel_sub_heap (h h' : heap U') : h ⊆ h' -> vrel h h'.
Proof.
  intros Hs l. destruct (h !! l) as [c|] eqn:E; [|done]. pose proof (lookup_weaken _ _ _ _ E Hs) as E'. destruct c; try done. exists (nn_val n). split; [by left|]. by rewrite set_val_same.
Qed.
Lemma s_call c o (h : heap U') (W : gset loc) vs ids gs : dom h ⊆ W -> wR c h vs ids gs -> iop_ok o ->
  wp (ip_exec vs (tagop c o)) h W (fun r h' W' => dom h' ⊆ W' /\ vrel h h' /\ (exists more, r.1 = vs ++ more) /\ exists ids' gs', wR (S c) h' r.1 ids' gs' /\ wstep c ids gs (WCall o) ids' gs' (erx r.2)).
Proof.
  intros HW [(K & HG & HR) (f & Hf & Hid) Hpl] Ho. destruct (tagop_ok c o Ho) as (R2 & O2 & Hsim). pose proof (resolve_op_ok o) as R1. set (ro := resolve_op o) in *.
  eapply wp_mono; [apply (wp_dom (St := unit) (fun _ _ => True)); [exact HW|by apply (k_exec h K W vs (map tl gs) (tagop c o) (tago c ro))]|]. cbn beta. intros r h' W' [((Hh & K' & HK & HG' & HR') & Ha & Hm) HW']. pose proof (erx_sim r.2) as Hx.
  destruct (made_ids f c h h' K' vs r.1 ids _ ro (erx r.2) r.2 Hf (subseteq_dom _ _ Hh) Hid Hm Hx HG' HR') as (f' & Hf' & Hid'). split_and!; [done|by apply vrel_sub_heap|..].
  - destruct ro; cbn [tago made] in Hm; try (destruct Hm as (t & E & _); by exists [t]); exists []; by rewrite app_nil_r.
  - exists (objects c ids ro (erx r.2)), (ilog_step gs (stamped c ro)). split.
    + split; [exists K'; split; [done|by rewrite tl_step]|by exists f'|by eapply lplain_step].
    + constructor; [done|]. rewrite <- erl_tl_map by done. by eapply erl_answer.
Qed.
Lemma wp_all {A X} (m : prog U' A) (P : X -> Prop) (x0 : X) : P x0 -> forall h W (Q : X -> A -> heap U' -> gset loc -> Prop), (forall x, P x -> wp m h W (Q x)) -> wp m h W (fun a h' W' => forall x, P x -> Q x a h' W').
Proof.
  intros H0. induction m as [a|e|c k IH|l k IH|l c k IH]; intros h W Q H; cbn [wp].
  - intros x Hx. exact (H x Hx).
  - exact (H x0 H0).
  - intros l Hl. apply IH. intros x Hx. by apply (H x Hx).
  - destruct (H x0 H0) as (c & E & _). exists c. split; [done|]. apply IH. intros x Hx. destruct (H x Hx) as (c' & E' & Hw). rewrite E in E'. by injection E' as <-.
  - destruct (H x0 H0) as (A1 & A2 & _). split_and!; [done|done|]. apply IH. intros x Hx. by destruct (H x Hx) as (_ & _ & Hw).
Qed.
Definition s_good (m : script (value U) St) : Prop := forall v0 past (h : heap U') (W : gset loc) vs ids gs, dom h ⊆ W -> wR (length past) h vs ids gs ->
  wp (run_script vs (tscript v0 m (length past))) h W (fun r h' W' => dom h' ⊆ W' /\ vrel h h' /\ (exists more, r.1 = vs ++ more) /\
    exists past' ids' gs' s w, r.2 = ((length past', s), retag v0 <$> w) /\ (forall v, w = Some v -> plain v) /\ wR (length past') h' r.1 ids' gs' /\ sruns past ids gs m past' ids' gs' (s, w)).

(** *** An update whose callback behaves. *)
Section cbs.
Variable cb : callback.
Hypothesis Hcb : forall s x, s_good (cb s x).
Local Notation St' := (list ptr * (nat * St))%type.
Definition runcb (st : St') (x : bytes * bytes * value U') : prog U' (St' * option (value U')) := r <- run_script st.1 (tcb cb st.2 x) ;; Ret ((r.1, r.2.1), r.2.2).
Variables (h0 : heap U') (a : loc) (xs : list (loc * numnode U')) (yz : list ((loc * numnode U') * list (loc * numnode U'))) (vs0 : list ptr) (i : nat) (p : net).
Hypothesis Hi : itl h0 a xs yz.
Hypothesis Ea : nth i vs0 None = Some a.
Definition grown (vs : list ptr) : Prop := exists more, vs = vs0 ++ more.
Lemma grown_nth vs : grown vs -> nth i vs None = Some a.
Proof using Ea. intros [more ->]. rewrite app_nth1; [done|]. destruct (decide (i < length vs0)) as [|Hge]; [done|]. rewrite nth_overflow in Ea by lia. done. Qed.
Definition node_done (x : loc * (bytes * bytes * value U')) (st : St') (h : heap U') (y : list (dcall (value U)) * list (option nat) * list slog) (st' : St') (h' : heap U') (WS' : gset loc) : Prop :=
  dom h' ⊆ WS' /\ vrel h h' /\ grown st'.1 /\ exists past' ids' gs', length past' = st'.2.1 /\ wR st'.2.1 h' st'.1 ids' gs' /\
    exists q nv gsm w, canonical x.2.1.1 x.2.1.2 q /\ ilog_get (nth i y.2 []) q = Some nv /\ sruns y.1.1 y.1.2 y.2 (cb st.2.2 (x.2.1, nv.2)) past' ids' gsm (st'.2.2, w) /\ replaced i q w ids' gsm gs'.
Lemma node_step (x : loc * (bytes * bytes * value U')) mk n (st : St') (h : heap U') (WS : gset loc) past ids gs : x ∈ le xs yz -> h0 !! x.1 = Some (CNum n) -> nn_leaf n = true -> plain (nn_val n) -> (forall v, mk (set_val n v) = (x.2.1, v)) ->
  dom h ⊆ WS -> vrel h0 h -> grown st.1 -> length past = st.2.1 -> wR st.2.1 h st.1 ids gs ->
  wp (upd_node runcb mk st x.1) h WS (node_done x st h (past, ids, gs)).
Proof using Hcb Hi Ea.
  destruct st as [vs [c s]]. cbn [fst snd]. intros Hx Hn Hlf Hp Hmk HW Hv Hgr <- HwR. destruct (vrel_plain _ _ _ _ Hv Hn Hp) as (v & Hn' & Hp').
  pose proof (grown_nth vs Hgr) as Ea1.
  assert (Htree : forall c1 (h1 : heap U') vs1 ids1 gs1, wR c1 h1 vs1 ids1 gs1 -> grown vs1 -> itree h1 (Some a) (ilog_get (tl (nth i gs1 [])))).
  { intros c1 h1 vs1 ids1 gs1 [(K & HG & HR) _ _] Hg. pose proof (kR_nth h1 K vs1 _ i HR) as H. rewrite (grown_nth vs1 Hg), tl_nth in H. by eapply kitree_itree. }
  destruct (entry h0 h a xs yz (nth i gs []) x Hi Hv (Htree _ _ _ _ _ HwR Hgr) Hx) as (q & y & Cq & Vq & Gq). rewrite (val_at_cell _ _ _ Hn') in Vq. cbn [nn_val set_val] in Vq.
  assert (Hyp : plain y.2). { destruct HwR as [_ _ Hpl]. apply (lplain_nth _ i Hpl q). by apply get_in. }
  unfold upd_node. apply wp_bind. eapply wp_ld_num; [exact Hn'|]. rewrite Hmk. apply wp_bind. unfold runcb. apply wp_bind. unfold tcb. cbn [fst snd].
  assert (Eer : erp (x.2.1, v) = (x.2.1, y.2)). { unfold Opaque.erp. cbn [fst snd]. f_equal. rewrite Vq. unfold tg. by apply erv_tag. } rewrite Eer.
  eapply wp_mono; [apply (Hcb s (x.2.1, y.2) v past h WS vs ids gs HW HwR)|]. cbn beta. intros [vs2 [[c2 s2] r2]] h2 WS2 (HW2 & Hv2 & [more2 Hm2] & past2 & ids2 & gs2 & s2' & w & Er & Hplw & HwR2 & Hs). cbn [fst snd] in *. injection Er as -> -> ->.
  assert (Hgr2 : grown vs2). { destruct Hgr as [more ->]. exists (more ++ more2). by rewrite Hm2, app_assoc. }
  unfold node_done. cbn [wp]. destruct w as [w|]; cbn [fmap option_fmap option_map].
  2: { cbn [wp fst snd]. split_and!; [done|done|done|]. exists past2, ids2, gs2. split_and!; [done|done|]. exists q, y, gs2, None. done. }
  destruct (vrel_plain _ _ _ _ Hv2 Hn' Hp') as (v2 & Hn2 & Hp2). pose proof (vrel_trans _ _ _ Hv Hv2) as Hv02.
  destruct (entry h0 h2 a xs yz (nth i gs2 []) x Hi Hv02 (Htree _ _ _ _ _ HwR2 Hgr2) Hx) as (q' & y2 & Cq2 & Vq2 & Gq2). pose proof (is_net_fun x q' q Cq2 Cq) as ->. rewrite (val_at_cell _ _ _ Hn2) in Vq2. cbn [nn_val set_val] in Vq2.
  assert (Hi1 : i < length gs). { destruct HwR as [(K & _ & HR) _ _]. rewrite <- (map_length tl gs), <- (Forall2_length _ _ _ HR). destruct (decide (i < length vs)) as [|Hge]; [done|]. rewrite nth_overflow in Ea1 by lia. done. }
  assert (Ey : y2.1 = y.1). { pose proof (proj1 (all_keep past ids gs) _ _ _ _ _ Hs) as [_ Hk]. specialize (Hk i q Hi1). rewrite Gq, Gq2 in Hk. by injection Hk. }
  destruct (write_node (length past2) h0 h2 a xs yz vs2 ids2 gs2 i x _ q y2.1 y2.2 w HwR2 (grown_nth vs2 Hgr2) Hi Hv02 Hx Cq Hn2) as (gs3 & HwR3 & Hrep); [exact Hlf|cbn [nn_val set_val]; rewrite Vq2; by destruct y2|by apply Hplw|].
  assert (Eset : setv h2 x.1 (tg q (y2.1, w)) = <[x.1 := CNum (set_val (set_val (set_val n v) v2) (tg q (y2.1, w)))]> h2) by exact (vrel_setv _ _ _ _ Hn2).
  apply wp_bind. eapply wp_st_num; [apply HW2; by eapply elem_of_dom_2|rewrite Hn2; by eexists|]. cbn [wp fst snd].
  match goal with |- context [<[x.1 := ?C]> h2] => replace (<[x.1 := C]> h2) with (setv h2 x.1 (tg q (y2.1, w))) end.
  2: { rewrite Eset. f_equal. cbn [nn_key nn_bits nn_leaf nn_c0 nn_c1 set_val]. unfold set_val. cbn [nn_key nn_bits nn_leaf nn_c0 nn_c1]. rewrite Vq, retag_tg, Ey. done. }
  split_and!.
  - rewrite Eset, dom_insert_L. apply elem_of_dom_2 in Hn2. clear -Hn2 HW2. set_solver.
  - eapply vrel_trans; [exact Hv2|]. rewrite Eset. apply vrel_store; [done|done|done|done].
  - done.
  - exists past2, ids2, gs3. split_and!; [done|done|]. exists q, y, gs2, (Some w). done.
Qed.
Definition dI (h : heap U') (st : St') : Prop := grown st.1 /\ exists (past : list (dcall (value U))) ids gs, length past = st.2.1 /\ wR st.2.1 h st.1 ids gs.
Definition dD (st : St') (h : heap U') (seg : list (loc * (bytes * bytes * value U'))) (st' : St') (h' : heap U') : Prop := Forall (inside p) seg -> forall (past : list (dcall (value U))) ids gs, length past = st.2.1 -> wR st.2.1 h st.1 ids gs ->
  exists past' ids' gs', length past' = st'.2.1 /\ wR st'.2.1 h' st'.1 ids' gs' /\ visits past ids gs i p cb st.2.2 (map (fun x => erp x.2) seg) past' ids' gs' st'.2.2.
Lemma visits_app past ids gs s e1 past1 ids1 gs1 s1 e2 past' ids' gs' s' : visits past ids gs i p cb s e1 past1 ids1 gs1 s1 -> visits past1 ids1 gs1 i p cb s1 e2 past' ids' gs' s' -> visits past ids gs i p cb s (e1 ++ e2) past' ids' gs' s'.
Proof.
  revert past ids gs s. induction e1 as [|x e1 IH]; intros past ids gs s H1 H2; inversion H1; subst; cbn [Datatypes.app]; [done|..].
  - eapply vi_in; try done. by eapply IH.
  - eapply vi_out; try done. by eapply IH.
Qed.
Lemma d_steps : steps runcb dD dI h0 (le xs yz).
Proof using Hcb Hi Ea.
  split.
  - intros st h _ past ids gs E1 E2. exists past, ids, gs. split_and!; [done|done|constructor].
  - intros seg1 st h seg2 st1 h1 st' h' D1 D2 Hin past ids gs E1 E2. apply Forall_app in Hin as [I1 I2]. destruct (D1 I1 past ids gs E1 E2) as (past1 & ids1 & gs1 & F1 & F2 & F3). destruct (D2 I2 past1 ids1 gs1 F1 F2) as (past2 & ids2 & gs2 & G1 & G2 & G3).
    exists past2, ids2, gs2. split_and!; [done|done|]. rewrite map_app. by eapply visits_app.
  - intros x mk n st h WS Hx Hn Hlf Hp Hmk HW [Hgr (past0 & ids0 & gs0 & E0 & HwR0)] Hv.
    eapply wp_mono; [apply (wp_all _ (fun y : list (dcall (value U)) * list (option nat) * list slog => length y.1.1 = st.2.1 /\ wR st.2.1 h st.1 y.1.2 y.2) (past0, ids0, gs0) (conj E0 HwR0) h WS (node_done x st h)); intros [[past ids] gs] [E1 E2]; apply (node_step x mk n st h WS past ids gs Hx Hn Hlf Hp Hmk HW Hv Hgr E1 E2)|].
    cbn beta. intros st' h' WS' H. destruct (H (past0, ids0, gs0) (conj E0 HwR0)) as (A1 & A2 & A3 & past1 & ids1 & gs1 & A4 & A5 & _). split_and!; [|by eapply vrel_trans|done|split; [done|by exists past1, ids1, gs1]].
    intros Hin past ids gs E1 E2. destruct (H (past, ids, gs) (conj E1 E2)) as (_ & _ & _ & past2 & ids2 & gs2 & B4 & B5 & q & nv & gsm & w & Cq & Gq & Hs & Hr). exists past2, ids2, gs2. split_and!; [done|done|]. cbn [map].
    apply Forall_inv in Hin as (q' & Cq' & Q1 & Q2). pose proof (is_net_fun x q' q Cq' Cq) as ->. destruct x as [lo [[ip m] v]]. cbn [fst snd] in *. destruct nv as [nn u]. eapply vi_in; [exact Cq|done|done|exact Gq|exact Hs|exact Hr|constructor].
Qed.
Lemma visits_out past ids gs s (l : list (loc * (bytes * bytes * value U'))) : Forall (outside p) l -> visits past ids gs i p cb s (map (fun x => erp x.2) l) past ids gs s.
Proof. induction 1 as [|[lo [[ip m] v]] l (q & C & H) Hl IH]; cbn [map]; [constructor|]. eapply vi_out; [exact C|exact H|exact IH]. Qed.
End cbs.
Lemma d_update (cb : callback) past (h : heap U') (W : gset loc) vs ids gs i n s : (forall s x, s_good (cb s x)) -> dom h ⊆ W -> wR (length past) h vs ids gs ->
  wp (run_update vs i n (tcb cb) (S (length past), s)) h W (fun y h' W' => dom h' ⊆ W' /\ vrel h h' /\ (exists more, y.1 = vs ++ more) /\
    exists past' ids' gs' s', y.2 = (length past', s') /\ wR (length past') h' y.1 ids' gs' /\ updates past ids gs i n cb s past' ids' gs' s').
Proof.
  intros Hcb HW HwR. pose proof (wR_next _ _ _ _ _ HwR) as HwR1. assert (Elen : length (past ++ [DUpdate i n]) = S (length past)) by (rewrite app_length; cbn [length]; lia).
  pose proof HwR as [(K & HG & HR) _ Hpl]. 
  assert (Hnone : updates past ids gs i n cb s (past ++ [DUpdate i n]) ids gs s -> dom h ⊆ W /\ vrel h h /\ (exists more, vs = vs ++ more) /\
    exists past' ids' gs' s', (S (length past), s) = (length past', s') /\ wR (length past') h vs ids' gs' /\ updates past ids gs i n cb s past' ids' gs' s').
  { intros H. split_and!; [done|apply vrel_refl|exists []; by rewrite app_nil_r|]. exists (past ++ [DUpdate i n]), ids, gs, s. rewrite Elen. done. }
  assert (Etg : forall q, is_target (unstamp (nth i gs [])) (Some n) q <-> is_target (tl (nth i gs [])) (Some n) q).
  { intros q. rewrite <- tl_erl by (by apply lplain_nth). by rewrite erl_target. }
  unfold run_update. pose proof (resolve_net_is (Some n)) as Hn. destruct (resolve_net (Some n)) as [p|].
  2: { assert (Hu : updates past ids gs i n cb s (past ++ [DUpdate i n]) ids gs s) by (by apply up_no_net). destruct (nth i vs None) as [a|]; [|cbn [wp fst snd]; by apply Hnone].
    unfold ip_update_by. pose proof (ip4_key_spec n) as K4. destruct (ip4_key n) as [[k b]|]; [destruct K4 as (K4 & _); by apply Hn in K4|].
    pose proof (ip6_key_spec n) as K6. destruct (ip6_key n) as [[[[hk hb] lk] lb]|]; [destruct K6 as (q & K6 & _); by apply Hn in K6|]. cbn [wp fst snd]. by apply Hnone. }
  pose proof (kR_nth h K vs _ i HR) as Ht. rewrite tl_nth in Ht. unfold kR in Ht. destruct (nth i vs None) as [a|] eqn:Ea.
  2: { cbn [wp fst snd]. apply Hnone. eapply up_no_target; [done|]. rewrite Etg. apply kitree_itree in Ht; [|done]. cbn [itree] in Ht. intros [[v Hv]|[_ [(q' & [v Hv] & _) _]]]; rewrite Ht in Hv; done. }
  apply kitree_itree in Ht; [|done]. destruct (itree_itl _ _ _ Ht) as (xs & yz & Hi).
  pose proof (enum_le h h a xs yz _ Hi (vrel_refl h) Ht) as He. assert (Eid : map (reloadp h) (le xs yz) = le xs yz).
  { apply map_id_on. intros y Hy. destruct (le_cells _ _ _ _ Hi y Hy) as [_ Ey]. destruct y as [lo [im v]]. cbn [fst snd] in Ey. unfold reloadp. cbn [fst snd]. by rewrite Ey. }
  rewrite Eid in He.
  assert (Htarget : is_target (unstamp (nth i gs [])) (Some n) p <-> stored p (le xs yz) \/ taken (le xs yz) p (no_host_bits (Some n) p)).
  { rewrite Etg. unfold is_target, taken. rewrite (stored_log _ _ _ He). rewrite (around_ext (fun q => stored q (le xs yz)) (fun q => exists v, ilog_get (tl (nth i gs [])) q = Some v)); [done|]. intros q. by apply stored_log. }
  assert (HI : dI vs h (vs, (S (length past), s))).
  { split; [exists []; by rewrite app_nil_r|]. exists (past ++ [DUpdate i n]), ids, gs. done. }
  eapply wp_mono; [apply (wp_dom (St := unit) (fun _ _ => True)); [exact HW|apply (update_net (runcb cb) (fun _ _ => dD cb i p) (dI vs) h a xs yz Hi W HW (vs, (S (length past), s)) HI (d_steps cb Hcb h a xs yz vs i p Hi Ea) n p Hn)]|].
  cbn beta. intros [vs' [c' s']] h' W' [[Hu [Hv [Hgr _]]] HW']. cbn [fst snd] in *. split_and!; [done|done|exact Hgr|]. destruct Hu as [[(L & seg & R & E & Hin & Hout & HD) Htk]|(E1 & -> & N1 & N2)].
  - apply Htarget in Htk. destruct (HD Hin (past ++ [DUpdate i n]) ids gs Elen HwR1) as (past' & ids' & gs' & F1 & F2 & F3). cbn [fst snd] in *. subst c'. exists past', ids', gs', s'. split_and!; [done|done|].
    eapply (up_walk _ _ _ i n p cb s (map erp (map snd (le xs yz)))); [done|done| |].
    + rewrite <- tl_erl by (by apply lplain_nth). by apply erl_enum.
    + rewrite map_map, E, !map_app. apply Forall_app in Hout as [O1 O2]. eapply visits_app; [by apply visits_out|]. eapply visits_app; [exact F3|by apply visits_out].
  - injection E1 as -> -> ->. exists (past ++ [DUpdate i n]), ids, gs, s. split_and!; [by rewrite Elen|by rewrite Elen|]. eapply up_no_target; [done|]. rewrite Htarget. by intros [?|?].
Qed.
(** *** Scripts and clients. *)
Lemma run_supdate {V} vs i n (cb : V -> bytes * bytes * value U' -> script (value U') V) s k : run_script vs (SUpdate i n cb s k) = (y <- run_update vs i n cb s ;; run_script y.1 (k y.2)).
Proof. cbn [run_script]. unfold run_update. by destruct (nth i vs None). Qed.
Lemma s_all m : script_ok m -> s_good m.
Proof.
  induction m as [s r|o k IH|i n cb IHcb s k IH]; cbn [script_ok]; intros Hok v0 past h W vs ids gs HW HwR.
  - cbn [tscript run_script wp fst snd]. split_and!; [done|apply vrel_refl|exists []; by rewrite app_nil_r|]. exists past, ids, gs, s, r. split_and!; [done|done|done|constructor].
  - destruct Hok as [Ho Hk]. cbn [tscript run_script]. apply wp_bind. eapply wp_mono; [by apply (s_call (length past) o h W vs ids gs)|]. cbn beta. intros r h1 W1 (A1 & A2 & [m1 A3] & ids1 & gs1 & A4 & A5).
    assert (Elen : S (length past) = length (past ++ [DCall (WCall o)])) by (rewrite app_length; cbn [length]; lia). rewrite Elen in A4 |- *.
    eapply wp_mono; [by apply (IH (erx r.2) (Hk _) v0 (past ++ [DCall (WCall o)]) h1 W1 r.1 ids1 gs1)|]. cbn beta. intros r2 h2 W2 (B1 & B2 & [m2 B3] & past' & ids' & gs' & s & w & B4 & B5 & B6 & B7).
    split_and!; [done|by eapply vrel_trans|exists (m1 ++ m2); by rewrite B3, A3, app_assoc|]. exists past', ids', gs', s, w. split_and!; [done|done|done|]. by eapply sr_call.
  - destruct Hok as [Hcb Hk]. cbn [tscript]. rewrite run_supdate. apply wp_bind. eapply wp_mono; [apply (d_update cb past h W vs ids gs i n s); [intros s1 x; by apply IHcb|done|done]|].
    cbn beta. intros [vs1 cs1] h1 W1 (A1 & A2 & [m1 A3] & past1 & ids1 & gs1 & s1 & A4 & A5 & A6). cbn [fst snd] in *. subst cs1. cbn [fst snd].
    eapply wp_mono; [by apply (IH s1 (Hk _) v0 past1 h1 W1 vs1 ids1 gs1)|]. cbn beta. intros r2 h2 W2 (B1 & B2 & [m2 B3] & past' & ids' & gs' & s2 & w & B4 & B5 & B6 & B7).
    split_and!; [done|by eapply vrel_trans|exists (m1 ++ m2); by rewrite B3, A3, app_assoc|]. exists past', ids', gs', s2, w. split_and!; [done|done|done|]. by eapply sr_update.
Qed.
Lemma c_all {A} (m : client (value U) St A) : client_ok m -> forall past (h : heap U') (W : gset loc) vs ids gs, dom h ⊆ W -> wR (length past) h vs ids gs ->
  wp (run_client vs (tclient m (length past))) h W (fun r _ _ => exists past' ids' gs', cruns past ids gs m past' ids' gs' r.2).
Proof.
  induction m as [a|o k IH|i n cb s k IH]; cbn [client_ok]; intros Hok past h W vs ids gs HW HwR; cbn [tclient run_client].
  - cbn [wp snd]. exists past, ids, gs. constructor.
  - destruct Hok as [Ho Hk]. apply wp_bind. eapply wp_mono; [by apply (w_step (length past) (tagw (length past) o) o h W vs ids gs); [| |apply tagw_ok]|]. cbn beta. intros r h1 W1 (A1 & A2). destruct (A2 _ (erx_sim r.2)) as (ids1 & gs1 & A3 & A4).
    assert (Elen : S (length past) = length (past ++ [DCall o])) by (rewrite app_length; cbn [length]; lia). rewrite Elen in A3 |- *.
    eapply wp_mono; [by apply (IH (erx r.2) (Hk _) (past ++ [DCall o]) h1 W1 r.1 ids1 gs1)|]. cbn beta. intros r2 h2 W2 (past' & ids' & gs' & B). exists past', ids', gs'. by eapply cr_call.
  - destruct Hok as [Hcb Hk]. apply wp_bind. eapply wp_mono; [apply (d_update cb past h W vs ids gs i n s); [intros s1 x; by apply s_all|done|done]|].
    cbn beta. intros [vs1 cs1] h1 W1 (A1 & A2 & [m1 A3] & past1 & ids1 & gs1 & s1 & A4 & A5 & A6). cbn [fst snd] in *. subst cs1. cbn [fst snd].
    eapply wp_mono; [by apply (IH s1 (Hk _) past1 h1 W1 vs1 ids1 gs1)|]. cbn beta. intros r2 h2 W2 (past' & ids' & gs' & B). exists past', ids', gs'. by eapply cr_update.
Qed.
Lemma pf_derive {A} (h : heap U) (m : client (value U) St A) : client_ok m ->
  wp (run_client [] m) h ∅ (fun r h' _ => h ⊆ h' /\ exists past ids gs, cruns [] [] [] m past ids gs r.2).
Proof.
  intros Hok. assert (H0 : wR (U := U) 0 ∅ [] [] []).
  { split; [exists (fun _ => ∅); split; [split|constructor]|exists (fun _ => None); split; [done|constructor]|constructor]; intros; set_solver. }
  assert (Hw := c_all m Hok [] ∅ ∅ [] [] [] ltac:(by rewrite dom_empty_L) H0). cbn [length] in Hw.
  apply (psim_wp untag _ _ _ (ps_client m Hok 0 [])) in Hw. assert (E : erh (untag (U := U)) ∅ = ∅) by (unfold erh; apply fmap_empty). rewrite E in Hw.
  eapply wp_mono; [apply (wp_part _ ∅ h ∅ ∅ _ (map_empty_subseteq h) (reflexivity _) Hw)|]. cbn beta. intros r h' _ (hp & W1 & _ & (r' & hp' & -> & _ & H2) & H3). split; [|done].
  apply map_subseteq_spec. intros l x Hl. destruct (H3 l) as [_ E2]; [by eapply elem_of_dom_2|by rewrite dom_empty_L; apply not_elem_of_empty|]. by rewrite E2.
Qed.
End tagged.

(** ** Consequences. *)
Section conseq.
Context {V St : Type}.
Implicit Types (gs : list (ilog (nat * V))) (ids : list (option nat)) (past : list (dcall V)).
Lemma pf_derive_keeps past ids gs i n (cb : St -> bytes * bytes * V -> script V St) s past' ids' gs' s' : updates past ids gs i n cb s past' ids' gs' s' ->
  forall j q, j < length gs -> fst <$> ilog_get (nth j gs' []) q = fst <$> ilog_get (nth j gs []) q.
Proof. intros H. apply (all_keep past ids gs) in H as [_ H]. exact H. Qed.
(** *** Invariants of the calls made so far. *)
Definition as_aop (o : dcall V) : aop V unit := match o with DCall o => AOp o | DUpdate i n => AUpdate i n (fun s _ => (s, None)) tt end.
Lemma as_stores o q v : stores (as_aop o) q v <-> dstores o q v.
Proof. destruct o as [o|i n]; cbn [as_aop]; split; intros H; inversion H; subst; by econstructor. Qed.
Lemma as_never past q : never_updated (map as_aop past) q <-> never_inside past q.
Proof.
  split.
  - intros H i n p Hin. apply (H i n (fun s _ => (s, None)) tt p). apply (elem_of_list_fmap_1 as_aop) in Hin. exact Hin.
  - intros H i n cb s p Hin. apply (elem_of_list_fmap_2 as_aop) in Hin as ([o|i' n'] & E & Hin); [done|]. injection E as -> -> _ _. by apply (H i' n' p).
Qed.
Record good past ids gs : Prop := { go_obj : obj (length past) ids gs; go_from : from (map as_aop past) gs }.
Lemma good_call past ids gs o ids' gs' x : good past ids gs -> wstep (length past) ids gs o ids' gs' x -> good (past ++ [DCall o]) ids' gs'.
Proof.
  intros [G1 G2] H. apply (as_op (St := unit)) in H. split.
  - rewrite app_length. cbn [length]. rewrite Nat.add_1_r. by eapply obj_step.
  - rewrite map_app. cbn [map as_aop]. eapply from_step; [exact G2|]. rewrite map_length. exact H.
Qed.
Lemma good_update past ids gs i n : good past ids gs -> good (past ++ [DUpdate i n]) ids gs.
Proof.
  intros [G1 G2]. split; [rewrite app_length; cbn [length]; rewrite Nat.add_1_r; by apply obj_next|]. rewrite map_app. intros ver q c v E. by eapply from_old.
Qed.
Definition inside_of past (p : net) : Prop := exists i n, DUpdate i n ∈ past /\ net_is (Some n) p.
Lemma good_replaced past ids gs i p q r gs' : good past ids gs -> inside_of past p -> ncovers p q -> p <> q -> replaced i q r ids gs gs' -> good past ids gs'.
Proof.
  destruct r as [w|]; cbn [replaced]; [|by intros ? _ _ _ ->]. intros [G1 G2] (i0 & n0 & Hin & Hn0) Hc Hne (n & v & H1 & H2 & H3 & H4 & H5 & H6). split.
  - destruct G1 as [O1 O2 O3]. split; [congruence|done|]. intros j j' m q' E1 E2. destruct (decide (q' = q)) as [->|Hq]; [by eapply H6|]. rewrite !H4 by done. by eapply O3.
  - intros ver q' c v' E. destruct (decide (q' = q)) as [->|Hq]; [|rewrite H4 in E by done; by eapply G2]. destruct (H5 ver) as [X|[X1 X2]]; [rewrite X in E; by eapply G2|]. rewrite X2 in E. injection E as <- <-.
    destruct (G2 ver q n v X1) as (o & w' & A1 & A2 & A3). exists o, w'. split_and!; [done|done|]. intros Hnv. destruct Hne. apply as_never in Hnv. by apply (Hnv i0 n0 p).
Qed.
Lemma inside_mono past past' p : past `prefix_of` past' -> inside_of past p -> inside_of past' p.
Proof. intros [k ->] (i & n & H & H'). exists i, n. split; [apply elem_of_app; by left|done]. Qed.
Lemma all_good past ids gs :
  (forall (m : script V St) past' ids' gs' y, sruns past ids gs m past' ids' gs' y -> past `prefix_of` past' /\ (good past ids gs -> good past' ids' gs')) /\
  (forall i n (cb : St -> bytes * bytes * V -> script V St) s past' ids' gs' s', updates past ids gs i n cb s past' ids' gs' s' -> past `prefix_of` past' /\ (good past ids gs -> good past' ids' gs')) /\
  (forall i p (cb : St -> bytes * bytes * V -> script V St) s e past' ids' gs' s', visits past ids gs i p cb s e past' ids' gs' s' -> past `prefix_of` past' /\ (inside_of past p -> good past ids gs -> good past' ids' gs')).
Proof.
  apply (runs_mut V St (fun past ids gs _ past' ids' gs' _ => past `prefix_of` past' /\ (good past ids gs -> good past' ids' gs'))
    (fun past ids gs _ _ _ _ past' ids' gs' _ => past `prefix_of` past' /\ (good past ids gs -> good past' ids' gs'))
    (fun past ids gs _ p _ _ _ past' ids' gs' _ => past `prefix_of` past' /\ (inside_of past p -> good past ids gs -> good past' ids' gs'))); clear past ids gs.
  - intros past ids gs s r. split; [done|done].
  - intros past ids gs o k x ids1 gs1 past' ids' gs' y H1 _ [P IH]. split; [by eapply prefix_app_l|]. intros G. apply IH. by eapply good_call.
  - intros past ids gs i n cb s k past1 ids1 gs1 s1 past' ids' gs' y _ [P1 IH1] _ [P2 IH2]. split; [by etrans|auto].
  - intros past ids gs i n cb s _. split; [by apply prefix_app_r|by apply good_update].
  - intros past ids gs i n p cb s _ _. split; [by apply prefix_app_r|by apply good_update].
  - intros past ids gs i n p cb s e past' ids' gs' s' Hn _ _ _ [P IH]. split; [by eapply prefix_app_l|]. intros G. apply IH; [exists i, n; split; [apply elem_of_app; right; by left|done]|by apply good_update].
  - intros past ids gs i p cb s. split; [done|done].
  - intros past ids gs i p cb s ip m v0 q n v e past1 ids1 gs1 s1 r gs2 past' ids' gs' s' _ Hc Hne _ _ [P1 IH1] Hr _ [P2 IH2]. split; [by etrans|]. intros Hp G. pose proof (inside_mono _ _ _ P1 Hp) as Hp1. apply IH2; [done|]. eapply good_replaced; [by apply IH1|exact Hp1|exact Hc|exact Hne|exact Hr].
  - intros past ids gs i p cb s ip m v0 q e past' ids' gs' s' _ _ _ IH. exact IH.
Qed.
Lemma good_client {A} past ids gs (m : client V St A) past' ids' gs' a : cruns past ids gs m past' ids' gs' a -> good past ids gs -> good past' ids' gs'.
Proof.
  induction 1 as [|past ids gs o k x ids1 gs1 past' ids' gs' y H _ IH|past ids gs i n cb s k past1 ids1 gs1 s1 past' ids' gs' y H _ IH]; [done|..].
  - intros G. apply IH. by eapply good_call.
  - apply (all_good past ids gs) in H as [_ H]. auto.
Qed.
Lemma good_start : good [] [] [].
Proof. split; [split; [done|by intros [|i]|by intros [|i]]|by intros [|ver]]. Qed.
Lemma pf_derive_same_object {A} (m : client V St A) past ids gs a : cruns [] [] [] m past ids gs a ->
  forall i j n q, nth i ids None = Some n -> nth j ids None = Some n -> ilog_get (nth i gs []) q = ilog_get (nth j gs []) q.
Proof. intros H. destruct (good_client _ _ _ _ _ _ _ _ H good_start) as [G _]. by apply (ob_same _ _ _ G). Qed.
Lemma pf_derive_values {A} (m : client V St A) past ids gs a : cruns [] [] [] m past ids gs a ->
  forall ver q c v, ilog_get (nth ver gs []) q = Some (c, v) -> exists o w, past !! c = Some o /\ dstores o q w /\ (never_inside past q -> v = w).
Proof.
  intros H ver q c v E. destruct (good_client _ _ _ _ _ _ _ _ H good_start) as [_ G]. destruct (G ver q c v E) as (o & w & A1 & A2 & A3). rewrite list_lookup_fmap in A1. destruct (past !! c) as [o'|]; [|done]. injection A1 as <-.
  exists o', w. split_and!; [done|by apply as_stores|]. intros Hn. apply A3. by apply as_never.
Qed.
(** *** Callbacks that only compute. *)
Local Notation paired := (Forall2 (fun (x : bytes * bytes * V) (y : net * V) => x.2 = y.2 /\ canonical x.1.1 x.1.2 y.1)).
Lemma canonical_fun ip m q q' : canonical ip m q -> canonical ip m q' -> q = q'.
Proof. exact (is_net_fun (U := unit) (1%positive, (ip, m, VNil)) q q'). Qed.
Lemma sorted_head (q : net) (v : V) ps x : StronglySorted (fun x y : net * V => net_lt x.1 y.1) ((q, v) :: ps) -> (q, x) ∈ ps -> False.
Proof. intros H Hin. apply StronglySorted_inv in H as [_ H]. rewrite List.Forall_forall in H. apply elem_of_list_In in Hin. specialize (H _ Hin). cbn [fst] in H. destruct H as [[E1 E2]|[_ [H|[_ H]]]]; [congruence|by apply N.lt_irrefl in H|by apply N.lt_irrefl in H]. Qed.
Lemma simple_visits (f : St -> bytes * bytes * V -> St * option V) i p e : forall past ids gs s past' ids' gs' s' ps, visits past ids gs i p (computes f) s e past' ids' gs' s' ->
  StronglySorted (fun x y : net * V => net_lt x.1 y.1) ps -> paired e ps -> (forall q v, (q, v) ∈ ps -> snd <$> ilog_get (nth i gs []) q = Some v) ->
  past' = past /\ ids' = ids /\ exists e' ps', uwalk f p s e s' e' /\ paired e' ps' /\ map fst ps' = map fst ps /\ (forall q v, (q, v) ∈ ps' -> snd <$> ilog_get (nth i gs' []) q = Some v) /\
    forall q, q ∉ map fst ps -> ilog_get (nth i gs' []) q = ilog_get (nth i gs []) q.
Proof.
  induction e as [|[[ip m] v0] e IH]; intros past ids gs s past' ids' gs' s' ps Hv Hs Hp Hg.
  - inversion Hv; subst. inversion Hp; subst. split_and!; [done|done|]. exists [], []. split_and!; [constructor|constructor|done|intros q v H; by apply elem_of_nil in H|done].
  - inversion Hp as [|? [q0 w0] ? ps0 [E0 C0] Hp0]; subst. cbn [fst snd] in E0, C0. subst w0. pose proof (StronglySorted_inv Hs) as [Hs0 _]. pose proof (Hg q0 v0 ltac:(by left)) as Gq.
    inversion Hv as [|? ? ? ? ? ? ? q n v ? past1 ids1 gs1 s1 r gs2 ? ? ? ? C Hc Hne G Hr Hrep Hv2|? ? ? ? ? ? ? q ? ? ? ? ? C Hout Hv2]; subst; pose proof (canonical_fun _ _ _ _ C C0) as ->.
    + rewrite G in Gq. injection Gq as ->. unfold computes in Hr. inversion Hr; subst.
      assert (Hoth : forall q, q <> q0 -> ilog_get (nth i gs2 []) q = ilog_get (nth i gs1 []) q).
      { destruct (f s (ip, m, v0)).2; cbn [replaced] in Hrep; [|by subst gs2]. destruct Hrep as (n1 & v1 & _ & _ & _ & H4 & _). intros q. apply H4. }
      assert (Hnew : snd <$> ilog_get (nth i gs2 []) q0 = Some (default v0 (f s (ip, m, v0)).2)).
      { destruct (f s (ip, m, v0)).2 as [w|]; cbn [replaced] in Hrep; [|subst gs2; by rewrite G]. destruct Hrep as (n1 & v1 & _ & -> & _). done. }
      destruct (IH _ _ _ _ _ _ _ _ ps0 Hv2 Hs0 Hp0) as (-> & -> & e' & ps' & A1 & A2 & A3 & A4 & A5).
      { intros q v Hin. rewrite Hoth; [by apply Hg; right|]. intros ->. by eapply sorted_head. }
      split_and!; [done|done|]. exists ((ip, m, default v0 (f s (ip, m, v0)).2) :: e'), ((q0, default v0 (f s (ip, m, v0)).2) :: ps'). split_and!.
      * eapply uw_in; [exact C0|done|done|apply surjective_pairing|exact A1].
      * by constructor.
      * cbn [map fst]. by rewrite A3.
      * intros q v [[= -> ->]|Hin]%elem_of_cons; [|by apply A4]. rewrite A5; [done|]. intros Hq. apply elem_of_list_fmap in Hq as ([q' v'] & -> & Hq). by eapply sorted_head.
      * intros q Hq. cbn [map fst] in Hq. apply not_elem_of_cons in Hq as [Hq1 Hq2]. rewrite A5 by done. by apply Hoth.
    + destruct (IH _ _ _ _ _ _ _ _ ps0 Hv2 Hs0 Hp0) as (-> & -> & e' & ps' & A1 & A2 & A3 & A4 & A5); [intros q v Hin; apply Hg; by right|].
      split_and!; [done|done|]. exists ((ip, m, v0) :: e'), ((q0, v0) :: ps'). split_and!.
      * by eapply uw_out.
      * by constructor.
      * cbn [map fst]. by rewrite A3.
      * intros q v [[= -> ->]|Hin]%elem_of_cons; [|by apply A4]. rewrite A5; [done|]. intros Hq. apply elem_of_list_fmap in Hq as ([q' v'] & -> & Hq). by eapply sorted_head.
      * intros q Hq. cbn [map fst] in Hq. apply not_elem_of_cons in Hq as [_ Hq2]. by apply A5.
Qed.
Lemma pf_derive_simple past ids gs i n p (f : St -> bytes * bytes * V -> St * option V) s past' ids' gs' s' : updates past ids gs i n (computes f) s past' ids' gs' s' -> net_is (Some n) p -> is_target (unstamp (nth i gs [])) (Some n) p ->
  past' = past ++ [DUpdate i n] /\ ids' = ids /\ exists e e', nenumerates (unstamp (nth i gs [])) e /\ nenumerates (unstamp (nth i gs' [])) e' /\ uwalk f p s e s' e'.
Proof.
  intros H Hn Ht. inversion H as [? ? ? ? Hno|? ? p' ? ? Hn' Hno|? ? p' ? ? e ? ? ? ? Hn' Ht' He Hv]; subst; [by destruct (Hno p)|destruct Hno; by rewrite (net_is_fun _ _ _ Hn' Hn)|].
  rewrite (net_is_fun _ _ _ Hn' Hn) in Hv. pose proof He as (ps & S1 & S2 & S3).
  destruct (simple_visits f i p e _ _ _ _ _ _ _ _ ps Hv S1 S3) as (-> & -> & e' & ps' & A1 & A2 & A3 & A4 & A5); [intros q v Hin; apply S2 in Hin; by rewrite <- unstamp_get|].
  split_and!; [done|done|]. exists e, e'. split_and!; [done| |done]. exists ps'. split_and!; [|intros q v; split|exact A2].
  - assert (Hmap : forall l : list (net * V), StronglySorted (fun x y : net * V => net_lt x.1 y.1) l <-> StronglySorted net_lt (map fst l)).
    { induction l as [|x l IHl]; cbn [map]; split; intros Hl; try constructor; apply StronglySorted_inv in Hl as [L1 L2]; try (by apply IHl); rewrite ?Forall_map in *; done. }
    apply Hmap. rewrite A3. by apply Hmap.
  - intros Hin. rewrite unstamp_get. by apply A4.
  - rewrite unstamp_get. intros E. assert (Hq : q ∈ map fst ps').
    { rewrite A3. destruct (decide (q ∈ map fst ps)) as [|Hq]; [done|]. rewrite A5 in E by done. rewrite <- unstamp_get in E. apply S2 in E. apply (elem_of_list_fmap_1 fst) in E. done. }
    apply elem_of_list_fmap in Hq as ([q' v'] & -> & Hq). pose proof (A4 _ _ Hq) as E2. cbn [fst] in *. rewrite E in E2. by injection E2 as <-.
Qed.
End conseq.
