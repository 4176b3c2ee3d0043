(** * Proofs for Properties_ip_renew.v *)
From Verif Require Import Prog History NumModel NumSpec NumAbs NumFoot NumBits NumNavSpec NumNavProofs NumShare IpModel IpSpec IpUpdSpec IpBits IpAbs IpAbs2 IpAbs3 IpAbs4 IpEnum IpHist IpPropProofs IpUpd IpUpd2 IpUpd3 IpUpd4 IpUpdProofs CallProofs WorkProofs ShareProofs.
From Verif Require Import StampSpec StampProofs StampTree IpKinds IpKinds2 IpKinds3 IpVersSpec IpVersProofs IpAllSpec IpAllProofs IpStampSpec IpStamp IpStamp2 IpStamp3 IpStampProofs IpRenewSpec IpRenew.
From Coq Require Import ZifyBool ZifyNat ZifyN.
Open Scope nat_scope.

Section hist.
Context {U St : Type}.
Local Notation heap := (heap U).
Local Notation value := (value U).
Local Notation pair_ := (pair_ (U := U)).
Local Notation kinds := (kd -> gset loc).
Local Notation ver := (ver U).
Local Notation ver0 := (ver0 U).
Local Notation iver := (iver U).
Local Notation iver0 := (iver0 U).
Implicit Types (h : heap) (L : kinds) (K : loc -> nat) (n : nat) (v : value).

(** ** One update, with the nodes it writes. *)
Lemma update_locs (cb : St -> pair_ -> St * option value) h (W : gset loc) (a : loc) (G : net -> option value) (n : bytes * bytes) (p : net) (s : St) : cb_plain cb -> dom h ⊆ W -> itree h (Some a) G -> net_is (Some n) p ->
  let tg := (exists v, G p = Some v) \/ (no_host_bits (Some n) p /\ around (fun q => exists v, G q = Some v) p) in
  wp (ip_update cb (Some a) (Some n) s) h W (fun s' h' _ =>
    (~ tg /\ s' = s /\ h' = h) \/
    (tg /\ vrel h h' /\ exists xs yz (Wr : list loc) e e', itl h a xs yz /\ (forall l, l ∈ Wr -> l ∈ map fst (le xs yz)) /\ (forall l, l ∈ dom h -> l ∉ Wr -> val_at h' l = val_at h l) /\
       enum_of G e /\ uwalk cb p s e s' e' /\ forall G', itree h' (Some a) G' -> enum_of G' e')).
Proof.
  intros Hcb HW Ht Hn tg. assert (He0 : exists e, enum_of G e).
  { apply (wp_extract (ip_enumerate (Some a)) _ h ∅). eapply wp_mono; [apply (ip_enumerate_at _ ∅ _ _ Ht)|]. cbn beta. intros e h2 W2 [_ H]. by exists e. }
  destruct He0 as [e0 He0]. destruct (enum_log _ _ He0) as [l Hl]. assert (Htl : itree h (Some a) (ilog_get l)) by (eapply itree_ext; [|exact Ht]; exact Hl).
  assert (Etg : is_target l (Some n) p <-> tg).
  { unfold is_target, tg. rewrite (around_ext (fun q => exists v, ilog_get l q = Some v) (fun q => exists v, G q = Some v)); [|intros q; by rewrite Hl]. by rewrite Hl. }
  destruct (itree_itl _ _ _ Htl) as (xs & yz & Hi). set (call := fun (_ : list pair_) s x r => r = cb s x).
  unfold ip_update. eapply wp_mono; [apply wp_and; [apply (ip_update_by_at _ call (fun _ _ => True) h a l (Some n) p s W HW); [intros; apply pure_acts; exact Hcb|done..]|
    apply (update_net _ (rseg call) (fun _ _ => True) h a xs yz Hi W HW s I (acts_steps _ _ _ _ _ (pure_acts cb Hcb h _)) n p Hn)]|].
  cbn beta. intros s' h2 W3 [(e & e' & l' & He & _ & Ht' & P1 & P2 & P3 & P4 & P5 & _) [Hupd _]].
  assert (He2 : nenumerates l (map snd (le xs yz))).
  { apply (wp_extract (ip_enumerate (Some a)) _ h ∅). eapply wp_mono; [apply wp_and; [apply (ip_enumerate_loc _ _ _ _ Hi)|apply (ienum_at _ _ _ _ Htl)]|]. cbn beta. intros e2 h3 W4 [[-> ->] [_ H]]. exact H. }
  assert (Htarget : is_target l (Some n) p <-> stored p (le xs yz) \/ taken (le xs yz) p (no_host_bits (Some n) p)).
  { unfold is_target, taken. rewrite (stored_log _ _ _ He2). rewrite (around_ext (fun q => stored q (le xs yz)) (fun q => exists v, ilog_get l q = Some v)); [done|]. intros q. by apply stored_log. }
  destruct Hupd as [[(L & seg & R & EX & Hin & _ & Hr) Htg]|(-> & -> & N1 & N2)].
  2: { left. split_and!; [|done|done]. rewrite <- Etg, Htarget. by intros [?|?]. }
  right. apply Htarget in Htg. split; [by apply Etg|]. split; [done|]. exists xs, yz, (map fst seg), e, e'. split_and!; [done| |by apply (rseg_keep _ _ _ _ _ _ _ _ Hr)| | |].
  - intros lo Hlo. rewrite EX, !map_app. clear -Hlo. set_solver.
  - assert (Hen : enum_of (ilog_get l) e). { apply (wp_extract (ip_enumerate (Some a)) _ h ∅). eapply wp_mono; [apply wp_and; [apply P1|apply (ip_enumerate_at _ _ _ _ Htl)]|]. cbn beta. intros e2 h3 W4 [[-> _] [_ H]]. exact H. }
    destruct Hen as (ps & A1 & A2 & A3). exists ps. split_and!; [done| |done]. intros q v. by rewrite A2, Hl.
  - destruct (uwalk_const call cb p (fun _ _ _ _ H => H) _ _ _ _ _ (P3 Htg)) as (e2 & -> & Hw). exact Hw.
  - intros G' HG'. apply (wp_extract (ip_enumerate (Some a)) _ h2 ∅). eapply wp_mono; [apply wp_and; [apply P2|apply (ip_enumerate_at _ _ _ _ HG')]|]. cbn beta. intros e2 h3 W4 [[-> _] [_ H]]. exact H.
Qed.

(** ** Histories. *)
Lemma a_exec_exact h (WS : gset loc) n vs gs (o : aop value St) : dom h ⊆ WS -> hinv h n vs gs -> aop_ok o -> aop_single o ->
  wp (a_exec vs o) h WS (fun r h' WS' => dom h' ⊆ WS' /\ exists gs', rstep n gs o gs' r.2 /\ hinv h' (S n) r.1 gs').
Proof.
  intros HWS HI Hok Hsin. destruct o as [o|i nt cb s]; cbn [a_exec aop_ok aop_single] in *.
  { apply wp_bind. eapply wp_mono; [by apply (w_exec_exact h WS n vs gs o)|]. cbn beta. intros r h' WS' (H1 & gs' & H2 & H3). cbn [wp fst snd]. split; [done|]. exists gs'. split; [by constructor|done]. }
  assert (Hw : wp (match nth i vs None with None => Ret (vs, ASt s) | Some a => s' <- ip_update cb (Some a) (Some nt) s ;; Ret (vs, ASt s') end) h WS (fun r h' _ => exists gs', rstep n gs (AUpdate i nt cb s) gs' r.2 /\ hinv h' (S n) r.1 gs')).
  2: { eapply wp_mono; [apply (wp_dom (St := unit) (fun _ _ => True)); [exact HWS|exact Hw]|]. cbn beta. by intros r h' W' [H1 H2]. }
  destruct HI as (L & K & HI & HR). pose proof HI as (HG & HK & HRL). assert (Hnext : hinv h (S n) vs gs) by (exists L, K; split; [by apply linv_next|done]).
  pose proof (irel_nth _ _ _ _ _ i HR) as Ht. destruct (nth i vs None) as [a|].
  2: { cbn [wp fst snd]. exists gs. split; [|done]. apply rs_none. left. apply Ht. }
  destruct (ikey_total (KNet (Some nt))) as [r Hr]. inversion Hr as [? p Hp|? Hno| |]; subst.
  2: { apply wp_bind. eapply wp_mono; [by apply (ip_pf_update_none cb)|]. cbn beta. intros s' h' W' [-> ->]. cbn [wp fst snd]. exists gs. split; [|done]. apply rs_none. by right. }
  assert (Hit : itree h (Some a) (holds (nth i gs iver0))) by (by eapply kitree_itree, irel_kitree).
  apply wp_bind. eapply wp_mono; [by apply (update_locs cb h WS a (holds (nth i gs iver0)) nt p s)|]. cbn beta. intros s' h' W' [(Htg & -> & ->)|(Htg & Hv & xs & yz & Wr & e & e' & Hi & HWr & Hkeep & He & Hw & He')]; cbn [wp fst snd].
  { exists gs. split; [|done]. by eapply rs_no_target. }
  destruct (gone_ok h h' L K a (nth i gs iver0) xs yz Wr HG Hi Ht Hv HWr) as (m4 & m6 & ss & Hgo & Hmade). pose proof (linv_vrel h h' L K n Hv HI) as HI'.
  exists (map (followed (holds (made (nth i gs iver0) m4 m6 ss)) (nth i gs iver0)) gs). split.
  - apply (rs_update n gs i nt p cb s s' e e'); [|done|done|exact He|done|].
    + destruct Ht as (_ & E & _). by rewrite E.
    + apply He'. eapply kitree_itree, irel_kitree; [apply HI'|apply HI'|exact Hmade].
  - exists L, K. split; [by apply linv_next|]. apply Forall2_fmap_r. eapply Forall2_impl; [exact HR|]. intros t g Htg2. by eapply (followed_ok h h' L K n a).
Qed.
Lemma a_hist_exact ops : forall h (WS : gset loc) n vs gs, dom h ⊆ WS -> hinv h n vs gs -> Forall (aop_ok (St := St)) ops -> Forall aop_single ops ->
  wp (run_hist a_exec ops vs) h WS (fun r _ _ => exists gs', rrun n ops gs gs' r.2).
Proof.
  induction ops as [|o ops IH]; intros h WS n vs gs HWS HI Hok Hs; cbn [run_hist].
  - cbn [wp snd]. by exists gs.
  - inversion Hok as [|? ? Ho Hops]; subst. inversion Hs as [|? ? Hs1 Hs2]; subst. apply wp_bind. eapply wp_mono; [by apply (a_exec_exact h WS n vs gs o)|]. cbn beta. intros r h1 W1 (D & gs1 & A1 & A2).
    apply wp_bind. eapply wp_mono; [by apply (IH h1 W1 (S n) r.1 gs1)|]. cbn beta. intros r2 h2 W2 (gs' & B). cbn [wp snd]. exists gs'. cbn [rrun]. by exists gs1.
Qed.
Lemma hinv0 : hinv (∅ : heap) 1 [] [].
Proof.
  exists (fun _ => ∅), (fun _ => 0). split; [|constructor]. split_and!.
  - split; [intros i; apply empty_subseteq|intros i j Hij; set_solver].
  - intros i Hi. split_and!; [apply empty_subseteq| |].
    + intros a Ha. by apply not_elem_of_empty in Ha.
    + intros a a' X Ha. by apply not_elem_of_empty in Ha.
  - split; intros a; intros; set_solver.
Qed.
Lemma pf_renew_exact h (ops : list (aop value St)) : Forall aop_ok ops -> Forall aop_single ops ->
  wp (run_hist a_exec ops []) h ∅ (fun r h' _ => h ⊆ h' /\ exists gs, rrun 1 ops [] gs r.2).
Proof.
  intros Hok Hs. assert (Hw := a_hist_exact ops ∅ ∅ 1 [] [] ltac:(by rewrite dom_empty_L) hinv0 Hok Hs).
  eapply wp_mono; [apply (wp_part _ ∅ h ∅ ∅ _ (map_empty_subseteq h) (reflexivity _) Hw)|]. cbn beta. intros r h' _ (hp & W1 & _ & H & H3). split; [|done].
  apply map_subseteq_spec. intros l x Hl. destruct (H3 l) as [_ E2]; [by eapply elem_of_dom_2|by rewrite dom_empty_L; apply not_elem_of_empty|]. by rewrite E2.
Qed.

(** ** What the versions hold after an update. *)
Lemma renewed_holds (f : pfx -> option value) (g1 g : ver) (q : pfx) : snd <$> content (renewed f g1 g) !! q = if decide (is_Some (content g !! q) /\ common g1 g q) then (match f q with Some v => Some v | None => snd <$> content g !! q end) else snd <$> content g !! q.
Proof.
  pose proof (vals_renewed f g1 g q) as E. unfold vals in E. rewrite E. destruct (content g !! q) as [kv|] eqn:Ek; cbn [fmap option_fmap option_map].
  - destruct (decide (common g1 g q)) as [H|H]; [rewrite decide_True by (split; [by eexists|done]); by destruct (f q)|rewrite decide_False by (by intros [_ ?]); done].
  - by rewrite decide_False by (by intros [[? ?] _]).
Qed.
Lemma pf_renew_holds (G : net -> option value) (g1 g : iver) q : holds (followed G g1 g) q = if decide (shared g1 g q) then (match G q with Some v => Some v | None => holds g q end) else holds g q.
Proof.
  assert (Hsome : forall (m : gmap pfx (N * value)) (X : pfx), is_Some (m !! X) <-> snd <$> m !! X <> None) by (intros m X; destruct (m !! X); split; intros H; first [done|by eexists|by destruct H]).
  unfold holds at 1. destruct q as [[] q]; cbn [fst snd].
  - destruct (N.ltb_spec q.1 64) as [Hq|Hq]; cbn [followed upper inside]; rewrite renewed_holds.
    + rewrite (proj2 (N.ltb_lt q.1 64) Hq). replace (holds g (true, q)) with (snd <$> content (upper g) !! q) by (unfold holds; cbn [fst snd]; by rewrite (proj2 (N.ltb_lt q.1 64) Hq)).
      apply decide_ext. unfold shared, holds. cbn [fst snd]. rewrite (proj2 (N.ltb_lt q.1 64) Hq). by rewrite Hsome.
    + assert (E : ((rest q).1 + 64, half q * 2 ^ (rest q).1 + (rest q).2)%N = q) by exact (join_hi_lo q Hq). rewrite E.
      replace (holds g (true, q)) with (snd <$> content (inside g (half q)) !! rest q) by (unfold holds; cbn [fst snd]; by rewrite (proj2 (N.ltb_ge q.1 64) Hq)).
      apply decide_ext. unfold shared, holds. cbn [fst snd]. rewrite (proj2 (N.ltb_ge q.1 64) Hq). by rewrite Hsome.
  - cbn [followed four]. rewrite renewed_holds. change (holds g (false, q)) with (snd <$> content (four g) !! q). apply decide_ext. unfold shared. cbn [fst snd]. change (holds g (false, q)) with (snd <$> content (four g) !! q). by rewrite Hsome.
Qed.
End hist.
