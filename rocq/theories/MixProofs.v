(** * Proofs for Properties_mixed.v *)
From Verif Require Import Prog History NumModel NumSpec IpModel IpSpec IpUpdSpec IpBits IpAbs IpAbs4 IpEnum IpHist IpPropProofs IpUpd IpUpd2 IpUpd3 IpUpd4 IpUpdProofs.
From Verif Require Import CallProofs WorkProofs ShareSpec Opaque ShareProofs.
Open Scope nat_scope.

(** The client: it calls UpdateDescendants on trees that are not nil only. *)
Definition u_exec {U St} (vs : list ptr) (o : uop (value U) St) : prog U (list ptr * uout (value U) St) :=
  match o with
  | UCall o => r <- ip_exec vs o ;; Ret (r.1, UOut r.2)
  | UUpdate i n cb s =>
    match nth i vs None with
    | None => Ret (vs, USt s)
    | Some a => s' <- ip_update cb (Some a) (Some n) s ;; Ret (vs, USt s')
    end
  end.

(** ** Any values: all versions after an update. *)
Section any.
Context {U St : Type}.
Local Notation heap := (heap U).
Local Notation value := (value U).
Local Notation pair_ := (pair_ (U := U)).
Implicit Types h : heap.
Lemma u_view h u (lu : ilog value) : itree h u (ilog_get lu) -> exists (les : list (loc * pair_)), nenumerates lu (map snd les) /\ (forall x, x ∈ les -> x.1 ∈ dom h /\ val_at h x.1 = x.2.2) /\
  forall h2, vrel h h2 -> exists l', itree h2 u (ilog_get l') /\ nenumerates l' (map snd (map (reloadp h2) les)).
Proof.
  intros Hu. destruct u as [b|].
  - destruct (itree_itl _ _ _ Hu) as (xs2 & yz2 & Hi2). exists (le xs2 yz2). split_and!.
    + apply (wp_extract (ip_enumerate (Some b)) _ h ∅). eapply wp_mono; [apply wp_and; [apply (ip_enumerate_loc _ _ _ _ Hi2)|apply (ienum_at _ _ _ _ Hu)]|]. cbn beta. intros e2 h2 W2 [[-> ->] [_ H]]. exact H.
    + intros x Hx. destruct (le_cells _ _ _ _ Hi2 x Hx) as [(nn & E & _) E2]. split; [by eapply elem_of_dom_2|done].
    + intros h2 Hv. destruct (view_ok h b xs2 yz2 Hi2 h2 Hv) as (l' & H1 & H2 & _). by exists l'.
  - exists []. cbn [itree] in Hu. split_and!.
    + exists []. split_and!; [constructor| |constructor]. intros q v. rewrite Hu. split; [by intros ?%elem_of_nil|done].
    + intros x Hx. by apply elem_of_nil in Hx.
    + intros h2 _. exists []. split_and!; [done|]. exists []. split_and!; [constructor| |constructor]. intros q v. split; [by intros ?%elem_of_nil|done].
Qed.
Variable cb : St -> pair_ -> St * option value.
Hypothesis Hcb : cb_plain cb.
Definition all_updated (h h' : heap) (vs : list ptr) (gs : list (ilog value)) (i : nat) n p s s' : Prop :=
  exists gs' e e', Forall2 (ipR h') vs gs' /\ is_target (nth i gs []) n p /\ nenumerates (nth i gs []) e /\ nenumerates (nth i gs' []) e' /\ uwalk cb p s e s' e' /\ vrel h h' /\
    forall j, exists f f', nenumerates (nth j gs []) f /\ nenumerates (nth j gs' []) f' /\ Forall2 (swaps p e e') f f'.
Lemma update_all h W vs gs i a n p s : dom h ⊆ W -> Forall2 (ipR h) vs gs -> nth i vs None = Some a -> net_is (Some n) p ->
  wp (ip_update cb (Some a) (Some n) s) h W (fun s' h' _ => all_updated h h' vs gs i (Some n) p s s' \/ (~ is_target (nth i gs []) (Some n) p /\ s' = s /\ h' = h)).
Proof using Hcb.
  intros HW Hvs Ea Hn. pose proof (ipR_nth h vs gs i Hvs) as Ht. rewrite Ea in Ht. unfold ipR in Ht. set (l := nth i gs []) in *.
  destruct (itree_itl _ _ _ Ht) as (xs & yz & Hi).
  set (call := fun (_ : list pair_) s x r => r = cb s x).
  unfold ip_update. eapply wp_mono; [apply wp_and; [apply (ip_update_by_at _ call (fun _ _ => True) h a l (Some n) p s W HW); [intros; apply pure_acts; exact Hcb|done..]|
    apply (update_net _ (rseg call) (fun _ _ => True) h a xs yz Hi W HW s I (acts_steps _ _ _ _ _ (pure_acts cb Hcb h _)) n p Hn)]|].
  cbn beta. intros s' h2 W3 [(e & e' & l' & He & _ & Ht' & P1 & P2 & P3 & P4 & P5 & _) [Hupd _]].
  assert (Ee : e = map snd (le xs yz)).
  { apply (wp_extract (ip_enumerate (Some a)) _ h ∅). eapply wp_mono; [apply wp_and; [apply (ip_enumerate_loc _ _ _ _ Hi)|apply P1]|]. cbn beta. intros e2 h3 W4 [[_ E2] [E3 _]]. congruence. }
  pose proof (itl_vrel _ _ _ _ Hi h2 P5) as Hi2.
  assert (Ee' : e' = map snd (map (reloadp h2) (le xs yz))).
  { rewrite <- (le_reload _ _ _ _ Hi h2 P5). apply (wp_extract (ip_enumerate (Some a)) _ h2 ∅). eapply wp_mono; [apply wp_and; [apply (ip_enumerate_loc _ _ _ _ Hi2)|apply P2]|]. cbn beta. intros e2 h3 W4 [[_ E2] [E3 _]]. congruence. }
  assert (He0 : nenumerates l (map snd (le xs yz))) by (rewrite <- Ee; exact He).
  assert (Htarget : is_target l (Some n) p <-> stored p (le xs yz) \/ taken (le xs yz) p (no_host_bits (Some n) p)).
  { unfold is_target, taken. rewrite (stored_log _ _ _ He0). rewrite (around_ext (fun q => stored q (le xs yz)) (fun q => exists v, ilog_get l q = Some v)); [done|]. intros q. by apply stored_log. }
  destruct Hupd as [[(L & seg & R & EX & Hin & _ & Hr) Htg]|(-> & -> & N1 & N2)].
  2: { right. split_and!; [|done|done]. intros H. apply Htarget in H as [H|H]; done. }
  left. apply Htarget in Htg.
  assert (Hgs : exists gs', Forall2 (ipR h2) vs gs' /\ Forall2 (fun g g' => exists f f', nenumerates g f /\ nenumerates g' f' /\ Forall2 (swaps p e e') f f') gs gs').
  { clear Ea Ht Htarget Htg He0 l' Ht' P3 P4. clearbody l. induction Hvs as [|u lu vs gs Hu Hvs IH]; [exists []; by split|]. destruct IH as (gs' & G1 & G2).
    destruct (u_view h u lu Hu) as (les & Hl1 & Hl3 & Hl4). destruct (Hl4 h2 P5) as (l2 & Hu2 & Hl5). exists (l2 :: gs'). split; constructor; try done.
    exists (map snd les), (map snd (map (reloadp h2) les)). split_and!; [done|done|].
    rewrite map_map. apply Forall2_fmap. apply Forall_Forall2_diag. apply Forall_forall. intros z Hz. destruct (Hl3 z Hz) as [Hd Ez]. unfold swaps, reloadp. cbn [fst snd]. split; [done|].
    destruct (decide (z.1 ∈ map fst seg)) as [Hs|Hs].
    + right. apply elem_of_list_fmap in Hs as (w & Ew & Hw). rewrite Forall_forall in Hin. destruct (Hin w Hw) as (q & Q1 & Q2 & Q3).
      assert (HwX : w ∈ le xs yz) by (rewrite EX; clear -Hw; set_solver). exists w.2, q. split_and!; try done.
      * rewrite Ee. by apply elem_of_list_fmap_1.
      * destruct (le_cells _ _ _ _ Hi w HwX) as [_ E]. assert (E2 : val_at h z.1 = val_at h w.1) by (f_equal; exact Ew). exact (eq_trans (eq_sym E) (eq_trans (eq_sym E2) Ez)).
      * rewrite Ee', map_map. apply elem_of_list_fmap. exists w. split; [|done]. unfold reloadp. cbn [snd]. f_equal. f_equal. exact Ew.
    + left. etrans; [symmetry; exact Ez|]. symmetry. by apply (rseg_keep _ _ _ _ _ _ _ _ Hr). }
  destruct Hgs as (gs' & G1 & G2). exists gs', e, e'. split_and!; [done|done|done| | |done|].
  - pose proof (ipR_nth h2 vs gs' i G1) as Ht2. rewrite Ea in Ht2. apply (wp_extract (ip_enumerate (Some a)) _ h2 ∅). eapply wp_mono; [apply wp_and; [apply P2|apply (ienum_at _ _ _ _ Ht2)]|]. cbn beta. intros e2 h3 W4 [[-> _] [_ H]]. exact H.
  - destruct (uwalk_const call cb p (fun _ _ _ _ H => H) _ _ _ _ _ (P3 Htg)) as (e2 & -> & Hw). exact Hw.
  - intros j. destruct (decide (j < length gs)) as [Hj|Hj].
    + destruct (lookup_lt_is_Some_2 gs j Hj) as [g Eg]. destruct (Forall2_lookup_l _ _ _ _ _ G2 Eg) as (g' & Eg' & H). apply (nth_lookup_Some gs j []) in Eg. apply (nth_lookup_Some gs' j []) in Eg'. rewrite Eg, Eg'. exact H.
    + pose proof (Forall2_length _ _ _ G2) as El. rewrite !nth_overflow by lia. exists [], []. split_and!; [| |constructor].
      all: exists []; split_and!; [constructor| |constructor]; intros q v; split; [by intros ?%elem_of_nil|done].
Qed.
End any.

(** ** Values that carry their network and the call that stored them. *)
Section tagged.
Context {U St : Type}.
Local Notation tag := (net * nat)%type.
Local Notation U' := (value U * tag)%type.
Local Notation erp := (erp (untag (U := U))).
Local Notation erv := (erv (untag (U := U))).
(** The values of a log belong to their networks and calls. *)
Definition told (l : ilog (value U')) (ls : ilog nat) : Prop := forall q v, ilog_get l q = Some v -> exists w i, v = tagv q i w /\ ilog_get ls q = Some i.
Lemma told_ins k c v l ls : told l ls -> told (ins_log k (tagv (default tag0 k) c v) l) (ins_log k c ls).
Proof. intros H q w. destruct k as [p|]; [|apply H]. cbn [ins_log ilog_get default]. destruct (decide (p = q)) as [->|]; [|apply H]. intros [= <-]. by exists v, c. Qed.
Lemma told_del k l ls : told l ls -> told (del_log k l) (del_log k ls).
Proof. intros H q w. destruct k as [p|]; [|apply H]. cbn [del_log ilog_get]. destruct (decide (ncovers p q)); [done|apply H]. Qed.
Lemma told_build c items l ls : told l ls -> told (build_log (map (fun x : option net * value U => (x.1, tagv (default tag0 x.1) c x.2)) items) l) (build_log (map (fun x => (x.1, c)) items) ls).
Proof. revert l ls. induction items as [|[q v] items IH]; intros l ls H; cbn [map build_log fst snd]; [done|]. apply IH. by apply told_ins. Qed.
Lemma told_nth gs ss i : Forall2 told gs ss -> told (nth i gs []) (nth i ss []).
Proof. intros H. revert i. induction H; intros [|i]; cbn [nth]; auto; by intros q v. Qed.
Lemma told_step c ro gs ss : Forall2 told gs ss -> Forall2 told (ilog_step gs (tago c ro)) (ilog_step ss (stamp c ro)).
Proof.
  intros H. destruct ro as [items|j k v|j k|j k|j]; cbn [tago stamp ilog_step]; try done; (apply Forall2_app; [done|constructor; [|constructor]]).
  - apply told_build. by intros q v.
  - apply told_ins. by apply told_nth.
  - apply told_del. by apply told_nth.
Qed.
Definition names (e : list (bytes * bytes * value U')) (ls : ilog nat) : Prop := forall x, x ∈ e -> exists q i w, canonical x.1.1 x.1.2 q /\ x.2 = tagv q i w /\ ilog_get ls q = Some i.
Lemma told_names l ls e : nenumerates l e -> told l ls -> names e ls.
Proof.
  intros (ps & _ & Hps & Hf) Ht x Hx. apply elem_of_list_lookup in Hx as [j Hj]. destruct (Forall2_lookup_l _ _ _ _ _ Hf Hj) as ([q v] & Hq & Ev & Hc). cbn [fst snd] in *. apply elem_of_list_lookup_2 in Hq. apply Hps in Hq.
  destruct (Ht _ _ Hq) as (w & i & -> & Hi). by exists q, i, w.
Qed.
Lemma names_told l ls e : nenumerates l e -> names e ls -> told l ls.
Proof.
  intros (ps & _ & Hps & Hf) Hnm q v Hq. apply Hps in Hq. apply elem_of_list_lookup in Hq as [j Hj]. destruct (Forall2_lookup_r _ _ _ _ _ Hf Hj) as (x & Hx & Ev & Hc). cbn [fst snd] in *. apply elem_of_list_lookup_2 in Hx.
  destruct (Hnm _ Hx) as (q' & i & w & C & V & S). pose proof (is_net_fun (U := U) (1%positive, (x.1, VNil)) q q' Hc C) as <-. exists w, i. split; [|done]. etrans; [symmetry; exact Ev|exact V].
Qed.
(** *** The callback: what it stores is told by the value it was called with. *)
Definition retag (v : value U') (w : value U) : value U' := match v with VUser (_, t) => VUser (w, t) | _ => tagv tag0 0 w end.
Lemma erv_retag v w : plain w -> erv (retag v w) = w.
Proof. destruct v as [|[? []]| |]; by destruct w. Qed.
Definition cbt (cb : St -> bytes * bytes * value U -> St * option (value U)) (s : St) (x : bytes * bytes * value U') : St * option (value U') :=
  let r := cb s (erp x) in (r.1, retag x.2 <$> r.2).
Lemma cbt_sim cb : cb_plain cb -> forall s x, cb s (erp x) = ((cbt cb s x).1, erv <$> (cbt cb s x).2).
Proof.
  intros Hcb s x. unfold cbt. cbn zeta. destruct (cb s (erp x)) as [s' [v|]] eqn:E; cbn [fst snd fmap option_fmap option_map]; [|done]. rewrite erv_retag; [done|]. by apply (Hcb s (erp x) s').
Qed.
Lemma cbt_plain cb : cb_plain (cbt cb).
Proof. intros s x s' v. unfold cbt. cbn zeta. destruct (cb s (erp x)) as [s1 [w|]]; cbn [fst snd fmap option_fmap option_map]; [|done]. intros [= _ <-]. by destruct (x.2) as [|[? ?]| |]. Qed.
Lemma walk_names cb p s e s' e' ls : uwalk (cbt cb) p s e s' e' -> names e ls -> names e' ls.
Proof.
  intros H. induction H as [s|s ip m q v s1 r e s2 e' Hc Hin Hne Hcall H IH|s ip m q v e s2 e' Hc Hout H IH]; intros Hnm; [done|..].
  all: assert (He' : names e' ls) by (apply IH; intros x Hx; apply Hnm; by right).
  - intros x Hx. apply elem_of_cons in Hx as [->|Hx]; [|by apply He']. destruct (Hnm (ip, m, v)) as (q' & i & w & C & V & S); [by left|]. cbn [fst snd] in *. destruct r as [r|]; cbn [default]; [|by exists q', i, w].
    unfold cbt in Hcall. cbn zeta in Hcall. destruct (cb s (erp (ip, m, v))) as [s3 [u|]]; cbn [fst snd fmap option_fmap option_map] in Hcall; [|done]. injection Hcall as _ <-. subst v. by exists q', i, u.
  - intros x Hx. apply elem_of_cons in Hx as [->|Hx]; [|by apply He']. apply Hnm. by left.
Qed.
Lemma swap_names p e e' f f' (lt lu : ilog nat) : Forall2 (swaps p e e') f f' -> names e lt -> names e' lt -> names f lu ->
  names f' lu /\ Forall2 (follows lt lu p (map erp e) (map erp e')) (map erp f) (map erp f').
Proof.
  intros H He He' Hf. rewrite Forall2_fmap.
  induction H as [|x y f f' [E1 E2] H IH]; [by split|]. destruct IH as [N1 N2]; [intros z Hz; apply Hf; by right|].
  destruct (Hf x) as (q1 & i1 & w1 & C1 & V1 & S1); [by left|].
  assert (Hxy : (exists q i w, canonical y.1.1 y.1.2 q /\ y.2 = tagv q i w /\ ilog_get lu q = Some i) /\ follows lt lu p (map erp e) (map erp e') (erp x) (erp y)).
  { destruct E2 as [E2|(x0 & q & H1 & H2 & H3 & H4 & H5 & H6)].
    - split; [exists q1, i1, w1; rewrite <- E1, <- E2; done|]. split; [exact E1|]. left. unfold Opaque.erp. cbn [snd]. by rewrite E2.
    - destruct (He x0 H1) as (q2 & i2 & w2 & C2 & V2 & S2). pose proof (eq_trans (eq_sym V2) (eq_trans H2 V1)) as Ev. injection Ev as _ <- <-.
      pose proof (is_net_fun (U := U) (1%positive, (x0.1, VNil)) q q2 H4 C2) as <-.
      destruct (canonical_fun _ _ _ _ _ C1 C2) as [E3 E4]. assert (E : x.1 = x0.1) by (destruct x as [[? ?] ?], x0 as [[? ?] ?]; cbn [fst snd] in *; by subst).
      destruct (He' _ H3) as (q3 & i3 & w3 & C3 & V3 & S3). cbn [fst snd] in C3, V3. pose proof (is_net_fun (U := U) (1%positive, (x0.1, VNil)) q q3 H4 C3) as <-.
      assert (i3 = i2) as -> by congruence.
      split; [exists q, i2, w3; rewrite <- E1, E; done|]. split; [exact E1|]. right. split_and!.
      + apply elem_of_list_fmap. exists x0. split; [|done]. unfold Opaque.erp. by rewrite E, H2.
      + apply elem_of_list_fmap. exists (x0.1, y.2). split; [|done]. unfold Opaque.erp. cbn [fst snd]. by rewrite <- E1, E.
      + exists q. unfold Opaque.erp. cbn [fst snd]. split_and!; [done|done|done|]. by exists i2. }
  destruct Hxy as [X1 X2]. split; [|by constructor]. intros z Hz. apply elem_of_cons in Hz as [->|Hz]; [done|by apply N1].
Qed.
(** *** The logs without tags. *)
Definition ere (x : ilop (value U')) : ilop (value U) := match x with ILIns p v => ILIns p (erv v) | ILDel p => ILDel p end.
Definition erl (l : ilog (value U')) : ilog (value U) := map ere l.
Lemma erl_get l q : ilog_get (erl l) q = erv <$> ilog_get l q.
Proof. induction l as [|[p v|p] l IH]; cbn [erl map ere ilog_get]; [done|..]; (destruct (decide _); [done|apply IH]). Qed.
Lemma erl_enum l e : nenumerates l e -> nenumerates (erl l) (map erp e).
Proof.
  intros (ps & Hs & Hps & Hf). exists (map (fun x => (x.1, erv x.2)) ps). split_and!.
  - clear -Hs. induction Hs as [|x ps Hs IH Hx]; cbn [map]; constructor; [done|]. clear -Hx. induction Hx; cbn [map]; by constructor.
  - intros p v. rewrite erl_get. rewrite elem_of_list_fmap. split.
    + intros ([p' v'] & [= -> ->] & H). apply Hps in H. cbn [fst snd]. by rewrite H.
    + intros H. apply fmap_Some in H as (v' & H & ->). exists (p, v'). split; [done|]. by apply Hps.
  - apply Forall2_fmap. eapply Forall2_impl; [exact Hf|]. intros x y [E C]. split; [cbn [snd Opaque.erp]; unfold Opaque.erp; cbn [snd]; f_equal; exact E|exact C].
Qed.
Lemma erl_nth gs i : nth i (map erl gs) [] = erl (nth i gs []).
Proof. revert i. induction gs; intros [|i]; cbn [map nth]; auto. Qed.
Lemma erl_target l n p : is_target (erl l) n p <-> is_target l n p.
Proof.
  assert (H : forall q, (exists v, ilog_get (erl l) q = Some v) <-> exists v, ilog_get l q = Some v).
  { intros q. rewrite erl_get. destruct (ilog_get l q); cbn [fmap option_fmap option_map]; naive_solver. }
  unfold is_target. rewrite H. rewrite (around_ext (fun q => exists v, ilog_get (erl l) q = Some v) (fun q => exists v, ilog_get l q = Some v)); [done|exact H].
Qed.
Lemma erl_longest l q r : nlongest l q r -> nlongest (erl l) q (erv <$> r).
Proof.
  destruct r as [v|]; cbn [nlongest fmap option_fmap option_map].
  - intros (p & H1 & H2 & H3). exists p. rewrite erl_get, H1. split_and!; [done|done|]. intros p' v'. rewrite erl_get. intros H. apply fmap_Some in H as (v2 & H & _). by apply (H3 p' v2).
  - intros H p v. rewrite erl_get. intros H2. apply fmap_Some in H2 as (v2 & H2 & _). by apply (H p v2).
Qed.
Lemma erl_ins k c v l : plain v -> erl (ins_log k (tagv (default tag0 k) c v) l) = ins_log k v (erl l).
Proof. intros Hv. destruct k; [|done]. cbn [ins_log erl map ere]. f_equal. f_equal. by apply erv_tag. Qed.
Lemma erl_step (o : iop ikey (value U)) ro c gs : iresolves o ro -> iop_ok o -> map erl (ilog_step gs (tago c ro)) = ilog_step (map erl gs) ro.
Proof.
  intros Hr Ho. destruct Hr as [items items' H|j k q v H|j k q H|j k q H|j]; cbn [tago ilog_step]; try done; rewrite map_app; cbn [map]; f_equal; f_equal.
  - cbn [iop_ok] in Ho. change (@nil (ilop (value U))) with (erl []) at 1. generalize (@nil (ilop (value U'))). induction H as [|[k v] [q w] items items' [H1 H2] H IH]; intros l; cbn [map build_log fst snd]; [done|].
    inversion Ho as [|? ? Hv Ho']; subst. cbn [fst snd] in *. subst w. rewrite IH by done. by rewrite erl_ins.
  - rewrite erl_nth. by apply erl_ins.
  - rewrite erl_nth. by destruct q.
Qed.
Lemma erl_answer (o : iop ikey (value U)) ro c gs x' x : iresolves o ro -> ianswer gs (tago c ro) x' -> out_sim untag x' x -> ianswer (map erl gs) ro x.
Proof.
  intros Hr. destruct Hr as [items items' H|j k q v H|j k q H|j k q H|j]; cbn [tago ianswer].
  - intros ->. by destruct x.
  - intros ->. by destruct x.
  - intros (b & -> & Hb). destruct x as [|b'| |]; cbn [out_sim]; try done. intros <-. exists b. split; [done|]. rewrite Hb, erl_nth. split; intros (p & q' & v & E & Hc & Hg); exists p, q'.
    + exists (erv v). rewrite erl_get, Hg. done.
    + rewrite erl_get in Hg. apply fmap_Some in Hg as (v' & Hg & _). by exists v'.
  - intros (r & -> & Hres). destruct x as [| |r'|]; cbn [out_sim]; try done. intros ->. eexists. split; [done|]. rewrite erl_nth. destruct q; [by apply erl_longest|by subst r].
  - intros (e & -> & He). destruct x as [| | |e']; cbn [out_sim]; try done. intros ->. eexists. split; [done|]. rewrite erl_nth. by apply erl_enum.
Qed.
Lemma erl_walk cb p s e s' e' : cb_plain cb -> uwalk (cbt cb) p s e s' e' -> uwalk cb p s (map erp e) s' (map erp e').
Proof.
  intros Hcb H. induction H as [s|s ip m q v s1 r e s2 e' Hc Hin Hne Hcall H IH|s ip m q v e s2 e' Hc Hout H IH]; cbn [map]; [constructor|..].
  - pose proof (cbt_sim cb Hcb s (ip, m, v)) as E. rewrite Hcall in E. cbn [fst snd] in E.
    replace (erp (ip, m, default v r)) with (ip, m, default (erv v) (erv <$> r)) by (unfold Opaque.erp; cbn [fst snd]; by destruct r). by eapply uw_in.
  - by eapply uw_out.
Qed.
(** *** Histories. *)
Definition uop_sim (c : nat) (o' : uop (value U') St) (o : uop (value U) St) : Prop :=
  match o with
  | UCall o => exists o2 ro, o' = UCall o2 /\ iresolves o ro /\ iop_ok o /\ iresolves o2 (tago c ro) /\ iop_ok o2 /\ op_sim untag o2 o
  | UUpdate i n cb s => o' = UUpdate i n (cbt cb) s /\ cb_plain cb
  end.
Fixpoint uops_sim (c : nat) (ops' : list (uop (value U') St)) (ops : list (uop (value U) St)) : Prop :=
  match ops', ops with
  | [], [] => True
  | o' :: ops', o :: ops => uop_sim c o' o /\ uops_sim (S c) ops' ops
  | _, _ => False
  end.
Definition uout_sim (x' : uout (value U') St) (x : uout (value U) St) : Prop :=
  match x', x with UOut x', UOut x => out_sim untag x' x | USt s', USt s => s' = s | _, _ => False end.
Lemma iresolves_total (o : iop ikey (value U)) : exists ro, iresolves o ro.
Proof.
  destruct o as [items|i k v|i k|i k|i]; try (destruct (ikey_total k) as [r Hr]; eexists; by constructor); [|eexists; by constructor].
  assert (Hi : exists items', Forall2 (fun x y => ikey_is x.1 y.1 /\ x.2 = y.2) items items').
  { induction items as [|[k v] items [items' IH]]; [by exists []|]. destruct (ikey_total k) as [r Hr]. exists ((r, v) :: items'). by constructor. }
  destruct Hi as [items' Hi]. eexists. by constructor.
Qed.
Lemma uops_total ops : Forall uop_ok ops -> forall c, exists ops', uops_sim c ops' ops.
Proof.
  induction 1 as [|o ops Ho H IH]; intros c; [by exists []|]. destruct (IH (S c)) as [ops' H']. destruct o as [o|i n cb s].
  - destruct (iresolves_total o) as [ro Hr]. destruct (tag_op c o ro Hr Ho) as (o' & A1 & A2 & A3). exists (UCall o' :: ops'). split; [|done]. exists o', ro. done.
  - exists (UUpdate i n (cbt cb) s :: ops'). done.
Qed.
Lemma ps_uexec c o' o vs : uop_sim c o' o -> psim untag (fun r' r => r'.1 = r.1 /\ uout_sim r'.2 r.2) (u_exec vs o') (u_exec vs o).
Proof.
  destruct o as [o|i n cb s]; cbn [uop_sim].
  - intros (o2 & ro & -> & _ & _ & _ & _ & Hs). cbn [u_exec]. eapply psim_bind; [apply (ps_exec untag untag_plain vs o2 o Hs)|]. intros [vs1 x'] [vs2 x] [E Hx]. cbn [fst snd] in *. subst. constructor. done.
  - intros [-> Hcb]. cbn [u_exec]. destruct (nth i vs None) as [a|]; [|by constructor]. eapply psim_bind; [apply (ps_update untag untag_plain (cbt cb) cb (cbt_sim cb Hcb))|]. intros s1 s2 ->. by constructor.
Qed.
Lemma ps_uhist ops' : forall c ops vs, uops_sim c ops' ops -> psim untag (fun r' r => r'.1 = r.1 /\ Forall2 uout_sim r'.2 r.2) (run_hist u_exec ops' vs) (run_hist u_exec ops vs).
Proof.
  induction ops' as [|o' ops' IH]; intros c [|o ops] vs; cbn [uops_sim]; try done; cbn [run_hist].
  - intros _. apply ps_ret. split; [done|constructor].
  - intros [Ho H]. eapply psim_bind; [by apply (ps_uexec c)|]. intros [vs1 x'] [vs2 x] [E Hx]. cbn [fst snd] in *. subst vs2.
    eapply psim_bind; [by apply (IH (S c))|]. intros [ws1 y'] [ws2 y] [E2 Hy]. cbn [fst snd] in *. subst. constructor. split; [done|]. by constructor.
Qed.
Lemma u_step c (o' : uop (value U') St) o h W vs gs ss : dom h ⊆ W -> Forall2 (ipR h) vs gs -> Forall2 told gs ss -> uop_sim c o' o ->
  wp (u_exec vs o') h W (fun r h' W' => dom h' ⊆ W' /\ exists gs' ss', Forall2 (ipR h') r.1 gs' /\ Forall2 told gs' ss' /\ forall x, uout_sim r.2 x -> ustep c (map erl gs) ss o (map erl gs') ss' x).
Proof.
  intros HW Hvs Hts Hs. 
  assert (Hplain : wp (u_exec vs o') h W (fun r h' W' => exists gs' ss', Forall2 (ipR h') r.1 gs' /\ Forall2 told gs' ss' /\ forall x, uout_sim r.2 x -> ustep c (map erl gs) ss o (map erl gs') ss' x)).
  2: { eapply wp_mono; [apply (wp_dom (St := unit) (fun _ _ => True)); [exact HW|exact Hplain]|]. cbn beta. intros r h' W' [H1 H2]. done. }
  destruct o as [o|i n cb s]; cbn [uop_sim] in Hs.
  - destruct Hs as (o2 & ro & -> & R1 & O1 & R2 & O2 & Hsim). cbn [u_exec]. apply wp_bind.
    eapply wp_mono; [eapply (wp_call _ _ ∅); [by apply (ip_exec_ok h vs gs o2)|apply empty_subseteq]|]. cbn beta.
    intros r h' W' [(W1 & (gs' & (ro' & R3 & -> & Ha) & HR) & _) _]. cbn [wp fst snd]. pose proof (iresolves_det _ _ _ R2 R3) as <-.
    exists (ilog_step gs (tago c ro)), (ilog_step ss (stamp c ro)). split_and!; [done|by apply told_step|]. intros x Hx. destruct x as [x|]; [|done]. cbn [uout_sim] in Hx. rewrite (erl_step o ro c gs R1 O1). constructor; [done|]. by eapply erl_answer.
  - destruct Hs as [-> Hcb]. cbn [u_exec]. destruct (nth i vs None) as [a|] eqn:Ea.
    2: { cbn [wp fst snd]. exists gs, ss. split_and!; [done|done|]. intros [|x]; [done|]. cbn [uout_sim]. intros <-.
      pose proof (ipR_nth h vs gs i Hvs) as Ht. rewrite Ea in Ht. cbn [ipR itree] in Ht.
      destruct (ikey_total (KNet (Some n))) as [r Hr]. inversion Hr as [? q Hq|? Hno| |]; subst.
      - eapply us_no_target; [done|]. rewrite erl_nth, erl_target. intros [[v Hv]|[_ [(q' & [v Hv] & _) _]]]; rewrite Ht in Hv; done.
      - by apply us_no_net. }
    destruct (ikey_total (KNet (Some n))) as [r Hr]. inversion Hr as [? p Hp|? Hno| |]; subst.
    + apply wp_bind. eapply wp_mono; [by apply (update_all (cbt cb) (cbt_plain cb) h W vs gs i a n p s)|]. cbn beta. intros s' h' W' [(gs' & e & e' & G1 & Htg & He & He' & Hw & _ & Hall)|(Hno & -> & ->)]; cbn [wp fst snd].
      * pose proof (told_names _ _ _ He (told_nth _ _ i Hts)) as Ne. pose proof (walk_names _ _ _ _ _ _ _ Hw Ne) as Ne'.
        exists gs', ss. split_and!; [done| |].
        -- pose proof (Forall2_length _ _ _ G1) as L1. pose proof (Forall2_length _ _ _ Hvs) as L2. pose proof (Forall2_length _ _ _ Hts) as L3.
           apply Forall2_same_length_lookup. split; [congruence|]. intros j g l Eg El.
           destruct (Hall j) as (f & f' & F1 & F2 & F3). apply (nth_lookup_Some gs' j []) in Eg. apply (nth_lookup_Some ss j []) in El. rewrite Eg in F2.
           destruct (swap_names _ _ _ _ _ _ (nth j ss []) F3 Ne Ne') as [N1 _]; [apply (told_names _ _ _ F1), told_nth, Hts|]. rewrite El in N1. by eapply names_told.
        -- intros [|x]; [done|]. cbn [uout_sim]. intros <-. eapply (us_update _ _ _ _ _ _ _ _ (map erp e) (map erp e')); [done|by rewrite erl_nth, erl_target|rewrite erl_nth; by apply erl_enum|rewrite erl_nth; by apply erl_enum|by apply erl_walk| |].
           ++ rewrite !map_length. rewrite <- (Forall2_length _ _ _ G1). by apply (Forall2_length _ _ _ Hvs).
           ++ intros j. destruct (Hall j) as (f & f' & F1 & F2 & F3). exists (map erp f), (map erp f'). rewrite !erl_nth. split_and!; [by apply erl_enum|by apply erl_enum|].
              destruct (swap_names _ _ _ _ _ _ (nth j ss []) F3 Ne Ne') as [_ N2]; [apply (told_names _ _ _ F1), told_nth, Hts|]. exact N2.
      * exists gs, ss. split_and!; [done|done|]. intros [|x]; [done|]. cbn [uout_sim]. intros <-. eapply us_no_target; [done|]. by rewrite erl_nth, erl_target.
    + apply wp_bind. eapply wp_mono; [by apply (ip_pf_update_none (cbt cb))|]. cbn beta. intros s' h' W' [-> ->]. cbn [wp fst snd]. exists gs, ss. split_and!; [done|done|]. intros [|x]; [done|]. cbn [uout_sim]. intros <-. by apply us_no_net.
Qed.
Lemma u_hist ops' : forall c ops h W vs gs ss, dom h ⊆ W -> Forall2 (ipR h) vs gs -> Forall2 told gs ss -> uops_sim c ops' ops ->
  wp (run_hist u_exec ops' vs) h W (fun r h' _ => forall outs, Forall2 uout_sim r.2 outs -> exists gs' ss', uspec c (map erl gs) ss ops outs gs' ss').
Proof.
  induction ops' as [|o' ops' IH]; intros c [|o ops] h W vs gs ss HW Hvs Hts; cbn [uops_sim]; try done; cbn [run_hist].
  - intros _. cbn [wp snd]. intros outs Ho. inversion Ho; subst. by exists (map erl gs), ss.
  - intros [Ho H]. apply wp_bind. eapply wp_mono; [by apply (u_step c o' o h W vs gs ss)|]. cbn beta. intros r h1 W1 (HW1 & gs1 & ss1 & A1 & A2 & A3).
    apply wp_bind. eapply wp_mono; [by apply (IH (S c) ops h1 W1 r.1 gs1 ss1)|]. cbn beta. intros r2 h2 W2 B. cbn [wp snd]. intros outs Hout. inversion Hout as [|? x ? outs2 X1 X2]; subst.
    destruct (B outs2 X2) as (gs' & ss' & B2). exists gs', ss'. cbn [uspec]. exists (map erl gs1), ss1. split; [by apply A3|done].
Qed.
Lemma pf_mixed (h : heap U) (ops : list (uop (value U) St)) : Forall uop_ok ops -> wp (run_hist u_exec ops []) h ∅ (fun r h' _ => h ⊆ h' /\ exists gs ss, uspec 0 [] [] ops r.2 gs ss).
Proof.
  intros Hok. destruct (uops_total ops Hok 0) as [ops' Hs].
  assert (Hw := u_hist ops' 0 ops ∅ ∅ [] [] [] ltac:(by rewrite dom_empty_L) ltac:(constructor) ltac:(constructor) Hs).
  apply (psim_wp untag _ _ _ (ps_uhist ops' 0 ops [] Hs)) in Hw. assert (E : erh (untag (U := U)) ∅ = ∅) by (unfold erh; apply fmap_empty). rewrite E in Hw.
  eapply wp_mono; [apply (wp_part _ ∅ h ∅ ∅ _ (map_empty_subseteq h) (reflexivity _) Hw)|]. cbn beta. intros r h' _ (hp & W1 & _ & (r' & hp' & [_ H1] & _ & H2) & H3). split.
  - apply map_subseteq_spec. intros l x Hl. destruct (H3 l) as [_ E2]; [by eapply elem_of_dom_2|by rewrite dom_empty_L; apply not_elem_of_empty|]. by rewrite E2.
  - by apply (H2 r.2).
Qed.
End tagged.

(** ** What [uspec] says about networks. *)
Section spec.
Context {U St : Type}.
Local Notation V := (value U).
Definition like (u : Prop) (q : net) (l l2 : ilog V) : Prop :=
  (ilog_get l q = None <-> ilog_get l2 q = None) /\ (u -> ilog_get l q = ilog_get l2 q).
Lemma like_refl u q l : like u q l l.
Proof. done. Qed.
Lemma like_trans u q l l2 l3 : like u q l l2 -> like u q l2 l3 -> like u q l l3.
Proof. intros [A B] [C D]. split; [by rewrite A|]. intros H. rewrite B, D; done. Qed.
Lemma like_ins u q k v l l2 : like u q l l2 -> like u q (ins_log k v l) (ins_log k v l2).
Proof. intros H. destruct k as [p|]; [|done]. unfold like. cbn [ins_log ilog_get]. by destruct (decide (p = q)). Qed.
Lemma like_del u q k l l2 : like u q l l2 -> like u q (del_log k l) (del_log k l2).
Proof. intros H. destruct k as [p|]; [|done]. unfold like. cbn [del_log ilog_get]. by destruct (decide (ncovers p q)). Qed.
Lemma like_nth u q gs gs2 j : Forall2 (like u q) gs gs2 -> like u q (nth j gs []) (nth j gs2 []).
Proof. intros H. revert j. induction H; intros [|j]; cbn [nth]; try done. Qed.
Lemma like_step u q ro gs gs2 : Forall2 (like u q) gs gs2 -> Forall2 (like u q) (ilog_step gs ro) (ilog_step gs2 ro).
Proof.
  intros H. destruct ro as [items|j k v|j k|j k|j]; cbn [ilog_step]; try done; (apply Forall2_app; [done|constructor; [|constructor]]).
  - apply like_refl.
  - by apply like_ins, like_nth.
  - by apply like_del, like_nth.
Qed.
Lemma enum_get (l : ilog V) f q v : nenumerates l f -> ilog_get l q = Some v <-> exists x, x ∈ f /\ canonical x.1.1 x.1.2 q /\ x.2 = v.
Proof.
  intros (ps & Hs & Hps & Hf). rewrite <- Hps. split.
  - intros H. apply elem_of_list_lookup in H as [j Hj]. destruct (Forall2_lookup_r _ _ _ _ _ Hf Hj) as (x & Hx & E & C). cbn [fst snd] in *. exists x. split_and!; [by eapply elem_of_list_lookup_2|done|done].
  - intros (x & Hx & C & <-). apply elem_of_list_lookup in Hx as [j Hj]. destruct (Forall2_lookup_l _ _ _ _ _ Hf Hj) as ([q2 v2] & Hq & E & C2). cbn [fst snd] in *. 
    pose proof (is_net_fun (U := unit) (1%positive, (x.1, VNil)) q2 q C2 C) as ->. apply elem_of_list_lookup_2 in Hq. rewrite E. exact Hq.
Qed.
Lemma follows_like (u : Prop) st su p e e' (l l2 : ilog V) f f' q : nenumerates l f -> nenumerates l2 f' -> Forall2 (follows st su p e e') f f' -> (u -> ncovers p q -> p = q) -> like u q l2 l.
Proof.
  intros H1 H2 Hf Hu.
  assert (A : forall v, ilog_get l q = Some v -> exists v2, ilog_get l2 q = Some v2 /\ (u -> v2 = v)).
  { intros v H. apply (enum_get _ _ _ _ H1) in H as (x & Hx & C & <-). apply elem_of_list_lookup in Hx as [j Hj]. destruct (Forall2_lookup_l _ _ _ _ _ Hf Hj) as (y & Hy & E & D). exists y.2. split.
    - apply (enum_get _ _ _ _ H2). exists y. split_and!; [by eapply elem_of_list_lookup_2|by rewrite <- E|done].
    - intros U'. destruct D as [D|(_ & _ & q' & C' & K & N & _)]; [done|]. pose proof (is_net_fun (U := unit) (1%positive, (x.1, VNil)) q' q C' C) as ->. destruct (N (Hu U' K)). }
  assert (B : forall v, ilog_get l2 q = Some v -> ilog_get l q <> None).
  { intros v H. apply (enum_get _ _ _ _ H2) in H as (y & Hy & C & <-). apply elem_of_list_lookup in Hy as [j Hj]. destruct (Forall2_lookup_r _ _ _ _ _ Hf Hj) as (x & Hx & E & D).
    assert (H : ilog_get l q = Some x.2); [|by rewrite H]. apply (enum_get _ _ _ _ H1). exists x. split_and!; [by eapply elem_of_list_lookup_2|by rewrite E|done]. }
  destruct (ilog_get l q) as [v|] eqn:E.
  - destruct (A v eq_refl) as (v2 & E2 & H). split; rewrite E, E2; [done|]. intros HU. f_equal. by apply H.
  - destruct (ilog_get l2 q) as [v|] eqn:E2; [by destruct (B v eq_refl)|]. split; by rewrite E, E2.
Qed.
Lemma uspec_like (u : Prop) q (ops : list (uop V St)) : forall c gs ss outs gs' ss' gs2 rops, uspec c gs ss ops outs gs' ss' -> (u -> no_target_around ops q) -> Forall2 (like u q) gs gs2 ->
  Forall2 iresolves (calls ops) rops -> Forall2 (like u q) gs' (ilogs rops gs2).
Proof.
  induction ops as [|o ops IH]; intros c gs ss [|x outs] gs' ss' gs2 rops; cbn [uspec]; try done.
  - intros [-> ->] _ H Hr. cbn [calls] in Hr. by inversion Hr.
  - intros (gs1 & ss1 & Hst & Hu) Hno H Hr.
    assert (Hno2 : u -> no_target_around ops q) by (intros K i n cb s p K2; apply (Hno K i n cb s); by right).
    destruct Hst as [o ro x Hro Ha|i n cb s Hn|i n p cb s Hn Ht|i n p cb s e e' s' gs1 Hn Ht He He' Hw Hl Hall]; cbn [calls] in Hr.
    + inversion Hr as [|? ro2 ? rops2 R1 R2]; subst. pose proof (iresolves_det _ _ _ Hro R1) as <-. cbn [ilogs]. eapply IH; [exact Hu|done| |done]. by apply like_step.
    + by eapply IH.
    + by eapply IH.
    + eapply IH; [exact Hu|done| |done]. apply Forall2_same_length_lookup. split; [exact (eq_trans Hl (Forall2_length _ _ _ H))|]. intros j g g2 Eg E2.
      pose proof (like_nth _ _ _ _ j H) as L. apply (nth_lookup_Some gs1 j []) in Eg. apply (nth_lookup_Some gs2 j []) in E2. rewrite E2 in L. eapply like_trans; [|exact L].
      destruct (Hall j) as (f & f' & F1 & F2 & F3). rewrite Eg in F2. eapply follows_like; [exact F1|exact F2|exact F3|]. intros K. apply (Hno K i n cb s p); [by left|done].
Qed.
Lemma pf_mixed_networks (ops : list (uop V St)) rops outs gs ss : uspec 0 [] [] ops outs gs ss -> Forall2 iresolves (calls ops) rops ->
  forall ver q, (ilog_get (nth ver gs []) q = None <-> ilog_get (iver rops ver) q = None) /\ (no_target_around ops q -> ilog_get (nth ver gs []) q = ilog_get (iver rops ver) q).
Proof.
  intros H Hr ver q. assert (L : Forall2 (like (no_target_around ops q) q) gs (ilogs rops [])); [|exact (like_nth _ _ _ _ ver L)].
  eapply uspec_like; [exact H|done|constructor|done].
Qed.
Lemma pf_mixed_calls (ops : list (iop ikey V)) : forall c gs ss outs gs' ss' rops, uspec (St := St) c gs ss (map UCall ops) outs gs' ss' -> Forall2 iresolves ops rops ->
  exists xs, outs = map UOut xs /\ ianswers gs rops xs /\ gs' = ilogs rops gs.
Proof.
  induction ops as [|o ops IH]; intros c gs ss [|x outs] gs' ss' rops; cbn [map uspec]; try done.
  - intros [-> ->] Hr. inversion Hr. by exists [].
  - intros (gs1 & ss1 & Hst & Hu) Hr. inversion Hr as [|? ro ? rops2 R1 R2]; subst. inversion Hst as [? ro2 x2 R3 Ha| | |]; subst. pose proof (iresolves_det _ _ _ R1 R3) as <-.
    destruct (IH _ _ _ _ _ _ _ Hu R2) as (xs & -> & H1 & ->). by exists (x2 :: xs).
Qed.
End spec.
