(** * Proofs for Properties_sharing.v *)
From Verif Require Import Prog History NumModel NumSpec IpModel IpSpec IpUpdSpec IpBits IpAbs IpAbs4 IpEnum IpHist IpPropProofs IpUpd IpUpd2 IpUpd3 IpUpd4 IpUpdProofs.
From Verif Require Import CallProofs ShareSpec Opaque.
Open Scope nat_scope.

(** ** Any values: a value that changed was that of a network that was updated. *)
Definition share_prog {U St} (cb : St -> bytes * bytes * value U -> St * option (value U)) (t u : ptr) (n : ipnet) (s : St) (k : ikey) :=
  e <- ip_enumerate t ;; f <- ip_enumerate u ;; s' <- ip_update cb t n s ;; e' <- ip_enumerate t ;; f' <- ip_enumerate u ;; x <- ip_get_key u k ;; Ret (e, f, s', e', f', x).
Section any.
Context {U St : Type}.
Local Notation heap := (heap U).
Local Notation value := (value U).
Local Notation pair_ := (pair_ (U := U)).
Implicit Types h : heap.
Variable cb : St -> pair_ -> St * option value.
Hypothesis Hcb : cb_plain cb.

Lemma rseg_keep call h0 X s h seg s' h' : rseg (U := U) (St := St) call h0 X s h seg s' h' -> forall lo, lo ∈ dom h0 -> lo ∉ map fst seg -> val_at h' lo = val_at h lo.
Proof.
  induction 1 as [s h|s h x seg s1 r h1 s' h' Hcall Hsame Hpl Hr IH]; intros lo Hlo Hn; [done|]. cbn [map] in Hn. apply not_elem_of_cons in Hn as [N1 N2]. rewrite IH by done.
  assert (E : val_at h1 lo = val_at h lo) by (unfold val_at; by rewrite Hsame). destruct r; [|done]. by rewrite setv_ne.
Qed.
Definition swaps (p : net) (e e' : list pair_) (x y : pair_) : Prop :=
  x.1 = y.1 /\ (x.2 = y.2 \/ exists (x0 : pair_) q, x0 ∈ e /\ x0.2 = x.2 /\ (x0.1, y.2) ∈ e' /\ canonical x0.1.1 x0.1.2 q /\ ncovers p q /\ p <> q).
Lemma share_at h a u (l lu : ilog value) n p s k r : itree h (Some a) (ilog_get l) -> itree h u (ilog_get lu) -> net_is n p -> ikey_is k r ->
  wp (share_prog cb (Some a) u n s k) h (dom h) (fun y h' _ => let '(e, f, s', e', f', x) := y in nenumerates l e /\ nenumerates lu f /\
    (is_target l n p -> uwalk cb p s e s' e') /\ (~ is_target l n p -> s' = s /\ h' = h) /\ Forall2 (swaps p e e') f f' /\
    exists l', nenumerates l' f' /\ exists res, x = match res with Some v => (v, true) | None => (VNil, false) end /\ match r with Some q => nlongest l' q res | None => res = None end).
Proof using Hcb.
  intros Ht Hu Hn Hk. unfold share_prog. destruct n as [n|]; [|by inversion Hn].
  destruct (itree_itl _ _ _ Ht) as (xs & yz & Hi).
  apply wp_bind. eapply wp_mono; [eapply wp_frame, wp_and; [apply (ip_enumerate_loc _ _ _ _ Hi)|apply (ienum_at _ _ _ _ Ht)]|]. cbn beta. intros e h1 W1 ([[-> Ee] [_ He]] & _ & HW1 & _).
  assert (Hview : exists (les : list (loc * pair_)), nenumerates lu (map snd les) /\ (forall W, wp (ip_enumerate u) h W (fun e' h' _ => e' = map snd les /\ h' = h)) /\ (forall x, x ∈ les -> x.1 ∈ dom h /\ val_at h x.1 = x.2.2) /\
    forall h2, vrel h h2 -> exists l', itree h2 u (ilog_get l') /\ nenumerates l' (map snd (map (reloadp h2) les)) /\ (forall W, wp (ip_enumerate u) h2 W (fun e' h' _ => e' = map snd (map (reloadp h2) les) /\ h' = h2))).
  { destruct u as [b|].
    - destruct (itree_itl _ _ _ Hu) as (xs2 & yz2 & Hi2). exists (le xs2 yz2). split_and!.
      + apply (wp_extract (ip_enumerate (Some b)) _ h ∅). eapply wp_mono; [apply wp_and; [apply (ip_enumerate_loc _ _ _ _ Hi2)|apply (ienum_at _ _ _ _ Hu)]|]. cbn beta. intros e2 h2 W2 [[-> ->] [_ H]]. exact H.
      + intros W. eapply wp_mono; [apply (ip_enumerate_loc _ _ _ _ Hi2)|]. cbn beta. naive_solver.
      + intros x Hx. destruct (le_cells _ _ _ _ Hi2 x Hx) as [(nn & E & _) E2]. split; [by eapply elem_of_dom_2|done].
      + intros h2 Hv. destruct (view_ok h b xs2 yz2 Hi2 h2 Hv) as (l' & H1 & H2 & H3 & _). by exists l'.
    - exists []. cbn [itree] in Hu. split_and!.
      + exists []. split_and!; [constructor| |constructor]. intros q v. rewrite Hu. split; [by intros ?%elem_of_nil|done].
      + intros W. cbn [ip_enumerate wp]. done.
      + intros x Hx. by apply elem_of_nil in Hx.
      + intros h2 _. exists []. split_and!; [done| |intros W; cbn [ip_enumerate wp]; done]. exists []. split_and!; [constructor| |constructor]. intros q v. split; [by intros ?%elem_of_nil|done]. }
  destruct Hview as (les & Hl1 & Hl2 & Hl3 & Hl4).
  apply wp_bind. eapply wp_mono; [eapply wp_frame, Hl2|]. cbn beta. intros f h1 W2 ([-> ->] & _ & HW2 & _). 
  assert (HW : dom h ⊆ W2) by (clear -HW1 HW2; set_solver).
  set (call := fun (_ : list pair_) s x r => r = cb s x).
  apply wp_bind. unfold ip_update. eapply wp_mono; [apply wp_and; [apply (ip_update_by_at _ call (fun _ _ => True) h a l (Some n) p s W2 HW); [intros; apply pure_acts; exact Hcb|done..]|
    apply (update_net _ (rseg call) (fun _ _ => True) h a xs yz Hi W2 HW s I (acts_steps _ _ _ _ _ (pure_acts cb Hcb h _)) n p Hn)]|].
  cbn beta. intros s' h2 W3 [(e0 & e' & l' & _ & _ & _ & P1 & P2 & P3 & P4 & P5 & _) [Hupd _]].
  assert (e = e0) as <-.
  { apply (wp_extract (ip_enumerate (Some a)) _ h ∅). eapply wp_mono; [apply wp_and; [apply (ip_enumerate_loc _ _ _ _ Hi)|apply P1]|]. cbn beta. intros e2 h3 W4 [[_ E2] [E3 _]]. congruence. }
  pose proof (itl_vrel _ _ _ _ Hi h2 P5) as Hi2.
  assert (Ee' : e' = map snd (map (reloadp h2) (le xs yz))).
  { rewrite <- (le_reload _ _ _ _ Hi h2 P5). apply (wp_extract (ip_enumerate (Some a)) _ h2 ∅). eapply wp_mono; [apply wp_and; [apply (ip_enumerate_loc _ _ _ _ Hi2)|apply P2]|]. cbn beta. intros e2 h3 W4 [[_ E2] [E3 _]]. congruence. }
  apply wp_bind. eapply wp_mono; [apply P2|]. cbn beta. intros e2 h3 W4 [-> ->].
  destruct (Hl4 h2 P5) as (l2 & Hu2 & Hl5 & Hl6).
  apply wp_bind. eapply wp_mono; [apply Hl6|]. cbn beta. intros f' h3 W5 [-> ->].
  apply wp_bind. rewrite get_key_eq. eapply wp_mono; [apply (ip_get_at h2 W5 _ _ _ r Hu2); by apply key_isnet|]. cbn beta. intros x h4 W6 (-> & res & -> & Hres). cbn [wp].
  split_and!; [done|done| | | |].
  - intros Htg. destruct (uwalk_const call cb p (fun _ _ _ _ H => H) _ _ _ _ _ (P3 Htg)) as (e2 & -> & Hw). exact Hw.
  - intros Hno. destruct (P4 Hno) as (-> & _ & ->). done.
  - rewrite map_map. apply Forall2_fmap. apply Forall_Forall2_diag. apply Forall_forall. intros z Hz. destruct (Hl3 z Hz) as [Hd Ez]. unfold swaps, reloadp. cbn [fst snd]. split; [done|].
    destruct Hupd as [[(L & seg & R & EX & Hin & _ & Hr) _]|(_ & -> & _)]; [|left; symmetry; exact Ez].
    destruct (decide (z.1 ∈ map fst seg)) as [Hs|Hs].
    + right. apply elem_of_list_fmap in Hs as (w & Ew & Hw). rewrite Forall_forall in Hin. destruct (Hin w Hw) as (q & Q1 & Q2 & Q3).
      assert (HwX : w ∈ le xs yz) by (rewrite EX; clear -Hw; set_solver). exists w.2, q. split_and!; try done.
      * rewrite Ee. by apply elem_of_list_fmap_1.
      * destruct (le_cells _ _ _ _ Hi w HwX) as [_ E]. assert (E2 : val_at h z.1 = val_at h w.1) by (f_equal; exact Ew). exact (eq_trans (eq_sym E) (eq_trans (eq_sym E2) Ez)).
      * rewrite Ee', map_map. apply elem_of_list_fmap. exists w. split; [|done]. unfold reloadp. cbn [snd]. f_equal. f_equal. exact Ew.
    + left. etrans; [symmetry; exact Ez|]. symmetry. by apply (rseg_keep _ _ _ _ _ _ _ _ Hr).
  - exists l2. split; [done|]. exists res. split; [done|]. destruct r as [q|]; [|done]. unfold gl in Hres. unfold nlongest. destruct res as [v|]; [|done]. destruct Hres as (q' & R1 & R2 & R3). by exists q'.
Qed.
End any.

(** ** Values that carry their network and the call that stored them. *)
Section tagged.
Context {U St : Type}.
Local Notation tag := (net * nat)%type.
Local Notation U' := (value U * tag)%type.
Definition strip (v : value U) : value U := match v with VSub _ => VNil | _ => v end.
Definition untag (u : U') : value U := strip u.1.
Lemma untag_plain u : plain (untag u).
Proof. destruct u as [[] ?]; done. Qed.
Definition tagv (q : net) (i : nat) (v : value U) : value U' := VUser (v, (q, i)).
Definition tag0 : net := (false, (0%N, 0%N)).
Definition tago (i : nat) (o : iop (option net) (value U)) : iop (option net) (value U') :=
  match o with
  | IBuild items => IBuild (map (fun x => (x.1, tagv (default tag0 x.1) i x.2)) items)
  | IInsert j k v => IInsert j k (tagv (default tag0 k) i v)
  | IDelete j k => IDelete j k
  | IGet j k => IGet j k
  | IEnumerate j => IEnumerate j
  end.
Fixpoint tags (i : nat) (rops : list (iop (option net) (value U))) : list (iop (option net) (value U')) :=
  match rops with [] => [] | o :: rops => tago i o :: tags (S i) rops end.
Lemma erv_tag q i v : plain v -> erv untag (tagv q i v) = v.
Proof. by destruct v. Qed.
Lemma tag_op i (o : iop ikey (value U)) ro : iresolves o ro -> iop_ok o -> exists o', iresolves o' (tago i ro) /\ iop_ok o' /\ op_sim untag o' o.
Proof.
  intros Hr Hok. destruct Hr as [items items' H|j k q v H|j k q H|j k q H|j]; cbn [tago].
  - cbn [iop_ok] in Hok. assert (Hx : exists items2, Forall2 (fun x y => ikey_is x.1 y.1 /\ x.2 = y.2) items2 (map (fun x => (x.1, tagv (default tag0 x.1) i x.2)) items') /\ Forall (fun x => plain x.2) items2 /\ Forall2 (fun x' x => x = (x'.1, erv untag x'.2)) items2 items).
    { induction H as [|[k v] [q w] items items' [H1 H2] H IH]; [exists []; split_and!; constructor|]. inversion Hok as [|? ? Hv Hok']; subst. destruct (IH Hok') as (items2 & A1 & A2 & A3). cbn [fst snd] in *. subst w.
      exists ((k, tagv (default tag0 q) i v) :: items2). cbn [map fst snd]. split_and!; constructor; try done. cbn [fst snd]. by rewrite erv_tag. }
    destruct Hx as (items2 & A1 & A2 & A3). exists (IBuild items2). split_and!; [by constructor|done|done].
  - exists (IInsert j k (tagv (default tag0 q) i v)). split_and!; [by constructor|done|]. cbn [op_sim]. split_and!; [done|done|]. symmetry. by apply erv_tag.
  - exists (IDelete j k). split_and!; [by constructor|done|done].
  - exists (IGet j k). split_and!; [by constructor|done|done].
  - exists (IEnumerate j). split_and!; [by constructor|done|done].
Qed.
Lemma tag_ops ops rops : Forall2 iresolves ops rops -> Forall iop_ok ops -> forall i, exists ops', Forall2 iresolves ops' (tags i rops) /\ Forall iop_ok ops' /\ Forall2 (op_sim untag) ops' ops.
Proof.
  induction 1 as [|o ro ops rops Ho H IH]; intros Hok i; [exists []; split_and!; constructor|]. inversion Hok as [|? ? Hv Hok']; subst. destruct (IH Hok' (S i)) as (ops' & A1 & A2 & A3). destruct (tag_op i o ro Ho Hv) as (o' & B1 & B2 & B3).
  exists (o' :: ops'). cbn [tags]. split_and!; by constructor.
Qed.
(** The logs of the values and of the calls. *)
Definition ent (x : ilop (value U')) (y : ilop nat) : Prop :=
  match x, y with
  | ILIns p v, ILIns p' i => p = p' /\ exists w, v = tagv p i w
  | ILDel p, ILDel p' => p = p'
  | _, _ => False
  end.
Lemma ent_get l l' : Forall2 ent l l' -> forall q v, ilog_get l q = Some v -> exists w i, v = tagv q i w /\ ilog_get l' q = Some i.
Proof.
  induction 1 as [|[p v|p] [p' i|p'] l l' He H IH]; intros q w; cbn [ilog_get ent] in *; try done.
  - destruct He as [<- [u ->]]. destruct (decide (p = q)) as [->|]; [|apply IH]. intros [= <-]. by exists u, i.
  - subst p'. destruct (decide (ncovers p q)); [done|apply IH].
Qed.
Lemma ent_build i items l l' : Forall2 ent l l' -> Forall2 ent (build_log (map (fun x : option net * value U => (x.1, tagv (default tag0 x.1) i x.2)) items) l) (build_log (map (fun x => (x.1, i)) items) l').
Proof.
  revert l l'. induction items as [|[q v] items IH]; intros l l' H; cbn [map build_log fst snd]; [done|]. apply IH. destruct q as [q|]; [|done]. cbn [ins_log default]. constructor; [|done]. split; [done|]. by exists v.
Qed.
Lemma ent_nth (gs : list (ilog (value U'))) (gs' : list (ilog nat)) i : Forall2 (Forall2 ent) gs gs' -> Forall2 ent (nth i gs []) (nth i gs' []).
Proof. intros H. revert i. induction H; intros [|i]; cbn [nth]; auto. Qed.
Lemma ent_logs rops : forall i gs gs', Forall2 (Forall2 ent) gs gs' -> Forall2 (Forall2 ent) (ilogs (tags i rops) gs) (ilogs (stamps i rops) gs').
Proof.
  induction rops as [|o rops IH]; intros i gs gs' H; cbn [tags stamps ilogs]; [done|]. apply IH. destruct o as [items|j k v|j k|j k|j]; cbn [tago stamp ilog_step]; try done.
  - apply Forall2_app; [done|]. constructor; [|done]. by apply ent_build.
  - apply Forall2_app; [done|]. constructor; [|done]. destruct k as [q|]; cbn [ins_log default]; [|by apply ent_nth]. constructor; [|by apply ent_nth]. split; [done|]. by exists v.
  - apply Forall2_app; [done|]. constructor; [|done]. destruct k as [q|]; cbn [del_log]; [|by apply ent_nth]. constructor; [done|]. by apply ent_nth.
Qed.
Lemma ent_ver rops ver : Forall2 ent (iver (tags 0 rops) ver) (iver (stamps 0 rops) ver).
Proof. apply ent_nth, ent_logs. constructor. Qed.
(** Memory before the history. *)
Definition liftv (v : value U) : value U' := match v with VNil => VNil | VUser u => tagv tag0 0 (VUser u) | VSub p => VSub p | VDom p => VDom p end.
Lemma erv_lift v : erv untag (liftv v) = v.
Proof. by destruct v. Qed.
Definition liftc (c : cell U) : cell U' :=
  match c with
  | CRb n => CRb (RbN (rb_key n) (liftv (rb_val n)) (rb_l n) (rb_r n) (rb_red n))
  | CNum n => CNum (NumN (nn_key n) (nn_bits n) (nn_leaf n) (liftv (nn_val n)) (nn_c0 n) (nn_c1 n))
  | CDom n => CDom (DomN (dn_branches n) (dn_has n) (liftv (dn_val n)))
  | CDl r => CDl r
  | CStr r c => CStr r c
  | CIp a b => CIp a b
  end.
Lemma erc_lift c : erc untag (liftc c) = c.
Proof. destruct c as [n|n|n| | |]; try done; destruct n; cbn -[erv liftv]; unfold ern; cbn -[erv liftv]; by rewrite erv_lift. Qed.
Lemma erh_lift (h : heap U) : erh untag (liftc <$> h) = h.
Proof. unfold erh. rewrite <- map_fmap_compose. rewrite <- (map_fmap_id h) at 2. apply map_fmap_ext. intros i c _. apply erc_lift. Qed.

Variable cb : St -> bytes * bytes * value U -> St * option (value U).
Hypothesis Hcb : cb_plain cb.
Definition cb' (s : St) (x : bytes * bytes * value U') : St * option (value U') := let r := cb s (erp untag x) in (r.1, tagv tag0 0 <$> r.2).
Lemma cb_sim s x : cb s (erp untag x) = ((cb' s x).1, erv untag <$> (cb' s x).2).
Proof using Hcb.
  unfold cb'. cbn zeta. destruct (cb s (erp untag x)) as [s' [v|]] eqn:E; cbn [fst snd fmap option_fmap option_map]; [|done]. rewrite erv_tag; [done|]. by apply (Hcb s (erp untag x) s').
Qed.
Lemma cb_plain' : cb_plain cb'.
Proof. intros s x s' v. unfold cb'. cbn zeta. destruct (cb s (erp untag x)) as [s1 [w|]]; cbn [fst snd fmap option_fmap option_map]; [|done]. by intros [= _ <-]. Qed.
Definition res_sim (y' : list (bytes * bytes * value U') * list (bytes * bytes * value U') * St * list (bytes * bytes * value U') * list (bytes * bytes * value U') * (value U' * bool))
    (y : list (bytes * bytes * value U) * list (bytes * bytes * value U) * St * list (bytes * bytes * value U) * list (bytes * bytes * value U) * (value U * bool)) : Prop :=
  let '(e1, f1, s1, g1, k1, x1) := y' in let '(e, f, s, g, k, x) := y in pairs untag e1 e /\ pairs untag f1 f /\ s1 = s /\ pairs untag g1 g /\ pairs untag k1 k.
Lemma ps_share t u n s k : psim untag res_sim (share_prog cb' t u n s k) (share_prog cb t u n s k).
Proof using Hcb.
  pose proof untag_plain as Hp. unfold share_prog.
  eapply psim_bind; [by apply ps_enumerate|]. intros e1 e He. eapply psim_bind; [by apply ps_enumerate|]. intros f1 f Hf.
  eapply psim_bind; [apply (ps_update untag Hp cb' cb cb_sim)|]. intros s1 ? ->.
  eapply psim_bind; [by apply ps_enumerate|]. intros g1 g Hg. eapply psim_bind; [by apply ps_enumerate|]. intros k1 k2 Hk.
  eapply psim_bind; [by apply ps_get_key|]. intros x1 x Hx. constructor. done.
Qed.
(** A value tells its network and its call. *)
Lemma enum_tag rops ver e x : nenumerates (iver (tags 0 rops) ver) e -> x ∈ e -> exists q i w, canonical x.1.1 x.1.2 q /\ x.2 = tagv q i w /\ ilog_get (iver (stamps 0 rops) ver) q = Some i.
Proof.
  intros (ps & _ & Hps & Hf) Hx. apply elem_of_list_lookup in Hx as [j Hj]. destruct (Forall2_lookup_l _ _ _ _ _ Hf Hj) as ([q v] & Hq & Ev & Hc). cbn [fst snd] in *. apply elem_of_list_lookup_2 in Hq. apply Hps in Hq.
  destruct (ent_get _ _ (ent_ver rops ver) _ _ Hq) as (w & i & -> & Hi). by exists q, i, w.
Qed.
Lemma swaps_follow rops ver other p e e' f f' : nenumerates (iver (tags 0 rops) ver) e -> nenumerates (iver (tags 0 rops) other) f -> Forall2 (swaps p e e') f f' ->
  Forall2 (follows (iver (stamps 0 rops) ver) (iver (stamps 0 rops) other) p (map (erp untag) e) (map (erp untag) e')) (map (erp untag) f) (map (erp untag) f').
Proof.
  intros He Hf H. apply Forall2_fmap. assert (Hf2 : forall x, x ∈ f -> exists q i w, canonical x.1.1 x.1.2 q /\ x.2 = tagv q i w /\ ilog_get (iver (stamps 0 rops) other) q = Some i) by (intros x; by apply enum_tag).
  clear Hf. induction H as [|x y f f' [E1 E2] H IH]; constructor; [|apply IH; intros z Hz; apply Hf2; by right].
  split; [exact E1|]. destruct E2 as [E2|(x0 & q & H1 & H2 & H3 & H4 & H5 & H6)]; [left; unfold erp; cbn [snd]; by rewrite E2|]. right.
  destruct (Hf2 x) as (q1 & i1 & w1 & C1 & V1 & S1); [by left|]. destruct (enum_tag _ _ _ _ He H1) as (q2 & i2 & w2 & C2 & V2 & S2).
  pose proof (eq_trans (eq_sym V2) (eq_trans H2 V1)) as Ev. injection Ev as _ <- <-.
  pose proof (is_net_fun (U := U) (1%positive, (x0.1, VNil)) q q2 H4 C2) as <-.
  destruct (canonical_fun _ _ _ _ _ C1 C2) as [E3 E4]. assert (E : x.1 = x0.1) by (destruct x as [[? ?] ?], x0 as [[? ?] ?]; cbn [fst snd] in *; by subst).
  split_and!.
  - apply elem_of_list_fmap. exists x0. split; [|done]. unfold erp. by rewrite E, H2.
  - apply elem_of_list_fmap. exists (x0.1, y.2). split; [|done]. unfold erp. cbn [fst snd]. by rewrite <- E1, E.
  - exists q. unfold erp. cbn [fst snd]. split_and!; [done|done|done|]. by exists i2.
Qed.
Lemma pf_sharing (h : heap U) ops rops : Forall2 iresolves ops rops -> Forall iop_ok ops ->
  wp (run_hist ip_exec ops []) h ∅ (fun vs h1 _ => forall ver other n p s k r, nth ver vs.1 None <> None -> net_is n p -> ikey_is k r ->
    let t := nth ver vs.1 None in let u := nth other vs.1 None in
    wp (share_prog cb t u n s k) h1 (dom h1) (fun y h' _ => let '(e, f, s', e', f', x) := y in
      nenumerates (iver rops ver) e /\ nenumerates (iver rops other) f /\
      (is_target (iver rops ver) n p -> uwalk cb p s e s' e') /\ (~ is_target (iver rops ver) n p -> s' = s /\ h' = h1) /\
      Forall2 (follows (iver (stamps 0 rops) ver) (iver (stamps 0 rops) other) p e e') f f' /\
      exists l', nenumerates l' f' /\ exists res, x = match res with Some v => (v, true) | None => (VNil, false) end /\ match r with Some q => nlongest l' q res | None => res = None end)).
Proof using Hcb.
  intros Hops Hok. destruct (tag_ops ops rops Hops Hok 0) as (ops' & A1 & A2 & A3).
  pose proof (ip_history (liftc <$> h) ops' (tags 0 rops) A1 A2) as Hist'.
  apply (psim_wp untag _ _ _ (ps_hist untag untag_plain ops' ops A3 [])) in Hist'. rewrite erh_lift in Hist'.
  eapply wp_mono; [apply wp_and; [by apply (ip_history h ops rops)|exact Hist']|]. cbn beta.
  intros vs h1 W1 [(_ & _ & H) (vs' & h1' & [Ev _] & -> & (_ & _ & H'))] ver other n p s k r Hne Hn Hk. cbn zeta. rewrite Ev in H'.
  pose proof (H ver) as Ht. pose proof (H other) as Hu. pose proof (H' ver) as Ht'. pose proof (H' other) as Hu'. clear H H'. unfold ipR in *.
  destruct (nth ver vs.1 None) as [a|]; [|done].
  pose proof (share_at cb' cb_plain' h1' a _ _ _ n p s k r Ht' Hu' Hn Hk) as Hs'. apply (psim_wp untag _ _ _ (ps_share _ _ _ _ _)) in Hs'.
  assert (Ed : dom (erh untag h1') = dom h1') by (unfold erh; by rewrite dom_fmap_L). rewrite <- Ed in Hs'.
  eapply wp_mono; [apply wp_and; [apply (share_at cb Hcb _ a _ _ _ n p s k r Ht Hu Hn Hk)|exact Hs']|]. cbn beta.
  intros [[[[[e f] s'] e'] f'] x] h2 W2 [(P1 & P2 & P3 & P4 & _ & P6) (y' & h2' & Hy & _ & Hs)]. destruct y' as [[[[[e1 f1] s1] e2] f2] x1].
  destruct Hy as (-> & -> & -> & -> & ->). destruct Hs as (Q1 & Q2 & _ & _ & Q5 & _). split_and!; [done|done|done|done| |done]. by apply swaps_follow.
Qed.
End tagged.
Lemma pf_independent V (st su : ilog nat) p (e e' f f' : list (bytes * bytes * V)) :
  Forall2 (follows st su p e e') f f' -> (forall q, ncovers p q -> p <> q -> ~ one_call st su q) -> f' = f.
Proof.
  intros H Hq. induction H as [|x y f f' [E1 [E2|(_ & _ & q & _ & Q1 & Q2 & Q3)]] H IH]; [done| |by destruct (Hq q Q1 Q2 Q3)].
  rewrite IH. f_equal. destruct x, y. cbn [fst snd] in *. by subst.
Qed.
