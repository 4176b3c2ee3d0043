(** * Proofs for Properties_iptree2.v *)
From Verif Require Import Prog History NumModel NumSpec IpModel IpSpec IpUpdSpec IpBits IpAbs IpAbs4 IpEnum IpHist IpPropProofs IpUpd IpUpd2 IpUpd3 IpUpd4.
Open Scope N_scope.

Lemma wp_extract {U A} (m : prog U A) (P : Prop) : forall (h : heap U) W, wp m h W (fun _ _ _ => P) -> P.
Proof.
  induction m as [a|e|c k IH|l k IH|l c k IH]; intros h W; cbn [wp].
  - done.
  - done.
  - intros H. eapply (IH (fresh (dom h))), H. apply not_elem_of_dom, is_fresh.
  - intros (c & _ & H). by eapply IH.
  - intros (_ & _ & H). by eapply IH.
Qed.

Section pf.
Context {U St : Type}.
Local Notation heap := (heap U).
Local Notation value := (value U).
Implicit Types h : heap.

Lemma wp_and {A} (m : prog U A) : forall h W (Q1 Q2 : A -> heap -> gset loc -> Prop), wp m h W Q1 -> wp m h W Q2 -> wp m h W (fun a h' W' => Q1 a h' W' /\ Q2 a h' W').
Proof.
  induction m as [a|e|c k IH|l k IH|l c k IH]; intros h W Q1 Q2; cbn [wp].
  - done.
  - done.
  - intros H1 H2 l Hl. apply IH; auto.
  - intros (c & E & H1) (c' & E' & H2). rewrite E in E'. injection E' as <-. exists c. split; [done|]. by apply IH.
  - intros (A1 & A2 & H1) (_ & _ & H2). split_and!; [done|done|]. by apply IH.
Qed.
Lemma stored_log (l : ilog value) (les : list (loc * pair_)) p : nenumerates l (map snd les) -> stored p les <-> exists v, ilog_get l p = Some v.
Proof.
  intros (ps & _ & Hps & Hf). split.
  - intros (x & Hx & Hn). apply (elem_of_list_fmap_1 snd) in Hx. apply elem_of_list_lookup in Hx as [i Hi]. destruct (Forall2_lookup_l _ _ _ _ _ Hf Hi) as ([q v] & Hq & Ev & Hc).
    apply elem_of_list_lookup_2 in Hq. exists v. apply Hps. cbn [fst snd] in *. pose proof (is_net_fun x p q Hn Hc) as ->. done.
  - intros [v Hv]. apply Hps in Hv. apply elem_of_list_lookup in Hv as [i Hi]. destruct (Forall2_lookup_r _ _ _ _ _ Hf Hi) as (x & Hx & Ev & Hc). apply elem_of_list_lookup_2 in Hx.
    apply elem_of_list_fmap in Hx as (y & -> & Hy). exists y. done.
Qed.
Lemma around_ext (S1 S2 : net -> Prop) p : (forall q, S1 q <-> S2 q) -> around S1 p <-> around S2 p.
Proof. intros H. unfold around. setoid_rewrite H. done. Qed.
(** ** Callbacks that are programs. *)
Section by_.
Variable cb : St -> pair_ (U := U) -> prog U (St * option value).
Variable call : list (pair_ (U := U)) -> St -> pair_ (U := U) -> St * option value -> Prop.
Variable Inv : heap -> St -> Prop.
Lemma ip_update_by_at h a l n p s W : dom h ⊆ W -> (forall xs yz, itl h a xs yz -> acts cb call Inv h (le xs yz)) -> Inv h s ->
  itree h (Some a) (ilog_get l) -> net_is n p ->
  wp (ip_update_by cb (Some a) n s) h W (fun s' h' _ => exists e e' l', nenumerates l e /\ nenumerates l' e' /\ itree h' (Some a) (ilog_get l') /\
      (forall W, wp (ip_enumerate (Some a)) h W (fun e1 h1 _ => e1 = e /\ h1 = h)) /\
      (forall W, wp (ip_enumerate (Some a)) h' W (fun e1 h1 _ => e1 = e' /\ h1 = h')) /\
      (is_target l n p -> uwalk_by call p [] s e s' e') /\ (~ is_target l n p -> s' = s /\ e' = e /\ h' = h) /\ vrel h h' /\ Inv h' s').
Proof.
  intros HW Hact HI Ht Hn.
  destruct (itree_itl _ _ _ Ht) as (xs & yz & Hi). destruct n as [n|]; [|by inversion Hn].
  assert (He : nenumerates l (map snd (le xs yz))).
  { apply (wp_extract (ip_enumerate (Some a)) _ h ∅). eapply wp_mono; [apply wp_and; [apply (ip_enumerate_loc _ _ _ _ Hi)|apply (ienum_at _ _ _ _ Ht)]|].
    cbn beta. intros e h1 W1 [[-> ->] [_ He]]. exact He. }
  eapply wp_mono; [apply (update_net cb (rseg call) Inv h a xs yz Hi W HW s HI (acts_steps _ _ _ _ _ (Hact xs yz Hi)) n p Hn)|]. cbn beta. intros s' h2 W2 [Hu [Hv HI']].
  pose proof (itl_vrel _ _ _ _ Hi h2 Hv) as Hi2. destruct (itl_itree _ _ _ _ Hi2) as [G' Ht2].
  assert (He' : enum_of G' (map snd (map (reloadp h2) (le xs yz)))).
  { rewrite <- (le_reload _ _ _ _ Hi h2 Hv). apply (wp_extract (ip_enumerate (Some a)) _ h2 ∅).
    eapply wp_mono; [apply wp_and; [apply (ip_enumerate_loc _ _ _ _ Hi2)|apply (ip_enumerate_at _ _ _ _ Ht2)]|]. cbn beta. intros e' h3 W3 [[-> ->] [_ He']]. exact He'. }
  destruct (enum_log _ _ He') as [l' Hl'].
  assert (Hw : reaches (rseg call) h (le xs yz) p s s' h2 -> uwalk_by call p [] s (map snd (le xs yz)) s' (map snd (map (reloadp h2) (le xs yz)))).
  { intros (L & seg & R & E & Hin & Hout & Hr). pose proof (le_nodup _ _ _ _ Hi) as Hnd. pose proof (le_cells _ _ _ _ Hi) as Hcell. 
    apply (uwalk_le call h (le xs yz) p L seg R s s' h2); try done; intros y Hy; by apply Hcell. }
  assert (Htarget : is_target l (Some n) p <-> stored p (le xs yz) \/ taken (le xs yz) p (no_host_bits (Some n) p)).
  { unfold is_target, taken. rewrite (stored_log _ _ _ He). rewrite (around_ext (fun q => stored q (le xs yz)) (fun q => exists v, ilog_get l q = Some v)); [done|]. intros q. by apply stored_log. }
  exists (map snd (le xs yz)), (map snd (map (reloadp h2) (le xs yz))), l'. split_and!; [done| | | | | | |done|done].
  - apply enum_of_log. destruct He' as (ps & P1 & P2 & P3). exists ps. split_and!; [done| |done]. intros q v. rewrite P2. by rewrite Hl'.
  - eapply itree_ext; [|exact Ht2]. intros q. apply Hl'.
  - intros W0. eapply wp_mono; [apply (ip_enumerate_loc _ _ _ _ Hi)|]. cbn beta. naive_solver.
  - intros W0. rewrite <- (le_reload _ _ _ _ Hi h2 Hv). eapply wp_mono; [apply (ip_enumerate_loc _ _ _ _ Hi2)|]. cbn beta. naive_solver.
  - intros Htg. apply Htarget in Htg. destruct Hu as [[Hu _]|(_ & _ & N1 & N2)]; [by apply Hw|]. exfalso. by destruct Htg.
  - intros Hno. destruct Hu as [[_ Htg]|(-> & -> & _)]; [exfalso; by apply Hno, Htarget|]. split_and!; [done| |done].
    f_equal. apply map_id_on. intros y Hy. destruct (le_cells _ _ _ _ Hi y Hy) as [_ Ey]. destruct y as [lo [im v]]. cbn [fst snd] in Ey. unfold reloadp. cbn [fst snd]. by rewrite Ey.
Qed.
Lemma iget_at h a (l : ilog value) k r W : itree h (Some a) (ilog_get l) -> ikey_is k r ->
  wp (ip_get_key (Some a) k) h W (fun x h' _ => h' = h /\ exists res, x = match res with Some v => (v, true) | None => (VNil, false) end /\ match r with Some q => nlongest l q res | None => res = None end).
Proof.
  intros Ht Hk. rewrite get_key_eq. eapply wp_mono; [apply (ip_get_at h W _ _ _ r Ht); by apply key_isnet|]. cbn beta. intros x h4 W4 (-> & res & -> & Hres). split; [done|].
  exists res. split; [done|]. destruct r as [q|]; [|done]. unfold gl in Hres. unfold nlongest. destruct res as [v|]; [|done].
  destruct Hres as (q' & R1 & R2 & R3). by exists q'.
Qed.
Lemma ip_pf_update_by h a l n p s k r : (forall xs yz, itl h a xs yz -> acts cb call Inv h (le xs yz)) -> Inv h s ->
  itree h (Some a) (ilog_get l) -> net_is n p -> ikey_is k r ->
  wp (e <- ip_enumerate (Some a) ;; s' <- ip_update_by cb (Some a) n s ;; e' <- ip_enumerate (Some a) ;; x <- ip_get_key (Some a) k ;; Ret (e, s', e', x)) h (dom h)
    (fun y h' _ => let '(e, s', e', x) := y in nenumerates l e /\
      (is_target l n p -> uwalk_by call p [] s e s' e') /\
      (~ is_target l n p -> s' = s /\ e' = e /\ h' = h) /\ vrel h h' /\ Inv h' s' /\
      exists l', nenumerates l' e' /\ exists res, x = match res with Some v => (v, true) | None => (VNil, false) end /\ match r with Some q => nlongest l' q res | None => res = None end).
Proof.
  intros Hact HI Ht Hn Hk.
  apply wp_bind. destruct (itree_itl _ _ _ Ht) as (xs & yz & Hi). eapply wp_mono; [eapply wp_frame, (ip_enumerate_loc _ _ _ _ Hi)|]. cbn beta. intros e1 h1 W1 ([-> E1] & _ & HW1 & _).
  apply wp_bind. eapply wp_mono; [by apply (ip_update_by_at h a l n p s W1)|]. cbn beta. intros s' h2 W2 (e & e' & l' & He & He' & Ht' & P1 & P2 & P3 & P4 & P5 & P6).
  assert (e1 = e) as ->. { apply (wp_extract (ip_enumerate (Some a)) _ h ∅). eapply wp_mono; [apply wp_and; [apply (ip_enumerate_loc _ _ _ _ Hi)|apply P1]|]. cbn beta. intros e2 h3 W3 [[_ E2] [E3 _]]. congruence. }
  apply wp_bind. eapply wp_mono; [apply P2|]. cbn beta. intros e2 h3 W3 [-> ->].
  apply wp_bind. eapply wp_mono; [by apply (iget_at h2 a l' k r)|]. cbn beta. intros x h4 W4 (-> & Hx). cbn [wp]. split_and!; [done|done|done|done|done|]. by exists l'.
Qed.
End by_.

Variable cb : St -> bytes * bytes * value -> St * option value.
Hypothesis Hcb : cb_plain cb.
Lemma pure_acts h X : acts (fun s x => Ret (cb s x)) (fun _ s x r => r = cb s x) (fun _ _ => True) h X.
Proof using Hcb. split; [|done]. intros h1 W s x _ _ _ _. cbn [wp]. split_and!; [done|done|done|]. intros v Hv. destruct (cb s x) as [s1 r] eqn:E. cbn [snd] in Hv. subst r. by apply (Hcb s x s1 v). Qed.
Lemma ip_pf_update h a l n p s k r : itree h (Some a) (ilog_get l) -> net_is n p -> ikey_is k r ->
  wp (e <- ip_enumerate (Some a) ;; s' <- ip_update cb (Some a) n s ;; e' <- ip_enumerate (Some a) ;; x <- ip_get_key (Some a) k ;; Ret (e, s', e', x)) h (dom h)
    (fun y h' _ => let '(e, s', e', x) := y in nenumerates l e /\
      (is_target l n p -> uwalk cb p s e s' e') /\
      (~ is_target l n p -> s' = s /\ e' = e /\ h' = h) /\
      exists l', nenumerates l' e' /\ exists res, x = match res with Some v => (v, true) | None => (VNil, false) end /\ match r with Some q => nlongest l' q res | None => res = None end).
Proof using Hcb.
  intros Ht Hn Hk. eapply wp_mono; [apply (ip_pf_update_by (fun s x => Ret (cb s x)) (fun _ s x r => r = cb s x) (fun _ _ => True) h a l n p s k r); [intros; apply pure_acts|done..]|].
  cbn beta. intros [[[e s'] e'] x] h' _ (H1 & H2 & H3 & _ & _ & H4). split_and!; [done| |done|done]. intros Htg. destruct (uwalk_const (fun _ s x r => r = cb s x) cb p (fun _ _ _ _ H => H) _ _ _ _ _ (H2 Htg)) as (e2 & -> & Hw). exact Hw.
Qed.
Lemma ip_pf_update_hist h ops rops : Forall2 iresolves ops rops -> Forall iop_ok ops ->
  wp (run_hist ip_exec ops []) h ∅ (fun vs h1 _ => forall ver n p s k r, nth ver vs.1 None <> None -> net_is n p -> ikey_is k r ->
    let t := nth ver vs.1 None in let l := iver rops ver in
    wp (e <- ip_enumerate t ;; s' <- ip_update cb t n s ;; e' <- ip_enumerate t ;; x <- ip_get_key t k ;; Ret (e, s', e', x)) h1 (dom h1)
      (fun y h' _ => let '(e, s', e', x) := y in nenumerates l e /\
        (is_target l n p -> uwalk cb p s e s' e') /\
        (~ is_target l n p -> s' = s /\ e' = e /\ h' = h1) /\
        exists l', nenumerates l' e' /\ exists res, x = match res with Some v => (v, true) | None => (VNil, false) end /\ match r with Some q => nlongest l' q res | None => res = None end)).
Proof using Hcb.
  intros Hops Hok. eapply wp_mono; [by apply ip_history|]. cbn beta. intros vs h1 _ (_ & _ & H) ver n p s k r Hne Hn Hk. cbn zeta. specialize (H ver).
  destruct (nth ver vs.1 None) as [a|]; [|done]. by apply ip_pf_update.
Qed.
(** What is no network updates nothing. *)
Lemma ip_pf_update_none t n s h W : (forall q, ~ net_is (Some n) q) -> wp (ip_update cb t (Some n) s) h W (fun s' h' W' => s' = s /\ h' = h).
Proof.
  intros Hn. unfold ip_update, ip_update_by. pose proof (ip4_key_spec n) as K4. destruct (ip4_key n) as [[k b]|].
  { destruct K4 as (K4 & _). by apply Hn in K4. }
  pose proof (ip6_key_spec n) as K6. destruct (ip6_key n) as [[[[hk hb] lk] lb]|]; [|done]. destruct K6 as (q & K6 & _). by apply Hn in K6.
Qed.
(** The walk is a function of what the tree was. *)
Lemma uwalk_fun p s e s1 e1 s2 e2 : uwalk cb p s e s1 e1 -> uwalk cb p s e s2 e2 -> s1 = s2 /\ e1 = e2.
Proof.
  intros H. revert s2 e2. induction H as [s|s ip m q v s1 r e s2 e' Hc Hin Hne Hcall H IH|s ip m q v e s2 e' Hc Hout H IH]; intros s3 e3 H3.
  - inversion H3; subst. done.
  - inversion H3 as [|? ? ? q' ? s1' r' ? ? e1' Hc' Hin' Hne' Hcall' H'|? ? ? q' ? ? ? e1' Hc' Hout' H']; subst.
    + rewrite Hcall in Hcall'. injection Hcall' as <- <-. destruct (IH _ _ H') as [-> ->]. done.
    + exfalso. pose proof (is_net_fun (U := U) (1%positive, (ip, m, v)) q q' Hc Hc') as <-. by apply Hout'.
  - inversion H3 as [|? ? ? q' ? s1' r' ? ? e1' Hc' Hin' Hne' Hcall' H'|? ? ? q' ? ? ? e1' Hc' Hout' H']; subst.
    + exfalso. pose proof (is_net_fun (U := U) (1%positive, (ip, m, v)) q q' Hc Hc') as <-. by apply Hout.
    + destruct (IH _ _ H') as [-> ->]. done.
Qed.
End pf.
Lemma ip_pf_short_targets V (l : ilog V) n (p : net) : p.1 = false \/ p.2.1 < 64 -> (is_target l n p <-> exists v, ilog_get l p = Some v).
Proof. intros H. split; [|by left]. intros [Hs|[_ Ha]]; [done|]. exfalso. apply around_long in Ha as [A1 A2]. destruct H as [H|H]; [by rewrite A1 in H|lia]. Qed.
