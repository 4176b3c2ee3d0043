(** * Proofs for Properties_calling.v *)
From Verif Require Import Prog History NumModel NumSpec IpModel IpSpec IpUpdSpec IpBits IpAbs IpAbs4 IpEnum IpHist IpPropProofs IpUpd IpUpd2 IpUpd3 IpUpd4 IpUpdProofs.
From Verif Require Import Channel ChanUpdModel ChanUpdProofs ChanUpdProps CallModel CallSpec.
From Verif Require UxPropProofs.
Open Scope nat_scope.

Section pf.
Context {U St : Type}.
Local Notation heap := (heap U).
Local Notation value := (value U).
Local Notation pair_ := (pair_ (U := U)).
Implicit Types h : heap.

(** ** Callbacks do not write. *)
Lemma ro_match c fuel : forall p k b, ro (match_ (U := U) c fuel p k b).
Proof.
  induction fuel as [|fuel IH]; intros p k b; cbn [match_]; [constructor|]. apply ro_bind; [apply ro_ld_num|]. intros nn.
  destruct (N.ltb b (nn_bits nn)); [constructor|]. destruct (N.eqb (nn_bits nn) b).
  - apply ro_bind; [unfold leaf_and_same; destruct (nn_leaf nn); [apply ro_same|constructor]|]. intros []; constructor.
  - apply ro_bind; [apply ro_same|]. intros [|]; cbn [negb]; [|constructor]. apply ro_bind; [destruct (chld nn (bbit c k (nn_bits nn))); [apply IH|constructor]|].
    intros [|]; [constructor|]. destruct (nn_leaf nn); constructor.
Qed.
Lemma ro_n_match c p k b : ro (n_match (U := U) c p k b).
Proof. destruct p; [|constructor]. unfold n_match. apply ro_bind; [apply ro_match|]. intros [|]; [|constructor]. apply ro_bind; [apply ro_ld_num|]. intros. constructor. Qed.
Lemma ro_ip_get t k : ro (ip_get_key (U := U) t k).
Proof.
  rewrite get_key_eq. unfold ip_get_net. destruct t as [a|]; [|constructor]. destruct (key_net k) as [n|]; [|constructor]. apply ro_bind; [apply (ro_ld_ip (Some a))|]. intros r.
  destruct (ip4_key n) as [[? ?]|]; [apply ro_n_match|]. destruct (ip6_key n) as [[[[? ?] ?] ?]|]; [|constructor]. apply ro_bind; [apply ro_n_match|]. intros e.
  destruct (negb e.2 || _); [constructor|]. destruct e.1; try constructor. apply ro_bind; [apply ro_n_match|]. intros x. destruct x.2; [constructor|apply ro_n_match].
Qed.
Lemma ro_ask {A} t (m : ask U A) : ro (ask_run t m).
Proof. induction m as [a|k f IH|f IH]; cbn [ask_run]; [constructor|..]; (apply ro_bind; [apply ro_ip_get || apply ro_ip_enum|]); intros; apply IH. Qed.

(** ** What a callback gets to know. *)
Lemma enum_elem (l : ilog value) e q v : nenumerates l e -> ilog_get l q = Some v -> exists x, x ∈ e /\ x.2 = v.
Proof.
  intros (ps & _ & Hps & Hf) Hv. apply Hps in Hv. apply elem_of_list_lookup in Hv as [i Hi]. destruct (Forall2_lookup_r _ _ _ _ _ Hf Hi) as (x & Hx & Ev & _).
  exists x. split; [by eapply elem_of_list_lookup_2|done].
Qed.
Lemma ask_ok h a (l : ilog value) e W : itree h (Some a) (ilog_get l) -> nenumerates l e -> (forall W, wp (ip_enumerate (Some a)) h W (fun e' h' _ => e' = e /\ h' = h)) -> Forall (fun x : pair_ => plain x.2) e ->
  forall m : ask U (St * option value), ask_plain m -> wp (ask_run (Some a) m) h W (fun r h' _ => h' = h /\ asks e m r /\ match r.2 with Some v => plain v | None => True end).
Proof.
  intros Ht He Hen Hp m Hm. revert W. induction Hm as [s r Hr|k f Hf IH|f Hf IH]; intros W; cbn [ask_run].
  - cbn [wp snd]. split; [done|]. split; [constructor|done].
  - destruct (ikey_total k) as [q Hq]. apply wp_bind. eapply wp_mono; [by apply (iget_at h a l k q)|]. cbn beta. intros x h' W' (-> & res & -> & Hres).
    assert (Hpl : plain (match res with Some v => v | None => VNil end)).
    { destruct res as [v|]; [|done]. destruct q as [q|]; [|done]. destruct Hres as (q' & H1 & _). destruct (enum_elem l e q' v He) as (x & Hx & <-); [naive_solver|]. rewrite Forall_forall in Hp. by apply Hp. }
    assert (Hstep : forall x, x = match res with Some v => (v, true) | None => (VNil, false) end -> wp (ask_run (Some a) (f x)) h W' (fun r h' _ => h' = h /\ asks e (f x) r /\ match r.2 with Some v => plain v | None => True end)).
    { intros x ->. destruct res; apply IH; done. }
    eapply wp_mono; [by apply Hstep|]. cbn beta. intros r h' W2 (-> & H1 & H2). split_and!; [done| |done]. by eapply asks_get.
  - apply wp_bind. eapply wp_mono; [apply Hen|]. cbn beta. intros e' h' W' [-> ->]. eapply wp_mono; [by apply IH|]. cbn beta. intros r h' W2 (-> & H1 & H2). split_and!; [done| |done]. by apply asks_enum.
Qed.

(** The tree in a memory in which UpdateDescendants got so far. *)
Lemma view_ok h a xs yz : itl h a xs yz -> forall h1, vrel h h1 -> let e := map snd (map (reloadp h1) (le xs yz)) in
  exists l, itree h1 (Some a) (ilog_get l) /\ nenumerates l e /\ (forall W, wp (ip_enumerate (Some a)) h1 W (fun e' h' _ => e' = e /\ h' = h1)) /\ Forall (fun x : pair_ => plain x.2) e.
Proof.
  intros Hi h1 Hv. cbn zeta. pose proof (itl_vrel _ _ _ _ Hi h1 Hv) as Hi1. destruct (itl_itree _ _ _ _ Hi1) as [G Ht].
  pose proof (le_reload _ _ _ _ Hi h1 Hv) as El.
  assert (Hen : forall W, wp (ip_enumerate (Some a)) h1 W (fun e' h' _ => e' = map snd (map (reloadp h1) (le xs yz)) /\ h' = h1)).
  { intros W. rewrite <- El. eapply wp_mono; [apply (ip_enumerate_loc _ _ _ _ Hi1)|]. cbn beta. naive_solver. }
  assert (He : enum_of G (map snd (map (reloadp h1) (le xs yz)))).
  { apply (wp_extract (ip_enumerate (Some a)) _ h1 ∅). eapply wp_mono; [apply wp_and; [apply Hen|apply (ip_enumerate_at _ _ _ _ Ht)]|]. cbn beta. intros e h2 W2 [[-> ->] [_ He]]. exact He. }
  destruct (enum_log _ _ He) as [l Hl]. exists l. split_and!; [| |done|].
  - eapply itree_ext; [|exact Ht]; intros q; apply Hl.
  - apply enum_of_log. destruct He as (ps & P1 & P2 & P3). exists ps. split_and!; [done| |done]. intros q v. rewrite P2. by rewrite Hl.
  - rewrite <- El. apply Forall_forall. intros y Hy. apply elem_of_list_fmap in Hy as (z & -> & Hz). destruct (le_cells _ _ _ _ Hi1 z Hz) as [(n & E1 & _ & E2) E3]. rewrite (val_at_cell _ _ _ E1) in E3. eapply eq_ind; [exact E2|exact E3].
Qed.

Section cb.
Variable cb : St -> pair_ -> ask U (St * option value).
Hypothesis Hcb : forall s x, plain x.2 -> ask_plain (cb s x).
Lemma ask_acts h a xs yz : itl h a xs yz -> acts (fun s x => ask_run (Some a) (cb s x)) (fun e s x r => asks e (cb s x) r) (fun _ _ => True) h (le xs yz).
Proof using Hcb.
  intros Hi. split; [|done]. intros h1 W s x Hx Hv _ _. destruct (view_ok h a xs yz Hi h1 Hv) as (l & H1 & H2 & H3 & H4).
  eapply wp_mono; [apply (ask_ok h1 a l _ W H1 H2 H3 H4 (cb s x) (Hcb s x Hx))|]. cbn beta. intros r h' W' (-> & Hr & Hp). split_and!; [done|done|done|]. intros v Hv'. by rewrite Hv' in Hp.
Qed.
Lemma pf_calling h ops rops : Forall2 iresolves ops rops -> Forall iop_ok ops ->
  wp (run_hist ip_exec ops []) h ∅ (fun vs h1 _ => forall ver n p s k r, nth ver vs.1 None <> None -> net_is n p -> ikey_is k r ->
    let t := nth ver vs.1 None in let l := iver rops ver in
    wp (e <- ip_enumerate t ;; s' <- ip_update_by (fun s x => ask_run t (cb s x)) t n s ;; e' <- ip_enumerate t ;; x <- ip_get_key t k ;; Ret (e, s', e', x)) h1 (dom h1)
      (fun y h' _ => let '(e, s', e', x) := y in nenumerates l e /\
        (is_target l n p -> uwalk_by (fun e s x r => asks e (cb s x) r) p [] s e s' e') /\
        (~ is_target l n p -> s' = s /\ e' = e /\ h' = h1) /\
        exists l', nenumerates l' e' /\ exists res, x = match res with Some v => (v, true) | None => (VNil, false) end /\ match r with Some q => nlongest l' q res | None => res = None end)).
Proof using Hcb.
  intros Hops Hok. eapply wp_mono; [by apply ip_history|]. cbn beta. intros vs h1 _ (_ & _ & H) ver n p s k r Hne Hn Hk. cbn zeta. specialize (H ver).
  destruct (nth ver vs.1 None) as [a|]; [|done].
  eapply wp_mono; [apply (ip_pf_update_by _ (fun e s x r => asks e (cb s x) r) (fun _ _ => True) h1 a (iver rops ver) n p s k r); [apply ask_acts|done..]|].
  cbn beta. intros [[[e s'] e'] x] h' _ (H1 & H2 & H3 & _ & _ & H4). done.
Qed.
Lemma pf_calling_schedules h ops rops : Forall2 iresolves ops rops -> Forall iop_ok ops ->
  wp (run_hist ip_exec ops []) h ∅ (fun vs h1 _ => forall ver n p s, nth ver vs.1 None <> None -> net_is n p ->
    let t := nth ver vs.1 None in let l := iver rops ver in
    exists h2 s2 e e', always h1 (c_ip_update_by (fun s x => ask_run t (cb s x)) t n s) h2 s2 /\ like h2 h1 /\
      returns (ip_enumerate t) h1 e /\ returns (ip_enumerate t) h2 e' /\ nenumerates l e /\
      (is_target l n p -> uwalk_by (fun e s x r => asks e (cb s x) r) p [] s e s2 e') /\
      (~ is_target l n p -> s2 = s /\ h2 = h1)).
Proof using Hcb.
  intros Hops Hok. eapply wp_mono; [by apply (pf_calling h ops rops)|]. cbn beta. intros vs h1 W1 H ver n p s Hne Hn. cbn zeta.
  specialize (H ver n p s (KNet None) None Hne Hn ltac:(apply ik_no_net; intros q Hq; inversion Hq)). cbn zeta in H.
  apply wp_bind_inv in H. destruct (ro_returns _ _ _ _ (ro_ip_enum _) H) as (e & H1 & He). clear H.
  apply wp_bind_inv in H1. apply update_by_always in H1 as (h2 & s2 & W2 & H2 & Ha & Hl); [|intros; apply ro_ask].
  apply wp_bind_inv in H2. destruct (ro_returns _ _ _ _ (ro_ip_enum _) H2) as (e' & H3 & He').
  exists h2, s2, e, e'. split; [done|]. split; [done|]. split; [done|]. split; [done|].
  apply wp_bind_inv in H3.
  destruct (nth ver vs.1 None) as [a|]; [|done]. cbn [ip_get_key ip_get_net wp bind] in H3. naive_solver.
Qed.
End cb.

(** ** The walk determines the result. *)
Lemma enum_get (l l' : ilog value) e : nenumerates l e -> nenumerates l' e -> forall q, ilog_get l q = ilog_get l' q.
Proof.
  assert (H : forall l1 l2 q v, nenumerates l1 e -> nenumerates l2 e -> ilog_get l1 q = Some v -> ilog_get l2 q = Some v).
  { intros l1 l2 q v (ps & _ & P1 & F1) (ps' & _ & P2 & F2) Hv. apply P2. apply P1 in Hv. apply elem_of_list_lookup in Hv as [i Hi]. destruct (Forall2_lookup_r _ _ _ _ _ F1 Hi) as (x & Hx & Ev & Hc).
    destruct (Forall2_lookup_l _ _ _ _ _ F2 Hx) as ([q' v'] & Hq' & Ev' & Hc'). cbn [fst snd] in *. assert (v' = v) as -> by (etrans; [symmetry; exact Ev'|exact Ev]).
    pose proof (is_net_fun (U := U) (1%positive, x) q q' Hc Hc') as <-. by eapply elem_of_list_lookup_2. }
  intros H1 H2 q. destruct (ilog_get l q) as [v|] eqn:E; [symmetry; exact (H l l' q v H1 H2 E)|]. destruct (ilog_get l' q) as [v|] eqn:E'; [|done]. apply (H l' l q v H2 H1) in E'. etrans; [symmetry; exact E|exact E'].
Qed.
Lemma nlongest_fun (l l' : ilog value) q r r' : (forall q, ilog_get l q = ilog_get l' q) -> nlongest l q r -> nlongest l' q r' -> r = r'.
Proof. intros Hl H1 H2. apply (UxPropProofs.nlongest_fun l q r r' H1). unfold nlongest in *. destruct r'; setoid_rewrite Hl; done. Qed.
Lemma asks_fun {A} e (m : ask U A) a b : asks e m a -> asks e m b -> a = b.
Proof.
  intros H. revert b. induction H as [a|l k q res f a H1 H2 H3 H4 IH|f a H1 IH]; intros b Hb.
  - by inversion Hb.
  - inversion Hb as [|l' k' q' res' f' a' E1 E2 E3 E4|]; subst. apply IH. pose proof (ikey_det _ _ _ H2 E2) as <-. pose proof (enum_get _ _ _ H1 E1) as Hl.
    assert (res = res') as -> by (destruct q as [q|]; [by eapply nlongest_fun|congruence]). done.
  - inversion Hb as [| |f' a' E1]; subst. by apply IH.
Qed.
Lemma uwalk_by_fun (cb : St -> pair_ -> ask U (St * option value)) p d s e s1 e1 s2 e2 :
  uwalk_by (fun e s x r => asks e (cb s x) r) p d s e s1 e1 -> uwalk_by (fun e s x r => asks e (cb s x) r) p d s e s2 e2 -> s1 = s2 /\ e1 = e2.
Proof.
  intros H. revert s2 e2. induction H as [d s|d s ip m q v s1 r e s2 e' Hc Hin Hne Hcall H IH|d s ip m q v e s2 e' Hc Hout H IH]; intros s3 e3 H3.
  - inversion H3; subst. done.
  - inversion H3 as [|? ? ? ? q' ? s1' r' ? ? e1' Hc' Hin' Hne' Hcall' H'|? ? ? ? q' ? ? ? e1' Hc' Hout' H']; subst.
    + pose proof (asks_fun _ _ _ _ Hcall Hcall') as [= <- <-]. by apply IH.
    + exfalso. pose proof (is_net_fun (U := U) (1%positive, (ip, m, v)) q q' Hc Hc') as <-. by apply Hout'.
  - inversion H3 as [|? ? ? ? q' ? s1' r' ? ? e1' Hc' Hin' Hne' Hcall' H'|? ? ? ? q' ? ? ? e1' Hc' Hout' H']; subst.
    + exfalso. pose proof (is_net_fun (U := U) (1%positive, (ip, m, v)) q q' Hc Hc') as <-. by apply Hout.
    + by apply IH.
Qed.
Lemma pf_pure (cb : St -> pair_ -> St * option value) p s e s' e' :
  uwalk_by (fun e s x r => asks (U := U) e (Done (cb s x)) r) p [] s e s' e' -> uwalk cb p s e s' e'.
Proof.
  intros H. destruct (uwalk_const _ cb p (fun e s x r (Hr : asks (U := U) e (Done (cb s x)) r) => match Hr in asks _ m r return match m with Done a => r = a | _ => True end with asks_done _ _ => eq_refl | _ => I end) _ _ _ _ _ H) as (e2 & -> & Hw). exact Hw.
Qed.
End pf.
