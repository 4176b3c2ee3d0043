(** * uintX iptree: clients and histories. *)
From Verif Require Import Prog History NumModel NumBits NumSpec NumAbs NumFoot IpModel IpSpec IpBits IpAbs IpAbs2 IpAbs3 IpAbs4 IpEnum IpHist UxModel UxSpec UxAbs UxAbs2 UxAbs3 UxEnum.
From Coq Require Import ZifyBool ZifyNat ZifyN.
Open Scope N_scope.

(** ** The client: every operation of the package. *)
Section client.
Context {U : Type}.
Local Notation value := (value U).
Definition ux_insert_key (t : ptr) (k : ikey) (v : value) : prog U ptr := match k with KNet n => ux_insert_net t n v | KAddr ip => ux_insert_ip t ip v end.
Definition ux_inplace_key (t : ptr) (k : ikey) (v : value) : prog U unit := match k with KNet n => ux_inplace_insert_net t n v | KAddr ip => ux_inplace_insert_ip t ip v end.
Definition ux_get_key (t : ptr) (k : ikey) : prog U (value * bool) := match k with KNet n => ux_get_net t n | KAddr ip => ux_get_ip t ip end.
Definition ux_delete_key (t : ptr) (k : ikey) : prog U (ptr * bool) := match k with KNet n => ux_delete_net t n | KAddr ip => ux_delete_ip t ip end.
Fixpoint ux_fill (t : ptr) (items : list (ikey * value)) : prog U unit :=
  match items with [] => Ret tt | (k, v) :: items => ux_inplace_key t k v ;;; ux_fill t items end.
Definition ux_exec (vs : list ptr) (o : iop ikey value) : prog U (list ptr * iout value) :=
  match o with
  | IBuild items => n <- ip_new ;; ux_fill n items ;;; Ret (vs ++ [n], IONone)
  | IInsert i k v => n <- ux_insert_key (nth i vs None) k v ;; Ret (vs ++ [n], IONone)
  | IDelete i k => x <- ux_delete_key (nth i vs None) k ;; Ret (vs ++ [x.1], IOBool x.2)
  | IGet i k => x <- ux_get_key (nth i vs None) k ;; Ret (vs, IOVal (ival x))
  | IEnumerate i => e <- ux_enumerate (nth i vs None) ;; Ret (vs, IOList e)
  end.
End client.

Section hist.
Context {U : Type}.
Local Notation heap := (heap U).
Local Notation value := (value U).
Implicit Types h : heap.

Lemma ux_insert_key_eq t k (v : value) : ux_insert_key t k v = ux_insert_net t (key_net k) v.
Proof. by destruct k. Qed.
Lemma ux_inplace_key_eq t k (v : value) : ux_inplace_key t k v = ux_inplace_insert_net t (key_net k) v.
Proof. by destruct k. Qed.
Lemma ux_get_key_eq t k : ux_get_key (U := U) t k = ux_get_net t (key_net k).
Proof. by destruct k. Qed.
Lemma ux_delete_key_eq t k : ux_delete_key (U := U) t k = ux_delete_net t (key_net k).
Proof. by destruct k. Qed.

(** ** Logs. *)
Lemma skip_passed (l : ilog value) r : skip (ilog_get l) r = true <-> exists p, r = Some p /\ passed l p.
Proof.
  unfold passed, short6. destruct r as [[[] p]|]; cbn [skip].
  - rewrite andb_true_iff, N.ltb_lt. split.
    + intros [H1 H2]. exists (true, p). split; [done|]. cbn [fst snd]. split; [done|]. by destruct (ilog_get l (true, p)).
    + intros (p' & [= <-] & [_ H1] & H2). split; [done|]. by rewrite H2.
  - split; [done|]. intros (p' & [= <-] & [H _] & _). done.
  - split; [done|]. by intros (p' & ? & _).
Qed.
Lemma udel_log_upd r (l : ilog value) q : (if skip (ilog_get l) r then ilog_get l else g_upd r g_del (ilog_get l)) q = ilog_get (udel_log r l) q.
Proof.
  destruct (skip (ilog_get l) r) eqn:E.
  - apply skip_passed in E as (p & -> & Hp). cbn [udel_log]. by rewrite decide_True.
  - rewrite del_log_upd. destruct r as [p|]; [|done]. cbn [udel_log del_log]. rewrite decide_False; [done|]. intros Hp.
    assert (skip (ilog_get l) (Some p) = true) by (apply skip_passed; by exists p). congruence.
Qed.
Lemma uown_ext h t G G' F : (forall q, G q = G' q) -> uown h t G F -> uown h t G' F.
Proof.
  intros H (a & r4 & r6 & F4 & F6 & -> & Ha & H4 & H6 & Hd). exists a, r4, r6, F4, F6. split_and!; try apply Hd; try done.
  - eapply tree4_ext; [|exact H4]. intros q. apply H.
  - eapply utree6_ext; [|exact H6]. intros q. apply H.
Qed.
Lemma uown_new h WS : wp ip_new h WS (fun t h' WS' => exists F, uown h' t (fun _ => None) F /\ F ⊆ WS').
Proof.
  unfold ip_new. apply wp_bind, wp_alloc. intros a Ha. cbn [wp]. exists {[a]}. split; [|clear; set_solver].
  exists a, None, None, ∅, ∅. split_and!; try done.
  - by rewrite lookup_insert.
  - by apply tree4_nil.
  - by apply utree6_nil.
  - clear. set_solver.
Qed.
Lemma ux_fill_at items items' : Forall2 (fun x y => ikey_is x.1 y.1 /\ x.2 = y.2) items items' -> Forall (fun x => plain x.2) items ->
  forall h WS t (l : ilog value) F, uown h t (ilog_get l) F -> F ⊆ WS ->
  wp (ux_fill t items) h WS (fun _ h' WS' => exists F', uown h' t (ilog_get (build_log items' l)) F' /\ F' ⊆ WS').
Proof.
  induction 1 as [|[k v] [r v'] items items' [Hk Hv] Hi IH]; intros Hp h WS t l F Ho HF; cbn [ux_fill build_log].
  - cbn [wp]. by exists F.
  - cbn [fst snd] in *. subst v'. inversion Hp as [|? ? Hpv Hp']; subst. apply wp_bind. rewrite ux_inplace_key_eq.
    eapply wp_mono; [by apply (ux_inplace_at h WS t (ilog_get l) F _ r v); [..|apply key_isnet]|]. cbn beta.
    intros _ h1 WS1 (F1 & Ho1 & HF1). eapply IH; [done| |exact HF1]. eapply uown_ext; [|exact Ho1]. intros q. apply ins_log_upd.
Qed.

(** ** One operation. *)
Definition uxR h (t : ptr) (l : ilog value) : Prop := utree h t (ilog_get l).
Definition ustep (gs : list (ilog value)) (o : iop ikey value) (gs' : list (ilog value)) (x : iout value) : Prop :=
  exists ro, iresolves o ro /\ gs' = ulog_step gs ro /\ uanswer gs ro x.
Lemma uxR_mono h h' t l : h ⊆ h' -> uxR h t l -> uxR h' t l.
Proof. apply utree_mono. Qed.
Lemma uxR_Forall2 h h' vs gs : h ⊆ h' -> Forall2 (uxR h) vs gs -> Forall2 (uxR h') vs gs.
Proof. intros Hs H. eapply Forall2_impl; [exact H|]. intros. by eapply uxR_mono. Qed.
Lemma uxR_nth h vs gs i : Forall2 (uxR h) vs gs -> uxR h (nth i vs None) (nth i gs []).
Proof. intros H. revert i. induction H; intros [|i]; simpl; auto; by intros q. Qed.

Lemma ux_build_wp h items items' : Forall2 (fun x y => ikey_is x.1 y.1 /\ x.2 = y.2) items items' -> Forall (fun x => plain x.2) items ->
  wp (n <- ip_new ;; ux_fill n items ;;; Ret n) h ∅ (fun t h' WS' => exists F, uown h' t (ilog_get (build_log items' [])) F /\ F ⊆ WS').
Proof.
  intros Hi Hp. apply wp_bind. eapply wp_mono; [apply uown_new|]. cbn beta. intros t h1 WS1 (F1 & H1 & HF1).
  apply wp_bind. eapply wp_mono; [apply (ux_fill_at _ _ Hi Hp h1 WS1 t [] F1 H1 HF1)|]. cbn beta. intros _ h2 WS2 (F2 & H2 & HF2). cbn [wp]. by exists F2.
Qed.
Lemma ux_exec_ok h vs gs o : Forall2 (uxR h) vs gs -> iop_ok o ->
  wp (ux_exec vs o) h ∅ (fun r h' _ => exists gs', ustep gs o gs' r.2 /\ Forall2 (uxR h') r.1 gs').
Proof.
  intros HR Hok. destruct o as [items|i k v|i k|i k|i]; unfold ux_exec.
  - assert (Hi : exists items', Forall2 (fun x y => ikey_is x.1 y.1 /\ x.2 = y.2) items items').
    { clear. induction items as [|[k v] items [items' IH]]; [by exists []|]. destruct (ikey_total k) as [r Hr]. exists ((r, v) :: items'). by constructor. }
    destruct Hi as [items' Hi].
    assert (Hw : wp (n <- ip_new ;; ux_fill n items ;;; Ret n) h ∅ (fun t h' _ => utree h' t (ilog_get (build_log items' [])))).
    { eapply wp_mono; [by apply (ux_build_wp h items items')|]. cbn beta. intros t h' _ (F & Ho & _). by eapply uown_utree. }
    apply wp_cow0 in Hw. apply wp_bind_inv in Hw. apply wp_bind. eapply wp_mono; [exact Hw|]. cbn beta. intros t h1 W1 Hw1.
    apply wp_bind_inv in Hw1. apply wp_bind. eapply wp_mono; [exact Hw1|]. cbn beta. intros _ h2 W2 Hw2. cbn [wp fst snd] in *. destruct Hw2 as [Hs Ht].
    exists (gs ++ [build_log items' []]). split; [exists (IBuild items'); split_and!; [by constructor|done|done]|].
    apply Forall2_app; [by eapply uxR_Forall2|]. by constructor.
  - destruct (ikey_total k) as [r Hr]. apply wp_bind. rewrite ux_insert_key_eq. eapply wp_mono; [apply wp_cow0, (ux_insert_at h _ (ilog_get (nth i gs [])) _ r v); [by apply uxR_nth|done|by apply key_isnet]|].
    cbn beta. intros t h1 W1 [Hs Ht]. cbn [wp fst snd]. exists (gs ++ [ins_log r v (nth i gs [])]).
    split; [exists (IInsert i r v); split_and!; [by constructor|done|done]|]. apply Forall2_app; [by eapply uxR_Forall2|]. constructor; [|constructor].
    eapply utree_ext; [|exact Ht]. intros q. apply ins_log_upd.
  - destruct (ikey_total k) as [r Hr]. apply wp_bind. rewrite ux_delete_key_eq. eapply wp_mono; [apply (wp_cow0 _ _ (fun x h' => dres (ilog_get (nth i gs [])) r x h')), (ux_delete_at h _ (ilog_get (nth i gs [])) _ r); [by apply uxR_nth|by apply key_isnet]|].
    cbn beta. intros [t b] h1 W1 (Hs & Ht & Hb). cbn [wp fst snd] in *. exists (gs ++ [udel_log r (nth i gs [])]).
    split; [exists (IDelete i r); split_and!; [by constructor|done|exists b; split; [done|]]|].
    + rewrite Hb. split.
      * intros (Hsk & p & q & v & -> & Hc & Hq). exists p, q, v. split_and!; try done. intros Hp.
        assert (skip (ilog_get (nth i gs [])) (Some p) = true) as H; [apply skip_passed; by exists p|]. by rewrite H in Hsk.
      * intros (p & q & v & -> & Hnp & Hc & Hq). split; [|by exists p, q, v]. destruct (skip _ _) eqn:E; [|done]. apply skip_passed in E as (p' & [= <-] & ?). done.
    + apply Forall2_app; [by eapply uxR_Forall2|]. constructor; [|constructor]. eapply utree_ext; [|exact Ht]. intros q. apply udel_log_upd.
  - destruct (ikey_total k) as [r Hr]. apply wp_bind. rewrite ux_get_key_eq. eapply wp_mono; [apply (ux_get_at h ∅ _ (ilog_get (nth i gs [])) _ r); [by apply uxR_nth|by apply key_isnet]|].
    cbn beta. intros x h1 W1 (-> & res & -> & Hres). cbn [wp fst snd]. exists gs. split; [|done].
    exists (IGet i r). split_and!; [by constructor|done|]. exists res. split; [by rewrite ival_ret|]. exact Hres.
  - apply wp_bind. eapply wp_mono; [apply (ux_enumerate_at h ∅ _ (ilog_get (nth i gs []))); by apply uxR_nth|].
    cbn beta. intros e h1 W1 [-> He]. cbn [wp fst snd]. exists gs. split; [|done].
    exists (IEnumerate i). split_and!; [by constructor|done|]. exists e. split; [done|]. by apply enum_of_log.
Qed.

(** ** Histories. *)
Lemma uspec_run ops rops : Forall2 iresolves ops rops -> forall gs gs' outs, spec_run ustep ops gs gs' outs ->
  gs' = ulogs rops gs /\ uanswers gs rops outs.
Proof.
  induction 1 as [|o ro ops rops Ho H IH]; intros gs gs' [|x outs] Hr; simpl in Hr; try done.
  destruct Hr as (gs1 & (ro' & Ho' & Hst & Ha) & Hr). rewrite <- (iresolves_det _ _ _ Ho Ho') in Hst, Ha. subst gs1.
  apply IH in Hr as [-> Hr]. done.
Qed.
Lemma ux_history h ops rops : Forall2 iresolves ops rops -> Forall iop_ok ops ->
  wp (run_hist ux_exec ops []) h ∅ (fun r h' _ => h ⊆ h' /\ uanswers [] rops r.2 /\ forall ver, uxR h' (nth ver r.1 None) (uver rops ver)).
Proof.
  intros Hops Hok. apply wp_cow0. eapply wp_mono.
  - apply (run_hist_wp ux_exec ustep uxR iop_ok) with (ss := []); [|done|constructor]. intros. by apply ux_exec_ok.
  - cbn beta. intros r h' _ (gs' & Hr & HR). destruct (uspec_run _ _ Hops _ _ _ Hr) as [E1 E2]. split; [done|]. rewrite E1 in HR.
    intros ver. exact (uxR_nth _ _ _ ver HR).
Qed.
End hist.
