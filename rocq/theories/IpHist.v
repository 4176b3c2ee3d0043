(** * iptree: clients and histories. *)
From Verif Require Import Prog History NumModel NumBits NumSpec NumAbs NumFoot IpModel IpSpec IpBits IpAbs IpAbs2 IpAbs3 IpAbs4 IpEnum.
From Coq Require Import ZifyBool ZifyNat ZifyN.
Open Scope N_scope.

(** ** The client: every operation of package iptree but UpdateDescendants,
    applied to the versions it has obtained so far. *)
Section client.
Context {U : Type}.
Local Notation value := (value U).
Definition ip_insert_key (t : ptr) (k : ikey) (v : value) : prog U ptr := match k with KNet n => ip_insert_net t n v | KAddr ip => ip_insert_ip t ip v end.
Definition ip_inplace_key (t : ptr) (k : ikey) (v : value) : prog U unit := match k with KNet n => ip_inplace_insert_net t n v | KAddr ip => ip_inplace_insert_ip t ip v end.
Definition ip_get_key (t : ptr) (k : ikey) : prog U (value * bool) := match k with KNet n => ip_get_net t n | KAddr ip => ip_get_ip t ip end.
Definition ip_delete_key (t : ptr) (k : ikey) : prog U (ptr * bool) := match k with KNet n => ip_delete_net t n | KAddr ip => ip_delete_ip t ip end.
Fixpoint ip_fill (t : ptr) (items : list (ikey * value)) : prog U unit :=
  match items with [] => Ret tt | (k, v) :: items => ip_inplace_key t k v ;;; ip_fill t items end.
Definition ival (x : value * bool) : option value := if x.2 then Some x.1 else None.
Definition ip_exec (vs : list ptr) (o : iop ikey value) : prog U (list ptr * iout value) :=
  match o with
  | IBuild items => n <- ip_new ;; ip_fill n items ;;; Ret (vs ++ [n], IONone)
  | IInsert i k v => n <- ip_insert_key (nth i vs None) k v ;; Ret (vs ++ [n], IONone)
  | IDelete i k => x <- ip_delete_key (nth i vs None) k ;; Ret (vs ++ [x.1], IOBool x.2)
  | IGet i k => x <- ip_get_key (nth i vs None) k ;; Ret (vs, IOVal (ival x))
  | IEnumerate i => e <- ip_enumerate (nth i vs None) ;; Ret (vs, IOList e)
  end.
End client.

Section hist.
Context {U : Type}.
Local Notation heap := (heap U).
Local Notation value := (value U).
Implicit Types h : heap.

Lemma key_isnet k r : ikey_is k r -> isnet (key_net k) r.
Proof. apply key_net_spec. Qed.
Lemma insert_key_eq t k (v : value) : ip_insert_key t k v = ip_insert_net t (key_net k) v.
Proof. by destruct k. Qed.
Lemma inplace_key_eq t k (v : value) : ip_inplace_key t k v = ip_inplace_insert_net t (key_net k) v.
Proof. by destruct k. Qed.
Lemma get_key_eq t k : ip_get_key (U := U) t k = ip_get_net t (key_net k).
Proof. by destruct k. Qed.
Lemma delete_key_eq t k : ip_delete_key (U := U) t k = ip_delete_net t (key_net k).
Proof. by destruct k. Qed.

(** ** Logs. *)
Lemma ins_log_upd r v (l : ilog value) q : g_upd r (fun q => g_ins q v) (ilog_get l) q = ilog_get (ins_log r v l) q.
Proof.
  destruct r as [[f p]|]; [|done]. cbn [g_upd ins_log ilog_get fst snd]. destruct q as [f' q]. cbn [fst snd]. unfold g_ins.
  destruct (Bool.eqb f f') eqn:E.
  - apply Bool.eqb_prop in E as ->. destruct (decide (p = q)) as [Hp|Hn], (decide ((f', p) = (f', q))); try done; congruence.
  - destruct (decide ((f, p) = (f', q))) as [[= -> ->]|]; [by rewrite Bool.eqb_reflx in E|done].
Qed.
Lemma del_log_upd r (l : ilog value) q : g_upd r g_del (ilog_get l) q = ilog_get (del_log r l) q.
Proof.
  destruct r as [[f p]|]; [|done]. cbn [g_upd del_log ilog_get fst snd]. destruct q as [f' q]. cbn [fst snd]. unfold g_del.
  destruct (Bool.eqb f f') eqn:E.
  - apply Bool.eqb_prop in E as ->. destruct (decide (covers p q)) as [H|Hn], (decide (ncovers (f', p) (f', q))) as [H'|H']; try done.
    + destruct H'. by split.
    + destruct Hn. apply H'.
  - destruct (decide (ncovers (f, p) (f', q))) as [[H _]|]; [cbn [fst] in H; subst; by rewrite Bool.eqb_reflx in E|done].
Qed.
Lemma iown_ext h t G G' F : (forall q, G q = G' q) -> iown h t G F -> iown h t G' F.
Proof.
  intros H (a & r4 & r6 & F4 & F6 & -> & Ha & H4 & H6 & Hd). exists a, r4, r6, F4, F6. split_and!; try apply Hd; try done.
  - eapply tree4_ext; [|exact H4]. intros q. apply H.
  - eapply tree6_ext; [|exact H6]. intros q. apply H.
Qed.
Lemma iown_untouched h h' WS t G F : untouched WS h h' -> dom h ⊆ dom h' -> F ## WS -> iown h t G F -> iown h' t G F.
Proof.
  intros Hu Hdd Hd (a & r4 & r6 & F4 & F6 & -> & Ha & H4 & H6 & D1 & D2 & D3 & ->). exists a, r4, r6, F4, F6. split_and!; try done.
  - apply Hu; [done|]. clear -Hd. set_solver.
  - eapply tree4_untouched; [exact Hu| |exact H4]. clear -Hd. set_solver.
  - eapply tree6_untouched; [exact Hu|done| |exact H6]. clear -Hd. set_solver.
Qed.
Lemma iown_new h WS : wp ip_new h WS (fun t h' WS' => exists F, iown h' t (fun _ => None) F /\ F ⊆ WS').
Proof.
  unfold ip_new. apply wp_bind, wp_alloc. intros a Ha. cbn [wp]. exists {[a]}. split; [|clear; set_solver].
  exists a, None, None, ∅, ∅. split_and!; try done.
  - by rewrite lookup_insert.
  - by apply tree4_nil.
  - by apply tree6_nil.
  - clear. set_solver.
Qed.
Lemma ip_fill_at items items' : Forall2 (fun x y => ikey_is x.1 y.1 /\ x.2 = y.2) items items' -> Forall (fun x => plain x.2) items ->
  forall h WS t (l : ilog value) F, iown h t (ilog_get l) F -> F ⊆ WS ->
  wp (ip_fill t items) h WS (fun _ h' WS' => exists F', iown h' t (ilog_get (build_log items' l)) F' /\ F' ⊆ WS').
Proof.
  induction 1 as [|[k v] [r v'] items items' [Hk Hv] Hi IH]; intros Hp h WS t l F Ho HF; cbn [ip_fill build_log].
  - cbn [wp]. by exists F.
  - cbn [fst snd] in *. subst v'. inversion Hp as [|? ? Hpv Hp']; subst. apply wp_bind. rewrite inplace_key_eq.
    eapply wp_mono; [by apply (ip_inplace_at h WS t (ilog_get l) F _ r v); [..|apply key_isnet]|]. cbn beta.
    intros _ h1 WS1 (F1 & Ho1 & HF1). eapply IH; [done| |exact HF1]. eapply iown_ext; [|exact Ho1]. intros q. apply ins_log_upd.
Qed.

(** ** One operation. *)
Definition ipR h (t : ptr) (l : ilog value) : Prop := itree h t (ilog_get l).
Definition istep (gs : list (ilog value)) (o : iop ikey value) (gs' : list (ilog value)) (x : iout value) : Prop :=
  exists ro, iresolves o ro /\ gs' = ilog_step gs ro /\ ianswer gs ro x.
Lemma ipR_mono h h' t l : h ⊆ h' -> ipR h t l -> ipR h' t l.
Proof. apply itree_mono. Qed.
Lemma ipR_Forall2 h h' vs gs : h ⊆ h' -> Forall2 (ipR h) vs gs -> Forall2 (ipR h') vs gs.
Proof. intros Hs H. eapply Forall2_impl; [exact H|]. intros. by eapply ipR_mono. Qed.
Lemma ipR_nth h vs gs i : Forall2 (ipR h) vs gs -> ipR h (nth i vs None) (nth i gs []).
Proof. intros H. revert i. induction H; intros [|i]; simpl; auto; apply itree_nil. Qed.
Lemma enum_of_log l e : enum_of (ilog_get l) e -> @nenumerates value l e.
Proof. intros (ps & H1 & H2 & H3). by exists ps. Qed.
Lemma ival_ret res : ival (U := U) (ret_of res) = res.
Proof. by destruct res. Qed.

Lemma ip_build_wp h items items' : Forall2 (fun x y => ikey_is x.1 y.1 /\ x.2 = y.2) items items' -> Forall (fun x => plain x.2) items ->
  wp (n <- ip_new ;; ip_fill n items ;;; Ret n) h ∅ (fun t h' WS' => exists F, iown h' t (ilog_get (build_log items' [])) F /\ F ⊆ WS').
Proof.
  intros Hi Hp. apply wp_bind. eapply wp_mono; [apply iown_new|]. cbn beta. intros t h1 WS1 (F1 & H1 & HF1).
  apply wp_bind. eapply wp_mono; [apply (ip_fill_at _ _ Hi Hp h1 WS1 t [] F1 H1 HF1)|]. cbn beta. intros _ h2 WS2 (F2 & H2 & HF2). cbn [wp]. by exists F2.
Qed.
Lemma ip_exec_ok h vs gs o : Forall2 (ipR h) vs gs -> iop_ok o ->
  wp (ip_exec vs o) h ∅ (fun r h' _ => exists gs', istep gs o gs' r.2 /\ Forall2 (ipR h') r.1 gs').
Proof.
  intros HR Hok. destruct o as [items|i k v|i k|i k|i]; unfold ip_exec.
  - assert (Hi : exists items', Forall2 (fun x y => ikey_is x.1 y.1 /\ x.2 = y.2) items items').
    { clear. induction items as [|[k v] items [items' IH]]; [by exists []|]. destruct (ikey_total k) as [r Hr]. exists ((r, v) :: items'). by constructor. }
    destruct Hi as [items' Hi].
    assert (Hw : wp (n <- ip_new ;; ip_fill n items ;;; Ret n) h ∅ (fun t h' _ => itree h' t (ilog_get (build_log items' [])))).
    { eapply wp_mono; [by apply (ip_build_wp h items items')|]. cbn beta. intros t h' _ (F & Ho & _). by eapply iown_itree. }
    apply wp_cow0 in Hw. apply wp_bind_inv in Hw. apply wp_bind. eapply wp_mono; [exact Hw|]. cbn beta. intros t h1 W1 Hw1.
    apply wp_bind_inv in Hw1. apply wp_bind. eapply wp_mono; [exact Hw1|]. cbn beta. intros _ h2 W2 Hw2. cbn [wp fst snd] in *. destruct Hw2 as [Hs Ht].
    exists (gs ++ [build_log items' []]). split; [exists (IBuild items'); split_and!; [by constructor|done|done]|].
    apply Forall2_app; [by eapply ipR_Forall2|]. by constructor.
  - destruct (ikey_total k) as [r Hr]. apply wp_bind. rewrite insert_key_eq. eapply wp_mono; [apply wp_cow0, (ip_insert_at h _ (ilog_get (nth i gs [])) _ r v); [by apply ipR_nth|done|by apply key_isnet]|].
    cbn beta. intros t h1 W1 [Hs Ht]. cbn [wp fst snd]. exists (gs ++ [ins_log r v (nth i gs [])]).
    split; [exists (IInsert i r v); split_and!; [by constructor|done|done]|]. apply Forall2_app; [by eapply ipR_Forall2|]. constructor; [|constructor].
    eapply itree_ext; [|exact Ht]. intros q. apply ins_log_upd.
  - destruct (ikey_total k) as [r Hr]. apply wp_bind. rewrite delete_key_eq. eapply wp_mono; [apply (wp_cow0 _ _ (fun x h' => itree h' x.1 (g_upd r g_del (ilog_get (nth i gs []))) /\ (x.2 = true <-> exists p q v, r = Some p /\ ncovers p q /\ ilog_get (nth i gs []) q = Some v))), (ip_delete_at h _ (ilog_get (nth i gs [])) _ r); [by apply ipR_nth|by apply key_isnet]|].
    cbn beta. intros [t b] h1 W1 (Hs & Ht & Hb). cbn [wp fst snd] in *. exists (gs ++ [del_log r (nth i gs [])]).
    split; [exists (IDelete i r); split_and!; [by constructor|done|by exists b]|]. apply Forall2_app; [by eapply ipR_Forall2|]. constructor; [|constructor].
    eapply itree_ext; [|exact Ht]. intros q. apply del_log_upd.
  - destruct (ikey_total k) as [r Hr]. apply wp_bind. rewrite get_key_eq. eapply wp_mono; [apply (ip_get_at h ∅ _ (ilog_get (nth i gs [])) _ r); [by apply ipR_nth|by apply key_isnet]|].
    cbn beta. intros x h1 W1 (-> & res & -> & Hres). cbn [wp fst snd]. exists gs. split; [|done].
    exists (IGet i r). split_and!; [by constructor|done|]. exists res. split; [by rewrite ival_ret|]. exact Hres.
  - apply wp_bind. eapply wp_mono; [apply (ip_enumerate_at h ∅ _ (ilog_get (nth i gs []))); by apply ipR_nth|].
    cbn beta. intros e h1 W1 [-> He]. cbn [wp fst snd]. exists gs. split; [|done].
    exists (IEnumerate i). split_and!; [by constructor|done|]. exists e. split; [done|]. by apply enum_of_log.
Qed.

(** ** Histories. *)
Lemma ikey_det k r1 r2 : ikey_is k r1 -> ikey_is k r2 -> r1 = r2.
Proof.
  intros H1 H2. inversion H1; subst; inversion H2; subst; try done; try (f_equal; by eapply net_is_fun); try (f_equal; by eapply addr_is_fun); exfalso; naive_solver.
Qed.
Lemma iitems_det (items : list (ikey * value)) i1 : Forall2 (fun x y => ikey_is x.1 y.1 /\ x.2 = y.2) items i1 ->
  forall i2, Forall2 (fun x y => ikey_is x.1 y.1 /\ x.2 = y.2) items i2 -> i1 = i2.
Proof.
  induction 1 as [|[k v] [k1 v1] items i1 [H1 H2] H IH]; intros i2 H'; inversion H' as [|? [k2 v2] ? ? [H3 H4]]; subst; [done|].
  simpl in *. subst. f_equal; [|auto]. f_equal. by eapply ikey_det.
Qed.
Lemma iresolves_det (o : iop ikey value) r1 r2 : iresolves o r1 -> iresolves o r2 -> r1 = r2.
Proof. destruct 1; inversion 1; subst; try done; try (f_equal; by eapply ikey_det). f_equal. by eapply iitems_det. Qed.
Lemma ispec_run ops rops : Forall2 iresolves ops rops -> forall gs gs' outs, spec_run istep ops gs gs' outs ->
  gs' = ilogs rops gs /\ ianswers gs rops outs.
Proof.
  induction 1 as [|o ro ops rops Ho H IH]; intros gs gs' [|x outs] Hr; simpl in Hr; try done.
  destruct Hr as (gs1 & (ro' & Ho' & Hst & Ha) & Hr). rewrite <- (iresolves_det _ _ _ Ho Ho') in Hst, Ha. subst gs1.
  apply IH in Hr as [-> Hr]. done.
Qed.
Lemma ip_history h ops rops : Forall2 iresolves ops rops -> Forall iop_ok ops ->
  wp (run_hist ip_exec ops []) h ∅ (fun r h' _ => h ⊆ h' /\ ianswers [] rops r.2 /\ forall ver, ipR h' (nth ver r.1 None) (iver rops ver)).
Proof.
  intros Hops Hok. apply wp_cow0. eapply wp_mono.
  - apply (run_hist_wp ip_exec istep ipR iop_ok) with (ss := []); [|done|constructor]. intros. by apply ip_exec_ok.
  - cbn beta. intros r h' _ (gs' & Hr & HR). destruct (ispec_run _ _ Hops _ _ _ Hr) as [E1 E2]. split; [done|]. rewrite E1 in HR.
    intros ver. exact (ipR_nth _ _ _ ver HR).
Qed.
End hist.
