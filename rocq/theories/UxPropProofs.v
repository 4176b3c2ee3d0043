(** * Proofs for Properties_uxtree.v. *)
From Verif Require Import Prog History NumModel NumBits NumSpec NumAbs NumFoot IpModel IpSpec IpBits IpAbs IpAbs2 IpAbs3 IpAbs4 IpEnum IpHist IpPropProofs UxModel UxSpec UxAbs UxAbs2 UxAbs3 UxEnum UxHist.
From Coq Require Import ZifyBool ZifyNat ZifyN.
Open Scope N_scope.

Section pf.
Context {U : Type}.
Local Notation heap := (heap U).
Local Notation value := (value U).
Implicit Types h : heap.

Lemma udel_plain r (l : ilog value) : log_plain l -> log_plain (udel_log r l).
Proof. intros Hl. destruct r as [p|]; [|done]. cbn [udel_log]. case_decide; [done|]. apply (del_plain (Some p) l Hl). Qed.
Lemma ulogs_plain rops : forall gs : list (ilog value), Forall log_plain gs -> Forall iop_ok rops -> Forall log_plain (ulogs rops gs).
Proof.
  induction rops as [|o rops IH]; intros gs Hg Hr; [done|]. inversion Hr as [|? ? Ho Hr']; subst. cbn [ulogs]. apply IH; [|done].
  assert (Hn : forall i, log_plain (nth i gs [])). { intros i. clear -Hg. revert i. induction Hg; intros [|i]; simpl; auto; by intros ??. }
  destruct o; cbn [ulog_step]; try done; apply Forall_app; (split; [done|]); constructor; try constructor; cbn [iop_ok] in Ho.
  - apply build_plain; [by intros ??|done].
  - by apply ins_plain.
  - by apply udel_plain.
Qed.
Lemma uver_plain (ops : list (iop ikey value)) rops ver : Forall2 iresolves ops rops -> Forall iop_ok ops -> log_plain (uver rops ver).
Proof.
  intros Hr Ho. assert (Ho' : Forall iop_ok rops).
  { clear -Hr Ho. induction Hr as [|? ? ? ? ? ? IH]; inversion Ho; subst; constructor; [by eapply resolves_ok|auto]. }
  pose proof (ulogs_plain rops [] ltac:(constructor) Ho') as H. unfold uver. revert ver. induction H; intros [|i]; simpl; auto; by intros ??.
Qed.
Lemma ux_after h (ops : list (iop ikey value)) rops ver {A} (body : ptr -> prog U A) (Q : A -> heap -> Prop) :
  Forall2 iresolves ops rops -> Forall iop_ok ops ->
  (forall h1 p, utree h1 p (ilog_get (uver rops ver)) -> wp (body p) h1 ∅ (fun a h' _ => Q a h')) ->
  wp (r <- run_hist ux_exec ops [] ;; body (nth ver r.1 None)) h ∅ (fun a h' _ => h ⊆ h' /\ Q a h').
Proof.
  intros Hops Hok Hb. eapply (wp_then _ _ _ (fun r h' => uxR h' (nth ver r.1 None) (uver rops ver))).
  - eapply wp_mono; [by apply ux_history|]. cbn beta. intros r h' _ (_ & _ & H). exact (H ver).
  - cbn beta. intros r h1 _ H. by apply Hb.
Qed.
Lemma ux_pf_answers h ops rops : Forall2 iresolves ops rops -> Forall iop_ok ops ->
  wp (run_hist ux_exec ops []) h ∅ (fun r h' _ => h ⊆ h' /\ uanswers [] rops r.2).
Proof. intros. eapply wp_mono; [by apply ux_history|]. cbn beta. tauto. Qed.

Lemma ux_pf_get h ops rops ver k r : Forall2 iresolves ops rops -> Forall iop_ok ops -> ikey_is k r ->
  wp (x <- run_hist ux_exec ops [] ;; ux_get_key (nth ver x.1 None) k) h ∅ (fun x h' _ => h ⊆ h' /\
    exists res, match r with Some q => nlongest (uver rops ver) q res | None => res = None end /\
      x = match res with Some v => (v, true) | None => (VNil, false) end /\ plain x.1).
Proof.
  intros Hops Hok Hk. apply ux_after with (rops := rops) (body := fun q => ux_get_key q k)
    (Q := fun x _ => exists res, match r with Some q => nlongest (uver rops ver) q res | None => res = None end /\ x = match res with Some v => (v, true) | None => (VNil, false) end /\ plain x.1); [done..|].
  intros h1 q Hq. rewrite ux_get_key_eq. eapply wp_mono; [apply (ux_get_at h1 ∅ _ _ _ r Hq); by apply key_isnet|].
  cbn beta. intros x h' _ (_ & res & -> & Hres). exists res. split; [done|]. split; [done|].
  pose proof (uver_plain _ _ ver Hops Hok) as Hp. destruct res as [v|]; [|done]. cbn [ret_of fst]. destruct r as [q'|]; [|done]. destruct Hres as (p & Hg & _). by eapply Hp.
Qed.
Lemma ux_pf_enumerate h ops rops ver : Forall2 iresolves ops rops -> Forall iop_ok ops ->
  wp (r <- run_hist ux_exec ops [] ;; ux_enumerate (nth ver r.1 None)) h ∅ (fun e h' _ => h ⊆ h' /\ nenumerates (uver rops ver) e).
Proof.
  intros Hops Hok. apply ux_after with (rops := rops) (body := fun q => ux_enumerate q) (Q := fun e _ => nenumerates (uver rops ver) e); [done..|].
  intros h1 q Hq. eapply wp_mono; [apply (ux_enumerate_at h1 ∅ _ _ Hq)|]. cbn beta. intros e h' _ [_ He]. by apply enum_of_log.
Qed.
Lemma uenum_at h t l WS : utree h t (ilog_get l) -> wp (ux_enumerate t) h WS (fun e h' _ => h' = h /\ nenumerates l e).
Proof. intros Ht. eapply wp_mono; [apply (ux_enumerate_at h WS _ _ Ht)|]. cbn beta. intros e h' _ [-> He]. split; [done|]. by apply enum_of_log. Qed.
Lemma ux_pf_insert h ops rops ver k r v : Forall2 iresolves ops rops -> Forall iop_ok ops -> ikey_is k r -> plain v ->
  wp (x <- run_hist ux_exec ops [] ;; n <- ux_insert_key (nth ver x.1 None) k v ;;
      e <- ux_enumerate (nth ver x.1 None) ;; e' <- ux_enumerate n ;; Ret (e, e')) h ∅
    (fun x h' _ => h ⊆ h' /\ nenumerates (uver rops ver) x.1 /\ nenumerates (ins_log r v (uver rops ver)) x.2).
Proof.
  intros Hops Hok Hk Hv. apply ux_after with (rops := rops) (body := fun q => n <- ux_insert_key q k v ;; e <- ux_enumerate q ;; e' <- ux_enumerate n ;; Ret (e, e'))
    (Q := fun x _ => nenumerates (uver rops ver) x.1 /\ nenumerates (ins_log r v (uver rops ver)) x.2); [done..|].
  intros h1 q Hq. apply wp_bind. rewrite ux_insert_key_eq. eapply wp_mono; [apply wp_cow0, (ux_insert_at h1 _ _ _ r v Hq Hv); by apply key_isnet|].
  cbn beta. intros n h2 W2 [Hs Hn]. apply wp_bind. eapply wp_mono; [apply uenum_at; by eapply utree_mono|]. cbn beta. intros e ? W3 [-> He].
  apply wp_bind. eapply wp_mono; [apply (uenum_at _ _ (ins_log r v (uver rops ver))); eapply utree_ext; [|exact Hn]; intros; apply ins_log_upd|]. cbn beta. intros e' ? W4 [-> He']. cbn [wp fst snd]. done.
Qed.
Lemma dres_passed (l : ilog value) r x h' : dres (ilog_get l) r x h' ->
  utree h' x.1 (ilog_get (udel_log r l)) /\ (x.2 = true <-> exists p q v, r = Some p /\ ~ passed l p /\ ncovers p q /\ ilog_get l q = Some v).
Proof.
  intros [Ht Hb]. split; [eapply utree_ext; [|exact Ht]; intros q; apply udel_log_upd|]. rewrite Hb. split.
  - intros (Hsk & p & q & v & -> & Hc & Hq). exists p, q, v. split_and!; try done. intros Hp.
    assert (skip (ilog_get l) (Some p) = true) as H; [apply skip_passed; by exists p|]. by rewrite H in Hsk.
  - intros (p & q & v & -> & Hnp & Hc & Hq). split; [|by exists p, q, v]. destruct (skip _ _) eqn:E; [|done]. apply skip_passed in E as (p' & [= <-] & ?). done.
Qed.
Lemma ux_pf_delete h ops rops ver k r : Forall2 iresolves ops rops -> Forall iop_ok ops -> ikey_is k r ->
  wp (x <- run_hist ux_exec ops [] ;; n <- ux_delete_key (nth ver x.1 None) k ;;
      e <- ux_enumerate (nth ver x.1 None) ;; e' <- ux_enumerate n.1 ;; Ret (n.2, e, e')) h ∅
    (fun x h' _ => h ⊆ h' /\ let '(b, e, e') := x in
      (b = true <-> exists p q v, r = Some p /\ ~ passed (uver rops ver) p /\ ncovers p q /\ ilog_get (uver rops ver) q = Some v) /\
      nenumerates (uver rops ver) e /\ nenumerates (udel_log r (uver rops ver)) e').
Proof.
  intros Hops Hok Hk. apply ux_after with (rops := rops) (body := fun q => n <- ux_delete_key q k ;; e <- ux_enumerate q ;; e' <- ux_enumerate n.1 ;; Ret (n.2, e, e'))
    (Q := fun x _ => let '(b, e, e') := x in
      (b = true <-> exists p q v, r = Some p /\ ~ passed (uver rops ver) p /\ ncovers p q /\ ilog_get (uver rops ver) q = Some v) /\
      nenumerates (uver rops ver) e /\ nenumerates (udel_log r (uver rops ver)) e'); [done..|].
  intros h1 q Hq. apply wp_bind. rewrite ux_delete_key_eq.
  eapply wp_mono; [apply (wp_cow0 _ _ (fun x h' => dres (ilog_get (uver rops ver)) r x h')), (ux_delete_at h1 _ _ _ r Hq); by apply key_isnet|].
  cbn beta. intros [n b] h2 W2 (Hs & Hd). apply dres_passed in Hd as [Hn Hb]. cbn [fst snd] in *. apply wp_bind. eapply wp_mono; [apply uenum_at; by eapply utree_mono|]. cbn beta. intros e ? W3 [-> He].
  apply wp_bind. eapply wp_mono; [apply (uenum_at _ _ (udel_log r (uver rops ver))); exact Hn|]. cbn beta. intros e' ? W4 [-> He']. cbn [wp fst snd]. done.
Qed.
(** A network that is not passed over: as iptree. *)
Lemma ux_pf_delete_full h ops rops ver k p : Forall2 iresolves ops rops -> Forall iop_ok ops -> ikey_is k (Some p) ->
  (p.1 = false \/ 64 <= p.2.1 \/ ilog_get (uver rops ver) p <> None \/ (forall q, ncovers p q -> ilog_get (uver rops ver) q = None)) ->
  wp (x <- run_hist ux_exec ops [] ;; n <- ux_delete_key (nth ver x.1 None) k ;;
      e <- ux_enumerate (nth ver x.1 None) ;; e' <- ux_enumerate n.1 ;; Ret (n.2, e, e')) h ∅
    (fun x h' _ => h ⊆ h' /\ let '(b, e, e') := x in
      (b = true <-> exists q v, ncovers p q /\ ilog_get (uver rops ver) q = Some v) /\
      nenumerates (uver rops ver) e /\ nenumerates (del_log (Some p) (uver rops ver)) e').
Proof.
  intros Hops Hok Hk Hp. eapply wp_mono; [by apply (ux_pf_delete h ops rops ver k (Some p))|]. cbn beta. intros [[b e] e'] h' _ (Hs & Hb & He & He'). split; [done|].
  destruct (decide (passed (uver rops ver) p)) as [Hpa|Hpa].
  - assert (Hn : forall q, ncovers p q -> ilog_get (uver rops ver) q = None).
    { destruct Hpa as [[H1 H2] H3]. destruct Hp as [H|[H|[H|H]]]; [congruence|lia|done|done]. }
    split_and!; [|done|].
    + rewrite Hb. split; [intros (p' & ? & ? & [= <-] & H & _); done|]. intros (q & v & Hc & Hq). rewrite Hn in Hq; done.
    + destruct He' as (ps & A1 & A2 & A3). exists ps. split_and!; [done| |done]. intros q v. rewrite A2. cbn [udel_log del_log]. rewrite decide_True by done. cbn [ilog_get].
      case_decide; [|done]. by rewrite Hn.
  - split_and!; [|done|].
    + rewrite Hb. split; [intros (p' & q & v & [= <-] & _ & ? & ?); by exists q, v|]. intros (q & v & ? & ?). by exists p, q, v.
    + cbn [udel_log del_log] in *. by rewrite decide_False in He'.
Qed.
Lemma ux_pf_nowrite h ops rops : Forall2 iresolves ops rops -> Forall iop_ok ops ->
  wp (run_hist ux_exec ops []) h ∅ (fun r h1 _ => forall ver k v, plain v ->
    wp (ux_insert_key (nth ver r.1 None) k v) h1 ∅ (fun _ h2 _ => h1 ⊆ h2) /\
    wp (ux_delete_key (nth ver r.1 None) k) h1 ∅ (fun _ h2 _ => h1 ⊆ h2) /\
    wp (ux_get_key (nth ver r.1 None) k) h1 ∅ (fun _ h2 _ => h1 = h2) /\
    wp (ux_enumerate (nth ver r.1 None)) h1 ∅ (fun _ h2 _ => h1 = h2)).
Proof.
  intros Hops Hok. eapply wp_mono; [by apply ux_history|]. cbn beta. intros r h1 _ (_ & _ & H) ver k v Hv. specialize (H ver). destruct (ikey_total k) as [q Hq].
  apply key_isnet in Hq. rewrite ux_insert_key_eq, ux_delete_key_eq, ux_get_key_eq. split_and!.
  - eapply wp_mono; [apply wp_cow0, (ux_insert_at h1 _ _ _ q v H Hv Hq)|]. cbn beta. tauto.
  - eapply wp_mono; [apply (wp_cow0 _ _ (fun _ _ => True)); eapply wp_mono; [apply (ux_delete_at h1 _ _ _ q H Hq)|done]|]. cbn beta. tauto.
  - eapply wp_mono; [apply (ux_get_at h1 ∅ _ _ _ q H Hq)|]. cbn beta. intros ? ? ? [-> _]. done.
  - eapply wp_mono; [apply (uenum_at h1 _ _ ∅ H)|]. cbn beta. intros ? ? ? [-> _]. done.
Qed.


Definition uignored h (t : ptr) (k : ikey) (v : value) : Prop :=
  wp (ux_insert_key t k v) h ∅ (fun x h' _ => x = t /\ h' = h) /\
  wp (ux_inplace_key t k v) h ∅ (fun _ h' _ => h' = h) /\
  wp (ux_get_key t k) h ∅ (fun x h' _ => x = (VNil, false) /\ h' = h) /\
  wp (ux_delete_key t k) h ∅ (fun x h' _ => x = (t, false) /\ h' = h).
Lemma ux_pf_ignored h t k v : is_tree h t -> ikey_is k None -> uignored h t k v.
Proof.
  intros Ht Hk. apply key_isnet in Hk. unfold uignored. rewrite ux_insert_key_eq, ux_inplace_key_eq, ux_delete_key_eq, ux_get_key_eq. generalize dependent (key_net k). clear k. intros n Hn. cbn [isnet] in Hn.
  assert (Hr : forall A (m : ptr * ptr -> prog U A) Q, (forall r, wp (m r) h ∅ Q) -> t <> None -> wp (r <- ld_ip t ;; m r) h ∅ Q).
  { intros A m Q H Hne. destruct Ht as [->|(a & r4 & r6 & -> & Ha)]; [done|]. apply wp_bind. eapply wp_ld_ip; [exact Ha|]. apply H. }
  destruct n as [n|]; [|by destruct t]. unfold ux_insert_net, ux_inplace_insert_net, ux_get_net, ux_delete_net.
  pose proof (ip4_key_spec n) as K4. destruct (ip4_key n) as [[key b]|]; [destruct K4 as [K4 _]; by apply Hn in K4|].
  pose proof (ip6_key_spec n) as K6. destruct (ip6_key n) as [[[[hk hb] lk] lb]|]; [destruct K6 as (q & K6 & _); by apply Hn in K6|].
  split_and!; try done; destruct t as [a|]; try done; apply Hr; try done; intros r; done.
Qed.

Lemma utree_is_tree h t G : utree h t G -> is_tree h t.
Proof. intros H. destruct t as [a|]; [|by left]. right. destruct H as (r4 & r6 & ? & ? & ? & _). by exists a, r4, r6. Qed.
Lemma ux_pf_ignored_hist h ops rops : Forall2 iresolves ops rops -> Forall iop_ok ops ->
  wp (run_hist ux_exec ops []) h ∅ (fun r h1 _ => forall ver k v, ikey_is k None -> uignored h1 (nth ver r.1 None) k v).
Proof.
  intros Hops Hok. eapply wp_mono; [by apply ux_history|]. cbn beta. intros r h1 _ (_ & _ & H) ver k v Hk. specialize (H ver). apply ux_pf_ignored; [|done]. by eapply utree_is_tree.
Qed.

(** ** In-place insertion. *)
(** Any version that is not nil, if the caller may write everything. *)
Lemma ux_pf_inplace_any h ops rops : Forall2 iresolves ops rops -> Forall iop_ok ops ->
  wp (run_hist ux_exec ops []) h ∅ (fun r h1 _ => forall ver k q v, nth ver r.1 None <> None -> ikey_is k q -> plain v ->
    wp (ux_inplace_key (nth ver r.1 None) k v ;;; ux_enumerate (nth ver r.1 None)) h1 (dom h1) (fun e _ _ => nenumerates (ins_log q v (uver rops ver)) e)).
Proof.
  intros Hops Hok. eapply wp_mono; [by apply ux_history|]. cbn beta. intros r h1 _ (_ & _ & H) ver k q v Hn Hk Hv. specialize (H ver).
  destruct (nth ver r.1 None) as [a|]; [|done]. apply utree_own in H as (F & Ho & HF).
  apply wp_bind. rewrite ux_inplace_key_eq. eapply wp_mono; [apply (ux_inplace_at h1 _ _ _ F _ q v Ho HF Hv); by apply key_isnet|].
  cbn beta. intros _ h2 W2 (F' & Ho' & _). eapply wp_mono; [apply uenum_at; eapply utree_ext; [|by eapply uown_utree]; intros; apply ins_log_upd|]. cbn beta. tauto.
Qed.
(** A tree that its creator has not shared. *)
Lemma ux_pf_inplace h ops rops items items' ver k q v : Forall2 iresolves ops rops -> Forall iop_ok ops ->
  Forall2 (fun x y => ikey_is x.1 y.1 /\ x.2 = y.2) items items' -> Forall (fun x => plain x.2) items -> ikey_is k q -> plain v ->
  wp (r <- run_hist ux_exec ops [] ;;
      t1 <- ip_new ;; ux_fill t1 items ;;; ux_inplace_key t1 k v ;;; e1 <- ux_enumerate t1 ;;
      t2 <- ip_new ;; ux_fill t2 items ;;; t3 <- ux_insert_key t2 k v ;; e2 <- ux_enumerate t3 ;;
      e <- ux_enumerate (nth ver r.1 None) ;; Ret (e1, e2, e)) h ∅
    (fun x h' _ => h ⊆ h' /\ let '(e1, e2, e) := x in e1 = e2 /\ nenumerates (ins_log q v (build_log items' [])) e1 /\ nenumerates (uver rops ver) e).
Proof.
  intros Hops Hok Hi Hp Hk Hv. apply ux_after with (rops := rops) (body := fun t => t1 <- ip_new ;; ux_fill t1 items ;;; ux_inplace_key t1 k v ;;; e1 <- ux_enumerate t1 ;;
      t2 <- ip_new ;; ux_fill t2 items ;;; t3 <- ux_insert_key t2 k v ;; e2 <- ux_enumerate t3 ;;
      e <- ux_enumerate t ;; Ret (e1, e2, e))
    (Q := fun x _ => let '(e1, e2, e) := x in e1 = e2 /\ nenumerates (ins_log q v (build_log items' [])) e1 /\ nenumerates (uver rops ver) e); [done..|].
  intros h1 t Ht.
  (* the first tree *)
  assert (Hw : wp (t1 <- ip_new ;; ux_fill t1 items ;;; ux_inplace_key t1 k v ;;; Ret t1) h1 ∅ (fun t1 h' _ => utree h' t1 (ilog_get (ins_log q v (build_log items' []))))).
  { apply wp_bind. eapply wp_mono; [apply uown_new|]. cbn beta. intros t1 h2 W2 (F2 & Ho2 & HF2).
    apply wp_bind. eapply wp_mono; [apply (ux_fill_at _ _ Hi Hp h2 W2 t1 [] F2 Ho2 HF2)|]. cbn beta. intros _ h3 W3 (F3 & Ho3 & HF3).
    apply wp_bind. rewrite ux_inplace_key_eq. eapply wp_mono; [apply (ux_inplace_at h3 W3 t1 _ F3 _ q v Ho3 HF3 Hv); by apply key_isnet|]. cbn beta. intros _ h4 W4 (F4 & Ho4 & _). cbn [wp].
    eapply utree_ext; [|by eapply uown_utree]. intros. apply ins_log_upd. }
  apply wp_cow0 in Hw. apply wp_bind_inv in Hw. apply wp_bind. eapply wp_mono; [exact Hw|]. clear Hw. cbn beta. intros t1 h2 W2 Hw.
  apply wp_bind_inv in Hw. apply wp_bind. eapply wp_mono; [exact Hw|]. clear Hw. cbn beta. intros _ h3 W3 Hw.
  apply wp_bind_inv in Hw. apply wp_bind. eapply wp_mono; [exact Hw|]. clear Hw. cbn beta. intros _ h4 W4 Hw. cbn [wp] in Hw. destruct Hw as [Hs4 H1].
  apply wp_bind. eapply wp_mono; [apply (uenum_at _ _ _ _ H1)|]. cbn beta. intros e1 ? W5 [-> He1].
  (* the second tree *)
  assert (Hw : wp (n <- ip_new ;; ux_fill n items ;;; Ret n) h4 ∅ (fun t2 h' _ => utree h' t2 (ilog_get (build_log items' [])))).
  { eapply wp_mono; [by apply (ux_build_wp h4 items items')|]. cbn beta. intros t2 h' _ (F & Ho & _). by eapply uown_utree. }
  apply (wp_cow _ _ W5) in Hw. apply wp_bind_inv in Hw. apply wp_bind. eapply wp_mono; [exact Hw|]. clear Hw. cbn beta. intros t2 h5 W6 Hw.
  apply wp_bind_inv in Hw. apply wp_bind. eapply wp_mono; [exact Hw|]. clear Hw. cbn beta. intros _ h6 W7 Hw. cbn [wp] in Hw. destruct Hw as (H2 & Hs6 & _).
  apply wp_bind. rewrite ux_insert_key_eq. eapply wp_mono; [apply (wp_cow _ _ W7 (fun t' h' => utree h' t' (ilog_get (ins_log q v (build_log items' []))))); eapply wp_mono; [apply (ux_insert_at h6 _ _ _ q v H2 Hv); by apply key_isnet|]|].
  { cbn beta. intros t' h' _ H'. eapply utree_ext; [|exact H']. intros. apply ins_log_upd. }
  cbn beta. intros t3 h7 W8 (H3 & Hs7 & _). apply wp_bind. eapply wp_mono; [apply (uenum_at _ _ _ _ H3)|]. cbn beta. intros e2 ? W9 [-> He2].
  apply wp_bind. eapply wp_mono; [apply (uenum_at h7 t (uver rops ver)); eapply utree_mono; [|exact Ht]; etrans; [exact Hs4|]; etrans; [exact Hs6|exact Hs7]|].
  cbn beta. intros e ? W10 [-> He]. cbn [wp]. split_and!; [|done|done]. by eapply nenum_unique.
Qed.

(** ** The same answers as iptree. *)
Definition leq (l l' : ilog value) : Prop := forall q, ilog_get l q = ilog_get l' q.
Lemma leq_nth gs gs' i : Forall2 leq gs gs' -> leq (nth i gs []) (nth i gs' []).
Proof. intros H. revert i. induction H; intros [|i]; simpl; auto; by intros q. Qed.
Lemma leq_ins r v l l' : leq l l' -> leq (ins_log r v l) (ins_log r v l').
Proof. intros H. destruct r as [p|]; [|done]. intros q. cbn [ins_log ilog_get]. by case_decide. Qed.
Lemma leq_del r l l' : leq l l' -> (forall p, r = Some p -> short6 p -> ilog_get l' p = None -> forall q, ncovers p q -> ilog_get l' q = None) ->
  leq (udel_log r l) (del_log r l').
Proof.
  intros H Ha. destruct r as [p|]; [|done]. cbn [udel_log del_log]. case_decide as Hp.
  - intros q. cbn [ilog_get]. case_decide; [|apply H]. destruct Hp as [Hs Hn]. rewrite H in Hn |- *. by eapply Ha.
  - intros q. cbn [ilog_get]. by case_decide.
Qed.
Lemma uanswers_agree rops : forall gs gs' outs, Forall2 leq gs gs' -> agree gs' rops -> uanswers gs rops outs -> ianswers gs' rops outs.
Proof.
  induction rops as [|o rops IH]; intros gs gs' [|x outs] Hg Ha; try done. cbn [uanswers ianswers agree] in *. destruct Ha as [Ha Hr].
  intros [Hx Ho]. split.
  - destruct o as [items|i k v|i k|i k|i]; cbn [uanswer ianswer agree_op] in *; try done; pose proof (leq_nth _ _ i Hg) as Hl.
    + destruct Hx as (b & -> & Hb). exists b. split; [done|]. rewrite Hb. split.
      * intros (p & q & v & -> & _ & Hc & Hq). exists p, q, v. by rewrite <- Hl.
      * intros (p & q & v & -> & Hc & Hq). exists p, q, v. rewrite Hl. split_and!; try done. intros [Hs Hn]. rewrite Hl in Hn. by rewrite (Ha Hs Hn q Hc) in Hq.
    + destruct Hx as (res & -> & Hres). exists res. split; [done|]. destruct k as [q|]; [|done]. destruct res as [v|]; cbn [nlongest] in *.
      * destruct Hres as (p & H1 & H2 & H3). exists p. rewrite <- Hl. split_and!; try done. intros p' v'. rewrite <- Hl. apply H3.
      * intros p v. rewrite <- Hl. apply Hres.
    + destruct Hx as (e & -> & ps & H1 & H2 & H3). exists e. split; [done|]. exists ps. split_and!; try done. intros p v. by rewrite <- Hl.
  - eapply IH; [|exact Hr|exact Ho]. destruct o as [items|i k v|i k|i k|i]; cbn [ulog_step ilog_step agree_op] in *; try done; apply Forall2_app; try done; constructor; try constructor.
    + by apply leq_ins, leq_nth.
    + apply leq_del; [by apply leq_nth|]. intros p ->. exact Ha.
Qed.
Lemma nlongest_fun (l : ilog value) q r r' : nlongest l q r -> nlongest l q r' -> r = r'.
Proof.
  assert (Hd : forall p p' : net, ncovers p q -> ncovers p' q -> p.2.1 = p'.2.1 -> p = p').
  { intros [f [n k]] [f' [n' k']] [E1 [E2 E3]] [E1' [E2' E3']] E. cbn [fst snd] in *. subst n'. congruence. }
  destruct r as [v|], r' as [v'|]; cbn [nlongest]; try done.
  - intros (p & H1 & H2 & H3) (p' & H1' & H2' & H3'). pose proof (H3 _ _ H1' H2'). pose proof (H3' _ _ H1 H2).
    assert (p = p') by (apply Hd; [done|done|lia]). subst. congruence.
  - intros (p & H1 & H2 & _) H. by apply (H _ _ H1) in H2.
  - intros H (p & H1 & H2 & _). by apply (H _ _ H1) in H2.
Qed.
Lemma ianswers_fun rops : forall (gs : list (ilog value)) o1 o2, ianswers gs rops o1 -> ianswers gs rops o2 -> o1 = o2.
Proof.
  induction rops as [|o rops IH]; intros gs [|x o1] [|y o2]; try done. cbn [ianswers]. intros [Hx Ho1] [Hy Ho2]. f_equal; [|by eapply IH].
  destruct o as [items|i k v|i k|i k|i]; cbn [ianswer] in *; try congruence.
  - destruct Hx as (b & -> & Hb), Hy as (b' & -> & Hb'). f_equal. apply eq_true_iff_eq. by rewrite Hb, Hb'.
  - destruct Hx as (r & -> & Hr), Hy as (r' & -> & Hr'). f_equal. destruct k as [q|]; [by eapply nlongest_fun|congruence].
  - destruct Hx as (e & -> & He), Hy as (e' & -> & He'). f_equal. by eapply nenum_unique.
Qed.
Lemma ux_pf_same h ops rops : Forall2 iresolves ops rops -> Forall iop_ok ops -> agree [] rops ->
  wp (r1 <- run_hist ip_exec ops [] ;; r2 <- run_hist ux_exec ops [] ;; Ret (r1.2, r2.2)) h ∅ (fun x h' _ => h ⊆ h' /\ x.1 = x.2 /\ ianswers [] rops x.1).
Proof.
  intros Hops Hok Ha. apply wp_cow0. apply wp_bind. eapply wp_mono; [by apply (ip_pf_answers h ops rops)|]. cbn beta. intros r1 h1 W1 [Hs1 H1].
  apply wp_bind. eapply wp_mono; [apply (wp_weaken_W _ _ ∅ W1 _ (ux_pf_answers h1 ops rops Hops Hok)); clear; set_solver|]. cbn beta. intros r2 h2 W2 (_ & [Hs2 H2] & _). cbn [wp fst snd].
  split; [|done]. eapply ianswers_fun; [exact H1|]. eapply (uanswers_agree _ [] []); [constructor|done|exact H2].
Qed.
End pf.
