(** * domaintree: InplaceInsert after any history, and clients that mix it with the
    other calls on one handle. *)
From Verif Require Import Prog History RbModel RbSpec RbFun RbFunIns RbFunDel RbSim RbSimIns RbSimOps RbSimDel2 RbAbs StrSpec StrAbs StrPropProofs.
From Verif Require Import DomModel DomSpec DomCodec DomNames DomPropProofs DlModel DlSpec DlAbs DlPropProofs DtModel DtSpec DtFun DtSim DtSim2 DtSim3 DtSim4 DtAbs NumFoot Handle RbHandle DtOwn DtOwnSpec.
From Verif Require DtPropProofs.
Open Scope nat_scope.

Section abs.
Context {U : Type}.
Local Notation heap := (heap U).
Local Notation value := (value U).
Local Notation dtree := (dtree value).
Implicit Types h : heap.
Implicit Types t : dtree.
Implicit Types l : blog value.
Variable fuel : nat.

(** ** Logs. *)
Lemma path_eqb_app p r : r <> [] -> path_eqb p (p ++ r) = false.
Proof. intros Hr. destruct (path_eqb p (p ++ r)) eqn:E; [|done]. apply path_eqb_spec in E. apply (f_equal length) in E. rewrite app_length in E. destruct r; simpl in *; [done|lia]. Qed.
Lemma bare_stored l : forall q, bare l q -> exists v, tlog_get (plain l) q = Some v.
Proof.
  induction l as [|[p v|p v|p|p] l IH]; intros q; cbn [bare plain map bent_plain tlog_get]; [done|..].
  - intros [[-> _]|[_ H]]; [exists v; by rewrite (proj2 (path_eqb_spec p p) eq_refl)|]. destruct (path_eqb p q); [by exists v|by apply IH].
  - intros H. destruct (path_eqb p q); [by exists v|by apply IH].
  - intros [N H]. destruct (path_eqb p q) eqn:E; [apply path_eqb_spec in E; congruence|by apply IH].
  - intros [-> H]. by apply IH.
Qed.
(** Every in-place call was possible. *)
Fixpoint unblocked l : Prop :=
  match l with [] => True | BInplace p _ :: l => ~ blocked l p /\ unblocked l | _ :: l => unblocked l end.
Lemma bare_leaf l : unblocked l -> forall q r, q <> [] -> r <> [] -> bare l q -> tlog_get (plain l) (q ++ r) = None.
Proof.
  induction l as [|[p v|p v|p|p] l IH]; intros Hu q r Hq Hr; cbn [bare unblocked plain map bent_plain tlog_get] in *; [done|..].
  - intros [[-> H]|[Hn H]].
    + rewrite path_eqb_app by done. destruct H as [H|H]; [by apply IH|]. fold (plain l). destruct (tlog_get (plain l) (p ++ r)) eqn:E; [|done].
      exfalso. eapply H; [|exact E]. apply under_spec. by exists r.
    + destruct (path_eqb p (q ++ r)) eqn:E; [|by apply IH]. apply path_eqb_spec in E as ->. assert (under q (q ++ r) = true) by (apply under_spec; by exists r). congruence.
  - destruct Hu as [Hb Hu]. intros H. destruct (path_eqb p (q ++ r)) eqn:E; [|by apply IH]. apply path_eqb_spec in E as ->. exfalso. apply Hb. by exists q, r.
  - intros [_ H]. destruct (path_eqb p (q ++ r)); [done|by apply IH].
  - intros [_ H]. destruct (under p (q ++ r)); [done|by apply IH].
Qed.
Lemma blogs_plain (gs : list (blog value)) i : tlogs_nth (map plain gs) i = plain (blogs_nth gs i).
Proof. unfold tlogs_nth, blogs_nth. change [] with (@plain value []) at 1. apply map_nth. Qed.
Lemma step_plain (gs : list (blog value)) o : map plain (blog_step gs o) = tlog_step (map plain gs) o.
Proof.
  destruct o; cbn [blog_step tlog_step]; try done; rewrite map_app, ?blogs_plain; try done.
  cbn [map]. unfold plain. rewrite map_rev, map_map. done.
Qed.
Lemma bver_plain rops ver : tver rops ver = plain (@bver value rops ver).
Proof.
  unfold tver, bver, tlogs. rewrite <- blogs_plain. f_equal.
  assert (H : forall gs : list (blog value), fold_left tlog_step rops (map plain gs) = map plain (fold_left blog_step rops gs)).
  { induction rops as [|o rops IH]; intros gs; [done|]. cbn [fold_left]. by rewrite <- step_plain, IH. }
  apply (H []).
Qed.
Lemma find_none n t (l : tlog value) p : dlike n t l -> p <> [] -> d_find t p = None <-> none_under l p.
Proof.
  intros (H1 & H2 & H3) Hp. split.
  - intros E q v Hq. rewrite <- H2. by rewrite (find_none_get t p q).
  - intros Hn. destruct (d_find t p) as [x|] eqn:E; [|done]. exfalso. destruct (wf_find _ _ _ _ _ H1 E) as [Hx Hlt].
    destruct (alive n _ x Hx (wf_dead n 128 t H1 p x E Hp)) as (r & v & Hr).
    apply (Hn (p ++ r) v); [apply under_spec; by exists r|]. rewrite <- H2. unfold d_get in *. by rewrite d_find_app, E.
Qed.
Lemma b_ins_bare n t l p v q : dlike n t (plain l) -> q <> [] -> b_ins (bare l) t p q <-> bare (BInsert p v :: l) q.
Proof.
  intros Hl Hq. unfold b_ins. cbn [bare].
  assert (q = p -> d_find t p = None <-> none_under (plain l) q) by (intros <-; by eapply find_none). tauto.
Qed.

(** ** One operation. *)
Definition bR (n : nat) h (p : ptr) l : Prop := exists t, oroot 128 h p t (bare l) /\ dlike n t (plain l).
Lemma bR_mono n n' h h' p l : h ⊆ h' -> n <= n' -> bR n h p l -> bR n' h' p l.
Proof. intros Hs Hn (t & H1 & H2). exists t. split; [by eapply oroot_mono|by eapply dlike_mono]. Qed.
Lemma bR_Forall2 n n' h h' vs gs : h ⊆ h' -> n <= n' -> Forall2 (bR n h) vs gs -> Forall2 (bR n' h') vs gs.
Proof. intros Hs Hn H. eapply Forall2_impl; [exact H|]. intros. by eapply bR_mono. Qed.
Lemma bR_nth n h vs gs i : Forall2 (bR n h) vs gs -> bR n h (nth i vs None) (blogs_nth gs i).
Proof.
  unfold blogs_nth. intros H. revert i. induction H; intros [|i]; simpl; auto; (exists d_nil; split; [by left|apply dlike_nil]).
Qed.
Lemma bR_dtR n h p l : bR n h p l -> dtR n h p (plain l).
Proof. intros (t & H1 & H2). exists t. split; [by eapply oroot_droot|done]. Qed.
Lemma bexr_bare n t l : dlike n t (plain l) -> bexr (bare l) t.
Proof. intros (_ & H & _) q Hq Hb. apply bare_stored in Hb as [v Hv]. rewrite <- H in Hv. unfold d_get in Hv. intros E. by rewrite E in Hv. Qed.
Definition bstep (gs : list (blog value)) (o : top name value) (gs' : list (blog value)) (x : tout value) : Prop :=
  exists ro, tresolves o ro /\ gs' = blog_step gs ro /\ tanswer (map plain gs) ro x.
Lemma nil_fill (items : list (path * value)) : forall q, ~ bare (rev (map (fun x => BInplace x.1 x.2) items)) q.
Proof. intros q. induction items as [|x items IH] using rev_ind; cbn [map rev]; [by intros []|]. rewrite map_app, rev_app_distr. exact IH. Qed.
Lemma plain_fill (items : list (path * value)) : plain (rev (map (fun x => BInplace x.1 x.2) items)) = rev (map (fun x => TLIns x.1 x.2) items).
Proof. unfold plain. by rewrite map_rev, map_map. Qed.

Lemma bt_exec_ok N n h vs gs o : enough fuel N -> 128 <= fuel -> n + top_size o <= N -> Forall2 (bR n h) vs gs -> tok_op (map plain gs) o ->
  wp (dt_exec fuel vs o) h ∅ (fun r h' _ => exists gs', bstep gs o gs' r.2 /\ Forall2 (bR (n + top_size o) h') r.1 gs' /\
    forall p, vs = [p] -> p <> None -> t_on_handle o -> List.last r.1 p <> None).
Proof.
  intros HN Hf Hn HR (ro & Ho & Hs). destruct Ho as [items items' Hi|i d p v Hk|i d p Hk|i d p Hk|i d p Hk|i]; cbn [top_size panics_at t_on_handle] in Hn, Hs |- *; unfold dt_exec.
  - pose proof (Forall2_length _ _ _ Hi) as Hlen.
    assert (Hw : wp (n <- dt_new ;; dt_fill fuel n items ;;; Ret n) h ∅ (fun p h' _ => h ⊆ h' /\ p <> None /\ oroot 128 h' p (d_fill items' d_nil) (fun _ => False))).
    { apply wp_cow0. eapply wp_mono; [eapply (wp_local _ ∅ h ∅ (fun p h' _ => p <> None /\ oroot 128 h' p (d_fill items' d_nil) (fun _ => False))); [|apply map_empty_subseteq]|].
      - unfold dt_new. apply wp_bind, wp_bind, wp_alloc. intros a Ha. cbn [wp]. apply wp_bind.
        eapply wp_mono. { eapply wp_weaken_W; [eapply (dt_fill_own fuel 127 items items' Hi ltac:(lia) 0 _ (Some a) d_nil)|].
          - eapply enough_le; [exact HN|]. lia.
          - done.
          - right. eexists (fun q => q = []), _. split; [eapply (obody_open 127); [by rewrite lookup_insert| |apply obody_nil]; apply not_elem_of_empty|]. by intros q Hq.
          - apply wf_nil.
          - rewrite dom_insert_L. clear; set_solver. }
        cbn beta. intros _ h' W' (W2 & Hr & _). cbn [wp]. done.
      - cbn beta. intros p h' W' (h0 & [Hp0 Hp] & Hs0 & _). split; [done|]. by eapply oroot_mono. }
    apply wp_bind_inv in Hw.
    apply wp_bind. eapply wp_mono; [exact Hw|]. cbn beta. intros p h1 W1 Hw1.
    apply wp_bind_inv in Hw1. apply wp_bind. eapply wp_mono; [exact Hw1|].
    cbn beta. intros _ h2 W2 (Hsub & Hp0 & Hp). cbn [wp fst snd].
    eexists. split; [eexists; split_and!; [by constructor|done|done]|].
    split; [|intros q -> _ _; cbn [app List.last]; done].
    cbn [blog_step]. apply Forall2_app; [eapply bR_Forall2; [exact Hsub| |exact HR]; lia|].
    constructor; [|constructor]. exists (d_fill items' d_nil). rewrite plain_fill. split.
    + eapply oroot_iff; [|exact Hp]. intros q _. split; [done|]. apply nil_fill.
    + rewrite <- (app_nil_r (rev _)).
      apply dlike_mono with (n := 0 + length items'); [lia|]. apply dlike_fill; [apply dlike_nil|]. clear -Hi.
      induction Hi as [|x y ? ? [[_ ?] _]]; constructor; done.
  - destruct (bR_nth _ _ _ _ i HR) as (t & Hp & Hl). assert (Hl2 := Hl). destruct Hl2 as (Hwf & _). destruct Hk as (Hw & Hv). assert (Hv2 := Hv). destruct Hv2 as (P1 & P2 & P3).
    apply wp_bind. eapply wp_mono; [eapply (dt_insert_own fuel N 127); [exact HN|exact Hp|by eapply bexr_bare|eapply wf_mono; [|exact Hwf]; lia|exact Hw|exact P3|lia]|].
    cbn beta. intros q h' W' (Hsub & Hq0 & Hq). cbn [wp fst snd]. eexists. split; [eexists; split_and!; [by constructor|done|done]|].
    split; [|intros p0 -> _ _; cbn [app List.last]; done].
    cbn [blog_step]. apply Forall2_app; [eapply bR_Forall2; [exact Hsub| |exact HR]; lia|].
    constructor; [|constructor]. exists (d_insert t p v). split; [|rewrite Nat.add_1_r; by apply dlike_insert].
    eapply oroot_iff; [|exact Hq]. intros q0 Hq1. by eapply b_ins_bare.
  - destruct (bR_nth _ _ _ _ i HR) as (t & Hp & Hl). assert (Hl2 := Hl). destruct Hl2 as (Hwf & _). destruct Hk as (Hw & Hv). assert (Hv2 := Hv). destruct Hv2 as (P1 & P2 & P3).
    apply wp_bind. eapply wp_mono; [eapply (dt_delete_own fuel N 127); [exact HN|exact Hp|by eapply bexr_bare|eapply wf_mono; [|exact Hwf]; lia|exact Hw|exact P3|rewrite blogs_plain in Hs; by eapply dlike_shallow|lia]|].
    cbn beta. intros [q b] h' W' [Hsub Hq]. cbn [wp fst snd]. pose proof (dlike_delete _ _ _ p Hl Hv) as Hd.
    eexists. split; [eexists; split_and!; [by constructor|done|]|split].
    + cbn [tanswer]. rewrite blogs_plain. destruct (d_deleted t p) as [t'|]; cbn [odel_post fst snd] in Hq.
      * destruct Hd as [_ [v ->]]. by destruct Hq as [-> _].
      * destruct Hd as [_ ->]. by destruct Hq as [[= -> ->] _].
    + cbn [blog_step]. rewrite Nat.add_0_r. apply Forall2_app; [eapply bR_Forall2; [exact Hsub| |exact HR]; lia|]. constructor; [|constructor].
      destruct (d_deleted t p) as [t'|]; cbn [odel_post fst snd] in Hq.
      * exists t'. destruct Hq as (_ & _ & Hq), Hd as [Hd _]. split; [|done]. exact Hq.
      * exists t. destruct Hq as [[= -> ->] Hq], Hd as [Hd Hg]. split; [|done]. eapply oroot_iff; [|exact Hq]. intros q Hq0. cbn [bare]. split; [|by intros [_ ?]].
        intros Hb. split; [|done]. intros ->. apply bare_stored in Hb as [v Hb]. congruence.
    + intros p0 -> Hp0 ->. cbn [app List.last]. destruct (d_deleted t p); cbn [odel_post fst snd] in Hq; [by destruct Hq as (_ & ? & _)|by destruct Hq as [[= -> ->] _]].
  - destruct (bR_nth _ _ _ _ i HR) as (t & Hp & Hl). assert (Hl2 := Hl). destruct Hl2 as (Hwf & _). destruct Hk as (Hw & Hv). assert (Hv2 := Hv). destruct Hv2 as (P1 & P2 & P3).
    apply wp_bind. eapply wp_mono; [eapply (dt_delete_sub_own fuel N 127); [exact HN|exact Hp|by eapply bexr_bare|eapply wf_mono; [|exact Hwf]; lia|exact Hw|exact P3|rewrite blogs_plain in Hs; by eapply dlike_shallow|lia]|].
    cbn beta. intros [q b] h' W' [Hsub Hq]. cbn [wp fst snd]. pose proof (dlike_delete_sub _ _ _ p Hl Hv) as Hd.
    eexists. split; [eexists; split_and!; [by constructor|done|]|split].
    + cbn [tanswer]. exists b. split; [done|]. rewrite blogs_plain. destruct (d_deleted_sub t p) as [t'|]; cbn [odel_post fst snd] in Hq.
      * destruct Hd as [_ Hd]. destruct Hq as [-> _]. done.
      * destruct Hd as [_ Hd]. destruct Hq as [[= -> ->] _]. split; [done|]. intros (q' & v & Hq' & Hv'). rewrite Hd in Hv'; done.
    + cbn [blog_step]. rewrite Nat.add_0_r. apply Forall2_app; [eapply bR_Forall2; [exact Hsub| |exact HR]; lia|]. constructor; [|constructor].
      destruct (d_deleted_sub t p) as [t'|]; cbn [odel_post fst snd] in Hq.
      * exists t'. destruct Hq as (_ & _ & Hq), Hd as [Hd _]. split; [|done]. exact Hq.
      * exists t. destruct Hq as [[= -> ->] Hq], Hd as [Hd Hg]. split; [|done]. eapply oroot_iff; [|exact Hq]. intros q Hq0. cbn [bare]. split; [|by intros [_ ?]].
        intros Hb. split; [|done]. destruct (under p q) eqn:E; [|done]. apply bare_stored in Hb as [v Hb]. rewrite Hg in Hb; done.
    + intros p0 -> Hp0 ->. cbn [app List.last]. destruct (d_deleted_sub t p); cbn [odel_post fst snd] in Hq; [by destruct Hq as (_ & ? & _)|by destruct Hq as [[= -> ->] _]].
  - destruct (bR_nth _ _ _ _ i HR) as (t & Hp & Hl). assert (Hl2 := Hl). destruct Hl2 as (Hwf & _). destruct Hk as (Hw & Hv). assert (Hv2 := Hv). destruct Hv2 as (P1 & P2 & P3).
    apply wp_bind. eapply wp_mono; [eapply (dt_get_wp fuel N 128); [exact HN|by eapply oroot_droot|eapply wf_mono; [|exact Hwf]; lia|exact Hw|exact P3]|].
    cbn beta. intros x h' W' [-> ->]. cbn [wp fst snd]. eexists. split; [eexists; split_and!; [by constructor|done|]|split].
    + cbn [tanswer]. rewrite blogs_plain. exists (d_closest t p None). split; [|by eapply dlike_closest]. by destruct (d_closest t p None).
    + by rewrite Nat.add_0_r.
    + by intros p0 -> ? _.
  - destruct (bR_nth _ _ _ _ i HR) as (t & Hp & Hl). assert (Hl2 := Hl). destruct Hl2 as (Hwf & _).
    apply wp_bind. eapply wp_mono; [eapply (dt_enumerate_wp fuel N 128); [exact HN|exact Hf|by eapply oroot_droot|eapply wf_mono; [|exact Hwf]; lia]|].
    cbn beta. intros x h' W' [-> ->]. cbn [wp fst snd]. eexists. split; [eexists; split_and!; [by constructor|done|]|split].
    + cbn [tanswer]. rewrite blogs_plain. eexists. split; [done|]. by eapply dlike_enum.
    + by rewrite Nat.add_0_r.
    + by intros p0 -> ? _.
Qed.
Lemma bt_inplace_ok N n h p l d q v : enough fuel N -> n < N -> bR n h p l -> p <> None -> name_is d q -> ~ blocked l q ->
  wp (dt_inplace_insert fuel p d v) h (dom h) (fun _ h' _ => bR (n + 1) h' p (BInplace q v :: l)).
Proof.
  intros HN Hn (t & Hp & Hl) Hp0 (Hw & Hv) Hb. assert (Hv2 := Hv). destruct Hv2 as (P1 & P2 & P3). assert (Hl2 := Hl). destruct Hl2 as (Hwf & _).
  eapply wp_mono; [eapply (dt_inplace_own fuel N 127 h p t (bare l)); [exact HN|exact Hp|done|by eapply bexr_bare|eapply wf_mono; [|exact Hwf]; lia|exact Hw|exact P3|lia|exact Hb]|].
  cbn beta. intros _ h' W' Hp'. exists (d_insert t q v). split; [exact Hp'|]. rewrite Nat.add_1_r. by apply dlike_insert.
Qed.
Lemma bt_inplace_stuck N n h p l d q v : enough fuel N -> n <= N -> bR n h p l -> name_is d q -> blocked l q ->
  fails (dt_inplace_insert fuel p d v) h ENil.
Proof.
  intros HN Hn (t & Hp & Hl) (Hw & Hv) Hb. destruct Hv as (P1 & P2 & P3). assert (Hl2 := Hl). destruct Hl2 as (Hwf & _).
  eapply (dt_inplace_stuck fuel N 127 h p t (bare l)); [exact HN|exact Hp|by eapply bexr_bare|eapply wf_mono; [|exact Hwf]; lia|exact Hw|exact P3|exact Hb].
Qed.

(** ** Histories. *)
Lemma bspec_run ops rops : Forall2 tresolves ops rops -> forall gs gs' outs, spec_run bstep ops gs gs' outs ->
  gs' = fold_left blog_step rops gs /\ tanswers (map plain gs) rops outs.
Proof.
  induction 1 as [|o ro ops rops Ho H IH]; intros gs gs' [|x outs] Hr; simpl in Hr; try done.
  destruct Hr as (gs1 & (ro' & Ho' & Hst & Ha) & Hr). rewrite <- (tresolves_det _ _ _ Ho Ho') in Hst, Ha. subst gs1.
  apply IH in Hr as [-> Hr]. rewrite step_plain in Hr. done.
Qed.
Definition bgood (gs : list (blog value)) (ops : list (top name value)) : Prop := exists rops, Forall2 tresolves ops rops /\ ~ del_panics (map plain gs) rops.
Lemma bt_run N h ops rops : Forall2 tresolves ops rops -> ~ del_panics [] rops -> enough fuel N -> tnames ops <= N -> 128 <= fuel ->
  wp (run_hist (dt_exec fuel) ops []) h ∅ (fun r h' _ => exists gs', spec_run bstep ops [] gs' r.2 /\ Forall2 (bR (tnames ops) h') r.1 gs').
Proof.
  intros Hops Hs Hf HN Hf2. apply (run_hist_wp_s (dt_exec fuel) bstep bR bgood top_size N) with (n := 0) (ss := []); [| |constructor|done].
  - intros n h1 vs gs o ops1 Hn HR (rops1 & Hr1 & Hg). inversion Hr1 as [|? ro ? rops2 Ho Hr2]; subst. apply fine_cons in Hg as [Hg1 Hg2].
    eapply wp_mono; [apply (bt_exec_ok N n h1 vs gs o); try done; by exists ro|].
    cbn beta. intros r h' _ (gs' & (ro' & Ho' & E & Ha) & HR' & _). rewrite <- (tresolves_det _ _ _ Ho Ho') in E, Ha. exists gs'. split; [by exists ro|]. split; [done|].
    rewrite E. exists rops2. by rewrite step_plain.
  - by exists rops.
Qed.
Lemma bt_inplace_any h ops rops : Forall2 tresolves ops rops -> ~ del_panics [] rops -> enough fuel (tnames ops + 1) -> 128 <= fuel ->
  wp (run_hist (dt_exec fuel) ops []) h ∅ (fun r h1 _ => h ⊆ h1 /\ tanswers [] rops r.2 /\
    forall ver d p v, nth ver r.1 None <> None -> name_is d p ->
      (blocked (bver rops ver) p -> fails (dt_inplace_insert fuel (nth ver r.1 None) d v) h1 ENil) /\
      (~ blocked (bver rops ver) p ->
        wp (dt_inplace_insert fuel (nth ver r.1 None) d v ;;; dt_enumerate fuel (nth ver r.1 None)) h1 (dom h1)
           (fun e _ _ => enumerates (TLIns p v :: tver rops ver) e))).
Proof.
  intros Hops Hs Hf Hf2. apply wp_cow0. eapply wp_mono.
  - eapply (bt_run _ h ops rops Hops Hs Hf); [lia|done].
  - cbn beta. intros r h' _ (gs' & Hr & HR). destruct (bspec_run _ _ Hops _ _ _ Hr) as [E1 E2]. split; [done|]. rewrite E1 in HR.
    intros ver d p v Hver Hd. pose proof (bR_nth _ _ _ _ ver HR) as Hv. fold (bver rops ver) in Hv. split; intros Hb.
    + eapply bt_inplace_stuck; [exact Hf| |exact Hv|exact Hd|exact Hb]. lia.
    + apply wp_bind. eapply wp_mono; [eapply bt_inplace_ok; [exact Hf| |exact Hv|done|exact Hd|exact Hb]; lia|].
      cbn beta. intros _ h2 W2 (t & Hp & Hl). assert (Hl2 := Hl). destruct Hl2 as (Hwf & _).
      eapply wp_mono; [eapply (wp_weaken_W _ _ ∅); [eapply (dt_enumerate_wp fuel _ 128); [exact Hf|exact Hf2|by eapply oroot_droot|exact Hwf]|apply empty_subseteq]|].
      cbn beta. intros e h3 W3 (_ & [-> ->] & _). rewrite bver_plain. change (TLIns p v :: plain (bver rops ver)) with (plain (BInplace p v :: bver rops ver)). by eapply dlike_enum.
Qed.

(** ** One handle. *)
Definition dt_inplace (p : ptr) (x : name * value) : prog U ptr := dt_inplace_insert fuel p x.1 x.2 ;;; Ret p.
Definition mix_size (o : hop (top name value) (name * value)) : nat := match o with HCall o => top_size o | HInplace _ => 1 end.
Lemma mix_call_ok N n h p l o ro : enough fuel N -> 128 <= fuel -> n + top_size o <= N -> bR n h p l -> p <> None -> tresolves o ro -> ~ panics_at [plain l] ro -> t_on_handle o ->
  wp (dt_exec fuel [p] o) h ∅ (fun r h' _ => tanswer [plain l] ro r.2 /\ bR (n + top_size o) h' (List.last r.1 p) (List.last (blog_step [l] ro) l) /\ List.last r.1 p <> None).
Proof.
  intros HN Hf Hn HR Hp Ho Hs Hh. eapply wp_mono; [apply (bt_exec_ok N n h [p] [l] o); [done..|by constructor|by exists ro]|].
  cbn beta. intros r h' _ (gs' & (ro' & Ho' & -> & Ha) & HR' & Hlast). rewrite (tresolves_det _ _ _ Ho Ho') in *. split; [done|]. split; [|by apply Hlast].
  assert (Hl0 : forall vs gs, Forall2 (bR (n + top_size o) h') vs gs -> vs <> [] -> bR (n + top_size o) h' (List.last vs p) (List.last gs l)).
  { clear. induction 1 as [|x y vs gs Hx H IH]; intros Hne; [done|]. destruct H as [|x' y' vs gs Hx' H]; [done|]. apply IH. done. }
  apply Hl0; [done|]. intros E. rewrite E in HR'. inversion HR' as [E2|]. by destruct ro'.
Qed.
Lemma mix_ok N : enough fuel N -> 128 <= fuel -> forall ops rops, Forall2 mresolves ops rops -> forall n h p l, n + list_sum (map mix_size ops) <= N -> bR n h p l -> p <> None ->
  ((forall e, ~ mix_panics l rops e) -> wp (run_handle (dt_exec fuel) dt_inplace ops p) h (dom h) (fun r _ _ => mix_answers l rops r.2)) /\
  (forall e, mix_panics l rops e -> fails (run_handle (dt_exec fuel) dt_inplace ops p) h e).
Proof.
  intros HN Hf. induction 1 as [|o ro ops rops Ho Hops IH]; intros n h p l Hn HR Hp; [by split|].
  cbn [map] in Hn. change (list_sum (mix_size o :: map mix_size ops)) with (mix_size o + list_sum (map mix_size ops)) in Hn.
  cbn [run_handle mix_panics mix_answers]. destruct Ho as [o ro Ho Hh|d q v Hd]; cbn [mix_size] in Hn.
  - assert (Hw : ~ panics_at [plain l] ro -> wp (h_exec (dt_exec fuel) dt_inplace p (HCall o)) h (dom h) (fun r h' _ =>
       (exists y, r.2 = Some y /\ tanswer [plain l] ro y) /\ bR (n + top_size o) h' r.1 (mix_step l (HCall ro)) /\ r.1 <> None)).
    { intros Hs. cbn [h_exec]. apply wp_bind. eapply wp_mono; [eapply (wp_weaken_W _ _ ∅); [apply (mix_call_ok N n h p l o ro); try done; clear -Hn; lia|apply empty_subseteq]|].
      cbn beta. intros r h' W' (W1 & (H1 & H2 & H3) & _). cbn [wp fst snd]. eauto. }
    split.
    + intros Hns. assert (Hs : ~ panics_at [plain l] ro) by (intros ?; apply (Hns EIndex); by left). apply wp_bind. eapply wp_mono; [eapply wp_frame, wp_new, (Hw Hs)|]. cbn beta.
      intros r h1 W1 [[(Ha & HR1 & Hp1) Hnew] [_ (HW & _)]]. apply wp_bind.
      assert (Hle : n + top_size o + list_sum (map mix_size ops) <= N) by (clear -Hn; lia).
      destruct (IH (n + top_size o) h1 r.1 (mix_step l (HCall ro)) Hle HR1 Hp1) as [IH1 _].
      assert (Hns1 : forall e, ~ mix_panics (mix_step l (HCall ro)) rops e) by (intros e Hst; apply (Hns e); right; split; [intros e' [? _]; done|done]).
      eapply wp_mono; [eapply (wp_weaken_W _ _ (dom h1)); [exact (IH1 Hns1)|]|].
      { intros x Hx. destruct (Hnew _ Hx); [by apply HW|done]. }
      cbn beta. intros x h2 W2 (W3 & Hx & _). cbn [wp fst snd]. split; [exact Ha|exact Hx].
    + intros e [[Hb ->]|[Hb Hst]].
      * apply fails_bind_l. cbn [h_exec]. apply fails_bind_l. eapply (DtPropProofs.dt_exec_fails fuel N n h [p] [plain l]); [exact HN|clear -Hn; lia| |exact Ho|exact Hb].
        constructor; [by apply bR_dtR|constructor].
      * assert (Hs : ~ panics_at [plain l] ro) by (intros ?; by apply (Hb EIndex)).
        eapply fails_bind_r; [exact (Hw Hs)|]. cbn beta. intros r h1 W1 (Ha & HR1 & Hp1). apply fails_bind_l.
        assert (Hle : n + top_size o + list_sum (map mix_size ops) <= N) by (clear -Hn; lia).
        exact (proj2 (IH (n + top_size o) h1 r.1 (mix_step l (HCall ro)) Hle HR1 Hp1) e Hst).
  - assert (Hw : ~ blocked l q -> wp (h_exec (dt_exec fuel) dt_inplace p (HInplace (d, v))) h (dom h) (fun r h' _ =>
       r.2 = None /\ bR (n + 1) h' r.1 (BInplace q v :: l) /\ r.1 <> None)).
    { intros Hb. cbn [h_exec]. unfold dt_inplace. cbn [fst snd]. apply bind_assoc, wp_bind. eapply wp_mono; [eapply (bt_inplace_ok N n); [exact HN|clear -Hn; lia|exact HR|done|exact Hd|exact Hb]|].
      cbn beta. intros _ h' W' HR'. done. }
    split.
    + intros Hns. assert (Hb : ~ blocked l q) by (intros ?; apply (Hns ENil); by left). apply wp_bind. eapply wp_mono; [eapply wp_frame, wp_new, (Hw Hb)|]. cbn beta.
      intros r h1 W1 [[(Ha & HR1 & Hp1) Hnew] [_ (HW & _)]]. apply wp_bind.
      assert (Hle : n + 1 + list_sum (map mix_size ops) <= N) by (clear -Hn; lia).
      destruct (IH (n + 1) h1 r.1 (BInplace q v :: l) Hle HR1 Hp1) as [IH1 _].
      assert (Hns1 : forall e, ~ mix_panics (BInplace q v :: l) rops e) by (intros e Hst; apply (Hns e); right; split; [intros e' [? _]; done|done]).
      eapply wp_mono; [eapply (wp_weaken_W _ _ (dom h1)); [exact (IH1 Hns1)|]|].
      { intros x Hx. destruct (Hnew _ Hx); [by apply HW|done]. }
      cbn beta. intros x h2 W2 (W3 & Hx & _). cbn [wp fst snd]. split; [exact Ha|exact Hx].
    + intros e [[Hb ->]|[Hb0 Hst]].
      * apply fails_bind_l. cbn [h_exec]. apply fails_bind_l. unfold dt_inplace. cbn [fst snd]. apply fails_bind_l. eapply (bt_inplace_stuck N n); [exact HN|clear -Hn; lia|exact HR|exact Hd|exact Hb].
      * assert (Hb : ~ blocked l q) by (intros ?; by apply (Hb0 ENil)). eapply fails_bind_r; [exact (Hw Hb)|]. cbn beta. intros r h1 W1 (Ha & HR1 & Hp1). apply fails_bind_l.
        assert (Hle : n + 1 + list_sum (map mix_size ops) <= N) by (clear -Hn; lia).
        exact (proj2 (IH (n + 1) h1 r.1 (BInplace q v :: l) Hle HR1 Hp1) e Hst).
Qed.
Definition mix_names (ops : list (hop (top name value) (name * value))) : nat := list_sum (map mix_size ops).
Lemma bR_new h a : h !! a = Some (CDom (DomN None false VNil)) -> bR 0 h (Some a) [].
Proof.
  intros Ha. exists d_nil. split; [|apply dlike_nil]. right. eexists (fun q => q = []), _. split; [eapply (obody_open 127); [exact Ha| |apply obody_nil]; apply not_elem_of_empty|]. by intros q Hq.
Qed.
Lemma dt_mix h ops rops : Forall2 mresolves ops rops -> enough fuel (mix_names ops) -> 128 <= fuel ->
  ((forall e, ~ mix_panics [] rops e) -> wp (p <- dt_new ;; run_handle (dt_exec fuel) dt_inplace ops p) h ∅ (fun r h' _ => h ⊆ h' /\ mix_answers [] rops r.2)) /\
  (forall e, mix_panics [] rops e -> fails (p <- dt_new ;; run_handle (dt_exec fuel) dt_inplace ops p) h e).
Proof.
  intros Hops HN Hf. split; [intros Hst|intros e Hst].
  - apply wp_cow0. eapply wp_mono; [eapply (wp_local _ ∅ h ∅ (fun r h' _ => mix_answers [] rops r.2)); [|apply map_empty_subseteq]|].
    + unfold dt_new. apply wp_bind, wp_bind, wp_alloc. intros a Ha. cbn [wp].
      eapply wp_mono; [eapply wp_weaken_W; [eapply (mix_ok (mix_names ops) HN Hf ops rops Hops 0); [unfold mix_names; lia| |done|done]|]|].
      * apply bR_new. by rewrite lookup_insert.
      * rewrite dom_insert_L. clear; set_solver.
      * cbn beta. intros r h' W' (W2 & Hx & _). done.
    + cbn beta. intros r h' W' (h0 & Hx & _). done.
  - unfold dt_new. cbn [bind fails]. intros a Ha.
    eapply (mix_ok (mix_names ops) HN Hf ops rops Hops 0); [unfold mix_names; lia| |done|done]. apply bR_new. by rewrite lookup_insert.
Qed.
End abs.
