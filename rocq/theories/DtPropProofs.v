(** * Proofs for Properties_domaintree.v. *)
From Verif Require Import Prog History RbModel RbSpec RbFun RbFunIns RbFunDel RbSim RbSimIns RbSimOps RbSimDel2 RbAbs StrSpec StrAbs StrPropProofs.
From Verif Require Import DomModel DomSpec DomCodec DomNames DomPropProofs DlModel DlSpec DlAbs DlPropProofs DtModel DtSpec DtFun DtSim DtSim2 DtSim3 DtSim4 DtAbs.

Lemma Forall2_elem_of_l {A B} (R : A -> B -> Prop) l k x : Forall2 R l k -> x ∈ l -> exists y, R x y /\ y ∈ k.
Proof. induction 1 as [|a b l k Hab H IH]; [by intros ?%elem_of_nil|]. rewrite elem_of_cons. intros [->|Hx]; [exists b; split; [done|left]|]. destruct (IH Hx) as (y & ? & ?). exists y. split; [done|by right]. Qed.
Lemma Forall2_elem_of_r {A B} (R : A -> B -> Prop) l k y : Forall2 R l k -> y ∈ k -> exists x, R x y /\ x ∈ l.
Proof. induction 1 as [|a b l k Hab H IH]; [by intros ?%elem_of_nil|]. rewrite elem_of_cons. intros [->|Hx]; [exists a; split; [done|left]|]. destruct (IH Hx) as (z & ? & ?). exists z. split; [done|by right]. Qed.
Lemma dt_pf_names s d : make_name s = DOk d -> exists p, name_is d p.
Proof.
  intros H. destruct (pf_wellformed _ _ H) as (ls & _ & _ & H1 & H2 & H3 & H4). exists (canon ls). split; [done|]. split_and!; [done|done|].
  eapply Forall_impl; [exact H2|]. intros l Hl. exact Hl.
Qed.

Section pf.
Context {U : Type}.
Local Notation heap := (heap U).
Local Notation value := (value U).
Local Notation dtree := (dtree value).
Implicit Types h : heap.
Implicit Types t : dtree.
Variable fuel : nat.

Lemma dt_after h (ops : list (top name value)) rops ver {A} (body : ptr -> prog U A) (Q : A -> heap -> Prop) :
  Forall2 tresolves ops rops -> ~ del_panics [] rops -> enough fuel (tnames ops) -> 128 <= fuel ->
  (forall h1 p t, droot 128 h1 p t -> dlike (tnames ops) t (tver rops ver) -> wp (body p) h1 ∅ (fun a h' _ => Q a h')) ->
  wp (r <- run_hist (dt_exec fuel) ops [] ;; body (nth ver r.1 None)) h ∅ (fun a h' _ => h ⊆ h' /\ Q a h').
Proof.
  intros Hops Hs Hf Hf2 Hb. eapply (wp_then _ _ _ (fun r h' => dtR (tnames ops) h' (nth ver r.1 None) (tver rops ver))).
  - eapply wp_mono; [by apply dt_history|]. cbn beta. intros r h' _ (_ & _ & H). exact (H ver).
  - cbn beta. intros r h1 _ (t & H1 & H2). by eapply Hb.
Qed.

Lemma dt_pf_answers h ops rops : Forall2 tresolves ops rops -> ~ del_panics [] rops -> enough fuel (tnames ops) -> 128 <= fuel ->
  wp (run_hist (dt_exec fuel) ops []) h ∅ (fun r h' _ => h ⊆ h' /\ tanswers [] rops r.2).
Proof. intros. eapply wp_mono; [by apply dt_history|]. cbn beta. tauto. Qed.

Lemma dt_pf_get h ops rops ver d p : Forall2 tresolves ops rops -> ~ del_panics [] rops -> enough fuel (tnames ops) -> 128 <= fuel -> name_is d p ->
  wp (r <- run_hist (dt_exec fuel) ops [] ;; dt_get fuel (nth ver r.1 None) d) h ∅ (fun x h' _ => h ⊆ h' /\
    exists res, closest (tver rops ver) p res /\ x = match res with Some v => (v, true) | None => (VNil, false) end).
Proof.
  intros Hops Hs Hf Hf2 [Hw (P1 & P2 & P3)]. apply dt_after with (rops := rops) (body := fun q => dt_get fuel q d)
    (Q := fun x _ => exists res, closest (tver rops ver) p res /\ x = match res with Some v => (v, true) | None => (VNil, false) end); [done..|].
  intros h1 q t Hq Hl. eapply wp_mono; [eapply (dt_get_wp fuel _ 128); [exact Hf|exact Hq|apply Hl|exact Hw|exact P3]|].
  cbn beta. intros x h' _ [_ ->]. exists (d_closest t p None). split; [by eapply dlike_closest|done].
Qed.
Lemma dt_pf_enumerate h ops rops ver : Forall2 tresolves ops rops -> ~ del_panics [] rops -> enough fuel (tnames ops) -> 128 <= fuel ->
  wp (r <- run_hist (dt_exec fuel) ops [] ;; dt_enumerate fuel (nth ver r.1 None)) h ∅ (fun e h' _ => h ⊆ h' /\ enumerates (tver rops ver) e).
Proof.
  intros Hops Hs Hf Hf2. apply dt_after with (rops := rops) (body := fun q => dt_enumerate fuel q) (Q := fun e _ => enumerates (tver rops ver) e); [done..|].
  intros h1 q t Hq Hl. eapply wp_mono; [eapply (dt_enumerate_wp fuel _ 128); [exact Hf|done|exact Hq|apply Hl]|].
  cbn beta. intros x h' _ [_ ->]. by eapply dlike_enum.
Qed.

(** ** One more call on a version: the new tree and the old one. *)
Lemma enum_at N h p t l : enough fuel N -> 128 <= fuel -> droot 128 h p t -> dlike N t l ->
  forall W, wp (dt_enumerate fuel p) h W (fun e h' W' => h' = h /\ W ⊆ W' /\ enumerates l e).
Proof.
  intros Hf Hf2 Hp Hl W. eapply wp_mono; [apply (wp_cow _ _ W (fun e h' => h' = h /\ e = penum (d_enum 128 [] t))); eapply wp_mono; [eapply (dt_enumerate_wp fuel N 128); [done|done|done|apply Hl]|cbn beta; tauto]|].
  cbn beta. intros e h' W' ([-> ->] & _ & HW & _). split_and!; [done|done|by eapply dlike_enum].
Qed.
Lemma dt_pf_insert h ops rops ver d p v : Forall2 tresolves ops rops -> ~ del_panics [] rops -> enough fuel (tnames ops + 1) -> 128 <= fuel -> name_is d p ->
  wp (r <- run_hist (dt_exec fuel) ops [] ;; n <- dt_insert fuel (nth ver r.1 None) d v ;;
      e <- dt_enumerate fuel (nth ver r.1 None) ;; e' <- dt_enumerate fuel n ;; Ret (e, e')) h ∅
    (fun x h' _ => h ⊆ h' /\ enumerates (tver rops ver) x.1 /\ enumerates (TLIns p v :: tver rops ver) x.2).
Proof.
  intros Hops Hs Hf Hf2 [Hw Hv]. assert (Hf' : enough fuel (tnames ops)) by (eapply enough_le; [exact Hf|lia]).
  apply dt_after with (rops := rops) (body := fun q => n <- dt_insert fuel q d v ;; e <- dt_enumerate fuel q ;; e' <- dt_enumerate fuel n ;; Ret (e, e'))
    (Q := fun x _ => enumerates (tver rops ver) x.1 /\ enumerates (TLIns p v :: tver rops ver) x.2); [done..|].
  intros h1 q t Hq Hl. assert (Hv2 := Hv). destruct Hv2 as (P1 & P2 & P3). assert (Hl2 := Hl). destruct Hl2 as (Hwf & _).
  apply wp_bind. eapply wp_mono; [eapply (dt_insert_wp fuel _ 127); [exact Hf'|exact Hq|exact Hwf|exact Hw|exact P3|lia]|].
  cbn beta. intros n h2 W2 [Hsub Hn]. apply wp_bind.
  eapply wp_mono; [eapply enum_at; [exact Hf'|done|eapply droot_mono; [exact Hsub|exact Hq]|exact Hl]|]. cbn beta. intros e h3 W3 (-> & _ & He).
  apply wp_bind. eapply wp_mono; [eapply (enum_at (tnames ops + 1) h2 n _ (TLIns p v :: tver rops ver)); [exact Hf|done|right; exact Hn|]|].
  { rewrite Nat.add_1_r. by apply dlike_insert. }
  cbn beta. intros e' h3 W4 (-> & _ & He'). cbn [wp fst snd]. done.
Qed.
Lemma dt_pf_delete h ops rops ver d p : Forall2 tresolves ops rops -> ~ del_panics [] rops -> enough fuel (tnames ops) -> 128 <= fuel -> name_is d p -> ~ too_deep (tver rops ver) p ->
  wp (r <- run_hist (dt_exec fuel) ops [] ;; n <- dt_delete fuel (nth ver r.1 None) d ;;
      e <- dt_enumerate fuel (nth ver r.1 None) ;; e' <- dt_enumerate fuel n.1 ;; Ret (n.2, e, e')) h ∅
    (fun x h' _ => h ⊆ h' /\ let '(b, e, e') := x in (b = true <-> exists v, tlog_get (tver rops ver) p = Some v) /\
      enumerates (tver rops ver) e /\ enumerates (TLDel p :: tver rops ver) e').
Proof.
  intros Hops Hs Hf Hf2 [Hw Hv] Hsh.
  apply dt_after with (rops := rops) (body := fun q => n <- dt_delete fuel q d ;; e <- dt_enumerate fuel q ;; e' <- dt_enumerate fuel n.1 ;; Ret (n.2, e, e'))
    (Q := fun x _ => let '(b, e, e') := x in (b = true <-> exists v, tlog_get (tver rops ver) p = Some v) /\ enumerates (tver rops ver) e /\ enumerates (TLDel p :: tver rops ver) e'); [done..|].
  intros h1 q t Hq Hl. assert (Hv2 := Hv). destruct Hv2 as (P1 & P2 & P3). assert (Hl2 := Hl). destruct Hl2 as (Hwf & _).
  apply wp_bind. eapply wp_mono; [eapply (dt_delete_wp fuel _ 127); [exact Hf|exact Hq|exact Hwf|exact Hw|exact P3|by eapply dlike_shallow|lia]|].
  cbn beta. intros [n b] h2 W2 [Hsub Hn]. pose proof (dlike_delete _ _ _ p Hl Hv) as Hd. cbn [fst snd]. apply wp_bind.
  eapply wp_mono; [eapply enum_at; [exact Hf|done|eapply droot_mono; [exact Hsub|exact Hq]|exact Hl]|]. cbn beta. intros e h3 W3 (-> & _ & He).
  destruct (d_deleted t p) as [t'|]; cbn [del_post fst snd] in Hn.
  - destruct Hn as [-> Hn], Hd as [Hd (v & Hg)]. apply wp_bind. eapply wp_mono; [eapply (enum_at _ h2 n t'); [exact Hf|done|by right|exact Hd]|].
    cbn beta. intros e' h3 W4 (-> & _ & He'). cbn [wp]. split_and!; [|done|done]. split; [eauto|done].
  - destruct Hn as [[= -> ->] Hn], Hd as [Hd Hg]. apply wp_bind. eapply wp_mono; [eapply (enum_at _ h2 q t); [exact Hf|done|exact Hn|exact Hd]|].
    cbn beta. intros e' h3 W4 (-> & _ & He'). cbn [wp]. split_and!; [|done|done]. split; [done|]. intros (v & Hg'). congruence.
Qed.
Lemma dt_pf_delete_sub h ops rops ver d p : Forall2 tresolves ops rops -> ~ del_panics [] rops -> enough fuel (tnames ops) -> 128 <= fuel -> name_is d p -> ~ too_deep (tver rops ver) p ->
  wp (r <- run_hist (dt_exec fuel) ops [] ;; n <- dt_delete_subdomains fuel (nth ver r.1 None) d ;;
      e <- dt_enumerate fuel (nth ver r.1 None) ;; e' <- dt_enumerate fuel n.1 ;; Ret (n.2, e, e')) h ∅
    (fun x h' _ => h ⊆ h' /\ let '(b, e, e') := x in (b = true <-> exists r v, tlog_get (tver rops ver) (p ++ r) = Some v) /\
      enumerates (tver rops ver) e /\ enumerates (TLDelSub p :: tver rops ver) e').
Proof.
  intros Hops Hs Hf Hf2 [Hw Hv] Hsh.
  apply dt_after with (rops := rops) (body := fun q => n <- dt_delete_subdomains fuel q d ;; e <- dt_enumerate fuel q ;; e' <- dt_enumerate fuel n.1 ;; Ret (n.2, e, e'))
    (Q := fun x _ => let '(b, e, e') := x in (b = true <-> exists r v, tlog_get (tver rops ver) (p ++ r) = Some v) /\ enumerates (tver rops ver) e /\ enumerates (TLDelSub p :: tver rops ver) e'); [done..|].
  intros h1 q t Hq Hl. assert (Hv2 := Hv). destruct Hv2 as (P1 & P2 & P3). assert (Hl2 := Hl). destruct Hl2 as (Hwf & _).
  apply wp_bind. eapply wp_mono; [eapply (dt_delete_sub_wp fuel _ 127); [exact Hf|exact Hq|exact Hwf|exact Hw|exact P3|by eapply dlike_shallow|lia]|].
  cbn beta. intros [n b] h2 W2 [Hsub Hn]. pose proof (dlike_delete_sub _ _ _ p Hl Hv) as Hd. cbn [fst snd]. apply wp_bind.
  eapply wp_mono; [eapply enum_at; [exact Hf|done|eapply droot_mono; [exact Hsub|exact Hq]|exact Hl]|]. cbn beta. intros e h3 W3 (-> & _ & He).
  destruct (d_deleted_sub t p) as [t'|]; cbn [del_post fst snd] in Hn.
  - destruct Hn as [-> Hn], Hd as [Hd (q' & v & Hu & Hg)]. apply wp_bind. eapply wp_mono; [eapply (enum_at _ h2 n t'); [exact Hf|done|by right|exact Hd]|].
    cbn beta. intros e' h3 W4 (-> & _ & He'). cbn [wp]. split_and!; [|done|done]. split; [|done]. intros _. apply under_spec in Hu as (r & ->). eauto.
  - destruct Hn as [[= -> ->] Hn], Hd as [Hd Hg]. apply wp_bind. eapply wp_mono; [eapply (enum_at _ h2 q t); [exact Hf|done|exact Hn|exact Hd]|].
    cbn beta. intros e' h3 W4 (-> & _ & He'). cbn [wp]. split_and!; [|done|done]. split; [done|]. intros (r & v & Hg').
    rewrite Hg in Hg'; [done|]. apply under_spec. eauto.
Qed.
Lemma dt_pf_nowrite h ops rops : Forall2 tresolves ops rops -> ~ del_panics [] rops -> enough fuel (tnames ops) -> 128 <= fuel ->
  wp (run_hist (dt_exec fuel) ops []) h ∅ (fun r h1 _ => forall ver d p v, name_is d p -> ~ too_deep (tver rops ver) p ->
    wp (dt_insert fuel (nth ver r.1 None) d v) h1 ∅ (fun _ h2 _ => h1 ⊆ h2) /\
    wp (dt_delete fuel (nth ver r.1 None) d) h1 ∅ (fun _ h2 _ => h1 ⊆ h2) /\
    wp (dt_delete_subdomains fuel (nth ver r.1 None) d) h1 ∅ (fun _ h2 _ => h1 ⊆ h2)).
Proof.
  intros Hops Hs Hf Hf2. eapply wp_mono; [by apply dt_history|]. cbn beta. intros r h1 _ (_ & _ & H) ver d p v [Hw Hv] Hsh. assert (Hv2 := Hv). destruct Hv2 as (P1 & P2 & P3).
  destruct (H ver) as (t & Hq & Hl). assert (Hwf := proj1 Hl). assert (Hsh' := dlike_shallow _ _ _ _ Hl Hv Hsh). split_and!.
  - eapply wp_mono; [eapply (dt_insert_wp fuel _ 127); [exact Hf|exact Hq|exact Hwf|exact Hw|exact P3|lia]|cbn beta; tauto].
  - eapply wp_mono; [eapply (dt_delete_wp fuel _ 127); [exact Hf|exact Hq|exact Hwf|exact Hw|exact P3|exact Hsh'|lia]|cbn beta; tauto].
  - eapply wp_mono; [eapply (dt_delete_sub_wp fuel _ 127); [exact Hf|exact Hq|exact Hwf|exact Hw|exact P3|exact Hsh'|lia]|cbn beta; tauto].
Qed.

(** ** C28: when the deletions panic. *)
Lemma dt_pf_panic h ops rops : Forall2 tresolves ops rops -> ~ del_panics [] rops -> enough fuel (tnames ops) -> 128 <= fuel ->
  wp (run_hist (dt_exec fuel) ops []) h ∅ (fun r h1 _ => forall ver d p, name_is d p ->
    let q := nth ver r.1 None in
    if (length p =? 127) && (match tlog_get (tver rops ver) p with Some _ => true | None => false end)
    then fails (dt_delete fuel q d) h1 EIndex /\ fails (dt_delete_subdomains fuel q d) h1 EIndex
    else wp (dt_delete fuel q d) h1 ∅ (fun _ h2 _ => h1 ⊆ h2) /\ wp (dt_delete_subdomains fuel q d) h1 ∅ (fun _ h2 _ => h1 ⊆ h2)).
Proof.
  intros Hops Hs Hf Hf2. eapply wp_mono; [by apply dt_history|]. cbn beta. intros r h1 _ (_ & _ & H) ver d p [Hw Hv]. assert (Hv2 := Hv). destruct Hv2 as (P1 & P2 & P3).
  destruct (H ver) as (t & Hq & Hl). assert (Hl2 := Hl). destruct Hl2 as (Hwf & _). cbn zeta.
  assert (Hok : length p <= 126 \/ d_find t p = None ->
    wp (dt_delete fuel (nth ver r.1 None) d) h1 ∅ (fun _ h2 _ => h1 ⊆ h2) /\ wp (dt_delete_subdomains fuel (nth ver r.1 None) d) h1 ∅ (fun _ h2 _ => h1 ⊆ h2)).
  { intros Hd. split.
    - eapply wp_mono; [eapply (dt_delete_wp fuel _ 127); [exact Hf|exact Hq|exact Hwf|exact Hw|exact P3|exact Hd|lia]|cbn beta; tauto].
    - eapply wp_mono; [eapply (dt_delete_sub_wp fuel _ 127); [exact Hf|exact Hq|exact Hwf|exact Hw|exact P3|exact Hd|lia]|cbn beta; tauto]. }
  destruct (Nat.eqb_spec (length p) 127) as [E|E]; cbn [andb]; [|apply Hok; left; lia].
  pose proof (dlike_max _ _ _ p Hl Hv E) as Hm. destruct (d_find t p) as [x|] eqn:Ex.
  - destruct Hm as [v ->]. by eapply (dt_delete_fails fuel _ 127).
  - rewrite Hm. apply Hok. by right.
Qed.

Lemma dt_exec_fails N n h vs gs o ro : enough fuel N -> n <= N -> Forall2 (dtR n h) vs gs -> tresolves o ro -> panics_at gs ro -> fails (dt_exec fuel vs o) h EIndex.
Proof.
  intros HN Hn HR Ho Hp. destruct Ho as [|i d p v Hk|i d p Hk|i d p Hk|i d p Hk|i]; cbn [panics_at] in Hp; try done.
  all: destruct Hk as (Hw & Hv), Hp as [E Hg], (dtR_nth _ _ _ _ i HR) as (t & Hq & Hl); assert (Hwf := proj1 Hl); assert (P3 := proj2 (proj2 Hv)).
  all: pose proof (dlike_max _ _ _ p Hl Hv E) as Hm; destruct (d_find t p) as [x|] eqn:Ex; [|congruence].
  all: unfold dt_exec; apply fails_bind_l.
  all: eapply (dt_delete_fails fuel N 127); [exact HN|exact Hq|eapply wf_mono; [|exact Hwf]; lia|exact Hw|exact P3|exact E|exact Ex].
Qed.
Lemma dt_run_fails N ops rops : enough fuel N -> 128 <= fuel -> Forall2 tresolves ops rops -> forall n h vs gs, n + tnames ops <= N -> Forall2 (dtR n h) vs gs -> del_panics gs rops ->
  fails (run_hist (dt_exec fuel) ops vs) h EIndex.
Proof.
  intros HN Hf. induction 1 as [|o ro ops rops Ho Hops IH]; intros n h vs gs Hn HR Hp; [done|].
  change (tnames (o :: ops)) with (top_size o + tnames ops) in Hn. cbn [run_hist del_panics] in *. destruct Hp as [Hp|[Hp1 Hp2]].
  - apply fails_bind_l. eapply (dt_exec_fails N n); [exact HN|lia|exact HR|exact Ho|exact Hp].
  - eapply fails_bind_r; [apply (dt_exec_ok fuel N n h vs gs o); [exact HN|exact Hf|lia|exact HR|by exists ro]|].
    cbn beta. intros r h1 _ (gs' & (ro' & Ho' & -> & _) & HR'). rewrite <- (tresolves_det _ _ _ Ho Ho') in HR'. apply fails_bind_l.
    apply (IH (n + top_size o) h1 r.1 (tlog_step gs ro)); [lia|exact HR'|exact Hp2].
Qed.
Lemma dt_pf_history h ops rops : Forall2 tresolves ops rops -> enough fuel (tnames ops) -> 128 <= fuel ->
  (~ del_panics [] rops -> wp (run_hist (dt_exec fuel) ops []) h ∅ (fun r h' _ => h ⊆ h' /\ tanswers [] rops r.2)) /\
  (del_panics [] rops -> fails (run_hist (dt_exec fuel) ops []) h EIndex).
Proof.
  intros Hops Hf Hf2. split; intros Hp.
  - eapply wp_mono; [by apply dt_history|]. cbn beta. tauto.
  - by eapply (dt_run_fails (tnames ops) ops rops Hf Hf2 Hops 0).
Qed.

(** ** C30: building in place. *)
Lemma dt_pf_inplace h items items' d' q : Forall2 (fun x y : _ * value => name_is x.1 y.1 /\ x.2 = y.2) items items' -> enough fuel (length items) -> 128 <= fuel ->
  name_is d' q ->
  wp (n <- dt_new ;; dt_fill fuel n items ;;; x <- dt_get fuel n d' ;; e <- dt_enumerate fuel n ;; Ret (x, e)) h ∅
     (fun x h' _ => h ⊆ h' /\ (exists res, closest (rev (map (fun x => TLIns x.1 x.2) items')) q res /\
        x.1 = match res with Some v => (v, true) | None => (VNil, false) end) /\ enumerates (rev (map (fun x => TLIns x.1 x.2) items')) x.2).
Proof.
  intros Hi Hf Hf2 [Hw' (Q1 & Q2 & Q3)]. apply wp_cow0. pose proof (Forall2_length _ _ _ Hi) as Hlen.
  unfold dt_new. apply wp_bind, wp_bind, wp_alloc. intros a Ha. cbn [wp]. apply wp_bind.
  eapply wp_mono. { eapply wp_weaken_W; [eapply (dt_fill_wp fuel 127 items items' Hi ltac:(lia) 0 _ (Some a) d_nil {[a]})|clear; set_solver].
    - left. exists a. split_and!; [done| |done|done]. by rewrite lookup_insert.
    - apply wf_nil.
    - eapply enough_le; [exact Hf|]. lia. }
  cbn beta. intros _ h1 W1 (W2 & (F & Hr & Hwf) & HW & _).
  assert (Hl : dlike (0 + length items') (d_fill items' d_nil) (rev (map (fun x => TLIns x.1 x.2) items') ++ [])).
  { apply dlike_fill; [apply dlike_nil|]. clear -Hi. induction Hi as [|x y ? ? [[_ ?] _]]; constructor; done. }
  rewrite app_nil_r in Hl. apply iroot_drep in Hr. assert (Hf3 : enough fuel (0 + length items')) by (eapply enough_le; [exact Hf|]; lia).
  apply wp_bind. eapply wp_mono; [apply (wp_cow _ _ W1 (fun x h' => h' = h1 /\ x = ores (d_closest (d_fill items' d_nil) q None))); eapply wp_mono; [eapply (dt_get_wp fuel _ 128); [exact Hf3|by right|exact Hwf|exact Hw'|exact Q3]|]|].
  { cbn beta. tauto. }
  cbn beta. intros x h2 W3 ([-> ->] & _). apply wp_bind. eapply wp_mono; [eapply enum_at; [exact Hf3|done|right; exact Hr|exact Hl]|].
  cbn beta. intros e h3 W4 (-> & _ & He). cbn [wp fst snd]. split; [|done]. eexists. split; [by eapply dlike_closest|done].
Qed.

(** ** C31: no dead branches. *)
Lemma rb_entry_in h p k v : rb_entry h p k v -> forall T : RbFun.tree U, rep h p T -> (k, v) ∈ inord T.
Proof.
  induction 1 as [a n Ha|a n k v Ha H IH|a n k v Ha H IH]; intros [|c l k' v' r]; cbn [rep inord]; [done| |done| |done|];
    intros (a' & pl & pr & [= <-] & Ha' & Hl & Hr); rewrite Ha in Ha'; injection Ha' as ->; cbn [rb_key rb_val rb_l rb_r] in *;
    rewrite elem_of_app, elem_of_cons; eauto.
Qed.
Lemma in_rb_entry h k v : forall (T : RbFun.tree U) p, rep h p T -> (k, v) ∈ inord T -> rb_entry h p k v.
Proof.
  induction T as [|c l IHl k' v' r IHr]; intros p; cbn [rep inord]; [by intros _ ?%elem_of_nil|].
  intros (a & pl & pr & -> & Ha & Hl & Hr). rewrite elem_of_app, elem_of_cons. intros [H|[[= -> ->]|H]].
  - eapply re_left; [exact Ha|]. by apply IHl.
  - exact (re_here h a _ Ha).
  - eapply re_right; [exact Ha|]. by apply IHr.
Qed.
Lemma dt_child_inv d h p t q : drep (S d) h p t -> dt_child h p q -> exists k c, (k, c) ∈ d_cs t /\ drep d h q c.
Proof.
  intros (a & nn & l & -> & Ha & Hv & Hl & Hc) H. inversion H as [a' n b r k q' Ha' Hb Hr He]; subst. rewrite Ha in Ha'. injection Ha' as <-.
  rewrite Hb in Hl. cbn [dl_at] in Hl. destruct Hl as (r' & Hr' & T & HT & _ & HE & _). rewrite Hr in Hr'. injection Hr' as <-.
  pose proof (rb_entry_in _ _ _ _ He _ HT) as Hin. rewrite HE in Hin. destruct (Forall2_elem_of_l _ _ _ _ Hc Hin) as ([k' c] & (E1 & q1 & E2 & Hq) & Hin2).
  cbn [fst snd] in *. injection E2 as <-. eauto.
Qed.
Lemma dt_child_of d h p t k c : drep (S d) h p t -> (k, c) ∈ d_cs t -> exists q, dt_child h p q /\ drep d h q c.
Proof.
  intros (a & nn & l & -> & Ha & Hv & Hl & Hc) Hin. destruct (Forall2_elem_of_r _ _ _ _ Hc Hin) as ([k' v] & (E1 & q1 & E2 & Hq) & Hin2).
  cbn [fst snd] in *. subst k' v. exists q1. split; [|done]. destruct (dn_branches nn) as [b|] eqn:Eb; cbn [dl_at] in Hl; [|subst l; by apply elem_of_nil in Hin2].
  destruct Hl as (r & Hr & T & HT & _ & <- & _). eapply dtc; [exact Ha|exact Eb|exact Hr|]. by eapply in_rb_entry.
Qed.
Lemma dt_alive N h : forall d p t, drep d h p t -> wf N d t -> dead t = false -> exists q, rtc (dt_child h) p q /\ has_value h q.
Proof.
  induction d as [|d IH]; intros p t Hp Hwf Hd; [done|]. destruct t as [[v|] cs].
  - exists p. split; [constructor|]. destruct Hp as (a & nn & l & -> & Ha & Hv & _). exists a, nn. split_and!; [done|done|].
    unfold dval in Hv. cbn [d_val] in Hv. by destruct (dn_has nn).
  - destruct cs as [|[k c] cs]; [done|]. destruct (dt_child_of _ _ _ _ k c Hp (elem_of_list_here _ _)) as (q & Hq & Hc).
    apply wf_S in Hwf as (_ & _ & H3). inversion H3 as [|? ? (_ & Hw & Hdc) _]; subst. destruct (IH q c Hc Hw Hdc) as (q' & H1 & H2).
    exists q'. split; [|done]. by eapply rtc_l.
Qed.
Lemma dt_branches_alive N h p q : tc (dt_child h) p q -> forall d t, drep d h p t -> wf N d t -> exists q', rtc (dt_child h) q q' /\ has_value h q'.
Proof.
  induction 1 as [p q Hq|p p' q Hq _ IH]; intros [|d] t Hp Hwf; [done| |done|];
    destruct (dt_child_inv _ _ _ _ _ Hp Hq) as (k & c & Hin & Hc); apply wf_S in Hwf as (_ & _ & H3); rewrite Forall_forall in H3;
    destruct (H3 _ Hin) as (_ & Hw & Hd).
  - by eapply dt_alive.
  - by eapply IH.
Qed.
Lemma dt_pf_alive h ops rops : Forall2 tresolves ops rops -> ~ del_panics [] rops -> enough fuel (tnames ops) -> 128 <= fuel ->
  wp (run_hist (dt_exec fuel) ops []) h ∅ (fun r h1 _ => forall ver q, tc (dt_child h1) (nth ver r.1 None) q ->
    exists q', rtc (dt_child h1) q q' /\ has_value h1 q').
Proof.
  intros Hops Hs Hf Hf2. eapply wp_mono; [by apply dt_history|]. cbn beta. intros r h1 _ (_ & _ & H) ver q Hq.
  destruct (H ver) as (t & [[E _]|Hp] & Hwf & _).
  - exfalso. rewrite E in Hq. clear -Hq. inversion Hq as [? ? H|? ? ? H]; subst; inversion H.
  - by eapply dt_branches_alive.
Qed.
End pf.
