(** * domaintree: histories. *)
From Verif Require Import Prog History RbModel RbSpec RbFun RbFunIns RbFunDel RbSim RbSimIns RbSimOps RbSimDel2 RbAbs StrSpec StrAbs StrPropProofs.
From Verif Require Import DomModel DomSpec DomCodec DomNames DomPropProofs DlModel DlSpec DlAbs DlPropProofs DtModel DtSpec DtFun DtSim DtSim2 DtSim3 DtSim4.

(** ** The client. *)
Section client.
Context {U : Type}.
Local Notation value := (value U).
Variable fuel : nat.
Definition dt_exec (vs : list ptr) (o : top name value) : prog U (list ptr * tout value) :=
  match o with
  | TBuild items => n <- dt_new ;; dt_fill fuel n items ;;; Ret (vs ++ [n], TONone)
  | TInsert i d v => n <- dt_insert fuel (nth i vs None) d v ;; Ret (vs ++ [n], TONone)
  | TDelete i d => x <- dt_delete fuel (nth i vs None) d ;; Ret (vs ++ [x.1], TOBool x.2)
  | TDeleteSub i d => x <- dt_delete_subdomains fuel (nth i vs None) d ;; Ret (vs ++ [x.1], TOBool x.2)
  | TGet i d => x <- dt_get fuel (nth i vs None) d ;; Ret (vs, TOVal (opt_val x))
  | TEnumerate i => l <- dt_enumerate fuel (nth i vs None) ;; Ret (vs, TOList l)
  end.
End client.

Section abs.
Context {U : Type}.
Local Notation heap := (heap U).
Local Notation value := (value U).
Local Notation dtree := (dtree value).
Implicit Types h : heap.
Implicit Types t : dtree.
Variable fuel : nat.

(** ** Trees and logs. *)
Definition dlike (n : nat) t (l : tlog value) : Prop :=
  wf n 128 t /\ (forall p, d_get t p = tlog_get l p) /\ (forall p v, tlog_get l p = Some v -> valid_path p).
Lemma dlike_mono n n' t l : n <= n' -> dlike n t l -> dlike n' t l.
Proof. intros Hn (H1 & H2 & H3). split_and!; [by eapply wf_mono|done|done]. Qed.
Lemma dlike_nil n : dlike n d_nil [].
Proof. split_and!; [by apply wf_nil|apply d_get_nil|done]. Qed.
Lemma dlike_insert n t l p v : dlike n t l -> valid_path p -> dlike (S n) (d_insert t p v) (TLIns p v :: l).
Proof.
  intros (H1 & H2 & H3) (P1 & P2 & P3). split_and!.
  - apply wf_insert; [done|lia|done].
  - intros q. cbn [tlog_get]. rewrite (d_insert_get n v p 128) by (done || lia). by rewrite H2.
  - intros q w. cbn [tlog_get]. destruct (path_eqb p q) eqn:E; [|apply H3]. apply path_eqb_spec in E as <-. done.
Qed.
Lemma dlike_delete n t l p : dlike n t l -> valid_path p ->
  match d_deleted t p with
  | Some t' => dlike n t' (TLDel p :: l) /\ exists v, tlog_get l p = Some v
  | None => dlike n t (TLDel p :: l) /\ tlog_get l p = None
  end.
Proof.
  intros (H1 & H2 & H3) Hp. unfold d_deleted. pose proof (H2 p) as Hg. unfold d_get in Hg.
  assert (Hval : forall q v, tlog_get (TLDel p :: l) q = Some v -> valid_path q).
  { intros q v. cbn [tlog_get]. destruct (path_eqb p q); [done|]. apply H3. }
  assert (Hsame : tlog_get l p = None -> forall q, d_get t q = tlog_get (TLDel p :: l) q).
  { intros E q. cbn [tlog_get]. destruct (path_eqb p q) eqn:E2; [|done]. apply path_eqb_spec in E2 as <-. by rewrite H2. }
  destruct (d_find t p) as [[[v|] cs]|] eqn:E.
  - split; [|eauto]. split_and!; [| |done].
    + eapply wf_upd; [exact H1|exact E|]. destruct (wf_find _ _ _ _ _ H1 E) as [Hx Hlt]. destruct (128 - length p) as [|d']; [done|]. exact Hx.
    + intros q. rewrite (d_upd_get n _ p 128 t _ q H1 E). cbn [tlog_get]. unfold path_eqb. destruct (strip p q) as [r|] eqn:Er; [|apply H2].
      apply strip_spec in Er as ->. destruct r as [|b r]; [done|]. rewrite <- H2. unfold d_get. rewrite d_find_app, E. done.
  - split; [|by rewrite <- Hg]. split_and!; [done| |done]. apply Hsame. by rewrite <- Hg.
  - split; [|by rewrite <- Hg]. split_and!; [done| |done]. apply Hsame. by rewrite <- Hg.
Qed.
Lemma wf_dead N d t : wf N d t -> forall p x, d_find t p = Some x -> p <> [] -> dead x = false.
Proof.
  revert t. induction d as [|d IH]; intros t Ht [|a p] x Hx Hp; try done. cbn [d_find] in Hx. destruct (a_get _ (d_cs t) a) as [c|] eqn:E; [|done].
  apply ag_in in E. destruct Ht as (_ & _ & H). rewrite Forall_forall in H. destruct (H _ E) as (_ & Hc & Hd). cbn [snd] in *.
  destruct p as [|b p]; [simpl in Hx; congruence|]. by eapply IH.
Qed.
Lemma dlike_delete_sub n t l p : dlike n t l -> valid_path p ->
  match d_deleted_sub t p with
  | Some t' => dlike n t' (TLDelSub p :: l) /\ exists q v, under p q = true /\ tlog_get l q = Some v
  | None => dlike n t (TLDelSub p :: l) /\ forall q, under p q = true -> tlog_get l q = None
  end.
Proof.
  intros (H1 & H2 & H3) Hp. unfold d_deleted_sub.
  assert (Hval : forall q v, tlog_get (TLDelSub p :: l) q = Some v -> valid_path q).
  { intros q v. cbn [tlog_get]. destruct (under p q); [done|]. apply H3. }
  assert (Hsame : (forall q, under p q = true -> tlog_get l q = None) -> forall q, d_get t q = tlog_get (TLDelSub p :: l) q).
  { intros E q. cbn [tlog_get]. destruct (under p q) eqn:E2; [|done]. rewrite H2. by apply E. }
  destruct (d_find t p) as [x|] eqn:E.
  - destruct (wf_find _ _ _ _ _ H1 E) as [Hx Hlt].
    assert (Hup : dlike n (d_upd t p d_nil) (TLDelSub p :: l)).
    { split_and!; [| |done].
      - eapply wf_upd; [exact H1|exact E|]. destruct (128 - length p) as [|d0] eqn:E0; [lia|apply wf_nil].
      - intros q. rewrite (d_upd_get n _ p 128 t _ q H1 E). cbn [tlog_get]. unfold under. destruct (strip p q); [apply d_get_nil|apply H2]. }
    assert (Hal : dead x = false -> exists q v, under p q = true /\ tlog_get l q = Some v).
    { intros Hd. destruct (alive n _ x Hx Hd) as (r & v & Hr). exists (p ++ r), v. split; [apply under_spec; eauto|].
      rewrite <- H2. unfold d_get in *. by rewrite d_find_app, E. }
    destruct p as [|a p].
    + destruct (dead x) eqn:Ed; [|by split; [|apply Hal]]. simpl in E. injection E as ->.
      assert (Hnone : forall q, under [] q = true -> tlog_get l q = None) by (intros q _; rewrite <- H2; by apply dead_get).
      split; [|done]. split_and!; [done|by apply Hsame|done].
    + split; [done|]. apply Hal. by apply (wf_dead n 128 t H1 (a :: p)).
  - assert (Hnone : forall q, under p q = true -> tlog_get l q = None) by (intros q Hq; rewrite <- H2; by eapply find_none_get).
    split; [|done]. split_and!; [done|by apply Hsame|done].
Qed.
Lemma dlike_closest n t l p : dlike n t l -> closest l p (d_closest t p None).
Proof.
  intros (H1 & H2 & H3). pose proof (d_closest_spec n p 128 t None H1) as H. unfold closest. destruct (d_closest t p None) as [v|].
  - destruct H as [(m & A & B & C)|[? _]]; [|done]. exists m. rewrite <- H2. split; [done|]. split; [done|]. intros m' Hm'. rewrite <- H2. by apply C.
  - destruct H as [_ H]. intros m Hm. rewrite <- H2. by apply H.
Qed.
Lemma dlike_enum n t l : dlike n t l -> enumerates l (penum (d_enum 128 [] t)).
Proof.
  intros (H1 & H2 & H3). exists (d_enum 128 [] t). split_and!; [by eapply d_enum_sorted| |].
  - intros p v. rewrite (d_enum_in n) by done. rewrite <- H2. split; [by intros (r & -> & Hr)|intros Hr; by exists p].
  - assert (Hall : Forall (fun x => valid_path x.1) (d_enum 128 [] t)).
    { apply Forall_forall. intros [p v] Hin. apply (d_enum_in n) in Hin as (r & -> & Hr); [|done]. cbn [fst Datatypes.app]. eapply (H3 _ v). by rewrite <- H2. }
    unfold penum. induction Hall as [|[p v] l' Hp Hall IH]; [constructor|]. cbn [map]. constructor; [|done]. cbn [fst snd] in *. split; [done|]. by apply ptext_name.
Qed.
(** A name of 127 labels has no subdomains: a node for it has a value. *)
Lemma name_size_ge p : Forall (fun a : bytes => 1 <= length a <= 63 /\ Forall (fun c => upper c = c) a) p -> 2 * length p <= name_size p.
Proof. unfold name_size. induction 1 as [|a p [Ha _] Hp IH]; simpl; [lia|]. lia. Qed.
Lemma dlike_max n t l p : dlike n t l -> valid_path p -> length p = 127 ->
  match d_find t p with Some _ => exists v, tlog_get l p = Some v | None => tlog_get l p = None end.
Proof.
  intros (H1 & H2 & H3) Hp Hl. rewrite <- H2. destruct (d_find t p) as [x|] eqn:E; [|unfold d_get; by rewrite E].
  assert (Hd : dead x = false) by (eapply wf_dead; [exact H1|exact E|by destruct p]).
  destruct (wf_find _ _ _ _ _ H1 E) as [Hx Hlt]. destruct (alive n _ x Hx Hd) as (r & v & Hr).
  assert (Hget : tlog_get l (p ++ r) = Some v). { rewrite <- H2. unfold d_get in *. by rewrite d_find_app, E. }
  apply H3 in Hget as (P1 & P2 & P3). rewrite app_length in P1. destruct r as [|b r]; [|simpl in P1; lia].
  exists v. unfold d_get in *. by rewrite E.
Qed.

(** ** One operation. *)
Definition dtR (n : nat) h (p : ptr) (l : tlog value) : Prop := exists t, droot 128 h p t /\ dlike n t l.
Definition tstep (gs : list (tlog value)) (o : top name value) (gs' : list (tlog value)) (x : tout value) : Prop :=
  exists ro, tresolves o ro /\ gs' = tlog_step gs ro /\ tanswer gs ro x.
Lemma dtR_mono n n' h h' p l : h ⊆ h' -> n <= n' -> dtR n h p l -> dtR n' h' p l.
Proof. intros Hs Hn (t & H1 & H2). exists t. split; [by eapply droot_mono|by eapply dlike_mono]. Qed.
Lemma dtR_Forall2 n n' h h' vs gs : h ⊆ h' -> n <= n' -> Forall2 (dtR n h) vs gs -> Forall2 (dtR n' h') vs gs.
Proof. intros Hs Hn H. eapply Forall2_impl; [exact H|]. intros. by eapply dtR_mono. Qed.
Lemma dtR_nth n h vs gs i : Forall2 (dtR n h) vs gs -> dtR n h (nth i vs None) (tlogs_nth gs i).
Proof.
  unfold tlogs_nth. intros H. revert i. induction H; intros [|i]; simpl; auto; (exists d_nil; split; [by left|apply dlike_nil]).
Qed.
Lemma dlike_fill items : forall n t l, dlike n t l -> Forall (fun x => valid_path x.1) items ->
  dlike (n + length items) (d_fill items t) (rev (map (fun x => TLIns x.1 x.2) items) ++ l).
Proof.
  induction items as [|[p v] items IH]; intros n t l H Hi; cbn [length map rev d_fill Datatypes.app].
  - by rewrite Nat.add_0_r.
  - inversion Hi; subst. rewrite <- app_assoc. replace (n + S (length items)) with (S n + length items) by lia. apply IH; [|done]. by apply dlike_insert.
Qed.

Lemma dlike_shallow n t l p : dlike n t l -> valid_path p -> ~ too_deep l p -> length p <= 126 \/ d_find t p = None.
Proof.
  intros Hl Hv Hn. destruct (decide (length p <= 126)) as [?|Hgt]; [by left|]. right.
  assert (E : length p = 127). { destruct Hv as [? _]. lia. }
  pose proof (dlike_max _ _ _ _ Hl Hv E) as Hm. destruct (d_find t p) as [x|]; [|done]. destruct Hm as [v Hm]. exfalso. apply Hn. split; [done|congruence].
Qed.
Definition tok_op (gs : list (tlog value)) (o : top name value) : Prop := exists ro, tresolves o ro /\ ~ panics_at gs ro.
Lemma short_ok gs o ro : tresolves o ro -> del_short ro -> tok_op gs o.
Proof. intros H1 H2. exists ro. split; [done|]. destruct ro; cbn [del_short panics_at] in *; try tauto; intros [? _]; lia. Qed.
Lemma dt_exec_ok N n h vs gs o : enough fuel N -> 128 <= fuel -> n + top_size o <= N -> Forall2 (dtR n h) vs gs -> tok_op gs o ->
  wp (dt_exec fuel vs o) h ∅ (fun r h' _ => exists gs', tstep gs o gs' r.2 /\ Forall2 (dtR (n + top_size o) h') r.1 gs').
Proof.
  intros HN Hf Hn HR (ro & Ho & Hs). destruct Ho as [items items' Hi|i d p v Hk|i d p Hk|i d p Hk|i d p Hk|i]; cbn [top_size panics_at] in Hn, Hs |- *; unfold dt_exec.
  - pose proof (Forall2_length _ _ _ Hi) as Hlen.
    assert (Hw : wp (n <- dt_new ;; dt_fill fuel n items ;;; Ret n) h ∅ (fun p h' _ => drep 128 h' p (d_fill items' d_nil))).
    { unfold dt_new. apply wp_bind, wp_bind, wp_alloc. intros a Ha. cbn [wp]. apply wp_bind.
      eapply wp_mono. { eapply wp_weaken_W; [eapply (dt_fill_wp fuel 127 items items' Hi ltac:(lia) 0 _ (Some a) d_nil {[a]})|clear; set_solver].
        - left. exists a. by rewrite lookup_insert.
        - apply wf_nil.
        - eapply enough_le; [exact HN|]. lia. }
      cbn beta. intros _ h' W' (W2 & (F & Hr & _) & _). cbn [wp]. by eapply iroot_drep. }
    apply wp_bind_inv in Hw.
    apply wp_bind. eapply wp_mono; [apply (wp_frame _ _ _ _ Hw)|]. cbn beta. intros p h1 W1 [Hw1 [Hun HG]].
    apply wp_bind_inv in Hw1. apply wp_bind. eapply wp_mono; [apply (wp_frame _ _ _ _ Hw1)|].
    cbn beta. intros _ h2 W2 [Hp [Hun2 HG2]]. cbn [wp fst snd] in Hp |- *.
    assert (h ⊆ h2) as Hsub.
    { apply map_subseteq_spec. intros x y Hx. apply Hun2; [by apply Hun; [|clear; set_solver]|].
      destruct HG as (_ & _ & HG). intros Hin%HG. destruct Hin as [?|?]; [set_solver|congruence]. }
    eexists. split; [eexists; split_and!; [by constructor|done|done]|].
    cbn [tlog_step]. apply Forall2_app; [eapply dtR_Forall2; [exact Hsub| |exact HR]; lia|].
    constructor; [|constructor]. exists (d_fill items' d_nil). split; [by right|]. rewrite <- (app_nil_r (rev _)).
    apply dlike_mono with (n := 0 + length items'); [lia|]. apply dlike_fill; [apply dlike_nil|]. clear -Hi.
    induction Hi as [|x y ? ? [[_ ?] _]]; constructor; done.
  - destruct (dtR_nth _ _ _ _ i HR) as (t & Hp & Hl). assert (Hl2 := Hl). destruct Hl2 as (Hwf & _). destruct Hk as (Hw & Hv). assert (Hv2 := Hv). destruct Hv2 as (P1 & P2 & P3).
    apply wp_bind. eapply wp_mono; [eapply (dt_insert_wp fuel N 127); [exact HN|exact Hp|eapply wf_mono; [|exact Hwf]; lia|exact Hw|exact P3|lia]|].
    cbn beta. intros q h' W' [Hsub Hq]. cbn [wp fst snd]. eexists. split; [eexists; split_and!; [by constructor|done|done]|].
    cbn [tlog_step]. apply Forall2_app; [eapply dtR_Forall2; [exact Hsub| |exact HR]; lia|].
    constructor; [|constructor]. exists (d_insert t p v). split; [by right|]. rewrite Nat.add_1_r. by apply dlike_insert.
  - destruct (dtR_nth _ _ _ _ i HR) as (t & Hp & Hl). assert (Hl2 := Hl). destruct Hl2 as (Hwf & _). destruct Hk as (Hw & Hv). assert (Hv2 := Hv). destruct Hv2 as (P1 & P2 & P3).
    apply wp_bind. eapply wp_mono; [eapply (dt_delete_wp fuel N 127); [exact HN|exact Hp|eapply wf_mono; [|exact Hwf]; lia|exact Hw|exact P3|by eapply dlike_shallow|lia]|].
    cbn beta. intros [q b] h' W' [Hsub Hq]. cbn [wp fst snd]. pose proof (dlike_delete _ _ _ p Hl Hv) as Hd.
    eexists. split; [eexists; split_and!; [by constructor|done|]|].
    + cbn [tanswer]. destruct (d_deleted t p) as [t'|]; cbn [del_post fst snd] in Hq.
      * destruct Hd as [_ [v ->]]. by destruct Hq as [-> _].
      * destruct Hd as [_ ->]. by destruct Hq as [[= -> ->] _].
    + cbn [tlog_step]. rewrite Nat.add_0_r. apply Forall2_app; [eapply dtR_Forall2; [exact Hsub| |exact HR]; lia|]. constructor; [|constructor].
      destruct (d_deleted t p) as [t'|]; cbn [del_post fst snd] in Hq.
      * exists t'. split; [right; by destruct Hq as [_ ?]|by destruct Hd].
      * exists t. destruct Hq as [[= -> ->] ?]. split; [done|by destruct Hd].
  - destruct (dtR_nth _ _ _ _ i HR) as (t & Hp & Hl). assert (Hl2 := Hl). destruct Hl2 as (Hwf & _). destruct Hk as (Hw & Hv). assert (Hv2 := Hv). destruct Hv2 as (P1 & P2 & P3).
    apply wp_bind. eapply wp_mono; [eapply (dt_delete_sub_wp fuel N 127); [exact HN|exact Hp|eapply wf_mono; [|exact Hwf]; lia|exact Hw|exact P3|by eapply dlike_shallow|lia]|].
    cbn beta. intros [q b] h' W' [Hsub Hq]. cbn [wp fst snd]. pose proof (dlike_delete_sub _ _ _ p Hl Hv) as Hd.
    eexists. split; [eexists; split_and!; [by constructor|done|]|].
    + cbn [tanswer]. exists b. split; [done|]. destruct (d_deleted_sub t p) as [t'|]; cbn [del_post fst snd] in Hq.
      * destruct Hd as [_ Hd]. destruct Hq as [-> _]. done.
      * destruct Hd as [_ Hd]. destruct Hq as [[= -> ->] _]. split; [done|]. intros (q' & v & Hq' & Hv'). rewrite Hd in Hv'; done.
    + cbn [tlog_step]. rewrite Nat.add_0_r. apply Forall2_app; [eapply dtR_Forall2; [exact Hsub| |exact HR]; lia|]. constructor; [|constructor].
      destruct (d_deleted_sub t p) as [t'|]; cbn [del_post fst snd] in Hq.
      * exists t'. split; [right; by destruct Hq as [_ ?]|by destruct Hd].
      * exists t. destruct Hq as [[= -> ->] ?]. split; [done|by destruct Hd].
  - destruct (dtR_nth _ _ _ _ i HR) as (t & Hp & Hl). assert (Hl2 := Hl). destruct Hl2 as (Hwf & _). destruct Hk as (Hw & Hv). assert (Hv2 := Hv). destruct Hv2 as (P1 & P2 & P3).
    apply wp_bind. eapply wp_mono; [eapply (dt_get_wp fuel N 128); [exact HN|exact Hp|eapply wf_mono; [|exact Hwf]; lia|exact Hw|exact P3]|].
    cbn beta. intros x h' W' [-> ->]. cbn [wp fst snd]. eexists. split; [eexists; split_and!; [by constructor|done|]|].
    + cbn [tanswer]. exists (d_closest t p None). split; [|by eapply dlike_closest]. by destruct (d_closest t p None).
    + by rewrite Nat.add_0_r.
  - destruct (dtR_nth _ _ _ _ i HR) as (t & Hp & Hl). assert (Hl2 := Hl). destruct Hl2 as (Hwf & _).
    apply wp_bind. eapply wp_mono; [eapply (dt_enumerate_wp fuel N 128); [exact HN|exact Hf|exact Hp|eapply wf_mono; [|exact Hwf]; lia]|].
    cbn beta. intros x h' W' [-> ->]. cbn [wp fst snd]. eexists. split; [eexists; split_and!; [by constructor|done|]|].
    + cbn [tanswer]. eexists. split; [done|]. by eapply dlike_enum.
    + by rewrite Nat.add_0_r.
Qed.

(** ** Histories. *)
Lemma wire_inj p : forall q, Forall (fun a : bytes => length a <= 63) p -> Forall (fun a : bytes => length a <= 63) q -> wire p = wire q -> p = q.
Proof.
  unfold wire. induction p as [|a p IH]; intros [|b q] Hp Hq E; [done|done|done|]. cbn [map List.concat] in E. inversion Hp; inversion Hq; subst.
  injection E as E1 E2.
  assert (El : length a = length b). { rewrite <- (len_byte_N (length a)), <- (len_byte_N (length b)) by lia. by rewrite E1. }
  apply app_inj_1 in E2 as [-> E2]; [|done]. f_equal. by apply IH.
Qed.
Lemma name_is_det d p q : name_is d p -> name_is d q -> p = q.
Proof.
  intros (H1 & _ & _ & H2) (H3 & _ & _ & H4). apply wire_inj; [..|congruence]; (eapply Forall_impl; [exact H2 || exact H4|]; cbn beta; intros; lia).
Qed.
Lemma titems_det (items : list (name * value)) i1 : Forall2 (fun x y => name_is x.1 y.1 /\ x.2 = y.2) items i1 ->
  forall i2, Forall2 (fun x y => name_is x.1 y.1 /\ x.2 = y.2) items i2 -> i1 = i2.
Proof.
  induction 1 as [|[k v] [k1 v1] items i1 [H1 H2] H IH]; intros i2 H'; inversion H' as [|? [k2 v2] ? ? [H3 H4]]; subst; [done|].
  simpl in *. subst. f_equal; [|auto]. f_equal. by eapply name_is_det.
Qed.
Lemma tresolves_det (o : top name value) r1 r2 : tresolves o r1 -> tresolves o r2 -> r1 = r2.
Proof. destruct 1; inversion 1; subst; try done; try (f_equal; by eapply name_is_det). f_equal. by eapply titems_det. Qed.
Lemma tspec_run ops rops : Forall2 tresolves ops rops -> forall gs gs' outs, spec_run tstep ops gs gs' outs ->
  gs' = fold_left tlog_step rops gs /\ tanswers gs rops outs.
Proof.
  induction 1 as [|o ro ops rops Ho H IH]; intros gs gs' [|x outs] Hr; simpl in Hr; try done.
  destruct Hr as (gs1 & (ro' & Ho' & Hst & Ha) & Hr). rewrite <- (tresolves_det _ _ _ Ho Ho') in Hst, Ha. subst gs1.
  apply IH in Hr as [-> Hr]. done.
Qed.
Lemma fine_cons (o : top path value) gs ops : ~ del_panics gs (o :: ops) -> ~ panics_at gs o /\ ~ del_panics (tlog_step gs o) ops.
Proof. cbn [del_panics]. intros H. assert (~ panics_at gs o) by tauto. split; [done|tauto]. Qed.
Lemma short_fine (ops : list (top path value)) : Forall del_short ops -> forall gs, ~ del_panics gs ops.
Proof.
  induction 1 as [|o ops Ho H IH]; intros gs; cbn [del_panics]; [tauto|]. intros [Hp|[_ Hp]]; [|by eapply IH].
  destruct o; cbn [del_short panics_at] in *; try done; destruct Hp as [? _]; lia.
Qed.
Definition tgood (gs : list (tlog value)) (ops : list (top name value)) : Prop := exists rops, Forall2 tresolves ops rops /\ ~ del_panics gs rops.
Lemma dt_history h ops rops : Forall2 tresolves ops rops -> ~ del_panics [] rops -> enough fuel (tnames ops) -> 128 <= fuel ->
  wp (run_hist (dt_exec fuel) ops []) h ∅ (fun r h' _ => h ⊆ h' /\ tanswers [] rops r.2 /\
    forall ver, dtR (tnames ops) h' (nth ver r.1 None) (tver rops ver)).
Proof.
  intros Hops Hs Hf Hf2. apply wp_cow0. eapply wp_mono.
  - apply (run_hist_wp_s (dt_exec fuel) tstep dtR tgood top_size (tnames ops)) with (n := 0) (ss := []);
      [| |constructor|done].
    + intros n h1 vs gs o ops1 Hn HR (rops1 & Hr1 & Hg). inversion Hr1 as [|? ro ? rops2 Ho Hr2]; subst. apply fine_cons in Hg as [Hg1 Hg2].
      eapply wp_mono; [apply (dt_exec_ok (tnames ops) n h1 vs gs o); try done; by exists ro|].
      cbn beta. intros r h' _ (gs' & (ro' & Ho' & E & Ha) & HR'). rewrite <- (tresolves_det _ _ _ Ho Ho') in E, Ha. exists gs'. split; [by exists ro|]. split; [done|].
      rewrite E. by exists rops2.
    + by exists rops.
  - cbn beta. intros r h' _ (gs' & Hr & HR). destruct (tspec_run _ _ Hops _ _ _ Hr) as [E1 E2]. split; [done|]. rewrite E1 in HR.
    intros ver. exact (dtR_nth _ _ _ _ ver HR).
Qed.
End abs.
