(** * Proofs of the statements of Properties_dltree.v. *)
From Verif Require Import Prog History RbModel RbSpec RbFun RbFunIns RbFunDel RbSim RbSimIns RbSimOps RbSimDel2 RbAbs StrSpec StrAbs StrPropProofs.
From Verif Require Import DomModel DomSpec DomPropProofs DlModel DlSpec DlAbs.

Definition dkeys {U} (ops : list (dop (value U))) : nat := weight dop_weight ops.

Lemma bytes_eqb_cmp k k' : bytes_eqb k k' = (dl_compare k k' =? 0)%Z.
Proof.
  unfold bytes_eqb. destruct (List.list_eq_dec Byte.byte_eq_dec k k') as [->|H].
  - by rewrite (proj2 (dl_compare_eq k' k') eq_refl).
  - symmetry. apply Z.eqb_neq. by rewrite dl_compare_eq.
Qed.
Lemma bytes_eqb_true k k' : bytes_eqb k k' = true <-> k = k'.
Proof. unfold bytes_eqb. by destruct (List.list_eq_dec Byte.byte_eq_dec k k'). Qed.
Lemma bytes_eqb_sym k k' : bytes_eqb k k' = bytes_eqb k' k.
Proof. unfold bytes_eqb. destruct (List.list_eq_dec _ k k'), (List.list_eq_dec _ k' k); congruence. Qed.
Lemma klog_get_log {V} (l : list (lop V)) k : log_get dl_compare l k = klog_get l k.
Proof. induction l as [|[k' v|k'] l IH]; simpl; [done|by rewrite <- bytes_eqb_cmp, IH..]. Qed.

Lemma invalid_label_of s e : make_label s = DErr e -> invalid_label s.
Proof. intros E. apply make_label_iff in E. destruct e; simpl in E; try done; [by left|by right]. Qed.

Section proofs.
Context {U : Type}.
Local Notation heap := (heap U).
Local Notation value := (value U).
Implicit Types h : heap.
Variable fuel : nat.

Lemma resolves_lawful (ops : list (dop value)) rops : Forall2 resolves ops rops -> Forall sop_lawful rops.
Proof. induction 1 as [|o ro ops rops Ho H IH]; constructor; [|done]. destruct Ho; simpl; try done. apply dl_compare_lawful. Qed.

(** The content of a version. *)
Lemma dl_log_at (ops : list (dop value)) rops ver l : Forall2 resolves ops rops ->
  smaps_nth dl_compare (smaps dl_compare rops []) ver = (dl_compare, l) ->
  ordered dl_compare l /\ forall k, a_get dl_compare l k = klog_get (dl_log rops ver) k.
Proof.
  intros H E. destruct (smap_log dl_compare dl_compare_lawful rops ver (resolves_lawful _ _ H)) as (_ & _ & H3 & H4).
  rewrite E in H3, H4. simpl in *. split; [done|]. intros k. by rewrite H4, klog_get_log.
Qed.
(** Any calls after any history. *)
Lemma dl_after h (ops : list (dop value)) rops ver {A} (body : ptr -> prog U A) (Q : A -> Prop) :
  Forall2 resolves ops rops -> enough fuel (dkeys ops) ->
  (forall h1 p l, dl_at h1 p l -> length l <= dkeys ops -> ordered dl_compare l ->
     smaps_nth dl_compare (smaps dl_compare rops []) ver = (dl_compare, l) ->
     (forall k, a_get dl_compare l k = klog_get (dl_log rops ver) k) -> wp (body p) h1 ∅ (fun a _ _ => Q a)) ->
  wp (r <- run_hist (dl_exec fuel) ops [] ;; body (nth ver r.1 None)) h ∅ (fun a h' _ => h ⊆ h' /\ Q a).
Proof.
  intros Hops Hf Hb. eapply (wp_then _ _ _ _ (fun a _ => Q a)).
  - eapply wp_mono; [by apply dl_history|]. cbn beta. intros r h' _ (_ & _ & H). exact (H ver).
  - cbn beta. intros r h1 _ (l & E & Hat & Hl). destruct (dl_log_at _ _ _ _ Hops E) as [H1 H2]. by eapply Hb.
Qed.
Lemma dl_pf_get h (ops : list (dop value)) rops ver k : Forall2 resolves ops rops -> enough fuel (dkeys ops) ->
  wp (r <- run_hist (dl_exec fuel) ops [] ;; dl_raw_get fuel (nth ver r.1 None) k) h ∅
     (fun res h' _ => h ⊆ h' /\ res = match klog_get (dl_log rops ver) k with Some v => (v, true) | None => (VNil, false) end).
Proof.
  intros Hops Hf. apply dl_after with (body := fun p => dl_raw_get fuel p k) (rops := rops)
    (Q := fun res => res = match klog_get (dl_log rops ver) k with Some v => (v, true) | None => (VNil, false) end); [done|done|].
  intros h1 p l Hat Hl Ho E Hg. eapply wp_mono; [eapply dl_get_at; [exact Hat|by eapply enough_get]|].
  cbn beta. intros res h' _ [_ ->]. by rewrite Hg.
Qed.
Lemma dl_pf_history h (ops : list (dop value)) rops : Forall2 resolves ops rops -> enough fuel (dkeys ops) ->
  wp (run_hist (dl_exec fuel) ops []) h ∅ (fun r h' _ => h ⊆ h' /\ r.2 = souts dl_compare rops []).
Proof. intros. eapply wp_mono; [by apply dl_history|]. cbn beta. tauto. Qed.
Lemma a_get_in (l : list (bytes * value)) k v : ordered dl_compare l -> (k, v) ∈ l <-> a_get dl_compare l k = Some v.
Proof.
  intros Ho. unfold a_get. split.
  - intros Hin. induction l as [|x l IH]; [by inversion Hin|].
    simpl. inversion Ho as [|? ? Ho' Hall]; subst. unfold same_key.
    apply elem_of_cons in Hin as [<-|Hin].
    + simpl. by rewrite (cmp_refl _ dl_compare_lawful).
    + assert (dl_compare x.1 k <> 0)%Z. { rewrite Forall_forall in Hall. apply Hall in Hin. simpl in Hin. lia. }
      destruct (Z.eqb_spec (dl_compare x.1 k) 0); [done|]. by apply IH.
  - intros (x & Hx & ->)%fmap_Some. apply find_some in Hx as [Hin Hk]. unfold same_key in Hk.
    apply Z.eqb_eq, dl_compare_eq in Hk as <-. destruct x. by apply elem_of_list_In.
Qed.
Lemma ordered_shortlex (l : list (bytes * value)) : ordered dl_compare l -> StronglySorted (fun x y => shortlex_lt x.1 y.1) l.
Proof.
  unfold ordered. induction 1 as [|x l H IH Hall]; constructor; [done|]. eapply Forall_impl; [exact Hall|].
  intros y Hy. by apply dl_compare_lt.
Qed.
Lemma dl_pf_enumerate h (ops : list (dop value)) rops ver : Forall2 resolves ops rops -> enough fuel (dkeys ops) ->
  wp (r <- run_hist (dl_exec fuel) ops [] ;; dl_raw_enumerate fuel (nth ver r.1 None)) h ∅
     (fun e h' _ => h ⊆ h' /\ StronglySorted (fun x y => shortlex_lt x.1 y.1) e /\
        forall k v, (k, v) ∈ e <-> klog_get (dl_log rops ver) k = Some v).
Proof.
  intros Hops Hf. apply dl_after with (body := fun p => dl_raw_enumerate fuel p) (rops := rops)
    (Q := fun e => StronglySorted (fun x y => shortlex_lt x.1 y.1) e /\ forall k v, (k, v) ∈ e <-> klog_get (dl_log rops ver) k = Some v); [done|done|].
  intros h1 p l Hat Hl Ho E Hg. eapply wp_mono; [eapply dl_enumerate_at; [exact Hat|by eapply enough_get]|].
  cbn beta. intros e h' _ [-> _]. split; [by apply ordered_shortlex|]. intros k v. by rewrite a_get_in, Hg.
Qed.
Lemma dl_pf_delete h (ops : list (dop value)) rops ver k : Forall2 resolves ops rops -> enough fuel (dkeys ops) ->
  wp (r <- run_hist (dl_exec fuel) ops [] ;;
      e <- dl_raw_enumerate fuel (nth ver r.1 None) ;;
      d <- dl_raw_delete fuel (nth ver r.1 None) k ;;
      e' <- dl_raw_enumerate fuel d.1 ;; Ret (e, d.2, e')) h ∅
     (fun '(e, found, e') h' _ => h ⊆ h' /\
        found = existsb (fun x => bytes_eqb x.1 k) e /\ e' = List.filter (fun x => negb (bytes_eqb x.1 k)) e).
Proof.
  intros Hops Hf. eapply wp_mono; [apply dl_after with (body := fun p => e <- dl_raw_enumerate fuel p ;;
      d <- dl_raw_delete fuel p k ;;
      e' <- dl_raw_enumerate fuel d.1 ;; Ret (e, d.2, e')) (rops := rops) (Q := fun '(e, found, e') =>
        found = existsb (fun x => bytes_eqb x.1 k) e /\ e' = List.filter (fun x => negb (bytes_eqb x.1 k)) e); [done|done|]|].
  - intros h1 p l Hat Hl Ho E _. apply wp_bind. eapply wp_mono; [eapply dl_enumerate_at; [exact Hat|by eapply enough_get]|].
    cbn beta. intros e h2 W2 [-> ->]. apply wp_bind.
    eapply wp_mono; [apply (wp_cow _ _ W2 (fun d h' => dl_at h' d.1 (a_delete dl_compare l k) /\ d.2 = a_deleted dl_compare l k));
      eapply wp_mono; [eapply dl_delete_at; [exact Hat|by eapply enough_le]|]; cbn beta; tauto|].
    cbn beta. intros d h3 W3 ([Hd Hf2] & _). apply wp_bind.
    eapply wp_mono; [apply (wp_cow _ _ W3 (fun e h' => e = a_delete dl_compare l k)); eapply wp_mono; [eapply dl_enumerate_at; [exact Hd|]|]; [|cbn beta; tauto]|].
    { eapply enough_get; [exact Hf|]. pose proof (a_delete_len l k). lia. }
    cbn beta. intros e h4 W4 [-> _]. cbn [wp]. rewrite Hf2. unfold a_deleted, a_delete, same_key. split.
    + clear. induction l as [|x l IH]; simpl; [done|]. by rewrite <- bytes_eqb_cmp, IH.
    + clear. induction l as [|x l IH]; simpl; [done|]. by rewrite <- bytes_eqb_cmp, IH.
  - cbn beta. intros [[e found] e'] h' _ H. exact H.
Qed.
Lemma dl_pf_nowrite h (ops : list (dop value)) rops : Forall2 resolves ops rops -> enough fuel (dkeys ops) ->
  wp (run_hist (dl_exec fuel) ops []) h ∅ (fun r h1 _ => forall ver k v,
    wp (dl_raw_insert fuel (nth ver r.1 None) k v) h1 ∅ (fun _ h2 _ => h1 ⊆ h2) /\
    wp (dl_raw_delete fuel (nth ver r.1 None) k) h1 ∅ (fun _ h2 _ => h1 ⊆ h2)).
Proof.
  intros Hops Hf. eapply wp_mono; [by apply dl_history|]. cbn beta. intros r h1 _ (_ & _ & H) ver k v.
  destruct (H ver) as (l & _ & Hat & Hl). split.
  - eapply wp_mono; [eapply dl_insert_at; [exact Hat|by eapply enough_le]|]. cbn beta. tauto.
  - eapply wp_mono; [eapply dl_delete_at; [exact Hat|by eapply enough_le]|]. cbn beta. tauto.
Qed.
Lemma dl_pf_depth h (ops : list (dop value)) rops ver k : Forall2 resolves ops rops -> enough fuel (dkeys ops) ->
  wp (r <- run_hist (dl_exec fuel) ops [] ;;
      e <- dl_raw_enumerate fuel (nth ver r.1 None) ;;
      dl_raw_get (2 * Nat.log2 (length e + 1)) (nth ver r.1 None) k) h ∅ (fun _ h' _ => h ⊆ h').
Proof.
  intros Hops Hf. eapply wp_mono; [apply dl_after with (body := fun p => e <- dl_raw_enumerate fuel p ;;
      dl_raw_get (2 * Nat.log2 (length e + 1)) p k) (rops := rops) (Q := fun _ => True); [done|done|]|cbn beta; tauto].
  intros h1 p l Hat Hl Ho E _. apply wp_bind. eapply wp_mono; [eapply dl_enumerate_at; [exact Hat|by eapply enough_get]|].
  cbn beta. intros e h2 W2 [-> ->].
  eapply wp_mono; [apply (wp_cow _ _ W2 (fun _ _ => True)); eapply wp_mono; [eapply dl_get_at; [exact Hat|done]|done]|done].
Qed.

(** Enumerate. *)
Definition print1 (x : bytes * value) : option (bytes * value) :=
  match make_human_label x.1 with Some k => Some (k, x.2) | None => None end.
Fixpoint print_all (l : list (bytes * value)) : option (list (bytes * value)) :=
  match l with
  | [] => Some []
  | x :: l => match print1 x, print_all l with Some y, Some l => Some (y :: l) | _, _ => None end
  end.
Lemma print_all_app l1 l2 : print_all (l1 ++ l2) =
  match print_all l1, print_all l2 with Some a, Some b => Some (a ++ b) | _, _ => None end.
Proof.
  induction l1 as [|x l1 IH]; simpl; [by destruct (print_all l2)|]. rewrite IH. destruct (print1 x); [|done].
  destruct (print_all l1); [|done]. by destruct (print_all l2).
Qed.
Lemma dl_node_enumerate_wp n : forall h p t, rep h p t -> height t <= n ->
  match print_all (inord t) with
  | Some e => forall W, wp (dl_node_enumerate n p) h W (fun x h' W' => x = e /\ h' = h /\ W' = W)
  | None => fails (dl_node_enumerate n p) h EIndex
  end.
Proof.
  induction n as [|n IH]; intros h p t Ht Hh; destruct t as [|c tl k v tr]; try (simpl in Ht; subst; done); [simpl in Hh; lia|].
  destruct Ht as (a & pl & pr & -> & Ha & Hl & Hr). simpl in Hh. cbn [inord]. rewrite print_all_app. cbn [print_all].
  pose proof (IH h pl tl Hl ltac:(lia)) as H1. pose proof (IH h pr tr Hr ltac:(lia)) as H2. unfold print1. cbn [fst snd].
  cbn [dl_node_enumerate].
  destruct (print_all (inord tl)) as [e1|].
  2: { eapply (fails_bind_r _ _ _ ∅ _ (fun nn h' _ => nn = RbN k v pl pr c /\ h' = h)); [by eapply wp_ld_rb|].
       intros nn h' _ [-> ->]. apply fails_bind_l. exact H1. }
  destruct (make_human_label k) as [hk|] eqn:Ek.
  2: { eapply (fails_bind_r _ _ _ ∅ _ (fun nn h' _ => nn = RbN k v pl pr c /\ h' = h)); [by eapply wp_ld_rb|].
       intros nn h' _ [-> ->]. cbn [rb_l rb_r rb_key rb_val]. eapply fails_bind_r; [apply (H1 ∅)|]. intros x h' W' (-> & -> & ->).
       rewrite Ek. done. }
  destruct (print_all (inord tr)) as [e2|].
  2: { eapply (fails_bind_r _ _ _ ∅ _ (fun nn h' _ => nn = RbN k v pl pr c /\ h' = h)); [by eapply wp_ld_rb|].
       intros nn h' _ [-> ->]. cbn [rb_l rb_r rb_key rb_val]. eapply fails_bind_r; [apply (H1 ∅)|]. intros x h' W' (-> & -> & ->).
       rewrite Ek. cbn [bind]. apply fails_bind_l. exact H2. }
  intros W. apply wp_bind. eapply wp_ld_rb; [exact Ha|]. cbn [rb_l rb_r rb_key rb_val].
  apply wp_bind. eapply wp_mono; [apply H1|]. cbn beta. intros x h' W' (-> & -> & ->). rewrite Ek. cbn [bind].
  apply wp_bind. eapply wp_mono; [apply H2|]. cbn beta. intros x h' W' (-> & -> & ->). done.
Qed.
Lemma dl_enumerate_text_at h p l : dl_at h p l -> 2 * Nat.log2 (length l + 1) <= fuel ->
  match print_all l with
  | Some e => wp (dl_enumerate fuel p) h ∅ (fun x h' _ => x = e /\ h' = h)
  | None => fails (dl_enumerate fuel p) h EIndex
  end.
Proof.
  intros Hp Hf. destruct p as [a|]; cbn [dl_enumerate]; [|by simpl in Hp; subst l].
  destruct Hp as (r & Ha & (t & Hr & Hb & <- & Ho)). pose proof (rbt_height t Hb) as Hh. fold (size t) in Hf.
  pose proof (dl_node_enumerate_wp fuel h r t Hr ltac:(lia)) as H. destruct (print_all (inord t)) as [e|].
  - apply wp_bind. eapply wp_ld_dl; [exact Ha|]. eapply wp_mono; [apply H|]. cbn beta. tauto.
  - eapply (fails_bind_r _ _ _ ∅ _ (fun nn h' _ => nn = r /\ h' = h)); [by eapply wp_ld_dl|]. intros nn h' _ [-> ->]. exact H.
Qed.
Lemma print_all_ok (l : list (bytes * value)) : Forall (fun x : bytes * value => length x.1 <= 63) l ->
  exists e, print_all l = Some e /\ Forall2 (fun x' x => x'.2 = x.2 /\ make_label x'.1 = DOk (map upper x.1)) e l.
Proof.
  induction 1 as [|x l Hx H (e & E & F)]; [exists []; by split; [|constructor]|].
  destruct (pf_roundtrip x.1 Hx) as (k & E1 & E2). exists ((k, x.2) :: e). split.
  - cbn [print_all]. replace (print1 x) with (Some (k, x.2)) by (unfold print1; destruct x as [xk xv]; cbn [fst snd] in *; rewrite E1; done). by rewrite E.
  - by constructor.
Qed.
Lemma print_all_none l : print_all l = None <-> exists x, x ∈ l /\ make_human_label x.1 = None.
Proof.
  induction l as [|x l IH]; simpl.
  - split; [done|]. intros (x & Hx & _). by inversion Hx.
  - split.
    + unfold print1. destruct (make_human_label x.1) eqn:E; [|intros _; exists x; split; [left|done]].
      destruct (print_all l); [done|]. intros _. destruct (proj1 IH eq_refl) as (y & Hy & Ey). exists y. split; [by right|done].
    + intros (y & Hy & Ey). apply elem_of_cons in Hy as [->|Hy]; [unfold print1; by rewrite Ey|].
      destruct (print1 x); [|done]. rewrite (proj2 IH); [done|]. by exists y.
Qed.
Lemma dl_pf_print h (ops : list (dop value)) rops : Forall2 resolves ops rops -> enough fuel (dkeys ops) ->
  wp (run_hist (dl_exec fuel) ops []) h ∅ (fun r h1 _ => forall ver,
    wp (dl_raw_enumerate fuel (nth ver r.1 None)) h1 ∅ (fun e h2 _ => h2 = h1 /\
      (Forall (fun x => length x.1 <= 63) e ->
         wp (dl_enumerate fuel (nth ver r.1 None)) h1 ∅ (fun e' h2 _ => h2 = h1 /\
           Forall2 (fun x' x => x'.2 = x.2 /\ make_label x'.1 = DOk (map upper x.1)) e' e)) /\
      ((exists x, x ∈ e /\ make_human_label x.1 = None) -> fails (dl_enumerate fuel (nth ver r.1 None)) h1 EIndex))).
Proof.
  intros Hops Hf. eapply wp_mono; [by apply dl_history|]. cbn beta. intros r h1 _ (_ & _ & H) ver.
  destruct (H ver) as (l & _ & Hat & Hl). pose proof (enough_get _ _ _ Hf Hl) as Hg.
  eapply wp_mono; [eapply dl_enumerate_at; [exact Hat|exact Hg]|].
  cbn beta. intros e h2 _ [-> ->]. split; [done|]. pose proof (dl_enumerate_text_at h1 _ l Hat Hg) as Ht. split.
  - intros Hk. destruct (print_all_ok l Hk) as (e & E & F). rewrite E in Ht. eapply wp_mono; [exact Ht|]. cbn beta. intros x h2' _ [-> ->]. done.
  - intros Hx. apply print_all_none in Hx. by rewrite Hx in Ht.
Qed.

(** The keys of a version come from the keys of the history. *)
Definition sop_keys (P : bytes -> Prop) (o : sop value) : Prop :=
  match o with SBuild _ items => Forall (fun x => P x.1) items | SInsert _ k _ => P k | _ => True end.
Lemma a_insert_keys (P : bytes -> Prop) (l : list (bytes * value)) c k v : P k -> Forall (fun x => P x.1) l -> Forall (fun x => P x.1) (a_insert c l k v).
Proof.
  intros Hk Hl. unfold a_insert. destruct (existsb _ l).
  - apply Forall_fmap. eapply Forall_impl; [exact Hl|]. intros x Hx. unfold compose. by destruct (same_key c k x.1).
  - apply Forall_app. split; [|constructor; [done|]]; rewrite List.Forall_forall in Hl |- *; intros x Hx%filter_In; by apply Hl, Hx.
Qed.
Lemma a_delete_keys (P : bytes -> Prop) (l : list (bytes * value)) c k : Forall (fun x => P x.1) l -> Forall (fun x => P x.1) (a_delete c l k).
Proof. intros Hl. unfold a_delete. rewrite List.Forall_forall in Hl |- *. intros x Hx%filter_In. by apply Hl, Hx. Qed.
Lemma smaps_keys (P : bytes -> Prop) (rops : list (sop value)) : Forall (sop_keys P) rops -> forall ss,
  Forall (fun m : smap value => Forall (fun x => P x.1) m.2) ss ->
  Forall (fun m : smap value => Forall (fun x => P x.1) m.2) (smaps dl_compare rops ss).
Proof.
  induction 1 as [|o rops Ho H IH]; intros ss Hss; [done|]. simpl. apply IH.
  assert (Hn : forall i, Forall (fun x => P x.1) (smaps_nth dl_compare ss i).2).
  { intros i. unfold smaps_nth. clear -Hss. revert i. induction Hss; intros [|i]; simpl; auto. }
  destruct o as [cmp items|i k v|i k|i k|i|i]; simpl in *.
  - apply Forall_app. split; [done|]. constructor; [|constructor]. simpl. clear -Ho.
    assert (G : forall l, Forall (fun x => P x.1) l -> Forall (fun x => P x.1) (fold_left (fun l x => a_insert cmp l x.1 x.2) items l)).
    { induction Ho as [|x items Hx Ho IH]; intros l Hl; [done|]. simpl. apply IH. by apply a_insert_keys. }
    apply G. constructor.
  - pose proof (Hn i). destruct (smaps_nth dl_compare ss i). simpl in *. apply Forall_app. split; [done|]. constructor; [|constructor]. by apply a_insert_keys.
  - pose proof (Hn i). destruct (smaps_nth dl_compare ss i). simpl in *. apply Forall_app. split; [done|]. constructor; [|constructor]. by apply a_delete_keys.
  - by destruct (smaps_nth dl_compare ss i).
  - done.
  - done.
Qed.
Definition canonical (k : bytes) : Prop := length k <= 63 /\ map upper k = k.
Definition dkey_ok (k : dkey) : Prop := match k with KRaw k => canonical k | KText _ => True end.
Definition dop_keys (o : dop value) : Prop :=
  match o with DBuild items => Forall (fun x => dkey_ok x.1) items | DInsert _ k _ => dkey_ok k | _ => True end.
Lemma key_is_canonical k m : dkey_ok k -> key_is k m -> canonical m.
Proof.
  intros Hk. inversion 1 as [k'|s m' (l & _ & Hl & E)|s _]; subst; [done| |by split; [simpl; lia|]].
  split; [by rewrite map_length|]. rewrite map_map. apply map_ext. intros c. apply DomCodec.upper_idem.
Qed.
Lemma resolves_keys (o : dop value) ro : resolves o ro -> dop_keys o -> sop_keys canonical ro.
Proof.
  destruct 1 as [items items' Hi|i k k' v Hk|i k k' Hk|i k k' Hk|i|i]; simpl; try done.
  - intros Ho. induction Hi as [|x y items items' [H1 _] Hi IH]; [constructor|]. inversion Ho; subst. constructor; [by eapply key_is_canonical|auto].
  - intros Ho. by eapply key_is_canonical.
Qed.
Lemma dl_pf_readback h (ops : list (dop value)) rops ver : Forall2 resolves ops rops -> Forall dop_keys ops -> enough fuel (dkeys ops) ->
  wp (r <- run_hist (dl_exec fuel) ops [] ;;
      e <- dl_raw_enumerate fuel (nth ver r.1 None) ;;
      e' <- dl_enumerate fuel (nth ver r.1 None) ;; Ret (e, e')) h ∅ (fun '(e, e') h' _ => h ⊆ h' /\
    Forall2 (fun x' x => x'.2 = x.2 /\ make_label x'.1 = DOk x.1) e' e).
Proof.
  intros Hops Hk Hf. eapply wp_mono; [apply dl_after with (body := fun p => e <- dl_raw_enumerate fuel p ;;
      e' <- dl_enumerate fuel p ;; Ret (e, e')) (rops := rops) (Q := fun '(e, e') => Forall2 (fun x' x => x'.2 = x.2 /\ make_label x'.1 = DOk x.1) e' e); [done|done|]|].
  - intros h1 p l Hat Hl Ho E _. pose proof (enough_get _ _ _ Hf Hl) as Hg.
    assert (Hc : Forall (fun x => canonical x.1) l).
    { assert (Hall : Forall (fun m : smap value => Forall (fun x => canonical x.1) m.2) (smaps dl_compare rops [])).
      { apply smaps_keys; [|constructor]. clear -Hops Hk. induction Hops as [|o ro ops rops Ho H IH]; [constructor|].
        inversion Hk; subst. constructor; [by eapply resolves_keys|auto]. }
      unfold smaps_nth in E. revert ver E. induction Hall as [|m ms Hm Hall IH]; intros [|i] E; simpl in E; simplify_eq; try constructor; eauto.
    }
    apply wp_bind. eapply wp_mono; [eapply dl_enumerate_at; [exact Hat|exact Hg]|].
    cbn beta. intros e h2 W2 [-> ->]. pose proof (dl_enumerate_text_at h1 p l Hat Hg) as Ht.
    destruct (print_all_ok l) as (e & E1 & F); [eapply Forall_impl; [exact Hc|]; by intros x [? _]|]. rewrite E1 in Ht.
    apply wp_bind. eapply wp_mono; [apply (wp_cow _ _ W2 (fun x _ => x = e)); eapply wp_mono; [exact Ht|cbn beta; tauto]|].
    cbn beta. intros x h3 W3 [-> _]. cbn [wp]. clear -Hc F. revert Hc.
    induction F as [|x' x e l [H1 H2] F IH]; intros Hc; [constructor|]. inversion Hc as [|? ? [_ Hx] ?]; subst.
    constructor; [|auto]. destruct x as [xk xv]; cbn [fst snd] in *; rewrite H2, Hx; done.
  - cbn beta. intros [e e'] h' _ H. exact H.
Qed.
Lemma dl_pf_texts h (ops : list (dop value)) rops ver s m v k k' : Forall2 resolves ops rops -> enough fuel (dkeys ops + 1) ->
  label_of s m -> key_is k k' ->
  wp (r <- run_hist (dl_exec fuel) ops [] ;;
      t <- dl_insert fuel (nth ver r.1 None) s v ;;
      dk_get fuel t k) h ∅ (fun res h' _ => h ⊆ h' /\ res = if bytes_eqb m k' then (v, true) else match klog_get (dl_log rops ver) k' with Some v => (v, true) | None => (VNil, false) end).
Proof.
  intros Hops Hf Hs Hk.
  apply dl_after with (body := fun p => t <- dl_insert fuel p s v ;; dk_get fuel t k) (rops := rops)
    (Q := fun res => res = if bytes_eqb m k' then (v, true) else match klog_get (dl_log rops ver) k' with Some v => (v, true) | None => (VNil, false) end);
    [done|eapply enough_le; [exact Hf|lia]|].
  intros h1 p l Hat Hl Ho E Hg. change (dl_insert fuel p s v) with (dk_insert fuel p (KText s) v).
  rewrite (dk_insert_raw fuel p (KText s) m v) by by constructor.
  apply wp_bind. eapply wp_mono; [eapply dl_insert_at; [exact Hat|]|]. { eapply enough_le; [exact Hf|lia]. }
  cbn beta. intros t h2 W2 (_ & Ht & _). rewrite (dk_get_raw _ _ _ k') by done.
  eapply wp_mono; [apply (wp_cow _ _ W2 (fun x _ => x = match a_get dl_compare (a_insert dl_compare l m v) k' with Some v => (v, true) | None => (VNil, false) end));
    eapply wp_mono; [eapply dl_get_at; [exact Ht|]|cbn beta; tauto]|].
  { eapply enough_get; [exact Hf|]. pose proof (a_insert_len l m v). lia. }
  cbn beta. intros x h3 W3 [-> _]. rewrite a_get_insert by (try apply dl_compare_lawful; done). rewrite Hg. unfold same_key.
  rewrite <- bytes_eqb_cmp, bytes_eqb_sym. by destruct (bytes_eqb m k').
Qed.
Lemma dl_pf_inplace h h0 a l F k v : enough fuel (length l) ->
  dl_owned h a l F -> h0 ⊆ h -> (forall x, x ∈ {[a]} ∪ F -> h0 !! x = None) ->
  wp (dl_raw_inplace_insert fuel (Some a) k v) h ({[a]} ∪ F)
     (fun _ h' F1 => h0 ⊆ h' /\ exists F', {[a]} ∪ F' ⊆ F1 /\ dl_owned h' a (a_insert dl_compare l k v) F').
Proof.
  intros Hf Ho Hs Hd. eapply wp_mono; [apply wp_frame; eapply dl_inplace_at; [exact Ho|done|exact Hf]|].
  cbn beta. intros _ h' F1 [(F' & Ho' & HF') [Hun _]]. split; [|eauto].
  apply map_subseteq_spec. intros x y Hx. apply Hun; [by eapply lookup_weaken|].
  intros Hin. rewrite Hd in Hx; done.
Qed.
Lemma dl_pf_unresolved s : (forall m, ~ key_is (KText s) m) <-> make_label s = DPanic.
Proof.
  assert (H : label_or_empty s = None <-> make_label s = DPanic).
  { unfold label_or_empty. destruct (make_label s); naive_solver. }
  rewrite <- H. split.
  - intros Hn. destruct (label_or_empty s) as [m|] eqn:E; [|done]. destruct (Hn m). by apply label_or_empty_iff.
  - intros E m Hm%label_or_empty_iff. congruence.
Qed.
Lemma dl_pf_panic h a n s v : make_label s = DPanic -> h !! a = Some (CDl n) ->
  fails (dl_insert fuel (Some a) s v) h EPanic /\ fails (dl_get (U := U) fuel (Some a) s) h EPanic /\ fails (dl_delete (U := U) fuel (Some a) s) h EPanic.
Proof.
  intros Hs Ha. assert (Hk : dl_key (U := U) s = Fail EPanic). { unfold dl_key, label_or_empty. by rewrite Hs. }
  unfold dl_insert, dl_get, dl_delete. rewrite Hk. split; [|by split].
  eapply (fails_bind_r _ _ _ ∅ _ (fun _ _ _ => True)); [cbn [dl_root]; by eapply wp_ld_dl|]. done.
Qed.
End proofs.
