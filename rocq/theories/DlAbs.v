(** * dltree.Tree on memory: single calls and histories. *)
From Verif Require Import Prog History RbModel RbSpec RbFun RbFunIns RbFunDel RbSim RbSimIns RbSimOps RbSimDel2 RbAbs StrSpec StrAbs.
From Verif Require Import DomModel DomSpec DomPropProofs DlModel DlSpec.

(** ** The client. *)
Section client.
Context {U : Type}.
Local Notation value := (value U).
Variable fuel : nat.
(** The call for a key in binary or text form. *)
Definition dk_insert (t : ptr) (k : dkey) (v : value) : prog U ptr :=
  match k with KRaw k => dl_raw_insert fuel t k v | KText s => dl_insert fuel t s v end.
Definition dk_inplace_insert (t : ptr) (k : dkey) (v : value) : prog U unit :=
  match k with KRaw k => dl_raw_inplace_insert fuel t k v | KText s => dl_inplace_insert fuel t s v end.
Definition dk_get (t : ptr) (k : dkey) : prog U (value * bool) :=
  match k with KRaw k => dl_raw_get fuel t k | KText s => dl_get fuel t s end.
Definition dk_delete (t : ptr) (k : dkey) : prog U (ptr * bool) :=
  match k with KRaw k => dl_raw_delete fuel t k | KText s => dl_delete fuel t s end.
Fixpoint dl_fill (t : ptr) (items : list (dkey * value)) : prog U unit :=
  match items with
  | [] => Ret tt
  | (k, v) :: items => dk_inplace_insert t k v ;;; dl_fill t items
  end.
Definition dl_exec (vs : list ptr) (o : dop value) : prog U (list ptr * sout value) :=
  match o with
  | DBuild items => t <- dl_new ;; dl_fill t items ;;; Ret (vs ++ [t], SONone)
  | DInsert i k v => t <- dk_insert (nth i vs None) k v ;; Ret (vs ++ [t], SONone)
  | DDelete i k => x <- dk_delete (nth i vs None) k ;; Ret (vs ++ [x.1], SOBool x.2)
  | DGet i k => x <- dk_get (nth i vs None) k ;; Ret (vs, SOVal (opt_val x))
  | DEnumerate i => l <- dl_raw_enumerate fuel (nth i vs None) ;; Ret (vs, SOList l)
  | DIsEmpty i => b <- dl_is_empty (nth i vs None) ;; Ret (vs, SOBool b)
  end.
End client.

(** ** Keys. *)
Lemma label_or_empty_iff s m : label_or_empty s = Some m <-> key_is (KText s) m.
Proof.
  unfold label_or_empty. split.
  - destruct (make_label s) as [l|e|] eqn:E; [|intros [= <-]..|done].
    + intros [= <-]. apply make_label_iff in E. by apply ki_text.
    + apply ki_invalid. apply make_label_iff in E. destruct e; simpl in E; try done; [by left|by right].
  - inversion 1 as [|s' m' H'|s' [H'|H']]; subst.
    + assert (make_label s = DOk m) as -> by by apply make_label_iff. done.
    + assert (make_label s = DErr ErrLabelTooLong) as -> by by apply make_label_iff. done.
    + assert (make_label s = DErr ErrInvalidEscape) as -> by by apply make_label_iff. done.
Qed.
Lemma key_is_det k m m' : key_is k m -> key_is k m' -> m = m'.
Proof.
  destruct k as [k|s].
  - inversion 1; inversion 1; congruence.
  - intros H1%label_or_empty_iff H2%label_or_empty_iff. congruence.
Qed.
Section keys.
Context {U : Type}.
Lemma dl_key_is s m : key_is (KText s) m -> dl_key (U := U) s = Ret m.
Proof. intros H. unfold dl_key. apply label_or_empty_iff in H. by rewrite H. Qed.
(** A call in text form is the call in binary form. *)
Lemma dk_insert_raw fuel t k m (v : value U) : key_is k m -> dk_insert fuel t k v = dl_raw_insert fuel t m v.
Proof. destruct k as [k|s]; [inversion 1; by subst|]. intros H. simpl. unfold dl_insert. by rewrite (dl_key_is _ m). Qed.
Lemma dk_inplace_raw fuel t k m (v : value U) : key_is k m -> dk_inplace_insert fuel t k v = dl_raw_inplace_insert fuel t m v.
Proof. destruct k as [k|s]; [inversion 1; by subst|]. intros H. simpl. unfold dl_inplace_insert. by rewrite (dl_key_is _ m). Qed.
Lemma dk_get_raw fuel t k m : key_is k m -> dk_get (U := U) fuel t k = dl_raw_get fuel t m.
Proof. destruct k as [k|s]; [inversion 1; by subst|]. intros H. simpl. unfold dl_get. by rewrite (dl_key_is _ m). Qed.
Lemma dk_delete_raw fuel t k m : key_is k m -> dk_delete (U := U) fuel t k = dl_raw_delete fuel t m.
Proof. destruct k as [k|s]; [inversion 1; by subst|]. intros H. simpl. unfold dl_delete. by rewrite (dl_key_is _ m). Qed.
End keys.

(** ** Single calls on binary labels. *)
Section abs.
Context {U : Type}.
Local Notation heap := (heap U).
Local Notation value := (value U).
Local Notation tree := (tree U).
Local Notation cmp := dl_compare.
Implicit Types h : heap.
Implicit Types p : ptr.
Variable fuel : nat.

Definition dl_at h p (l : list (bytes * value)) : Prop :=
  match p with
  | None => l = []
  | Some a => exists r, h !! a = Some (CDl r) /\ root_at cmp h r l
  end.
Lemma dl_at_mono h h' p l : h ⊆ h' -> dl_at h p l -> dl_at h' p l.
Proof.
  intros Hs. destruct p as [a|]; [|done]. intros (r & Ha & Hr). exists r. split; [by eapply lookup_weaken|by eapply root_at_mono].
Qed.
Lemma dl_at_nil h : dl_at h None [].
Proof. done. Qed.
Lemma dl_at_ordered h p l : dl_at h p l -> ordered cmp l.
Proof. destruct p as [a|]; [intros (r & _ & t & _ & _ & _ & ?); done|intros ->; constructor]. Qed.

Lemma dl_root_wp h p l (Q : ptr -> heap -> gset loc -> Prop) : dl_at h p l ->
  (forall r, root_at cmp h r l -> Q r h ∅) -> wp (dl_root p) h ∅ Q.
Proof.
  intros Hp HQ. destruct p as [a|]; cbn [dl_root].
  - destruct Hp as (r & Ha & Hr). eapply wp_ld_dl; [exact Ha|]. by apply HQ.
  - simpl in Hp. subst l. cbn [wp]. apply HQ, root_at_nil.
Qed.
Lemma dl_insert_at h p l k v : dl_at h p l -> enough fuel (length l) ->
  wp (dl_raw_insert fuel p k v) h ∅ (fun p' h' _ => h ⊆ h' /\ dl_at h' p' (a_insert cmp l k v) /\ exists a, p' = Some a /\ h !! a = None).
Proof.
  intros Hp Hf. apply wp_cow0. unfold dl_raw_insert. apply wp_bind. eapply dl_root_wp; [exact Hp|]. intros r Hr.
  apply wp_bind. eapply wp_mono; [eapply (root_insert cmp dl_compare_lawful); [exact Hr|exact Hf]|].
  cbn beta. intros r' h' W' [Hs Hr']. apply wp_bind, wp_alloc. intros a Ha. cbn [wp]. split.
  - exists r'. split; [by rewrite lookup_insert|]. eapply root_at_mono; [by apply insert_subseteq|done].
  - exists a. split; [done|]. by eapply lookup_weaken_None.
Qed.
Lemma dl_delete_at h p l k : dl_at h p l -> enough fuel (length l) ->
  wp (dl_raw_delete fuel p k) h ∅ (fun x h' _ => h ⊆ h' /\ dl_at h' x.1 (a_delete cmp l k) /\ x.2 = a_deleted cmp l k /\
    match p with None => x.1 = None | Some _ => exists a, x.1 = Some a /\ h !! a = None end).
Proof.
  intros Hp Hf. apply wp_cow0. destruct p as [a|]; cbn [dl_raw_delete].
  - destruct Hp as (r & Ha & Hr). apply wp_bind. eapply wp_ld_dl; [exact Ha|].
    apply wp_bind. eapply wp_mono; [eapply (root_del cmp dl_compare_lawful); [exact Hr|exact Hf]|].
    cbn beta. intros x h' W' (Hs & Hr' & Hx). apply wp_bind, wp_alloc. intros a' Ha'. cbn [wp fst snd]. split_and!; [|done|].
    + exists x.1. split; [by rewrite lookup_insert|]. eapply root_at_mono; [by apply insert_subseteq|done].
    + exists a'. split; [done|]. by eapply lookup_weaken_None.
  - simpl in Hp. subst l. cbn. done.
Qed.
Lemma dl_get_at h p l k : dl_at h p l -> 2 * Nat.log2 (length l + 1) <= fuel ->
  wp (dl_raw_get fuel p k) h ∅ (fun x h' _ => h' = h /\ x = match a_get cmp l k with Some v => (v, true) | None => (VNil, false) end).
Proof.
  intros Hp Hf. destruct p as [a|]; cbn [dl_raw_get].
  - destruct Hp as (r & Ha & Hr). apply wp_bind. eapply wp_ld_dl; [exact Ha|]. by apply (root_get cmp dl_compare_lawful).
  - simpl in Hp. subst l. cbn. done.
Qed.
Lemma dl_enumerate_at h p l : dl_at h p l -> 2 * Nat.log2 (length l + 1) <= fuel ->
  wp (dl_raw_enumerate fuel p) h ∅ (fun x h' _ => x = l /\ h' = h).
Proof.
  intros Hp Hf. destruct p as [a|]; cbn [dl_raw_enumerate].
  - destruct Hp as (r & Ha & Hr). apply wp_bind. eapply wp_ld_dl; [exact Ha|]. by apply (root_enumerate cmp).
  - simpl in Hp. subst l. cbn. done.
Qed.
Lemma dl_is_empty_at h p l : dl_at h p l -> wp (dl_is_empty p) h ∅ (fun x h' _ => x = is_nil l /\ h' = h).
Proof.
  intros Hp. destruct p as [a|]; cbn [dl_is_empty].
  - destruct Hp as (r & Ha & Hr). apply wp_bind. eapply wp_ld_dl; [exact Ha|]. cbn [wp]. split; [|done].
    apply root_at_none in Hr. destruct r; destruct l; simpl; try done; [by pose proof (proj2 Hr eq_refl)|by pose proof (proj1 Hr eq_refl)].
  - simpl in Hp. subst l. cbn. done.
Qed.

(** RawInplaceInsert on an unshared tree; [F] are its nodes. *)
Definition dl_owned h (a : loc) (l : list (bytes * value)) (F : gset loc) : Prop :=
  exists r t, h !! a = Some (CDl r) /\ owned h r t F /\ a ∉ F /\ rbt t /\ inord t = l /\ ordered cmp l.
Lemma dl_owned_at h a l F : dl_owned h a l F -> dl_at h (Some a) l.
Proof.
  intros (r & t & Ha & Ho & _ & Hb & Hl & Hord). exists r. split; [done|]. exists t.
  split_and!; [eapply mrep_rep; [apply map_empty_subseteq|exact Ho]|done|done|done].
Qed.
Lemma dl_inplace_sub h a l F W k v : dl_owned h a l F -> {[a]} ∪ F ⊆ W -> enough fuel (length l) ->
  wp (dl_raw_inplace_insert fuel (Some a) k v) h W (fun _ h' W' => exists F', dl_owned h' a (a_insert cmp l k v) F' /\ {[a]} ∪ F' ⊆ W' /\ F ⊆ F').
Proof.
  intros (r & t & Ha & Ho & HaF & Hb & <- & Hord) HW Hf.
  destruct (f_ins_enough fuel cmp t k v) as (t' & Hi & Hb' & _); [intros k'; by apply cmp_refl, dl_compare_lawful|done|exact Hf|].
  unfold dl_raw_inplace_insert. apply wp_bind. eapply wp_ld_dl; [exact Ha|].
  apply wp_bind. eapply wp_mono.
  { eapply (wp_call _ _ F W); [|clear -HW; set_solver]. eapply inplace_insert_wp; [exact Ho|done|exact Hi]. }
  cbn beta. intros r' h' W' [(W1 & (F' & Ho' & HF' & HFF) & HW1 & HG1) [Hun HG2]].
  pose proof (Hun _ _ Ha HaF) as Ha'.
  assert (HaF' : a ∉ F').
  { intros Hin. apply HF' in Hin. destruct HG1 as (_ & _ & HG1). apply HG1 in Hin as [?|?]; [done|congruence]. }
  cbn [wp store]. split.
  { destruct HG2 as [HG2 _]. clear -HW HG2. set_solver. }
  split; [by eexists|].
  exists F'. split_and!; [..|exact HFF].
  - exists r', t'. split_and!; [by rewrite lookup_insert|..|done|done|eapply f_ins_content; [apply dl_compare_lawful|exact Hi|exact Hord]|apply ordered_a_insert; [apply dl_compare_lawful|done]].
    eapply mrep_agree; [exact Ho'|]. intros x Hx. rewrite lookup_insert_ne; [done|]. by intros <-.
  - destruct HG2 as [HG2 _]. clear -HW HG2 HF' HW1. set_solver.
Qed.
Lemma dl_inplace_at h a l F W k v : dl_owned h a l F -> {[a]} ∪ F ⊆ W -> enough fuel (length l) ->
  wp (dl_raw_inplace_insert fuel (Some a) k v) h W (fun _ h' W' => exists F', dl_owned h' a (a_insert cmp l k v) F' /\ {[a]} ∪ F' ⊆ W').
Proof. intros Ho HW Hf. eapply wp_mono; [by eapply dl_inplace_sub|]. cbn beta. intros _ h' W' (F' & H1 & H2 & _). eauto. Qed.

Fixpoint a_fill (items : list (bytes * value)) (l : list (bytes * value)) : list (bytes * value) :=
  match items with [] => l | (k, v) :: items => a_fill items (a_insert cmp l k v) end.
Lemma a_fill_fold items : forall l, a_fill items l = fold_left (fun l x => a_insert cmp l x.1 x.2) items l.
Proof. induction items as [|[k v] items IH]; intros l; [done|]. apply IH. Qed.
Lemma a_insert_len (l : list (bytes * value)) k v : length (a_insert cmp l k v) <= length l + 1.
Proof.
  unfold a_insert. destruct (existsb _ l); [rewrite map_length; lia|]. rewrite app_length. simpl.
  induction l as [|x l IH]; simpl; [lia|]. destruct (Z.ltb_spec (cmp x.1 k) 0), (Z.ltb_spec 0 (cmp x.1 k)); simpl; lia.
Qed.
Lemma a_delete_len (l : list (bytes * value)) k : length (a_delete cmp l k) <= length l.
Proof. unfold a_delete. induction l as [|x l IH]; simpl; [lia|]. destruct (negb _); simpl; lia. Qed.
Lemma a_fill_len items : forall l, length (a_fill items l) <= length l + length items.
Proof. induction items as [|[k v] items IH]; intros l; simpl; [lia|]. pose proof (IH (a_insert cmp l k v)). pose proof (a_insert_len l k v). lia. Qed.

Lemma dl_fill_wp items items' : Forall2 (fun x y => key_is x.1 y.1 /\ x.2 = y.2) items items' ->
  forall h a l F W, dl_owned h a l F -> {[a]} ∪ F ⊆ W -> enough fuel (length l + length items') ->
  wp (dl_fill fuel (Some a) items) h W (fun _ h' W' => exists F', dl_owned h' a (a_fill items' l) F' /\ {[a]} ∪ F' ⊆ W').
Proof.
  induction 1 as [|[k v] [k' v'] items items' [Hk Hv] Hitems IH]; intros h a l F W Ho HW Hf; cbn [dl_fill wp].
  { eauto. }
  cbn [fst snd] in Hk, Hv. subst v'. simpl in Hf. rewrite (dk_inplace_raw _ _ _ k') by done.
  apply wp_bind. eapply wp_mono; [eapply dl_inplace_at; [exact Ho|exact HW|eapply enough_le; [exact Hf|lia]]|].
  cbn beta. intros _ h1 W1 (F1 & Ho1 & HW1). cbn [a_fill]. eapply IH; [done|done|].
  eapply enough_le; [exact Hf|]. pose proof (a_insert_len l k' v). lia.
Qed.
Lemma dl_build_wp h items items' : Forall2 (fun x y => key_is x.1 y.1 /\ x.2 = y.2) items items' -> enough fuel (length items') ->
  wp (t <- dl_new ;; dl_fill fuel t items ;;; Ret t) h ∅ (fun p h' _ => dl_at h' p (a_fill items' [])).
Proof.
  intros Hi Hf. apply wp_bind. unfold dl_new. apply wp_bind, wp_alloc. intros a Ha. cbn [wp]. apply wp_bind.
  eapply wp_mono.
  { eapply (dl_fill_wp items items' Hi _ a [] ∅); [|clear; set_solver|exact Hf].
    exists None, E. split_and!; [by rewrite lookup_insert|done|clear; set_solver|apply rbt_E|done|constructor]. }
  cbn beta. intros _ h' W' (F' & Ho & _). cbn [wp]. by eapply dl_owned_at.
Qed.

(** ** Histories. *)
Definition dlR (n : nat) h p (m : smap value) : Prop := m.1 = cmp /\ dl_at h p m.2 /\ length m.2 <= n.
Definition dstep (ss : list (smap value)) (o : dop value) (ss' : list (smap value)) (x : sout value) : Prop :=
  exists ro, resolves o ro /\ sstep cmp ss ro = (ss', x).
Definition dop_weight (o : dop value) : nat := match o with DBuild items => length items | _ => 1 end.
Lemma dlR_mono n n' h h' p m : h ⊆ h' -> n <= n' -> dlR n h p m -> dlR n' h' p m.
Proof. intros Hs Hn (? & ? & ?). split_and!; [done|by eapply dl_at_mono|lia]. Qed.
Lemma dlR_Forall2 n n' h h' vs ss : h ⊆ h' -> n <= n' -> Forall2 (dlR n h) vs ss -> Forall2 (dlR n' h') vs ss.
Proof. intros Hs Hn H. eapply Forall2_impl; [exact H|]. intros. by eapply dlR_mono. Qed.
Lemma dlR_nth n h vs ss i : Forall2 (dlR n h) vs ss -> dlR n h (nth i vs None) (smaps_nth cmp ss i).
Proof. unfold smaps_nth. intros H. revert i. induction H; intros [|i]; simpl; auto; split_and!; simpl; auto; lia. Qed.
Lemma dlR_split n h vs ss i : Forall2 (dlR n h) vs ss -> exists l, smaps_nth cmp ss i = (cmp, l) /\ dl_at h (nth i vs None) l /\ length l <= n.
Proof. intros H. destruct (dlR_nth _ _ _ _ i H) as (H1 & H2 & H3). destruct (smaps_nth cmp ss i) as [c l]. simpl in *. subst. eauto. Qed.
Lemma enough_get n m : enough fuel n -> m <= n -> 2 * Nat.log2 (m + 1) <= fuel.
Proof. intros H Hm. pose proof (enough_le _ _ _ H Hm) as H'. unfold enough in H'. lia. Qed.

Lemma dl_exec_ok N n h vs ss o : enough fuel N -> n + dop_weight o <= N -> Forall2 (dlR n h) vs ss -> (exists ro, resolves o ro) ->
  wp (dl_exec fuel vs o) h ∅ (fun r h' _ => exists ss', dstep ss o ss' r.2 /\ Forall2 (dlR (n + dop_weight o) h') r.1 ss').
Proof.
  intros HN Hn HR [ro Ho]. destruct Ho as [items items' Hi|i k k' v Hk|i k k' Hk|i k k' Hk|i|i]; simpl dop_weight in Hn |- *; unfold dl_exec.
  - pose proof (Forall2_length _ _ _ Hi) as Hlen.
    assert (Hw : wp (t <- dl_new ;; dl_fill fuel t items ;;; Ret t) h ∅ (fun p h' _ => dl_at h' p (a_fill items' []))).
    { apply dl_build_wp; [done|]. eapply enough_le; [exact HN|lia]. }
    apply wp_bind_inv in Hw.
    apply wp_bind. eapply wp_mono; [apply (wp_frame _ _ _ _ Hw)|]. cbn beta. intros p h1 W1 [Hw1 [Hun HG]].
    apply wp_bind_inv in Hw1. apply wp_bind. eapply wp_mono; [apply (wp_frame _ _ _ _ Hw1)|].
    cbn beta. intros _ h2 W2 [Hp [Hun2 HG2]]. cbn [wp fst snd] in Hp |- *.
    assert (h ⊆ h2) as Hsub.
    { apply map_subseteq_spec. intros x y Hx. apply Hun2; [by apply Hun; [|clear; set_solver]|].
      destruct HG as (_ & _ & HG). intros Hin%HG. destruct Hin as [?|?]; [set_solver|congruence]. }
    eexists. split; [eexists; split; [by constructor|done]|].
    apply Forall2_app; [by eapply dlR_Forall2; [..|exact HR]; [done|lia]|].
    constructor; [|constructor]. split_and!; cbn [fst snd]; [done|by rewrite <- a_fill_fold|].
    rewrite <- a_fill_fold. pose proof (a_fill_len items' []). simpl in *. lia.
  - destruct (dlR_split _ _ _ _ i HR) as (l & E & Hp & Hl). rewrite (dk_insert_raw _ _ _ k') by done.
    eapply wp_mono; [eapply wp_then with (Q := fun p' h' => dl_at h' p' (a_insert cmp l k' v))
      (R := fun (r : list ptr * sout value) h' => exists p, dl_at h' p (a_insert cmp l k' v) /\ r = (vs ++ [p], SONone))|].
    + eapply wp_mono; [apply dl_insert_at; [exact Hp|]|cbn beta; tauto]. eapply enough_le; [exact HN|lia].
    + intros p' h' _ Hp'. cbn [wp]. eauto.
    + cbn beta. intros r h' _ (Hsub & p' & Hp' & ->). cbn [fst snd]. eexists. split; [eexists; split; [by constructor|simpl; by rewrite E]|].
      apply Forall2_app; [by eapply dlR_Forall2; [..|exact HR]; [done|lia]|].
      constructor; [|constructor]. split_and!; cbn [fst snd]; [done|done|]. pose proof (a_insert_len l k' v). lia.
  - destruct (dlR_split _ _ _ _ i HR) as (l & E & Hp & Hl). rewrite (dk_delete_raw _ _ _ k') by done.
    eapply wp_mono; [eapply wp_then with (Q := fun x h' => dl_at h' x.1 (a_delete cmp l k') /\ x.2 = a_deleted cmp l k')
      (R := fun (r : list ptr * sout value) h' => exists p, dl_at h' p (a_delete cmp l k') /\ r = (vs ++ [p], SOBool (a_deleted cmp l k')))|].
    + eapply wp_mono; [apply dl_delete_at; [exact Hp|]|cbn beta; tauto]. eapply enough_le; [exact HN|lia].
    + intros x h' _ [Hp' Hx]. cbn [wp]. exists x.1. by rewrite Hx.
    + cbn beta. intros r h' _ (Hsub & p' & Hp' & ->). cbn [fst snd]. eexists. split; [eexists; split; [by constructor|simpl; by rewrite E]|].
      apply Forall2_app; [by eapply dlR_Forall2; [..|exact HR]; [done|lia]|].
      constructor; [|constructor]. split_and!; cbn [fst snd]; [done|done|]. pose proof (a_delete_len l k'). lia.
  - destruct (dlR_split _ _ _ _ i HR) as (l & E & Hp & Hl). rewrite (dk_get_raw _ _ _ k') by done.
    apply wp_bind. eapply wp_mono; [apply dl_get_at; [exact Hp|eapply enough_get; [exact HN|lia]]|].
    cbn beta. intros x h' W' [-> ->]. cbn [wp fst snd]. eexists. split; [eexists; split; [by constructor|simpl; rewrite E]|].
    + by destruct (a_get cmp l k').
    + eapply dlR_Forall2; [..|exact HR]; [done|lia].
  - destruct (dlR_split _ _ _ _ i HR) as (l & E & Hp & Hl).
    apply wp_bind. eapply wp_mono; [apply dl_enumerate_at; [exact Hp|eapply enough_get; [exact HN|lia]]|].
    cbn beta. intros x h' W' [-> ->]. cbn [wp fst snd]. eexists. split; [eexists; split; [by constructor|simpl; by rewrite E]|].
    eapply dlR_Forall2; [..|exact HR]; [done|lia].
  - destruct (dlR_split _ _ _ _ i HR) as (l & E & Hp & Hl).
    apply wp_bind. eapply wp_mono; [by apply dl_is_empty_at|].
    cbn beta. intros x h' W' [-> ->]. cbn [wp fst snd]. eexists. split; [eexists; split; [by constructor|simpl; by rewrite E]|].
    eapply dlR_Forall2; [..|exact HR]; [done|lia].
Qed.

Lemma items_det (items : list (dkey * value)) i1 : Forall2 (fun x y => key_is x.1 y.1 /\ x.2 = y.2) items i1 ->
  forall i2, Forall2 (fun x y => key_is x.1 y.1 /\ x.2 = y.2) items i2 -> i1 = i2.
Proof.
  induction 1 as [|[k v] [k1 v1] items i1 [H1 H2] H IH]; intros i2 H'; inversion H' as [|? [k2 v2] ? ? [H3 H4]]; subst; [done|].
  simpl in *. subst. f_equal; [|auto]. f_equal. by eapply key_is_det.
Qed.
Lemma resolves_det (o : dop value) r1 r2 : resolves o r1 -> resolves o r2 -> r1 = r2.
Proof.
  destruct 1; inversion 1; subst; try done; try (f_equal; by eapply key_is_det). f_equal. by eapply items_det.
Qed.
Lemma dspec_run ops rops : Forall2 resolves ops rops -> forall ss ss' outs, spec_run dstep ops ss ss' outs ->
  ss' = smaps cmp rops ss /\ outs = souts cmp rops ss.
Proof.
  induction 1 as [|o ro ops rops Ho H IH]; intros ss ss' [|x outs] Hr; simpl in Hr; try done.
  destruct Hr as (ss1 & (ro' & Ho' & Hst) & Hr). rewrite <- (resolves_det _ _ _ Ho Ho') in Hst.
  apply IH in Hr as [-> ->]. simpl. by rewrite Hst.
Qed.
Lemma dl_history h ops rops : Forall2 resolves ops rops -> enough fuel (weight dop_weight ops) ->
  wp (run_hist (dl_exec fuel) ops []) h ∅ (fun r h' _ => h ⊆ h' /\ r.2 = souts cmp rops [] /\
    forall ver, exists l, smaps_nth cmp (smaps cmp rops []) ver = (cmp, l) /\ dl_at h' (nth ver r.1 None) l /\ length l <= weight dop_weight ops).
Proof.
  intros Hops Hf. apply wp_cow0. eapply wp_mono.
  - apply (run_hist_wp_n (dl_exec fuel) dstep dlR (fun o => exists ro, resolves o ro) dop_weight (weight dop_weight ops)) with (n := 0) (ss := []);
      [|clear -Hops; induction Hops; constructor; eauto|constructor|lia].
    intros n h1 vs ss o Hn HR Ho. by apply dl_exec_ok with (N := weight dop_weight ops).
  - cbn beta. intros r h' _ (ss' & Hr & HR). destruct (dspec_run _ _ Hops _ _ _ Hr) as [E1 E2]. split; [done|]. rewrite E1 in HR.
    intros ver. exact (dlR_split _ _ _ _ ver HR).
Qed.
End abs.
