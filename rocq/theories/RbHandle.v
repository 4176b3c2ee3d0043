(** * strtree and dltree: InplaceInsert on a tree whose nodes other trees may share,
    and clients that mix it with copy-on-write calls on one handle. *)
From Verif Require Import Prog History RbModel RbSpec RbFun RbFunIns RbFunDel RbSim RbSimIns RbSimOps RbSimDel2 RbAbs StrSpec StrAbs StrPropProofs.
From Verif Require Import DomModel DomSpec DomPropProofs DlModel DlSpec DlAbs DlPropProofs NumFoot Handle.
Open Scope nat_scope.

Section own.
Context {U : Type}.
Local Notation heap := (heap U).
Local Notation value := (value U).
Local Notation cmpf := (bytes -> bytes -> Z).
Implicit Types (h : heap) (p : ptr).

(** The nodes of a search tree are distinct, for their keys are. *)
Lemma owned_of_rep (cmp : cmpf) h t : lawful cmp -> forall p, rep h p t -> ordered cmp (inord t) ->
  exists F, owned h p t F /\ forall a, a ∈ F -> exists n, h !! a = Some (CRb n) /\ (rb_key n, rb_val n) ∈ inord t.
Proof.
  intros Hl. induction t as [|c l IHl k v r IHr]; intros p Hp Ho.
  { exists ∅. split; [done|]. intros a Ha. clear -Ha. set_solver. }
  destruct Hp as (a & pl & pr & -> & Ha & Hpl & Hpr). cbn [inord] in Ho |- *.
  apply ordered_app in Ho as (Hol & Hor & Hlr). inversion Hor as [|? ? Hor' Hfr]; subst.
  destruct (IHl _ Hpl Hol) as (Fl & HFl & Hkl). destruct (IHr _ Hpr Hor') as (Fr & HFr & Hkr).
  pose proof (cmp_refl _ Hl k) as Hkk. rewrite Forall_forall in Hfr.
  assert (HaFl : a ∉ Fl).
  { intros Hin. destruct (Hkl _ Hin) as (n & Hn & Hin'). rewrite Ha in Hn. injection Hn as <-. cbn [rb_key rb_val] in Hin'.
    specialize (Hlr _ _ Hin' (elem_of_list_here _ _)). simpl in Hlr. lia. }
  assert (HaFr : a ∉ Fr).
  { intros Hin. destruct (Hkr _ Hin) as (n & Hn & Hin'). rewrite Ha in Hn. injection Hn as <-. cbn [rb_key rb_val] in Hin'.
    specialize (Hfr _ Hin'). simpl in Hfr. lia. }
  assert (Hd : Fl ## Fr).
  { intros b Hbl Hbr. destruct (Hkl _ Hbl) as (n & Hn & Hin'). destruct (Hkr _ Hbr) as (n' & Hn' & Hin''). rewrite Hn in Hn'. injection Hn' as <-.
    specialize (Hlr _ _ Hin' (elem_of_list_further _ _ _ Hin'')). simpl in Hlr. pose proof (cmp_refl _ Hl (rb_key n)). lia. }
  exists ({[a]} ∪ Fl ∪ Fr). split.
  - right. exists a, pl, pr, Fl, Fr. split_and!; done.
  - intros b Hb. apply elem_of_union in Hb as [Hb|Hb]; [apply elem_of_union in Hb as [Hb|Hb]|].
    + apply elem_of_singleton in Hb as ->. eexists. split; [exact Ha|]. cbn [rb_key rb_val]. apply elem_of_app. right. apply elem_of_list_here.
    + destruct (Hkl _ Hb) as (n & Hn & Hin). exists n. split; [done|]. apply elem_of_app. by left.
    + destruct (Hkr _ Hb) as (n & Hn & Hin). exists n. split; [done|]. apply elem_of_app. right. by apply elem_of_list_further.
Qed.
Lemma owned_dom (h : heap) p (t : tree U) F : (forall a, a ∈ F -> exists n, h !! a = Some (CRb n) /\ (rb_key n, rb_val n) ∈ inord t) -> F ⊆ dom h.
Proof. intros H a Ha. destruct (H a Ha) as (n & Hn & _). by eapply elem_of_dom_2. Qed.

(** ** strtree *)
Lemma str_owned_of h a m t n : strR n h (Some a) (m.1, t) -> tmap (m.1, t) m -> exists F, str_owned h a (m.1, t) F /\ {[a]} ∪ F ⊆ dom h.
Proof.
  intros [(r & Ha & Hr) _] (_ & Hl & Hi & Ho). cbn [fst snd] in *. rewrite <- Hi in Ho.
  destruct (owned_of_rep m.1 h t Hl r Hr Ho) as (F & HF & HF'). exists F. split.
  - exists r. split_and!; [done|done|]. intros Hin. destruct (HF' _ Hin) as (? & ? & _). cbn [fst snd] in *. congruence.
  - pose proof (owned_dom h r t F HF'). apply elem_of_dom_2 in Ha. clear -H Ha. set_solver.
Qed.
Lemma str_inplace_at fuel h a m n k v : str_at h (Some a) m n -> enough fuel n ->
  wp (str_inplace_insert fuel (Some a) k v) h (dom h) (fun _ h' _ => str_at h' (Some a) (m.1, a_insert m.1 m.2 k v) (n + 1)).
Proof.
  intros (t & HR & Hm) Hf. destruct (str_owned_of _ _ _ _ _ HR Hm) as (F & HF & HFd).
  destruct HR as [_ (Hc & Hb & Hs)]. destruct Hm as (_ & Hl & Hi & Ho). cbn [fst snd] in *.
  destruct (f_ins_enough fuel m.1 t k v Hc Hb) as (t' & Ht & Hb' & Hs'); [by eapply enough_le|].
  eapply wp_mono; [eapply str_inplace_wp; [exact HF|exact HFd|exact Ht]|]. cbn beta. intros _ h' W' (F' & HF' & _).
  exists t'. split.
  - split; [by eapply str_owned_rep|]. split_and!; [done|done|]. cbn [fst snd] in *. lia.
  - rewrite <- Hi in Ho. split_and!; cbn [fst snd]; [done|done|rewrite <- Hi; by eapply f_ins_content|rewrite <- Hi; by apply ordered_a_insert].
Qed.


(** One handle. [HInplace (k, v)]: InplaceInsert; the handle stays. *)
Definition str_inplace fuel (p : ptr) (kv : bytes * value) : prog U ptr := str_inplace_insert fuel p kv.1 kv.2 ;;; Ret p.
Definition s_mut (m : smap value) (kv : bytes * value) (m' : smap value) : Prop := m' = (m.1, a_insert m.1 m.2 kv.1 kv.2).
Definition s_one (d : cmpf) (ss : list (smap value)) (o : sop value) (ss' : list (smap value)) (x : sout value) : Prop := sstep d ss o = (ss', x).
(** The operations on the handle itself. *)
Definition on_handle (o : sop value) : Prop :=
  match o with SBuild _ _ => False | SInsert i _ _ | SDelete i _ | SGet i _ | SEnumerate i | SIsEmpty i => i = 0 end.

Definition str_hR (n : nat) h p (m : smap value) : Prop := p <> None /\ str_at h p m n.
Lemma str_hexec fuel n h p m o : enough fuel n -> str_hR n h p m -> on_handle o ->
  wp (str_exec fuel [p] o) h ∅ (fun r h' _ => exists ms, s_one str_compare [m] o ms r.2 /\ str_hR (n + 1) h' (List.last r.1 p) (List.last ms m)).
Proof.
  intros Hf [Hp Hat] Ho. destruct m as [cmp l]. unfold s_one.
  destruct o as [? ?|i k v|i k|i k|i|i]; [done|..]; cbn [on_handle] in Ho; subst i; cbn [str_exec sstep smaps_nth nth fst snd]; apply wp_bind.
  - eapply wp_mono; [by eapply str_insert_at|]. cbn beta. intros p' h' W' (_ & Hat' & a & -> & _). cbn [wp fst snd app List.last].
    eexists. split; [done|]. split; [done|]. exact Hat'.
  - eapply wp_mono; [by eapply str_delete_at|]. cbn beta. intros x h' W' (_ & Hat' & Hx & Hn). cbn [wp fst snd app List.last].
    rewrite Hx. eexists. split; [done|]. split; [|by eapply str_at_mono; [..|exact Hat']; [done|lia]].
    destruct p as [a|]; [|done]. by destruct Hn as (? & -> & _).
  - destruct (str_at_log _ _ _ _ Hat) as (Hlen & _). cbn [fst snd] in Hlen.
    eapply wp_mono; [eapply str_get_at; [exact Hat|by eapply enough_get]|]. cbn beta. intros x h' W' [-> ->]. cbn [wp fst snd app List.last].
    exists [(cmp, l)]. split; [|split; [done|by eapply str_at_mono; [..|exact Hat]; [done|lia]]]. f_equal. f_equal. by destruct (a_get cmp l k).
  - eapply wp_mono; [by eapply str_enumerate_at|]. cbn beta. intros x h' W' [-> ->]. cbn [wp fst snd app List.last].
    eexists. split; [done|]. split; [done|]. by eapply str_at_mono; [..|exact Hat]; [done|lia].
  - eapply wp_mono; [by eapply str_is_empty_at|]. cbn beta. intros x h' W' [-> ->]. cbn [wp fst snd app List.last].
    eexists. split; [done|]. split; [done|]. by eapply str_at_mono; [..|exact Hat]; [done|lia].
Qed.
Lemma str_handle fuel h cmp ops : lawful cmp -> Forall (hop_ok on_handle (fun _ => True)) ops -> enough fuel (length ops) ->
  wp (p <- str_new_custom (Some cmp) ;; run_handle (str_exec fuel) (str_inplace fuel) ops p) h ∅ (fun r h' _ => h ⊆ h' /\
    exists m', h_spec (s_one str_compare) s_mut ops (cmp, []) m' r.2).
Proof.
  intros Hl Hops Hf. eapply start_handle_ok with (R := str_hR) (okop := on_handle) (okk := fun _ => True) (N := length ops); [..|done|done].
  - intros n n' h' p m Hn [? ?]. split; [done|]. by eapply str_at_mono; [..|done].
  - intros n h' p m o Hn HR Ho. apply str_hexec; [|done|done]. eapply enough_le; [exact Hf|lia].
  - intros n h' [a|] m [k v] Hn [Hp HR] _; [|done]. unfold str_inplace. apply wp_bind.
    eapply wp_mono; [eapply str_inplace_at; [exact HR|eapply enough_le; [exact Hf|lia]]|]. cbn beta. intros _ h2 W2 Hat. cbn [wp fst snd].
    eexists. split; [done|]. done.
  - unfold str_new_custom. apply wp_bind, wp_alloc. intros a Ha. cbn [wp]. split; [done|]. exists E. split.
    + split; [exists None; split; [by rewrite lookup_insert|done]|]. split_and!; cbn [fst snd]; [intros k; by apply cmp_refl|apply rbt_E|done].
    + split_and!; [done|done|done|constructor].
Qed.
Lemma str_inplace_any fuel h ops : Forall sop_lawful ops -> enough fuel (weight sop_weight ops + 1) ->
  wp (run_hist (str_exec fuel) ops []) h ∅ (fun r h1 _ => h ⊆ h1 /\ forall ver k v, nth ver r.1 None <> None ->
    wp (str_inplace_insert fuel (nth ver r.1 None) k v ;;; str_enumerate fuel (nth ver r.1 None)) h1 (dom h1)
       (fun e _ _ => let m := smaps_nth str_compare (smaps str_compare ops []) ver in e = a_insert m.1 m.2 k v)).
Proof.
  intros Hops Hf. eapply wp_mono; [apply str_history_maps; [done|eapply enough_le; [exact Hf|lia]]|]. cbn beta.
  intros r h1 _ (Hs & _ & Hat). split; [done|]. intros ver k v Hv. specialize (Hat ver). destruct (nth ver r.1 None) as [a|]; [|done].
  apply wp_bind. eapply wp_mono; [eapply str_inplace_at; [exact Hat|eapply enough_le; [exact Hf|lia]]|]. cbn beta. intros _ h2 W2 Hat2.
  eapply wp_mono; [eapply (wp_weaken_W _ _ ∅); [by eapply str_enumerate_at|apply empty_subseteq]|]. cbn beta. intros e h3 W3 (_ & (_ & ->) & _). done.
Qed.

(** ** dltree *)
Lemma dl_owned_of h a l : dl_at h (Some a) l -> exists F, dl_owned h a l F /\ {[a]} ∪ F ⊆ dom h.
Proof.
  intros (r & Ha & t & Hr & Hb & Hi & Ho). pose proof Ho as Ho'. rewrite <- Hi in Ho'.
  destruct (owned_of_rep dl_compare h t dl_compare_lawful r Hr Ho') as (F & HF & HF'). exists F. split.
  - exists r, t. split_and!; try done. intros Hin. destruct (HF' _ Hin) as (? & ? & _). congruence.
  - pose proof (owned_dom h r t F HF'). apply elem_of_dom_2 in Ha. clear -H Ha. set_solver.
Qed.
Lemma dl_inplace_dom fuel h a l k v : dl_at h (Some a) l -> enough fuel (length l) ->
  wp (dl_raw_inplace_insert fuel (Some a) k v) h (dom h) (fun _ h' _ => dl_at h' (Some a) (a_insert dl_compare l k v)).
Proof.
  intros Hat Hf. destruct (dl_owned_of _ _ _ Hat) as (F & HF & HFd).
  eapply wp_mono; [by eapply dl_inplace_at|]. cbn beta. intros _ h' W' (F' & HF' & _). by eapply dl_owned_at.
Qed.
Definition dl_inplace fuel (p : ptr) (kv : dkey * value) : prog U ptr := dk_inplace_insert fuel p kv.1 kv.2 ;;; Ret p.
Definition d_mut (m : smap value) (kv : dkey * value) (m' : smap value) : Prop :=
  exists k, key_is kv.1 k /\ m' = (m.1, a_insert m.1 m.2 k kv.2).
(** The operations on the handle itself, with meaningful keys. *)
Definition d_on_handle (o : dop value) : Prop := exists ro, resolves o ro /\ on_handle ro.
Definition d_key_ok (kv : dkey * value) : Prop := exists k, key_is kv.1 k.

Definition dl_hR (n : nat) h p (m : smap value) : Prop := p <> None /\ m.1 = dl_compare /\ dl_at h p m.2 /\ length m.2 <= n.
Lemma dl_hexec fuel n h p m o : enough fuel n -> dl_hR n h p m -> d_on_handle o ->
  wp (dl_exec fuel [p] o) h ∅ (fun r h' _ => exists ms, dstep [m] o ms r.2 /\ dl_hR (n + 1) h' (List.last r.1 p) (List.last ms m)).
Proof.
  intros Hf (Hp & Hm & Hat & Hlen) (ro & Hro & Ho). destruct m as [cmp l]. cbn [fst snd] in *. subst cmp.
  pose proof (enough_le _ _ _ Hf Hlen) as Hf'. pose proof (enough_get _ _ _ Hf Hlen) as Hf2. pose proof (dl_at_ordered _ _ _ Hat) as Hord.
  destruct Hro as [? ? ?|i k k' v Hk|i k k' Hk|i k k' Hk|i|i]; [done|..]; cbn [on_handle] in Ho; subst i; cbn [dl_exec nth]; apply wp_bind.
  - rewrite (dk_insert_raw _ _ _ k') by done. eapply wp_mono; [by eapply dl_insert_at|]. cbn beta. intros p' h' W' (_ & Hat' & a & -> & _). cbn [wp fst snd app List.last].
    exists [(dl_compare, l); (dl_compare, a_insert dl_compare l k' v)]. split; [by eexists; split; [constructor|]|]. split_and!; [done|done|exact Hat'|].
    cbn [fst snd List.last]. pose proof (a_insert_len l k' v). lia.
  - rewrite (dk_delete_raw _ _ _ k') by done. eapply wp_mono; [by eapply dl_delete_at|]. cbn beta. intros x h' W' (_ & Hat' & Hx & Hn). cbn [wp fst snd app List.last].
    exists [(dl_compare, l); (dl_compare, a_delete dl_compare l k')]. rewrite Hx. split; [by eexists; split; [constructor|]|]. split_and!; [|done|exact Hat'|].
    + destruct p as [a|]; [|done]. by destruct Hn as (? & -> & _).
    + cbn [fst snd List.last]. pose proof (a_delete_len l k'). lia.
  - rewrite (dk_get_raw _ _ _ k') by done. eapply wp_mono; [by eapply dl_get_at|]. cbn beta. intros x h' W' [-> ->]. cbn [wp fst snd app List.last].
    exists [(dl_compare, l)]. split; [|split_and!; [done|done|done|cbn [fst snd List.last]; lia]].
    eexists; split; [by constructor|]. cbn. f_equal. f_equal. by destruct (a_get dl_compare l k').
  - eapply wp_mono; [by eapply dl_enumerate_at|]. cbn beta. intros x h' W' [-> ->]. cbn [wp fst snd app List.last].
    exists [(dl_compare, l)]. split; [by eexists; split; [constructor|]|]. split_and!; [done|done|done|cbn [fst snd List.last]; lia].
  - eapply wp_mono; [by eapply dl_is_empty_at|]. cbn beta. intros x h' W' [-> ->]. cbn [wp fst snd app List.last].
    exists [(dl_compare, l)]. split; [by eexists; split; [constructor|]|]. split_and!; [done|done|done|cbn [fst snd List.last]; lia].
Qed.
Lemma dl_handle fuel h ops : Forall (hop_ok d_on_handle d_key_ok) ops -> enough fuel (length ops) ->
  wp (p <- dl_new ;; run_handle (dl_exec fuel) (dl_inplace fuel) ops p) h ∅ (fun r h' _ => h ⊆ h' /\
    exists m', h_spec dstep d_mut ops (dl_compare, []) m' r.2).
Proof.
  intros Hops Hf. eapply start_handle_ok with (R := dl_hR) (okop := d_on_handle) (okk := d_key_ok) (N := length ops); [..|done|done].
  - intros n n' h' p m Hn (? & ? & ? & ?). split_and!; [done|done|done|lia].
  - intros n h' p m o Hn HR Ho. apply dl_hexec; [|done|done]. eapply enough_le; [exact Hf|lia].
  - intros n h' [a|] m [k v] Hn (Hp & Hm & Hat & Hlen) [k' Hk]; [|done]. cbn [fst snd] in *. unfold dl_inplace. apply wp_bind. cbn [fst snd].
    rewrite (dk_inplace_raw _ _ _ k') by done. pose proof (dl_at_ordered _ _ _ Hat) as Hord.
    eapply wp_mono; [eapply dl_inplace_dom; [exact Hat|eapply enough_le; [exact Hf|lia]]|]. cbn beta. intros _ h2 W2 Hat2. cbn [wp fst snd].
    eexists. split; [exists k'; done|]. rewrite Hm. split_and!; [done|done|done|]. cbn [fst snd]. pose proof (a_insert_len m.2 k' v). lia.
  - unfold dl_new. apply wp_bind, wp_alloc. intros a Ha. cbn [wp]. split_and!; [done|done| |done].
    exists None. split; [by rewrite lookup_insert|]. exists E. split_and!; [done|apply rbt_E|done|constructor].
Qed.
Lemma dl_inplace_any fuel h ops rops : Forall2 resolves ops rops -> enough fuel (dkeys ops + 1) ->
  wp (run_hist (dl_exec fuel) ops []) h ∅ (fun r h1 _ => h ⊆ h1 /\ forall ver k v, nth ver r.1 None <> None ->
    wp (dl_raw_inplace_insert fuel (nth ver r.1 None) k v ;;; dl_raw_enumerate fuel (nth ver r.1 None)) h1 (dom h1)
       (fun e _ _ => e = a_insert dl_compare (smaps_nth dl_compare (smaps dl_compare rops []) ver).2 k v)).
Proof.
  intros Hops Hf. eapply wp_mono; [apply dl_history; [exact Hops|eapply enough_le; [exact Hf|unfold dkeys; lia]]|]. cbn beta.
  intros r h1 _ (Hs & _ & Hat). split; [done|]. intros ver k v Hv. destruct (Hat ver) as (l & -> & Hl & Hlen). destruct (nth ver r.1 None) as [a|]; [|done].
  pose proof (dl_at_ordered _ _ _ Hl) as Hord. pose proof (a_insert_len l k v) as Hlen'. cbn [snd]. fold (dkeys ops) in Hlen.
  apply wp_bind. eapply wp_mono; [eapply dl_inplace_dom; [exact Hl|eapply enough_le; [exact Hf|lia]]|]. cbn beta. intros _ h2 W2 Hat2.
  eapply wp_mono; [eapply (wp_weaken_W _ _ ∅); [eapply dl_enumerate_at; [exact Hat2|eapply enough_get; [exact Hf|lia]]|apply empty_subseteq]|]. cbn beta. intros e h3 W3 (_ & (-> & _) & _). done.
Qed.

End own.
