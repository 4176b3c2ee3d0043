(** * Proofs of the statements of Properties_strtree.v. *)
From Verif Require Import Prog History RbModel RbSpec RbFun RbFunIns RbFunDel RbSim RbSimIns RbSimOps RbSimDel2 RbAbs StrSpec StrAbs.

(** Vocabulary of the statements. *)
Definition ver_cmp {V} (ops : list (sop V)) (ver : nat) : bytes -> bytes -> Z := (slogs_nth str_compare (slogs str_compare ops) ver).1.
Definition ver_log {V} (ops : list (sop V)) (ver : nat) : list (lop V) := (slogs_nth str_compare (slogs str_compare ops) ver).2.
Definition keys {V} (ops : list (sop V)) : nat := weight sop_weight ops.

Lemma str_compare_lt a b : (str_compare a b < 0)%Z <-> lex_lt a b.
Proof.
  revert b. induction a as [|x a IH]; intros [|y b]; simpl.
  - split; [lia|inversion 1].
  - split; [constructor|lia].
  - split; [lia|inversion 1].
  - destruct (N.compare_spec (Byte.to_N x) (Byte.to_N y)) as [E|E|E].
    + rewrite IH. apply to_N_inj in E. subst. split; [by constructor|]. inversion 1; subst; [lia|done].
    + split; [by constructor|lia].
    + split; [lia|]. inversion 1; subst; lia.
Qed.
Lemma dl_compare_lt a b : (dl_compare a b < 0)%Z <-> shortlex_lt a b.
Proof.
  unfold dl_compare, shortlex_lt. destruct (Z.eqb_spec (Z.of_nat (length a) - Z.of_nat (length b)) 0) as [E|E].
  - rewrite str_compare_lt. split; [intros; right; split; [lia|done]|]. intros [?|[_ ?]]; [lia|done].
  - split; [intros; left; lia|]. intros [?|[? _]]; lia.
Qed.

Section proofs.
Context {U : Type}.
Local Notation heap := (heap U).
Local Notation value := (value U).
Implicit Types h : heap.

Lemma log_at (ops : list (sop value)) ver : Forall sop_lawful ops ->
  let m := smaps_nth str_compare (smaps str_compare ops []) ver in
  m.1 = ver_cmp ops ver /\ lawful m.1 /\ ordered m.1 m.2 /\ forall k, a_get m.1 m.2 k = log_get m.1 (ver_log ops ver) k.
Proof. intros H. exact (smap_log str_compare str_compare_lawful ops ver H). Qed.

(** Any calls after any history. *)
Lemma after fuel h (ops : list (sop value)) ver {A} (body : ptr -> prog U A) (Q : A -> Prop) :
  Forall sop_lawful ops -> enough fuel (keys ops) ->
  (forall h1 p (m : smap value), str_at h1 p m (keys ops) -> m.1 = ver_cmp ops ver ->
     (forall k, a_get m.1 m.2 k = log_get m.1 (ver_log ops ver) k) -> wp (body p) h1 ∅ (fun a _ _ => Q a)) ->
  wp (r <- run_hist (str_exec fuel) ops [] ;; body (nth ver r.1 None)) h ∅ (fun a h' _ => h ⊆ h' /\ Q a).
Proof.
  intros Hops Hf Hb. eapply (wp_then _ _ _ _ (fun a _ => Q a)).
  - eapply wp_mono; [apply str_history_maps; [done|done]|]. cbn beta. intros r h' _ (_ & _ & H).
    exact (H ver).
  - cbn beta. intros r h1 _ Hat. destruct (log_at ops ver Hops) as (H1 & H2 & H3 & H4). by eapply Hb.
Qed.

Lemma pf_get fuel h (ops : list (sop value)) ver k : Forall sop_lawful ops -> enough fuel (keys ops) ->
  wp (r <- run_hist (str_exec fuel) ops [] ;; str_get fuel (nth ver r.1 None) k) h ∅
     (fun res h' _ => h ⊆ h' /\
        res = match log_get (ver_cmp ops ver) (ver_log ops ver) k with Some v => (v, true) | None => (VNil, false) end).
Proof.
  intros Hops Hf. apply after with (body := fun p => str_get fuel p k) (Q := fun res => res = match log_get (ver_cmp ops ver) (ver_log ops ver) k with Some v => (v, true) | None => (VNil, false) end); [done|done|].
  intros h1 p m Hat E Hg. eapply wp_mono; [eapply str_get_at; [exact Hat|]|].
  - destruct (str_at_log _ _ _ _ Hat) as [Hl _]. pose proof (enough_le _ _ _ Hf Hl) as H. unfold enough in H. lia.
  - cbn beta. intros res h' _ [_ ->]. by rewrite Hg, E.
Qed.

Lemma pf_history fuel h (ops : list (sop value)) : Forall sop_lawful ops -> enough fuel (keys ops) ->
  wp (run_hist (str_exec fuel) ops []) h ∅ (fun r h' _ => h ⊆ h' /\ r.2 = souts str_compare ops []).
Proof. intros. eapply wp_mono; [by apply str_history_maps|]. cbn beta. tauto. Qed.

Lemma strR_at fuel h (ops : list (sop value)) (Q : ptr -> heap -> Prop) : Forall sop_refl ops -> enough fuel (keys ops) ->
  (forall h1 p s, strR (keys ops) h1 p s -> Q p h1) ->
  wp (run_hist (str_exec fuel) ops []) h ∅ (fun r h1 _ => forall ver, Q (nth ver r.1 None) h1).
Proof.
  intros Ho Hf HQ. eapply wp_mono; [by apply str_history|]. cbn beta. intros r h1 _ (_ & ts & _ & HR) ver.
  eapply HQ. apply strR_nth, HR.
Qed.

Lemma pf_insert_nowrite fuel h (ops : list (sop value)) k v : Forall sop_refl ops -> enough fuel (keys ops) ->
  wp (run_hist (str_exec fuel) ops []) h ∅ (fun r h1 _ => forall ver,
    wp (str_insert fuel (nth ver r.1 None) k v) h1 ∅ (fun _ h2 _ => h1 ⊆ h2)).
Proof.
  intros Ho Hf. apply strR_at with (Q := fun p h1 => wp (str_insert fuel p k v) h1 ∅ (fun _ h2 _ => h1 ⊆ h2)); [done|done|].
  intros h1 p s [Hp (Hc & Hb & Hs)]. destruct (f_ins_enough fuel _ s.2 k v Hc Hb) as (t & Ht & _); [by eapply enough_le|].
  eapply wp_mono; [apply wp_cow0 with (Q := fun _ _ => True); eapply wp_mono; [by eapply str_insert_wp|done]|]. cbn beta. tauto.
Qed.
Lemma pf_delete_nowrite fuel h (ops : list (sop value)) k : Forall sop_refl ops -> enough fuel (keys ops) ->
  wp (run_hist (str_exec fuel) ops []) h ∅ (fun r h1 _ => forall ver,
    wp (str_delete fuel (nth ver r.1 None) k) h1 ∅ (fun _ h2 _ => h1 ⊆ h2)).
Proof.
  intros Ho Hf. apply strR_at with (Q := fun p h1 => wp (str_delete fuel p k) h1 ∅ (fun _ h2 _ => h1 ⊆ h2)); [done|done|].
  intros h1 p s [Hp (Hc & Hb & Hs)].
  eapply wp_mono; [apply wp_cow0 with (Q := fun _ _ => True); eapply wp_mono; [eapply str_delete_wp; [exact Hp|done|by eapply height_le]|done]|]. cbn beta. tauto.
Qed.

(** Two enumerations around an update. *)
Lemma pf_delete fuel h (ops : list (sop value)) ver k : Forall sop_lawful ops -> enough fuel (keys ops) ->
  wp (r <- run_hist (str_exec fuel) ops [] ;;
      e <- str_enumerate fuel (nth ver r.1 None) ;;
      d <- str_delete fuel (nth ver r.1 None) k ;;
      e' <- str_enumerate fuel d.1 ;; Ret (e, d.2, e')) h ∅
     (fun '(e, found, e') h' _ => h ⊆ h' /\
        found = existsb (fun x => ver_cmp ops ver x.1 k =? 0)%Z e /\
        e' = List.filter (fun x => negb (ver_cmp ops ver x.1 k =? 0)%Z) e).
Proof.
  intros Hops Hf. eapply wp_mono; [apply after with (body := fun p => e <- str_enumerate fuel p ;;
      d <- str_delete fuel p k ;;
      e' <- str_enumerate fuel d.1 ;; Ret (e, d.2, e')) (Q := fun '(e, found, e') =>  found = existsb (fun x => ver_cmp ops ver x.1 k =? 0)%Z e /\
        e' = List.filter (fun x => negb (ver_cmp ops ver x.1 k =? 0)%Z) e); [done|done|]|].
  - intros h1 p m Hat E _. apply wp_bind. eapply wp_mono; [by eapply str_enumerate_at|].
    cbn beta. intros e h2 W2 [-> ->]. apply wp_bind. eapply wp_mono; [apply (wp_cow _ _ W2 (fun d h' => str_at h' d.1 (m.1, a_delete m.1 m.2 k) (keys ops) /\ d.2 = a_deleted m.1 m.2 k)); eapply wp_mono; [by eapply str_delete_at|]; cbn beta; tauto|].
    cbn beta. intros d h3 W3 ([Hd Hf2] & _). apply wp_bind. eapply wp_mono; [apply (wp_cow _ _ W3 (fun e h' => e = a_delete m.1 m.2 k)); eapply wp_mono; [by eapply str_enumerate_at|]; cbn beta; tauto|].
    cbn beta. intros e h4 W4 [-> _]. cbn [wp]. rewrite <- E, Hf2. done.
  - cbn beta. intros [[e found] e'] h' _ H. exact H.
Qed.

Lemma pf_delete_missing fuel h (ops : list (sop value)) ver k : Forall sop_lawful ops -> enough fuel (keys ops) ->
  wp (r <- run_hist (str_exec fuel) ops [] ;;
      e <- str_enumerate fuel (nth ver r.1 None) ;;
      d <- str_delete fuel (nth ver r.1 None) k ;;
      e' <- str_enumerate fuel d.1 ;; Ret (e, d.2, e')) h ∅
     (fun '(e, found, e') h' _ => h ⊆ h' /\ (found = false -> e' = e)).
Proof.
  intros Hops Hf. eapply wp_mono; [by apply pf_delete|]. cbn beta. intros [[e found] e'] h' _ (Hs & -> & ->).
  split; [done|]. intros Hex. clear -Hex. induction e as [|x e IH]; [done|]. simpl in *.
  apply orb_false_iff in Hex as [-> Hex]. simpl. by rewrite IH.
Qed.

Lemma pf_insert fuel h (ops : list (sop value)) ver k v : Forall sop_lawful ops -> enough fuel (keys ops + 1) ->
  wp (r <- run_hist (str_exec fuel) ops [] ;;
      e <- str_enumerate fuel (nth ver r.1 None) ;;
      t <- str_insert fuel (nth ver r.1 None) k v ;;
      e' <- str_enumerate fuel t ;; Ret (e, e')) h ∅
     (fun '(e, e') h' _ => h ⊆ h' /\
        forall k' v', (k', v') ∈ e -> ver_cmp ops ver k' k = 0%Z ->
          (k', v) ∈ e' /\ map fst e' = map fst e /\
          e' = map (fun x => if (ver_cmp ops ver x.1 k =? 0)%Z then (x.1, v) else x) e).
Proof.
  intros Hops Hf. eapply wp_mono; [apply after with (body := fun p => e <- str_enumerate fuel p ;;
      t <- str_insert fuel p k v ;;
      e' <- str_enumerate fuel t ;; Ret (e, e')) (Q := fun '(e, e') =>
        forall k' v', (k', v') ∈ e -> ver_cmp ops ver k' k = 0%Z ->
          (k', v) ∈ e' /\ map fst e' = map fst e /\
          e' = map (fun x => if (ver_cmp ops ver x.1 k =? 0)%Z then (x.1, v) else x) e); [done|eapply enough_le; [exact Hf|lia]|]|].
  - intros h1 p m Hat E _. apply wp_bind. eapply wp_mono; [apply str_enumerate_at with (n := keys ops); [done|eapply enough_le; [exact Hf|lia]]|].
    cbn beta. intros e h2 W2 [-> ->]. apply wp_bind. eapply wp_mono; [apply (wp_cow _ _ W2 (fun d h' => str_at h' d (m.1, a_insert m.1 m.2 k v) (keys ops + 1))); eapply wp_mono; [eapply str_insert_at; [exact Hat|eapply enough_le; [exact Hf|lia]]|]; cbn beta; tauto|].
    cbn beta. intros d h3 W3 (Hd & _). apply wp_bind. eapply wp_mono; [apply (wp_cow _ _ W3 (fun e h' => e = a_insert m.1 m.2 k v)); eapply wp_mono; [eapply str_enumerate_at; [exact Hd|done]|]; cbn beta; tauto|].
    cbn beta. intros e h4 W4 [-> _]. cbn [wp]. intros k' v' Hin Hk. rewrite <- E in *.
    assert (a_insert m.1 m.2 k v = map (fun x => if (m.1 x.1 k =? 0)%Z then (x.1, v) else x) m.2) as ->.
    { unfold a_insert. assert (existsb (fun x => same_key m.1 k x.1) m.2 = true) as ->; [|done].
      apply existsb_exists. exists (k', v'). split; [by apply elem_of_list_In|]. unfold same_key. simpl. lia. }
    split_and!; [|rewrite map_map; apply map_ext; intros x; by destruct (_ =? _)%Z|done].
    apply elem_of_list_In, in_map_iff. exists (k', v'). split; [|by apply elem_of_list_In]. simpl. by rewrite Hk.
  - cbn beta. intros [e e'] h' _ H. exact H.
Qed.

Lemma pf_enumerate fuel h (ops : list (sop value)) ver : Forall sop_lawful ops -> enough fuel (keys ops) ->
  wp (r <- run_hist (str_exec fuel) ops [] ;; str_enumerate fuel (nth ver r.1 None)) h ∅
     (fun e h' _ => h ⊆ h' /\
        StronglySorted (fun x y => ver_cmp ops ver x.1 y.1 < 0)%Z e /\
        (forall k v, (k, v) ∈ e -> log_get (ver_cmp ops ver) (ver_log ops ver) k = Some v) /\
        (forall k v, log_get (ver_cmp ops ver) (ver_log ops ver) k = Some v ->
           exists k', (k', v) ∈ e /\ ver_cmp ops ver k' k = 0%Z)).
Proof.
  intros Hops Hf. apply after with (body := fun p => str_enumerate fuel p) (Q := fun e => 
        StronglySorted (fun x y => ver_cmp ops ver x.1 y.1 < 0)%Z e /\
        (forall k v, (k, v) ∈ e -> log_get (ver_cmp ops ver) (ver_log ops ver) k = Some v) /\
        (forall k v, log_get (ver_cmp ops ver) (ver_log ops ver) k = Some v ->
           exists k', (k', v) ∈ e /\ ver_cmp ops ver k' k = 0%Z)); [done|done|].
  intros h1 p m Hat E Hg. eapply wp_mono; [by eapply str_enumerate_at|]. cbn beta. intros e h2 _ [_ ->].
  destruct (str_at_log _ _ _ _ Hat) as (_ & Hl & Ho). rewrite <- E. split_and!; [done|..].
  - intros k v Hin. rewrite <- Hg. unfold a_get. clear -Hl Ho Hin. destruct m as [cm l0]. cbn [fst snd] in *. induction l0 as [|x l IH]; [by inversion Hin|].
    simpl. inversion Ho as [|? ? Ho' Hall]; subst. unfold same_key.
    apply elem_of_cons in Hin as [<-|Hin].
    + simpl. by rewrite (cmp_refl _ Hl).
    + assert (cm x.1 k <> 0)%Z. { rewrite Forall_forall in Hall. apply Hall in Hin. simpl in Hin. lia. }
      destruct (Z.eqb_spec (cm x.1 k) 0); [done|]. by apply IH.
  - intros k v. rewrite <- Hg. unfold a_get. intros (x & Hx & ->)%fmap_Some. apply find_some in Hx as [Hin Hk].
    exists x.1. unfold same_key in Hk. split; [|lia]. destruct x. by apply elem_of_list_In.
Qed.

Lemma pf_is_empty fuel h (ops : list (sop value)) ver : Forall sop_lawful ops -> enough fuel (keys ops) ->
  wp (r <- run_hist (str_exec fuel) ops [] ;;
      b <- str_is_empty (nth ver r.1 None) ;;
      e <- str_enumerate fuel (nth ver r.1 None) ;; Ret (b, e)) h ∅
     (fun '(b, e) h' _ => h ⊆ h' /\ (b = true <-> e = [])).
Proof.
  intros Hops Hf. eapply wp_mono; [apply after with (body := fun p => b <- str_is_empty p ;;
      e <- str_enumerate fuel p ;; Ret (b, e)) (Q := fun '(b, e) => b = true <-> e = []); [done|done|]|].
  - intros h1 p m Hat E _. apply wp_bind. eapply wp_mono; [by eapply str_is_empty_at|].
    cbn beta. intros b h2 W2 [-> ->]. apply wp_bind. eapply wp_mono; [apply (wp_cow _ _ W2 (fun e _ => e = m.2)); eapply wp_mono; [by eapply str_enumerate_at|]; cbn beta; tauto|].
    cbn beta. intros e h3 W3 [-> _]. cbn [wp]. by destruct m.2.
  - cbn beta. intros [b e] h' _ H. exact H.
Qed.

Lemma pf_depth fuel h (ops : list (sop value)) ver k : Forall sop_refl ops -> enough fuel (keys ops) ->
  wp (r <- run_hist (str_exec fuel) ops [] ;;
      e <- str_enumerate fuel (nth ver r.1 None) ;;
      str_get (2 * Nat.log2 (length e + 1)) (nth ver r.1 None) k) h ∅ (fun _ h' _ => h ⊆ h').
Proof.
  intros Ho Hf. eapply wp_mono; [eapply (wp_then _ _ _ _ (fun _ _ => True))|cbn beta; tauto].
  - apply strR_at with (Q := fun p h1 => exists s, strR (keys ops) h1 p s); [done|done|eauto].
  - cbn beta. intros r h1 _ Hat. destruct (Hat ver) as (s & Hp & (Hc & Hb & Hs)). apply wp_bind.
    eapply wp_mono; [eapply str_enumerate_wp; [exact Hp|by eapply height_le]|].
    cbn beta. intros e h2 W2 [-> ->]. eapply wp_mono; [apply (wp_cow _ _ W2 (fun _ _ => True)); eapply wp_mono; [eapply str_get_wp; [exact Hp|]|]|done].
    + exact (rbt_height _ Hb).
    + done.
Qed.
Lemma pf_redblack fuel h (ops : list (sop value)) ver : Forall sop_refl ops -> enough fuel (keys ops) ->
  wp (r <- run_hist (str_exec fuel) ops [] ;; Ret (nth ver r.1 None)) h ∅ (fun p h' _ => h ⊆ h' /\
    forall a, p = Some a -> exists cmp r t, h' !! a = Some (CStr r (Some cmp)) /\ rep h' r t /\ rbt t /\
      height t <= 2 * Nat.log2 (length (inord t) + 1)).
Proof.
  intros Ho Hf. eapply (wp_then _ _ _ _ (fun p h' => forall a, p = Some a -> exists cmp r t, h' !! a = Some (CStr r (Some cmp)) /\ rep h' r t /\ rbt t /\
      height t <= 2 * Nat.log2 (length (inord t) + 1))).
  - apply strR_at with (Q := fun p h1 => exists s, strR (keys ops) h1 p s); [done|done|eauto].
  - cbn beta. intros r h1 _ Hat. cbn [wp]. destruct (Hat ver) as ([cmp t] & Hp & (Hc & Hb & Hs)). intros a Ea.
    rewrite Ea in Hp. destruct Hp as (r0 & Ha & Hr). exists cmp, r0, t. split_and!; [done|done|done|]. exact (rbt_height _ Hb).
Qed.
Lemma pf_total fuel h (ops : list (sop value)) : Forall sop_refl ops -> enough fuel (keys ops) ->
  wp (run_hist (str_exec fuel) ops []) h ∅ (fun r h' _ => h ⊆ h').
Proof. intros. eapply wp_mono; [by apply str_history|]. cbn beta. tauto. Qed.

Lemma pf_inplace fuel h h0 a cmp t F k v : crefl cmp -> rbt t -> enough fuel (size t) ->
  str_owned h a (cmp, t) F -> h0 ⊆ h -> (forall x, x ∈ {[a]} ∪ F -> h0 !! x = None) ->
  exists t' : tree U, (lawful cmp -> ordered cmp (inord t) -> inord t' = a_insert cmp (inord t) k v) /\
    wp (str_inplace_insert fuel (Some a) k v) h ({[a]} ∪ F)
     (fun _ h' F1 => h0 ⊆ h' /\ rbt t' /\ exists F', {[a]} ∪ F' ⊆ F1 /\ str_owned h' a (cmp, t') F') /\
    wp (str_insert fuel (Some a) k v) h ∅ (fun p h' _ => str_rep h' p (cmp, t')).
Proof.
  intros Hc Hb Hf Ho Hs Hd. destruct (f_ins_enough fuel _ t k v Hc Hb) as (t' & Ht & Hb' & _); [done|].
  exists t'. split_and!.
  - intros Hl Hor. by eapply f_ins_content.
  - eapply wp_mono; [apply wp_frame; by eapply (str_inplace_wp fuel h a (cmp, t))|].
    cbn beta. intros _ h' F1 [(F' & Ho' & HF') [Hun _]]. split_and!; [|done|eauto].
    apply map_subseteq_spec. intros x y Hx. apply Hun; [by eapply lookup_weaken|].
    intros Hin. rewrite Hd in Hx; done.
  - eapply wp_mono; [eapply (str_insert_wp fuel h _ (cmp, t)); [by eapply str_owned_rep|exact Ht]|]. cbn beta. tauto.
Qed.

Lemma pf_delete_fresh fuel h (ops : list (sop value)) k : Forall sop_lawful ops -> enough fuel (keys ops) ->
  wp (run_hist (str_exec fuel) ops []) h ∅ (fun r h1 _ => forall ver a, nth ver r.1 None = Some a ->
    wp (str_delete fuel (Some a) k) h1 ∅ (fun d h2 _ => h1 ⊆ h2 /\ exists a', d.1 = Some a' /\ h1 !! a' = None)).
Proof.
  intros Hops Hf. eapply wp_mono; [by apply str_history_maps|]. cbn beta. intros r h1 _ (_ & _ & Hat) ver a Ea.
  specialize (Hat ver). rewrite Ea in Hat. eapply wp_mono; [by eapply str_delete_at|]. cbn beta. tauto.
Qed.
End proofs.
