(** * Proofs for Properties_compare.v. *)
From Verif Require Import Prog History RbModel RbSpec RbFun RbFunIns RbFunDel RbSim RbSimOps RbAbs RbHang StrSpec StrAbs StrPropProofs StrAny.
Open Scope nat_scope.

Section pf.
Context {U : Type}.
Local Notation heap := (heap U).
Local Notation value := (value U).
Implicit Types h : heap.
Implicit Types p : ptr.

Lemma nil_E (t : tree U) : is_nil (inord t) = true <-> t = E.
Proof. split; [|by intros ->]. destruct t as [|c l k v r]; [done|]. simpl. by destruct (inord l). Qed.
Lemma not_takes (cmp : bytes -> bytes -> Z) k (t : tree U) : is_nil (inord t) || (f_get cmp k t).2 || (cmp k k =? 0)%Z = true <-> takes cmp k t.
Proof.
  unfold takes, stops. rewrite !orb_true_iff, nil_E, Z.eqb_eq. tauto.
Qed.
Lemma not_takes_f (cmp : bytes -> bytes -> Z) k (t : tree U) : is_nil (inord t) || (f_get cmp k t).2 || (cmp k k =? 0)%Z = false -> t <> E /\ cmp k k <> 0%Z /\ unfound cmp k t.
Proof.
  intros H. destruct (takes_dec cmp k t) as [Ht|Ht]; [|done]. apply not_takes in Ht. congruence.
Qed.

Lemma pf_any h (ops : list (sop value)) :
  (forall fuel, enough fuel (keys ops) -> wp (run_hist (str_exec fuel) ops []) h ∅ (fun r h' _ => h ⊆ h' /\ forall ver k v,
     let p := nth ver r.1 None in let cmp := (slogs_nth str_compare (slogs str_compare ops) ver).1 in
     exists found empty,
       wp (str_get fuel p k) h' ∅ (fun x _ _ => x.2 = found) /\ wp (str_is_empty p) h' ∅ (fun b _ _ => b = empty) /\
       wp (str_delete fuel p k) h' ∅ (fun _ _ _ => True) /\ wp (str_enumerate fuel p) h' ∅ (fun _ _ _ => True) /\
       if empty || found || (cmp k k =? 0)%Z then wp (str_insert fuel p k v) h' ∅ (fun _ _ _ => True)
       else forall fuel', fails (str_insert fuel' p k v) h' EFuel)) \/
  (forall fuel, enough fuel (keys ops) -> fails (run_hist (str_exec fuel) ops []) h EFuel).
Proof.
  destruct (any_run (keys ops) ops 0 [] []) as [(ss & outs & Hg & H)|H]; [unfold keys; lia|constructor|done|left|right].
  2: { intros fuel Hf. by apply H. }
  intros fuel Hf. apply wp_cow0. eapply wp_mono; [apply (H fuel Hf h []); constructor|]. cbn beta. intros r h' _ [_ HR] ver k v. cbv zeta.
  assert (Hc : (trees_nth ss ver).1 = (slogs_nth str_compare (slogs str_compare ops) ver).1).
  { unfold trees_nth, slogs_nth, slogs. rewrite <- (map_nth fst ss), Hg. exact (map_nth fst _ (str_compare, []) ver). }
  rewrite <- Hc. clear Hc Hg. pose proof (anyR_nth _ _ _ _ ver HR) as [Hp [Hb Hs]]. set (s := trees_nth ss ver) in *. simpl in Hs.
  assert (Hh : height s.2 <= fuel) by (eapply height_le; [done|exact Hs|done]).
  exists (f_get s.1 k s.2).2, (is_nil (inord s.2)). split_and!.
  - eapply wp_mono; [by apply str_get_wp|]. cbn beta. by intros x ? ? [-> _].
  - eapply wp_mono; [by apply str_is_empty_wp|]. cbn beta. by intros x ? ? [-> _].
  - eapply wp_mono; [by apply str_delete_wp|]. done.
  - eapply wp_mono; [by apply str_enumerate_wp|]. done.
  - destruct (is_nil _ || _ || _) eqn:Et.
    + apply not_takes in Et. destruct (any_ins s.1 s.2 k v (keys ops) Hb Hs Et) as (t & _ & _ & Ht).
      eapply wp_mono; [eapply str_insert_wp; [exact Hp|by apply Ht]|]. done.
    + intros fuel'. apply not_takes_f in Et as (? & ? & ?). by eapply str_insert_hang.
Qed.

Lemma pf_any_inplace h cmp (items : list (bytes * value)) :
  (forall fuel, enough fuel (length items) -> wp (p <- str_new_custom (Some cmp) ;; str_fill fuel p items ;;; Ret p) h ∅ (fun p h' W' => forall k v,
     exists found empty,
       wp (str_get fuel p k) h' ∅ (fun x _ _ => x.2 = found) /\ wp (str_is_empty p) h' ∅ (fun b _ _ => b = empty) /\
       if empty || found || (cmp k k =? 0)%Z then wp (str_inplace_insert fuel p k v) h' W' (fun _ _ _ => True)
       else forall fuel', fails (str_inplace_insert fuel' p k v) h' EFuel)) \/
  (forall fuel, enough fuel (length items) -> fails (p <- str_new_custom (Some cmp) ;; str_fill fuel p items ;;; Ret p) h EFuel).
Proof.
  destruct (any_fill (length items) cmp items E rbt_E) as [(t & Hb & Hs & Ht)|Hfl]; [done|left|right].
  - intros fuel Hf. apply wp_bind. unfold str_new_custom. apply wp_bind, wp_alloc. intros a Ha. cbn [wp]. apply wp_bind.
    eapply wp_mono.
    { eapply (str_fill_wp fuel cmp items _ a E t ∅); [|clear; set_solver|by apply Ht].
      exists None. cbn [fst snd]. split_and!; [by rewrite lookup_insert|done|clear; set_solver]. }
    cbn beta. intros _ h' W' (F' & Ho & HW). cbn [wp]. intros k v. pose proof (str_owned_rep _ _ _ _ Ho) as Hp. change (size E + length items) with (length items) in Hs.
    assert (Hh : height t <= fuel) by (eapply height_le; [done|exact Hs|done]).
    exists (f_get cmp k t).2, (is_nil (inord t)). split_and!.
    + eapply wp_mono; [by apply (str_get_wp fuel h' (Some a) (cmp, t))|]. cbn beta. by intros x ? ? [-> _].
    + eapply wp_mono; [by apply (str_is_empty_wp h' (Some a) (cmp, t))|]. cbn beta. by intros x ? ? [-> _].
    + destruct (is_nil _ || _ || _) eqn:Et.
      * apply not_takes in Et. destruct (any_ins cmp t k v (length items) Hb Hs Et) as (t' & _ & _ & Ht').
        eapply wp_mono; [eapply (str_inplace_wp fuel h' a (cmp, t)); [exact Ho|exact HW|by apply Ht']|]. done.
      * intros fuel'. apply not_takes_f in Et as (? & ? & ?). by eapply (str_inplace_hang fuel' h' a (cmp, t)).
  - intros fuel Hf. unfold str_new_custom. cbn [bind fails alloc]. intros a Ha. apply fails_bind_l. eapply (Hfl fuel Hf _ a ∅).
    exists None. cbn [fst snd]. split_and!; [by rewrite lookup_insert|done|clear; set_solver].
Qed.

(** A comparison function that is never 0. *)
Lemma pf_strict fuel h cmp k1 v1 k2 v2 : (forall a b, cmp a b <> 0%Z) ->
  fails (p <- str_new_custom (U := U) (Some cmp) ;; p1 <- str_insert fuel p k1 v1 ;; str_insert fuel p1 k2 v2) h EFuel.
Proof.
  intros Hc. unfold str_new_custom. cbn [bind fails alloc]. intros a Ha.
  eapply (fails_bind_r _ _ _ ∅); [eapply (str_insert_wp fuel _ (Some a) (cmp, E)); [|reflexivity]|].
  - exists None. by rewrite lookup_insert.
  - cbn beta. intros p1 h1 _ [Hp1 _]. cbn [fst] in Hp1. eapply str_insert_hang; [exact Hp1|exists 1; simpl; eauto 10|done|apply Hc|].
    apply unfound_inv. split; [apply Hc|]. by destruct (todir _ _ _).
Qed.
End pf.
