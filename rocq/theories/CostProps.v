(** * Cost after any history: strtree and dltree. *)
From Verif Require Import Prog History RbModel RbSpec RbFun RbFunIns RbFunDel RbSim RbSimIns RbSimOps RbSimDel2 RbAbs StrSpec StrAbs StrPropProofs.
From Verif Require Import DomModel DomSpec DlModel DlSpec DlAbs DlPropProofs Handle RbHandle CostSpec Cost CostRb.
Open Scope nat_scope.

Section props.
Context {U : Type}.
Local Notation heap := (heap U).
Local Notation value := (value U).
Implicit Types h : heap.

Lemma use {A} (m m' : prog U A) h W Q s a s' a' : approx m m' -> wp m h W Q -> cost m s a -> s <= s' -> a <= a' -> within m' h s' a'.
Proof.
  intros H1 H2 H3 Hs Ha. split; [exists W; eapply wp_mono; [eapply approx_wp; [exact H1|exact H2]|done]|].
  eapply costs_mono; [eapply approx_costs; [exact H1|exact H2|exact H3]|lia|lia]. Qed.

Lemma str_cost fuel h (ops : list (sop value)) : Forall sop_refl ops -> enough fuel (keys ops) ->
  wp (run_hist (str_exec fuel) ops []) h ∅ (fun r h1 _ => forall ver, let p := nth ver r.1 None in
    wp (str_enumerate fuel p) h1 ∅ (fun e _ _ => let L := Nat.log2 (length e + 1) in forall k v,
      within (str_get fuel p k) h1 (2 * L + 1) 0 /\
      within (str_insert fuel p k v) h1 (192 * L + 104) (12 * L + 8) /\
      within (str_delete fuel p k) h1 (116 * L + 16) (6 * L + 2))).
Proof.
  intros Ho Hf. apply strR_at with (Q := fun p h1 => wp (str_enumerate fuel p) h1 ∅ (fun e _ _ => let L := Nat.log2 (length e + 1) in forall k v,
      within (str_get fuel p k) h1 (2 * L + 1) 0 /\ within (str_insert fuel p k v) h1 (192 * L + 104) (12 * L + 8) /\
      within (str_delete fuel p k) h1 (116 * L + 16) (6 * L + 2))); [done|done|].
  intros h1 p s [Hp (Hc & Hb & Hs)]. eapply wp_mono; [eapply str_enumerate_wp; [exact Hp|by eapply height_le]|].
  cbn beta. intros e h2 W2 [-> ->] L k v. pose proof (rbt_height _ Hb) as Hh. unfold size in *. fold L in Hh.
  assert (Hl : L <= Nat.log2 (keys ops + 1)) by (apply Nat.log2_le_mono; lia). unfold enough in Hf. split_and!.
  - eapply use; [apply (approx_str_get (2 * L) fuel); lia|eapply str_get_wp; [exact Hp|exact Hh]|apply cost_str_get|lia|lia].
  - destruct (f_ins_enough (4 * L + 2) _ s.2 k v Hc Hb) as (t & Ht & _); [unfold enough, size; fold L; lia|].
    eapply use; [apply (approx_str_insert (4 * L + 2) fuel); lia|eapply str_insert_wp; [exact Hp|exact Ht]|apply cost_str_insert|lia|lia].
  - eapply use; [apply (approx_str_delete (2 * L) fuel); lia|eapply str_delete_wp; [exact Hp|exact Hb|exact Hh]|apply cost_str_delete|lia|lia].
Qed.
Lemma str_cost_inplace fuel h (ops : list (sop value)) : Forall sop_lawful ops -> enough fuel (keys ops) ->
  wp (run_hist (str_exec fuel) ops []) h ∅ (fun r h1 _ => forall ver, let p := nth ver r.1 None in
    wp (str_enumerate fuel p) h1 ∅ (fun e _ _ => let L := Nat.log2 (length e + 1) in forall k v,
      p <> None -> within (str_inplace_insert fuel p k v) h1 (160 * L + 88) (4 * L + 3))).
Proof.
  intros Ho Hf. eapply wp_mono; [apply str_history_maps; [done|done]|]. cbn beta. intros r h1 _ (_ & _ & H) ver p. specialize (H ver). fold p in H.
  set (m := smaps_nth _ _ _) in H.
  eapply wp_mono; [eapply str_enumerate_at; [exact H|exact Hf]|]. cbn beta. intros e h2 W2 [-> ->] L k v Hnn.
  destruct (str_at_log _ _ _ _ H) as [Hlen _]. fold (keys ops) in Hlen.
  assert (Hl : L <= Nat.log2 (keys ops + 1)) by (apply Nat.log2_le_mono; lia). unfold enough in Hf.
  destruct p as [a|]; [clear Hnn|done].
  assert (H' : str_at h1 (Some a) m (length m.2)).
  { destruct H as (t & [Hp (Hc & Hb & Hs)] & HT). exists t. split; [|done]. split; [done|]. split_and!; [done|done|]. destruct HT as (? & ? & E & ?). cbn [fst snd] in *. unfold size. by rewrite E. }
  eapply use; [apply (approx_str_inplace (4 * L + 2) fuel); lia|eapply str_inplace_at; [exact H'|unfold enough; fold L; lia]|apply cost_str_inplace|lia|lia].
Qed.
Lemma dl_cost fuel h (ops : list (dop value)) rops : Forall2 resolves ops rops -> enough fuel (dkeys ops) ->
  wp (run_hist (dl_exec fuel) ops []) h ∅ (fun r h1 _ => forall ver, let p := nth ver r.1 None in
    wp (dl_raw_enumerate fuel p) h1 ∅ (fun e _ _ => let L := Nat.log2 (length e + 1) in forall k v,
      within (dl_raw_get fuel p k) h1 (2 * L + 1) 0 /\
      within (dl_raw_insert fuel p k v) h1 (192 * L + 104) (12 * L + 8) /\
      within (dl_raw_delete fuel p k) h1 (232 * L + 132) (12 * L + 8) /\
      (p <> None -> within (dl_raw_inplace_insert fuel p k v) h1 (160 * L + 88) (4 * L + 3)))).
Proof.
  intros Hops Hf. eapply wp_mono; [by apply dl_history|]. cbn beta. intros r h1 _ (_ & _ & H) ver p.
  destruct (H ver) as (l & _ & Hat & Hlen). fold p in Hat. fold (dkeys ops) in Hlen.
  eapply wp_mono; [eapply dl_enumerate_at; [exact Hat|by eapply enough_get]|]. cbn beta. intros e h2 W2 [-> ->] L k v.
  assert (Hl : L <= Nat.log2 (dkeys ops + 1)) by (apply Nat.log2_le_mono; lia). unfold enough in Hf.
  assert (He : enough (4 * L + 2) (length l)) by (unfold enough; fold L; lia). split_and!.
  - eapply use; [apply (approx_dl_get (2 * L) fuel); lia|eapply dl_get_at; [exact Hat|done]|apply cost_dl_get|lia|lia].
  - eapply use; [apply (approx_dl_insert (4 * L + 2) fuel); lia|eapply dl_insert_at; [exact Hat|exact He]|apply cost_dl_insert|lia|lia].
  - eapply use; [apply (approx_dl_delete (4 * L + 2) fuel); lia|eapply dl_delete_at; [exact Hat|exact He]|apply cost_dl_delete|lia|lia].
  - intros Hnn. destruct p as [a|]; [clear Hnn|done].
    eapply use; [apply (approx_dl_inplace (4 * L + 2) fuel); lia|eapply dl_inplace_dom; [exact Hat|exact He]|apply cost_dl_inplace|lia|lia].
Qed.
End props.
