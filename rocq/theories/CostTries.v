(** * Cost after any history: numtree, iptree, uintX. *)
From Verif Require Import Prog History NumModel NumSim NumSpec NumAbs NumPropProofs NumFoot Handle.
From Verif Require Import IpModel IpSpec IpUpdSpec IpBits IpAbs IpAbs2 IpAbs4 IpEnum IpHist IpPropProofs IpUpd IpUpd2 IpUpd3 IpUpd4 IpUpdProofs.
From Verif Require Import UxModel UxSpec UxAbs UxAbs2 UxHist UxPropProofs.
From Verif Require Import Handle IpHandle CostSpec Cost CostNum.
Open Scope nat_scope.

Section tries.
Context {U : Type}.
Local Notation heap := (heap U).
Local Notation value := (value U).
Implicit Types h : heap.

Lemma done_of {A B} (m : prog U A) (f : A -> prog U B) h W Q s a : wp (bind m f) h W Q -> cost m s a -> within m h s a.
Proof. intros H1 H2. apply wp_bind_inv in H1. split; [exists W; eapply wp_mono; [exact H1|done]|by apply cost_costs]. Qed.
Lemma done_at {A} (m : prog U A) h W Q s a : wp m h W Q -> cost m s a -> within m h s a.
Proof. intros H1 H2. split; [exists W; eapply wp_mono; [exact H1|done]|by apply cost_costs]. Qed.

Lemma n_cost c h ops : num_cfg c -> Forall (nop_ok (cW c)) ops ->
  wp (run_hist (n_exec c) ops [None]) h ∅ (fun r h1 _ => forall ver key bits v, (key < 2 ^ cW c)%N ->
    let p := nth ver r.1 None in let w := N.to_nat (cW c) in
    within (n_match c p key bits) h1 (w + 3) 0 /\
    within (n_exact c p key bits) h1 (w + 3) 0 /\
    within (n_insert c p key bits v) h1 (8 * w + 17) (w + 3) /\
    within (n_inplace_insert c p key bits v) h1 (w + 10) 2 /\
    within (n_delete c p key bits) h1 (6 * w + 12) (w + 2)).
Proof.
  intros Hc Hops. apply num_cfg_ok in Hc. eapply wp_mono; [apply (n_history c Hc h ops Hops)|]. cbn beta.
  intros r h1 _ (ms & Hsp & HF) ver k b v Hk p w. pose proof (nth_R c h1 _ _ ver HF) as Hat. fold p in Hat. set (m := nth ver ms ∅) in Hat.
  assert (HR : Forall2 (ntree_at c h1) [p] [m]) by by repeat constructor. split_and!.
  - eapply done_of; [apply (n_exec_ok c Hc h1 [p] [m] (NMatch 0 k b)); [exact HR|exact Hk]|apply cost_n_match].
  - eapply done_of; [apply (n_exec_ok c Hc h1 [p] [m] (NExact 0 k b)); [exact HR|exact Hk]|apply cost_n_exact].
  - eapply done_of; [apply (n_exec_ok c Hc h1 [p] [m] (NInsert 0 k b v)); [exact HR|exact Hk]|apply cost_n_insert].
  - eapply done_at; [apply (n_inplace_in c Hc h1 (dom h1) (dom h1) p m k b v Hk); [by exists h1|done]|apply cost_n_inplace].
  - eapply done_of; [apply (n_exec_ok c Hc h1 [p] [m] (NDelete 0 k b)); [exact HR|exact Hk]|apply cost_n_delete].
Qed.
Lemma ip_cost h ops rops : Forall2 iresolves ops rops -> Forall iop_ok ops ->
  wp (run_hist ip_exec ops []) h ∅ (fun r h1 _ => forall ver k (v : value), plain v -> let p := nth ver r.1 None in
    within (ip_get_key p k) h1 234 0 /\
    within (ip_insert_key p k v) h1 1383 167 /\
    within (ip_delete_key p k) h1 1186 166 /\
    (p <> None -> within (ip_inplace_key p k v) h1 249 4)).
Proof.
  intros Hops Hok. eapply wp_mono; [by apply ip_history|]. cbn beta. intros r h1 _ (_ & _ & HF) ver k v Hv p. specialize (HF ver). fold p in HF. set (l := iver rops ver) in HF.
  assert (HR : Forall2 (ipR h1) [p] [l]) by by repeat constructor. split_and!.
  - eapply done_of; [apply (ip_exec_ok h1 [p] [l] (IGet 0 k)); [exact HR|exact I]|rewrite get_key_eq; apply cost_ip_get].
  - eapply done_of; [apply (ip_exec_ok h1 [p] [l] (IInsert 0 k v)); [exact HR|exact Hv]|rewrite insert_key_eq; apply cost_ip_insert].
  - eapply done_of; [apply (ip_exec_ok h1 [p] [l] (IDelete 0 k)); [exact HR|exact I]|rewrite delete_key_eq; apply cost_ip_delete].
  - intros Hp. destruct p as [a|]; [|done]. destruct (itree_own _ _ _ HF) as (F & Ho & HF2). destruct (ikey_total k) as [q Hq]. rewrite inplace_key_eq.
    eapply done_at; [apply (ip_inplace_at h1 _ _ _ F _ q v Ho HF2 Hv); by apply key_isnet|apply cost_ip_inplace].
Qed.
Lemma ux_cost h ops rops : Forall2 iresolves ops rops -> Forall iop_ok ops ->
  wp (run_hist ux_exec ops []) h ∅ (fun r h1 _ => forall ver k (v : value), plain v -> let p := nth ver r.1 None in
    within (ux_get_key p k) h1 269 0 /\
    within (ux_insert_key p k v) h1 1383 167 /\
    within (ux_delete_key p k) h1 1186 166 /\
    (p <> None -> within (ux_inplace_key p k v) h1 249 4)).
Proof.
  intros Hops Hok. eapply wp_mono; [by apply ux_history|]. cbn beta. intros r h1 _ (_ & _ & HF) ver k v Hv p. specialize (HF ver). fold p in HF. set (l := uver rops ver) in HF.
  assert (HR : Forall2 (uxR h1) [p] [l]) by by repeat constructor. split_and!.
  - eapply done_of; [apply (ux_exec_ok h1 [p] [l] (IGet 0 k)); [exact HR|exact I]|rewrite ux_get_key_eq; apply cost_ux_get].
  - eapply done_of; [apply (ux_exec_ok h1 [p] [l] (IInsert 0 k v)); [exact HR|exact Hv]|rewrite ux_insert_key_eq; apply cost_ux_insert].
  - eapply done_of; [apply (ux_exec_ok h1 [p] [l] (IDelete 0 k)); [exact HR|exact I]|rewrite ux_delete_key_eq; apply cost_ux_delete].
  - intros Hp. destruct p as [a|]; [|done]. destruct (utree_own _ _ _ HF) as (F & Ho & HF2). destruct (ikey_total k) as [q Hq]. rewrite ux_inplace_key_eq.
    eapply done_at; [apply (ux_inplace_at h1 _ _ _ F _ q v Ho HF2 Hv); by apply key_isnet|apply cost_ux_inplace].
Qed.
End tries.
