(** * Enumerate on any version, as a goroutine with its channel. *)
From Verif Require Import Prog History RbModel RbSpec RbFun RbFunIns RbSim RbSimOps RbAbs StrSpec StrAbs.
From Verif Require Import DomModel DomSpec DlModel DlSpec DlAbs DtModel DtSpec DtSim4 DtAbs.
From Verif Require Import NumModel NumSpec NumFun NumSim NumAbs IpModel IpSpec IpHist UxModel UxSpec UxHist.
From Verif Require Import NumPropProofs StrPropProofs DlPropProofs DtPropProofs IpPropProofs UxPropProofs.
From Verif Require Import Channel ChanModel ChanProofs.
Open Scope nat_scope.

Section proofs.
Context {U : Type}.
Local Notation heap := (heap U).

Lemma chan_str fuel (h : heap) (ops : list (sop (value U))) ver : Forall sop_lawful ops -> enough fuel (keys ops) ->
  wp (run_hist (str_exec fuel) ops []) h ∅ (fun r h1 _ => h ⊆ h1 /\ exists e, delivers h1 (s_str_enumerate fuel (nth ver r.1 None)) (kvs e) /\
    StronglySorted (fun x y => ver_cmp ops ver x.1 y.1 < 0)%Z e /\
    (forall k v, (k, v) ∈ e -> log_get (ver_cmp ops ver) (ver_log ops ver) k = Some v) /\
    (forall k v, log_get (ver_cmp ops ver) (ver_log ops ver) k = Some v -> exists k', (k', v) ∈ e /\ ver_cmp ops ver k' k = 0%Z)).
Proof.
  intros H1 H2. apply (chan_after _ (fun r => str_enumerate fuel (nth ver r.1 None)) (fun r => s_str_enumerate fuel (nth ver r.1 None))); [intros; apply s_str_ok|].
  exact (StrPropProofs.pf_enumerate _ _ _ _ H1 H2).
Qed.
Lemma chan_dl_raw fuel (h : heap) (ops : list (dop (value U))) rops ver : Forall2 resolves ops rops -> enough fuel (dkeys ops) ->
  wp (run_hist (dl_exec fuel) ops []) h ∅ (fun r h1 _ => h ⊆ h1 /\ exists e, delivers h1 (s_dl_raw_enumerate fuel (nth ver r.1 None)) (kvs e) /\
    StronglySorted (fun x y => shortlex_lt x.1 y.1) e /\ forall k v, (k, v) ∈ e <-> klog_get (dl_log rops ver) k = Some v).
Proof.
  intros H1 H2. apply (chan_after _ (fun r => dl_raw_enumerate fuel (nth ver r.1 None)) (fun r => s_dl_raw_enumerate fuel (nth ver r.1 None))); [intros; apply s_dl_raw_ok|].
  exact (DlPropProofs.dl_pf_enumerate _ _ _ _ _ H1 H2).
Qed.
Lemma chan_dl fuel (h : heap) (ops : list (dop (value U))) rops ver :
  Forall2 resolves ops rops -> Forall dop_keys ops -> enough fuel (dkeys ops) ->
  wp (run_hist (dl_exec fuel) ops []) h ∅ (fun r h1 _ => h ⊆ h1 /\ exists e e', delivers h1 (s_dl_raw_enumerate fuel (nth ver r.1 None)) (kvs e) /\
    delivers h1 (s_dl_enumerate fuel (nth ver r.1 None)) (kvs e') /\ Forall2 (fun x' x => x'.2 = x.2 /\ make_label x'.1 = DOk x.1) e' e).
Proof.
  intros H1 H2 H3. pose proof (DlPropProofs.dl_pf_readback fuel h ops rops ver H1 H2 H3) as H. apply wp_bind_inv in H. eapply wp_mono; [exact H|]. cbv beta.
  intros r h1 W1 H'. apply wp_bind_inv in H'. destruct (s_dl_raw_ok _ _ _ _ _ H') as (e & Ee & H4). apply wp_bind_inv in H4. destruct (s_dl_ok _ _ _ _ _ H4) as (e' & Ee' & H5).
  cbn [wp] in H5. destruct H5 as [Hh HF]. split; [done|]. exists e, e'. split_and!; [by apply chan_delivers|by apply chan_delivers|done].
Qed.
Lemma chan_dt fuel (h : heap) (ops : list (top name (value U))) rops ver :
  Forall2 tresolves ops rops -> ~ del_panics [] rops -> enough fuel (tnames ops) -> 128 <= fuel ->
  wp (run_hist (dt_exec fuel) ops []) h ∅ (fun r h1 _ => h ⊆ h1 /\ exists e, delivers h1 (s_dt_enumerate fuel (nth ver r.1 None)) (kvs e) /\ enumerates (tver rops ver) e).
Proof.
  intros H1 H2 H3 H4. apply (chan_after _ (fun r => dt_enumerate fuel (nth ver r.1 None)) (fun r => s_dt_enumerate fuel (nth ver r.1 None))); [intros; apply s_dt_ok|].
  exact (DtPropProofs.dt_pf_enumerate _ _ _ _ _ H1 H2 H3 H4).
Qed.
Lemma chan_num c (h : heap) ops ver : num_cfg c -> Forall (nop_ok (cW c)) ops ->
  wp (run_hist (n_exec c) ops [None]) h ∅ (fun r h1 _ => h ⊆ h1 /\ exists e, delivers h1 (s_n_enumerate c (nth ver r.1 None)) (nodes e) /\
    Forall (fun x => h1 !! x.1 = Some (CNum x.2)) e /\
    s_enum (cW c) (nth ver (n_contents (cW c) ops [∅]) ∅) (map (fun x => (nn_key x.2, nn_bits x.2, nn_val x.2)) e)).
Proof.
  intros H1 H2. pose proof (NumPropProofs.pf_enumerate c h ops ver H1 H2) as H. apply wp_bind_inv in H. eapply wp_mono; [exact H|]. cbv beta.
  intros r h1 W1 H'. assert (H3 : wp (n_enumerate c (nth ver r.1 None)) h1 W1 (fun e h' W' => h' = h1 /\ (h ⊆ h1 /\
        s_enum (cW c) (nth ver (n_contents (cW c) ops [∅]) ∅) (map (fun x => (nn_key x.2, nn_bits x.2, nn_val x.2)) e)) /\ Forall (fun x => h1 !! x.1 = Some (CNum x.2)) e)).
  { destruct (nth ver r.1 None) as [l|]; [|cbn [n_enumerate wp] in *; split; [done|split; [exact H'|constructor]]].
    cbn [n_enumerate] in *. apply n_enumerate_at in H'. eapply wp_mono; [exact H'|]. cbv beta. intros e h' W' (-> & -> & HQ & HF). done. }
  destruct (s_n_ok _ _ _ _ _ H3) as (e & Ee & _ & [Hh Hs] & HF). split; [done|]. exists e. split_and!; [by apply chan_delivers|done|done].
Qed.
Lemma chan_ip (h : heap) ops rops ver : Forall2 iresolves ops rops -> Forall iop_ok ops ->
  wp (run_hist ip_exec ops []) h ∅ (fun r h1 _ => h ⊆ h1 /\ exists e, delivers h1 (s_ip_enumerate (nth ver r.1 None)) (nets e) /\ nenumerates (iver rops ver) e).
Proof.
  intros H1 H2. apply (chan_after _ (fun r => ip_enumerate (nth ver r.1 None)) (fun r => s_ip_enumerate (nth ver r.1 None))); [intros; apply s_ip_ok|].
  exact (IpPropProofs.ip_pf_enumerate _ _ _ _ H1 H2).
Qed.
Lemma chan_ux (h : heap) ops rops ver : Forall2 iresolves ops rops -> Forall iop_ok ops ->
  wp (run_hist ux_exec ops []) h ∅ (fun r h1 _ => h ⊆ h1 /\ exists e, delivers h1 (s_ux_enumerate (nth ver r.1 None)) (nets e) /\ nenumerates (uver rops ver) e).
Proof.
  intros H1 H2. apply (chan_after _ (fun r => ux_enumerate (nth ver r.1 None)) (fun r => s_ux_enumerate (nth ver r.1 None))); [intros; apply s_ux_ok|].
  exact (UxPropProofs.ux_pf_enumerate _ _ _ _ H1 H2).
Qed.
End proofs.
