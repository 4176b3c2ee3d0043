(** * Proofs for Properties_concurrent.v. *)
From Verif Require Import Prog History Concurrent.
From Verif Require Import RbModel RbSpec RbFun RbAbs StrSpec StrAbs.
From Verif Require NumModel NumSpec NumAbs NumPropProofs DomSpec DlModel DlSpec DlAbs DtModel DtSpec DtAbs IpModel IpSpec IpHist UxModel UxSpec UxHist.

Section pf.
Context {U : Type}.
Local Notation heap := (heap U).
Local Notation value := (value U).
Implicit Types h : heap.

(** ** strtree *)
Definition sstepR (ss : list (smap value)) (o : sop value) (ss' : list (smap value)) (x : sout value) : Prop := sstep str_compare ss o = (ss', x).
Lemma str_at_split n h vs ms : Forall2 (fun p m => str_at h p m n) vs ms -> exists ts, Forall2 (strR n h) vs ts /\ Forall2 tmap ts ms.
Proof.
  induction 1 as [|p m vs ms (t & H1 & H2) H (ts & IH1 & IH2)]; [by exists []|]. exists ((m.1, t) :: ts). by split; constructor.
Qed.
Lemma str_at_join n h vs ts : Forall2 (strR n h) vs ts -> forall ms, Forall2 tmap ts ms -> Forall2 (fun p m => str_at h p m n) vs ms.
Proof.
  induction 1 as [|p [cmp t] vs ts H1 H IH]; intros ms Hm; inversion Hm as [|? m ? ms' H2 Hm']; subst; constructor; [|by apply IH].
  destruct H2 as [E H2]. cbn [fst] in E. subst cmp. exists t. split; [done|]. by split.
Qed.
Lemma str_conc fuel h c : rtc (cstep (str_exec fuel)) (start [] h) c -> Forall sop_lawful (c_ops c) -> enough fuel (weight sop_weight (c_ops c)) ->
  conc_safe (str_exec fuel) h c /\ exists ss, length ss = length (c_pub c) /\ Forall (answered sstepR ss) (c_ended c).
Proof.
  intros Hr Hok Hf. edestruct (conc_ok (U := U) (str_exec fuel) sstepR (fun n h p m => str_at h p m n) sop_lawful sop_weight (weight sop_weight (c_ops c))) with (n0 := 0) (ss0 := @nil (smap value)) as (H1 & ss & _ & H2 & H3); [| |by constructor|exact Hr|done|lia|].
  - intros. by eapply str_at_mono.
  - intros n h1 vs ms o Hn HR Ho. apply str_at_split in HR as (ts & HR & Hm). eapply wp_mono; [apply (str_exec_ok fuel (weight sop_weight (c_ops c)) n h1 vs ts o Hf Hn HR)|].
    { assert (H : Forall sop_refl [o]) by (apply sop_lawful_refl; by constructor). by inversion H. }
    cbn beta. intros r h2 _ (ts' & Hst & HR'). eapply tmap_step in Hst as [Hm' Hx]; [|done|exact Hm].
    exists (sstep str_compare ms o).1. split; [|by eapply str_at_join]. unfold sstepR. rewrite Hx. by destruct (sstep _ _ _).
  - split; [done|]. exists ss. split; [|done]. symmetry. by eapply Forall2_length.
Qed.

(** ** numtree and the trees of uintX *)
Lemma num_conc cf h c : NumPropProofs.num_cfg cf -> rtc (cstep (NumAbs.n_exec cf)) (start [None] h) c -> Forall (NumSpec.nop_ok (NumModel.cW cf)) (c_ops c) ->
  conc_safe (NumAbs.n_exec cf) h c /\ exists ss, nth_error ss 0 = Some ∅ /\ length ss = length (c_pub c) /\ Forall (answered (NumSpec.nstep (U := U) (NumModel.cW cf)) ss) (c_ended c).
Proof.
  intros Hc Hr Hok. edestruct (conc_ok (U := U) (NumAbs.n_exec cf) (NumSpec.nstep (NumModel.cW cf)) (fun _ => NumAbs.ntree_at cf) (NumSpec.nop_ok (NumModel.cW cf)) (fun _ => 0) (weight (fun _ => 0) (c_ops c))) with (n0 := 0) (ss0 := [∅ : NumSpec.nmap U]) as (H1 & ss & [k ->] & H2 & H3); [| | |exact Hr|done|lia|].
  - intros. by eapply NumAbs.ntree_at_mono.
  - intros n h1 vs ms o _ HR Ho. eapply NumAbs.n_exec_ok; [|done|done]. by apply NumPropProofs.num_cfg_ok.
  - repeat constructor. apply NumAbs.ntree_at_nil.
  - split; [done|]. exists ([∅] ++ k). split; [reflexivity|]. split; [|done]. symmetry. by eapply Forall2_length.
Qed.

(** ** dltree *)
Lemma dl_conc fuel h c : rtc (cstep (DlAbs.dl_exec fuel)) (start [] h) c -> Forall (fun o => exists ro, DlSpec.resolves o ro) (c_ops c) -> enough fuel (weight DlAbs.dop_weight (c_ops c)) ->
  conc_safe (DlAbs.dl_exec fuel) h c /\ exists ss, length ss = length (c_pub c) /\ Forall (answered DlAbs.dstep ss) (c_ended c).
Proof.
  intros Hr Hok Hf. edestruct (conc_ok (U := U) (DlAbs.dl_exec fuel) DlAbs.dstep DlAbs.dlR (fun o => exists ro, DlSpec.resolves o ro) DlAbs.dop_weight (weight DlAbs.dop_weight (c_ops c))) with (n0 := 0) (ss0 := @nil (smap value)) as (H1 & ss & _ & H2 & H3); [| |by constructor|exact Hr|done|lia|].
  - intros. by eapply DlAbs.dlR_mono.
  - intros n h1 vs ms o Hn HR Ho. by eapply DlAbs.dl_exec_ok.
  - split; [done|]. exists ss. split; [|done]. symmetry. by eapply Forall2_length.
Qed.

(** ** domaintree *)
Lemma dt_conc fuel h c : rtc (cstep (DtAbs.dt_exec fuel)) (start [] h) c -> Forall (fun o => exists ro, DtSpec.tresolves o ro /\ DtSpec.del_short ro) (c_ops c) -> enough fuel (DtSpec.tnames (c_ops c)) -> 128 <= fuel ->
  conc_safe (DtAbs.dt_exec fuel) h c /\ exists ss, length ss = length (c_pub c) /\ Forall (answered DtAbs.tstep ss) (c_ended c).
Proof.
  intros Hr Hok Hf Hf2. edestruct (conc_ok (U := U) (DtAbs.dt_exec fuel) DtAbs.tstep DtAbs.dtR (fun o => exists ro, DtSpec.tresolves o ro /\ DtSpec.del_short ro) DtSpec.top_size (weight DtSpec.top_size (c_ops c))) with (n0 := 0) (ss0 := @nil (DtSpec.tlog value)) as (H1 & ss & _ & H2 & H3); [| |by constructor|exact Hr|done|lia|].
  - intros. by eapply DtAbs.dtR_mono.
  - intros n h1 vs ms o Hn HR (ro & H1 & H2). eapply DtAbs.dt_exec_ok; [exact Hf|exact Hf2|done|done|by eapply DtAbs.short_ok].
  - split; [done|]. exists ss. split; [|done]. symmetry. by eapply Forall2_length.
Qed.

(** ** iptree and the iptrees of uintX *)
Lemma ip_conc h c : rtc (cstep IpHist.ip_exec) (start [] h) c -> Forall IpSpec.iop_ok (c_ops c) ->
  conc_safe IpHist.ip_exec h c /\ exists ss, length ss = length (c_pub c) /\ Forall (answered IpHist.istep ss) (c_ended c).
Proof.
  intros Hr Hok. edestruct (conc_ok (U := U) IpHist.ip_exec IpHist.istep (fun _ => IpHist.ipR) IpSpec.iop_ok (fun _ => 0) (weight (fun _ => 0) (c_ops c))) with (n0 := 0) (ss0 := @nil (IpSpec.ilog value)) as (H1 & ss & _ & H2 & H3); [| |by constructor|exact Hr|done|lia|].
  - intros. by eapply IpHist.ipR_mono.
  - intros n h1 vs ms o _ HR Ho. by eapply IpHist.ip_exec_ok.
  - split; [done|]. exists ss. split; [|done]. symmetry. by eapply Forall2_length.
Qed.
Lemma ux_conc h c : rtc (cstep UxHist.ux_exec) (start [] h) c -> Forall IpSpec.iop_ok (c_ops c) ->
  conc_safe UxHist.ux_exec h c /\ exists ss, length ss = length (c_pub c) /\ Forall (answered UxHist.ustep ss) (c_ended c).
Proof.
  intros Hr Hok. edestruct (conc_ok (U := U) UxHist.ux_exec UxHist.ustep (fun _ => UxHist.uxR) IpSpec.iop_ok (fun _ => 0) (weight (fun _ => 0) (c_ops c))) with (n0 := 0) (ss0 := @nil (IpSpec.ilog value)) as (H1 & ss & _ & H2 & H3); [| |by constructor|exact Hr|done|lia|].
  - intros. by eapply UxHist.uxR_mono.
  - intros n h1 vs ms o _ HR Ho. by eapply UxHist.ux_exec_ok.
  - split; [done|]. exists ss. split; [|done]. symmetry. by eapply Forall2_length.
Qed.
End pf.
