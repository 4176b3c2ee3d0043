(** * Property C51: Enumerate as a goroutine with its channel. *)
(** [s_…_enumerate] (ChanModel.v) is what the goroutine started by Enumerate
    executes; [delivers h s L] (Channel.v) speaks about all its interleavings with
    the goroutines it starts itself, with any receiver, and with other goroutines
    that leave the memory [h] as it is (all copy-on-write methods do, C50).
    Histories and specifications are those of the sequential properties:
    C05, C12, C15, C29, C36, C43, C48. *)
From Verif Require Import Prog History RbModel RbSpec RbFun RbFunIns RbSim RbSimOps RbAbs StrSpec StrAbs.
From Verif Require Import DomModel DomSpec DlModel DlSpec DlAbs DtModel DtSpec DtSim4 DtAbs.
From Verif Require Import NumModel NumSpec NumFun NumSim NumAbs IpModel IpSpec IpHist UxModel UxSpec UxHist.
From Verif Require Import NumPropProofs StrPropProofs DlPropProofs DtPropProofs IpPropProofs UxPropProofs.
From Verif Require Import Channel ChanModel ChanProofs ChanPropProofs Properties_domaintree.
From Coq Require Import String.
Local Notation B := list_byte_of_string.
Open Scope nat_scope.

Theorem C51_strtree : forall U fuel (h : heap U) (ops : list (sop (value U))) ver,
  Forall sop_lawful ops -> enough fuel (keys ops) ->
  wp (run_hist (str_exec fuel) ops []) h ∅ (fun r h1 _ => h ⊆ h1 /\ exists e,
    delivers h1 (s_str_enumerate fuel (nth ver r.1 None)) (kvs e) /\
    StronglySorted (fun x y => ver_cmp ops ver x.1 y.1 < 0)%Z e /\
    (forall k v, (k, v) ∈ e -> log_get (ver_cmp ops ver) (ver_log ops ver) k = Some v) /\
    (forall k v, log_get (ver_cmp ops ver) (ver_log ops ver) k = Some v -> exists k', (k', v) ∈ e /\ ver_cmp ops ver k' k = 0%Z)).
Proof. exact @chan_str. Qed.
Print Assumptions C51_strtree.
Theorem C51_dltree_raw : forall U fuel (h : heap U) (ops : list (dop (value U))) rops ver,
  Forall2 resolves ops rops -> enough fuel (dkeys ops) ->
  wp (run_hist (dl_exec fuel) ops []) h ∅ (fun r h1 _ => h ⊆ h1 /\ exists e,
    delivers h1 (s_dl_raw_enumerate fuel (nth ver r.1 None)) (kvs e) /\
    StronglySorted (fun x y => shortlex_lt x.1 y.1) e /\ forall k v, (k, v) ∈ e <-> klog_get (dl_log rops ver) k = Some v).
Proof. exact @chan_dl_raw. Qed.
Print Assumptions C51_dltree_raw.
Theorem C51_dltree : forall U fuel (h : heap U) (ops : list (dop (value U))) rops ver,
  Forall2 resolves ops rops -> Forall dop_keys ops -> enough fuel (dkeys ops) ->
  wp (run_hist (dl_exec fuel) ops []) h ∅ (fun r h1 _ => h ⊆ h1 /\ exists e e',
    delivers h1 (s_dl_raw_enumerate fuel (nth ver r.1 None)) (kvs e) /\
    delivers h1 (s_dl_enumerate fuel (nth ver r.1 None)) (kvs e') /\
    Forall2 (fun x' x => x'.2 = x.2 /\ make_label x'.1 = DOk x.1) e' e).
Proof. exact @chan_dl. Qed.
Print Assumptions C51_dltree.
(** Goroutines nested as deep as the domain names. *)
Theorem C51_domaintree : forall U fuel (h : heap U) (ops : list (top name (value U))) rops ver,
  Forall2 tresolves ops rops -> ~ del_panics [] rops -> enough fuel (tnames ops) -> 128 <= fuel ->
  wp (run_hist (dt_exec fuel) ops []) h ∅ (fun r h1 _ => h ⊆ h1 /\ exists e,
    delivers h1 (s_dt_enumerate fuel (nth ver r.1 None)) (kvs e) /\ enumerates (tver rops ver) e).
Proof. exact @chan_dt. Qed.
Print Assumptions C51_domaintree.
(** numtree sends pointers to nodes: [x.2] is what is found there. *)
Theorem C51_numtree : forall U c (h : heap U) ops ver,
  num_cfg c -> Forall (nop_ok (cW c)) ops ->
  wp (run_hist (n_exec c) ops [None]) h ∅ (fun r h1 _ => h ⊆ h1 /\ exists e,
    delivers h1 (s_n_enumerate c (nth ver r.1 None)) (nodes e) /\
    Forall (fun x => h1 !! x.1 = Some (CNum x.2)) e /\
    s_enum (cW c) (nth ver (n_contents (cW c) ops [∅]) ∅) (map (fun x => (nn_key x.2, nn_bits x.2, nn_val x.2)) e)).
Proof. exact @chan_num. Qed.
Print Assumptions C51_numtree.
Theorem C51_iptree : forall U (h : heap U) ops rops ver,
  Forall2 iresolves ops rops -> Forall iop_ok ops ->
  wp (run_hist ip_exec ops []) h ∅ (fun r h1 _ => h ⊆ h1 /\ exists e,
    delivers h1 (s_ip_enumerate (nth ver r.1 None)) (nets e) /\ nenumerates (iver rops ver) e).
Proof. exact @chan_ip. Qed.
Print Assumptions C51_iptree.
Theorem C51_uxtree : forall U (h : heap U) ops rops ver,
  Forall2 iresolves ops rops -> Forall iop_ok ops ->
  wp (run_hist ux_exec ops []) h ∅ (fun r h1 _ => h ⊆ h1 /\ exists e,
    delivers h1 (s_ux_enumerate (nth ver r.1 None)) (nets e) /\ nenumerates (uver rops ver) e).
Proof. exact @chan_ux. Qed.
Print Assumptions C51_uxtree.

(** A receiver that stops before the end leaves the goroutine behind: the channel is
    never closed. (By [delivers] the schedule ends, with a goroutine blocked.) *)
Theorem C51_stops_early : forall U M (h : heap U) (s : stmt U M) L k want n g out,
  delivers h s L -> k < List.length L -> (forall l, k <= List.length l -> want l = false) ->
  nsteps (gustep h want) n (going s) (g, out) -> List.length out <= k /\ g <> GEnd.
Proof. exact @stops_early. Qed.
Print Assumptions C51_stops_early.

(** ** The history [ex_dt] of Properties_domaintree.v: the goroutines that enumerate
    version 2 under one schedule, with a receiver that drains the channel and with
    one that stops after two pairs. *)
Definition ex_chan : (gor nat (msg nat) * list (msg nat)) * (gor nat (msg nat) * list (msg nat)) :=
  match run (run_hist (dt_exec 128) ex_dt []) ∅ 1%positive with
  | (inl r, h1, _) =>
    let s := s_dt_enumerate 128 (nth 2 r.1 None) in
    (gdrain h1 (fun _ => true) 2000 (going s), gdrain h1 (fun out => List.length out <? 2) 2000 (going s))
  | _ => (going SSkip, going SSkip)
  end.
Example ex_chan_drained : ex_chan.1 = (GEnd, kvs
  [ (B "com", VUser 1); (B "test.com", VUser 3); (B "www.example.com", VUser 2); (B "mail.example.com", VUser 4); (B "a\.b.net", VUser 5) ]).
Proof. vm_compute. reflexivity. Qed.
Example ex_chan_stopped : ex_chan.2.2 = kvs [ (B "com", VUser 1); (B "test.com", VUser 3) ] /\ ex_chan.2.1 <> GEnd.
Proof.
  split; [vm_compute; reflexivity|]. intros E.
  assert (H : match ex_chan.2.1 with GEnd => false | _ => true end = true) by (vm_compute; reflexivity). rewrite E in H. discriminate.
Qed.
