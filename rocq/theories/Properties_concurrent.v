(** * Concurrent use of published trees (C50).

    The machine of Concurrent.v, from any memory [h]: goroutines begin calls,
    accesses of running calls interleave in any order, ended calls publish their
    trees. [c] is any state reached; the operations begun in it are those of the
    histories of the packages.

    [conc_safe]: no running call panics or is stuck; there is no data race; what
    was in memory at the start is unchanged; every ended call returned what it
    returns when it runs alone from the memory in which it began ([alone]).
    [answered step ss]: there are contents [ss] of all published trees such that
    every ended call gave the answer that the sequential specification [step]
    gives for the contents of the trees it was given, and published the contents
    that [step] gives. *)
From Verif Require Import Prog History Concurrent ConcProofs.
From Verif Require Import RbModel RbSpec RbAbs StrSpec StrAbs StrPropProofs.
From Verif Require Import DlModel DlSpec DlAbs DlPropProofs DtSpec.
From Verif Require NumModel NumSpec NumAbs NumPropProofs DtAbs.
From Verif Require Import IpModel IpSpec IpHist UxModel UxSpec UxHist.
Open Scope nat_scope.

Theorem C50_strtree : forall U fuel (h : heap U) c,
  rtc (cstep (str_exec fuel)) (start [] h) c -> Forall sop_lawful (c_ops c) -> enough fuel (keys (c_ops c)) ->
  conc_safe (str_exec fuel) h c /\
  exists ss, length ss = length (c_pub c) /\ Forall (answered (fun ss o ss' x => sstep str_compare ss o = (ss', x)) ss) (c_ended c).
Proof. exact @str_conc. Qed.
Print Assumptions C50_strtree.

Theorem C50_numtree : forall U cf (h : heap U) c,
  NumPropProofs.num_cfg cf -> rtc (cstep (NumAbs.n_exec cf)) (start [None] h) c -> Forall (NumSpec.nop_ok (NumModel.cW cf)) (c_ops c) ->
  conc_safe (NumAbs.n_exec cf) h c /\
  exists ss, nth_error ss 0 = Some ∅ /\ length ss = length (c_pub c) /\ Forall (answered (NumSpec.nstep (NumModel.cW cf)) ss) (c_ended c).
Proof. exact @num_conc. Qed.
Print Assumptions C50_numtree.

Theorem C50_dltree : forall U fuel (h : heap U) c,
  rtc (cstep (dl_exec fuel)) (start [] h) c -> Forall (fun o => exists ro, resolves o ro) (c_ops c) -> enough fuel (dkeys (c_ops c)) ->
  conc_safe (dl_exec fuel) h c /\
  exists ss, length ss = length (c_pub c) /\
    Forall (answered (fun ss o ss' x => exists ro, resolves o ro /\ sstep dl_compare ss ro = (ss', x)) ss) (c_ended c).
Proof. exact @dl_conc. Qed.
Print Assumptions C50_dltree.

Theorem C50_domaintree : forall U fuel (h : heap U) c,
  rtc (cstep (DtAbs.dt_exec fuel)) (start [] h) c -> Forall (fun o => exists ro, tresolves o ro /\ del_short ro) (c_ops c) ->
  enough fuel (tnames (c_ops c)) -> 128 <= fuel ->
  conc_safe (DtAbs.dt_exec fuel) h c /\
  exists ss, length ss = length (c_pub c) /\
    Forall (answered (fun gs o gs' x => exists ro, tresolves o ro /\ gs' = tlog_step gs ro /\ tanswer gs ro x) ss) (c_ended c).
Proof. exact @dt_conc. Qed.
Print Assumptions C50_domaintree.

Theorem C50_iptree : forall U (h : heap U) c,
  rtc (cstep ip_exec) (start [] h) c -> Forall iop_ok (c_ops c) ->
  conc_safe ip_exec h c /\
  exists ss, length ss = length (c_pub c) /\
    Forall (answered (fun gs o gs' x => exists ro, iresolves o ro /\ gs' = ilog_step gs ro /\ ianswer gs ro x) ss) (c_ended c).
Proof. exact @ip_conc. Qed.
Print Assumptions C50_iptree.

Theorem C50_uxtree : forall U (h : heap U) c,
  rtc (cstep ux_exec) (start [] h) c -> Forall iop_ok (c_ops c) ->
  conc_safe ux_exec h c /\
  exists ss, length ss = length (c_pub c) /\
    Forall (answered (fun gs o gs' x => exists ro, iresolves o ro /\ gs' = ulog_step gs ro /\ uanswer gs ro x) ss) (c_ended c).
Proof. exact @ux_conc. Qed.
Print Assumptions C50_uxtree.

(** Every call of every package ends after finitely many accesses of its own,
    whatever the other goroutines do to the memory in between. *)
Theorem C50_wait_free : forall U A (m : prog U A), Acc (fun m' m => exists h h', mstep (m, h) (m', h')) m.
Proof. exact @wait_free. Qed.
Print Assumptions C50_wait_free.

(** The restriction to operations that do not write published trees is needed:
    two goroutines that InplaceInsert into the same tree race. *)
Definition inplace_exec (vs : list ptr) (o : option (ipnet * value nat)) : prog nat (list ptr * unit) :=
  match o with
  | None => t <- ip_new ;; Ret (vs ++ [t], tt)
  | Some (n, v) => ip_inplace_insert_net (nth 0 vs None) n v ;;; Ret (vs, tt)
  end.
Definition n10 : ipnet := Some ([x0a; x00; x00; x00], [xff; x00; x00; x00]).
Definition n11 : ipnet := Some ([x0b; x00; x00; x00], [xff; x00; x00; x00]).
Theorem C50_inplace_refuted : exists c, rtc (cstep inplace_exec) (start [] ∅) c /\ race c.
Proof.
  exists (sched inplace_exec ([CBegin 0 None] ++ turns 1 [0] 1 ++ [CEnd 0; CBegin 1 (Some (n10, VUser 1)); CBegin 2 (Some (n11, VUser 2))] ++ turns 10 [1; 2] 2) (start [] ∅)).
  split; [apply sched_sound|]. exists 1, 2. do 2 eexists. exists 2%positive. split; [done|]. split; [vm_compute; reflexivity|]. split; [vm_compute; reflexivity|]. vm_compute. done.
Qed.
Print Assumptions C50_inplace_refuted.

(** ** An execution that meets the hypotheses: a tree is built and published; then
    two insertions, a deletion and an enumeration of it run access by access in
    turn; then what they published is enumerated. *)
Definition ex_conc_choices : list (choice (sop (value nat))) :=
  [CBegin 0 (SBuild str_compare [([x61], VUser 1); ([x62], VUser 2); ([x63], VUser 3); ([x64], VUser 4)])] ++ turns 1 [0] 150 ++ [CEnd 0;
   CBegin 1 (SInsert 0 [x65] (VUser 5)); CBegin 2 (SInsert 0 [x60] (VUser 6)); CBegin 3 (SDelete 0 [x62]); CBegin 4 (SEnumerate 0)] ++
  turns 4000 [1; 2; 3; 4] 100 ++ [CEnd 4; CEnd 3; CEnd 1; CEnd 2; CBegin 5 (SEnumerate 1); CBegin 6 (SEnumerate 2); CBegin 7 (SEnumerate 3)] ++
  turns 8000 [5; 6; 7] 60 ++ [CEnd 7; CEnd 6; CEnd 5].
Definition ex_conc : @cfg nat ptr (sop (value nat)) (sout (value nat)) := sched (str_exec 18) ex_conc_choices (start [] ∅).
Example ex_conc_reached : rtc (cstep (str_exec 18)) (start [] ∅) ex_conc.
Proof. apply sched_sound. Qed.
Example ex_conc_ops : Forall sop_lawful (c_ops ex_conc) /\ enough 18 (keys (c_ops ex_conc)).
Proof.
  assert (E : c_ops ex_conc = [SBuild str_compare [([x61], VUser 1); ([x62], VUser 2); ([x63], VUser 3); ([x64], VUser 4)];
    SInsert 0 [x65] (VUser 5); SInsert 0 [x60] (VUser 6); SDelete 0 [x62]; SEnumerate 0; SEnumerate 1; SEnumerate 2; SEnumerate 3]) by (vm_compute; reflexivity).
  rewrite E. split; [repeat constructor; apply str_compare_lawful|vm_compute; lia].
Qed.
Example ex_conc_answers : map (fun e => (e_ret e).2) (c_ended ex_conc) =
  [ SONone; SOList [([x61], VUser 1); ([x62], VUser 2); ([x63], VUser 3); ([x64], VUser 4)]; SOBool true; SONone; SONone;
    SOList [([x60], VUser 6); ([x61], VUser 1); ([x62], VUser 2); ([x63], VUser 3); ([x64], VUser 4)];
    SOList [([x61], VUser 1); ([x62], VUser 2); ([x63], VUser 3); ([x64], VUser 4); ([x65], VUser 5)];
    SOList [([x61], VUser 1); ([x63], VUser 3); ([x64], VUser 4)] ].
Proof. vm_compute. reflexivity. Qed.
