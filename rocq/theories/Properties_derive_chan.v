(** * Property C78: the callbacks of C77 while the goroutines are running. *)
(** [c_client] (ChanDeriveModel.v): the clients of C77, with a goroutine for every
    Enumerate that an update ranges over. While the callback works, also on the tree that is
    being updated, these go on walking that tree. [cstep]: one step of one of them. [al]:
    the rule by which memory is allocated. *)
From Verif Require Import Prog History NumModel NumSpec IpModel IpSpec IpUpdSpec IpHist IpVersSpec Channel IpDeriveModel IpDeriveSpec ChanDeriveModel ChanDeriveProofs.
From Verif Require Import Properties_iptree Properties_iptree2 Properties_ip_derive.
Open Scope nat_scope.

(** C78: under every interleaving the client comes to its end as C77 says, with all
    goroutines gone; on the way there is no data race between its writes and what the
    goroutines read. *)
Theorem C78_schedules : forall U St R al (h : heap U) (m : client (value U) St R), allocator al -> client_ok m ->
  always al no_race (fun r h' => h ⊆ h' /\ exists past ids gs, cruns [] [] [] m past ids gs r) (h, MRun (c_client [] m), []).
Proof. exact @pf_derive_always. Qed.
Print Assumptions C78_schedules.

(** C78: if the rule says where memory is allocated (C77 leaves open what versions share),
    the schedule makes no difference: all interleavings end with the same result and the
    same memory. *)
Theorem C78_same : forall U St R al (h : heap U) (m : client (value U) St R), allocator al -> (forall h l l', al h l -> al h l' -> l = l') -> client_ok m ->
  exists r h', always al no_race (fun r1 h1 => r1 = r /\ h1 = h') (h, MRun (c_client [] m), []).
Proof. exact @pf_derive_same. Qed.
Print Assumptions C78_same.

(** C78: in other words: from no state that can be reached is there nothing left to do, but
    from the last one; no run goes on for ever. *)
Theorem C78_reachable : forall U St R al (h : heap U) (m : client (value U) St R) st, allocator al -> client_ok m ->
  rtc (cstep al) (h, MRun (c_client [] m), []) st ->
  (exists h' r, st = (h', MRun (AEnd r), []) /\ h ⊆ h' /\ exists past ids gs, cruns [] [] [] m past ids gs r) \/
  (no_race st /\ exists st', cstep al st st').
Proof. intros U St R al h m st Hal Hok. exact (pf_reachable _ _ _ _ _ (pf_derive_always al h m Hal Hok)). Qed.
Print Assumptions C78_reachable.
Theorem C78_terminates : forall U St R al (h : heap U) (m : client (value U) St R) f, allocator al -> client_ok m ->
  f 0 = (h, MRun (c_client [] m), []) -> ~ forall i, cstep al (f i) (f (1 + i)).
Proof. intros U St R al h m f Hal Hok. exact (pf_terminates _ _ _ _ (pf_derive_always al h m Hal Hok) f). Qed.
Print Assumptions C78_terminates.

(** ** The client of [dv_run], with the goroutines always ahead of the client, and with the
    client always ahead of them: the answers of [dv_run]. *)
Definition dv_sched (eager : bool) := sched eager 3000 0 (∅, MRun (c_client (U := nat) [] dv_client), []).
Definition dv_answers (eager : bool) : option (list (list (value nat)) * nat) :=
  match dv_sched eager with ((_, MRun (AEnd r), []), n) => Some (r, n) | _ => None end.
Example al0_allocator : allocator (al0 (U := nat)).
Proof. exact al0_ok. Qed.
Example dv_schedules : forall eager, rtc (cstep al0) (∅, MRun (c_client (U := nat) [] dv_client), []) (dv_sched eager).1.
Proof. intros eager. apply sched_ok. Qed.
Example dv_same : forall eager, dv_answers eager =
  match result (run (run_client [] dv_client) ∅ 1%positive) with inl r => Some (r.2, 112) | inr _ => None end.
Proof. intros []; vm_compute; reflexivity. Qed.

(** ** C77 and C78 leave out callbacks that insert in place into the tree that is being
    updated. With these, the schedule decides whether the callback is called for the new
    network. *)
Definition n10 (b c : byte) (m : bytes) : bytes * bytes := ([x0a; b; c; x00], m).
Definition m8 : bytes := [xff; x00; x00; x00].
Definition m16 : bytes := [xff; xff; x00; x00].
Definition m24 : bytes := [xff; xff; xff; x00].
(** 10.0.0.0/8 (1), 10.1.0.0/16 (2) and 10.129.0.0/16 (3); the callback, called for the
    first time, inserts 10.129.1.0/24 (4). It lists the values it is called with. *)
Definition race_build : prog nat ptr :=
  t <- ip_new ;;
  t <- ip_insert_net t (Some (n10 x00 x00 m8)) (VUser 1) ;;
  t <- ip_insert_net t (Some (n10 x01 x00 m16)) (VUser 2) ;;
  ip_insert_net t (Some (n10 x81 x00 m16)) (VUser 3).
Definition race_cb (t : ptr) (s : list (value nat)) (x : bytes * bytes * value nat) (k : list (value nat) -> option (value nat) -> act nat (list (value nat)) (list (value nat))) : act nat (list (value nat)) (list (value nat)) :=
  match s with
  | [] => ado (ip_inplace_insert_net t (Some (n10 x81 x01 m24)) (VUser 4)) (fun _ => k (s ++ [x.2]) None)
  | _ => k (s ++ [x.2]) None
  end.
Definition race_client : act nat (list (value nat)) (list (value nat)) :=
  ado race_build (fun t => c_update (race_cb t) t (Some (n10 x00 x00 m8)) [] AEnd).
Theorem C78_inplace_refuted : exists h1 h2,
  rtc (cstep al0) (∅, MRun race_client, []) (h1, MRun (AEnd [VUser 2; VUser 3]), []) /\
  rtc (cstep al0) (∅, MRun race_client, []) (h2, MRun (AEnd [VUser 2; VUser 3; VUser 4]), []).
Proof.
  exists (sched true 3000 0 (∅, MRun race_client, [])).1.1.1, (sched false 3000 0 (∅, MRun race_client, [])).1.1.1. split.
  - pose proof (sched_ok true 3000 0 (∅, MRun race_client, [])) as H.
    assert (E : (sched true 3000 0 (∅, MRun race_client, [])).1 = ((sched true 3000 0 (∅, MRun race_client, [])).1.1.1, MRun (AEnd [VUser 2; VUser 3]), [])) by (vm_compute; reflexivity). by rewrite E in H.
  - pose proof (sched_ok false 3000 0 (∅, MRun race_client, [])) as H.
    assert (E : (sched false 3000 0 (∅, MRun race_client, [])).1 = ((sched false 3000 0 (∅, MRun race_client, [])).1.1.1, MRun (AEnd [VUser 2; VUser 3; VUser 4]), [])) by (vm_compute; reflexivity). by rewrite E in H.
Qed.
Print Assumptions C78_inplace_refuted.
