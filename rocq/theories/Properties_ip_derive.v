(** * Property C77: callbacks of UpdateDescendants that go on calling the package. *)
(** [run_client] (IpDeriveModel.v): a client that chooses each call by the answers to those
    before it: the calls of C41, in-place insertion, and UpdateDescendants with a callback
    that keeps a state and may itself make the calls of C41 and update any version, also
    the one that is being updated, to any depth. [cruns] (IpDeriveSpec.v): what it does. *)
From Verif Require Import Prog History NumModel NumSpec IpModel IpSpec IpUpdSpec IpHist IpVersSpec IpVersProofs IpDeriveModel IpDeriveSpec IpDeriveProofs.
From Verif Require Import Properties_iptree Properties_iptree2 Properties_sharing Properties_ip_versions.
Open Scope nat_scope.

(** C77: every call answers from the versions of that moment, also in the middle of an
    update. The update calls its callback for the networks strictly inside the target that
    its tree had when the update began, in order, each with the value it has when its turn
    comes; what the callback returns replaces the value at once, in that tree and in other
    versions only where they hold the same entry of the same call. No call panics, and
    none writes to memory that was there before. *)
Theorem C77_derive : forall U St A (h : heap U) (m : client (value U) St A), client_ok m ->
  wp (run_client [] m) h ∅ (fun r h' _ => h ⊆ h' /\ exists past ids gs, cruns [] [] [] m past ids gs r.2).
Proof. exact @pf_derive. Qed.
Print Assumptions C77_derive.

(** C77: whatever its callbacks do, an update neither adds nor removes networks of the
    versions that are there when it begins, nor stores them anew. *)
Theorem C77_keeps : forall V St past ids gs i n (cb : St -> bytes * bytes * V -> script V St) s past' ids' gs' s', updates past ids gs i n cb s past' ids' gs' s' ->
  forall j q, j < length gs -> fst <$> ilog_get (nth j gs' []) q = fst <$> ilog_get (nth j gs []) q.
Proof. intros V St. exact pf_derive_keeps. Qed.
Print Assumptions C77_keeps.

(** C77: versions that are the same object always hold the same. *)
Theorem C77_same_object : forall V St A (m : client V St A) past ids gs a, cruns [] [] [] m past ids gs a ->
  forall i j n q, nth i ids None = Some n -> nth j ids None = Some n -> ilog_get (nth i gs []) q = ilog_get (nth j gs []) q.
Proof. intros V St A. exact pf_derive_same_object. Qed.
Print Assumptions C77_same_object.

(** C77: every entry of every version was stored for its network by the call whose number
    it has, and it has the value that this call was given, unless an update, of the client
    or of a callback, has a target strictly around it. *)
Theorem C77_values : forall V St A (m : client V St A) past ids gs a, cruns [] [] [] m past ids gs a ->
  forall ver q c v, ilog_get (nth ver gs []) q = Some (c, v) -> exists o w, past !! c = Some o /\ dstores o q w /\ (never_inside past q -> v = w).
Proof. intros V St A. exact pf_derive_values. Qed.
Print Assumptions C77_values.

(** C77: with a callback that makes no calls this is the update of C47. *)
Theorem C77_computes : forall V St past ids gs i n p (f : St -> bytes * bytes * V -> St * option V) s past' ids' gs' s',
  updates past ids gs i n (computes f) s past' ids' gs' s' -> net_is (Some n) p -> is_target (unstamp (nth i gs [])) (Some n) p ->
  past' = past ++ [DUpdate i n] /\ ids' = ids /\ exists e e', nenumerates (unstamp (nth i gs [])) e /\ nenumerates (unstamp (nth i gs' [])) e' /\ uwalk f p s e s' e'.
Proof. intros V St. exact pf_derive_simple. Qed.
Print Assumptions C77_computes.

(** ** An update of version 0, which holds 10.0.0.0/8 (1), 10.1.0.0/16 (2) and
    10.1.2.3/32 (3). The callback, called for 10.1.0.0/16, makes version 1 with a network
    elsewhere and version 2 with another value for 10.1.0.0/16; called for 10.1.2.3 it
    updates version 2 inside 10.1.0.0/16, adding 1000, and reads version 0 afterwards; it
    returns the value it was called with plus 100. Version 1 follows the write of
    10.1.0.0/16 and version 2 does not; all three see 103 for 10.1.2.3, which overwrote
    the 1003 of the nested update, that version 0 had seen at once. *)
Definition add (d : nat) (v : value nat) : option (value nat) := match v with VUser x => Some (VUser (d + x)) | _ => None end.
Definition a_123 : bytes := [x0a; x01; x02; x03].
Definition see (x : iout (value nat)) : list (value nat) := match x with IOList e => map snd e | _ => [] end.
Definition dv_cb (s : list (list (value nat))) (x : bytes * bytes * value nat) : script (value nat) (list (list (value nat))) :=
  match s with
  | [] => SCall (IInsert 0 (KNet n192_8) (VUser 7)) (fun _ => SCall (IInsert 0 (KNet n10_1_16) (VUser 50)) (fun _ => SCall (IEnumerate 2) (fun y => SDone [see y] (add 100 x.2))))
  | s => SUpdate 2 ([x0a; x01; x00; x00], [xff; xff; x00; x00]) (fun s y => SDone (s ++ [[y.2]]) (add 1000 y.2)) s
      (fun s => SCall (IEnumerate 0) (fun y => SDone (s ++ [see y]) (add 100 x.2)))
  end.
Definition dv_client : client (value nat) (list (list (value nat))) (list (list (value nat))) :=
  CCall (WCall (IBuild [(KNet n10_8, VUser 1); (KNet n10_1_16, VUser 2); (KAddr a_123, VUser 3)])) (fun _ =>
  CUpdate 0 ([x0a; x00; x00; x00], [xff; x00; x00; x00]) dv_cb [] (fun s =>
  CCall (WCall (IEnumerate 0)) (fun y0 => CCall (WCall (IEnumerate 1)) (fun y1 => CCall (WCall (IEnumerate 2)) (fun y2 => CDone (s ++ [see y0; see y1; see y2])))))).
Lemma add_plain d v w : add d v = Some w -> plain w.
Proof. destruct v; intros [= <-]. done. Qed.
Example dv_client_ok : client_ok dv_client.
Proof.
  split; [repeat constructor|]. intros _. split; [|by intros s; repeat (split; [done|]; intros ?)]. intros [|y s] x; cbn [dv_cb script_ok].
  - split; [done|]. intros _. split; [done|]. intros _. split; [done|]. intros z. apply add_plain.
  - split; [intros s' z; apply add_plain|]. intros s'. split; [done|]. intros z. apply add_plain.
Qed.
Example dv_run : match result (run (run_client [] dv_client) ∅ 1%positive) with inl r => r.2 | inr _ => [] end =
  [ [VUser 1; VUser 50; VUser 3]; [VUser 3]; [VUser 1; VUser 102; VUser 1003];
    [VUser 1; VUser 102; VUser 103]; [VUser 1; VUser 102; VUser 103; VUser 7]; [VUser 1; VUser 50; VUser 103] ].
Proof. vm_compute. reflexivity. Qed.
