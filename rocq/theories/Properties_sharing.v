(** * Property C69: what UpdateDescendants on one version does to the other versions. *)
(** Versions of a history share nodes. [share_prog cb t u n s k] (ShareProofs.v): enumerate
    [t] and [u], call t.UpdateDescendants(n, cb), enumerate both again and look up [k] in
    [u]. [stamps 0 rops] (ShareSpec.v): the history with the number of each call in the
    place of the value it stores. Other conventions as in C47. *)
From Verif Require Import Prog History NumModel NumSpec IpModel IpSpec IpUpdSpec IpHist IpPropProofs IpUpdProofs.
From Verif Require Import ShareSpec Opaque ShareProofs Properties_iptree Properties_iptree2.
Open Scope nat_scope.

(** C69: [follows]: entry by entry, another version [u] keeps its networks and their
    order. A value stays, or it changes together with that of [t]: the network lies
    strictly inside the target, both versions had the same value and have the same value
    afterwards, and it was one call of the history that stored it for both. Lookups in
    [u] answer from its new enumeration: [u] is still a consistent tree. *)
Theorem C69_sharing : forall U St (cb : St -> bytes * bytes * value U -> St * option (value U)) (h : heap U) ops rops,
  cb_plain cb -> Forall2 iresolves ops rops -> Forall iop_ok ops ->
  wp (run_hist ip_exec ops []) h ∅ (fun vs h1 _ => forall ver other n p s k r, nth ver vs.1 None <> None -> net_is n p -> ikey_is k r ->
    let t := nth ver vs.1 None in let u := nth other vs.1 None in
    wp (share_prog cb t u n s k) h1 (dom h1) (fun y h' _ => let '(e, f, s', e', f', x) := y in
      nenumerates (iver rops ver) e /\ nenumerates (iver rops other) f /\
      (is_target (iver rops ver) n p -> uwalk cb p s e s' e') /\ (~ is_target (iver rops ver) n p -> s' = s /\ h' = h1) /\
      Forall2 (follows (iver (stamps 0 rops) ver) (iver (stamps 0 rops) other) p e e') f f' /\
      exists l', nenumerates l' f' /\ exists res, x = match res with Some v => (v, true) | None => (VNil, false) end /\
        match r with Some q => nlongest l' q res | None => res = None end)).
Proof. intros. by apply pf_sharing. Qed.
Print Assumptions C69_sharing.

(** C69: versions that have no value inside the target from the same call do not change. *)
Theorem C69_independent : forall V (st su : ilog nat) p (e e' f f' : list (bytes * bytes * V)),
  Forall2 (follows st su p e e') f f' -> (forall q, ncovers p q -> p <> q -> ~ one_call st su q) -> f' = f.
Proof. exact @pf_independent. Qed.
Print Assumptions C69_independent.

(** ** 10.0.0.0/8 with three networks inside. Version 1: one of them is stored again,
    with the value it has. Version 2: the same networks in a tree of their own. Adding
    100 to the values below 10.0.0.0/8 in version 0 is seen in version 1 where nodes
    are shared: not for 10.2.0.1, which another call stored, and not for 10.2.0.0/16,
    which has been copied together with the way to 10.2.0.1, but for 10.255.0.1. *)
Definition n10_2_16 : ipnet := Some ([x0a; x02; x00; x00], [xff; xff; x00; x00]).
Definition q10_2_16 : net := (false, (16, 0x0a02))%N.
Definition a_2 : bytes := [x0a; x02; x00; x01].
Definition a_255 : bytes := [x0a; xff; x00; x01].
Definition q_2 : net := (false, (32, 0x0a020001))%N.
Definition q_255 : net := (false, (32, 0x0aff0001))%N.
Definition sh_ops : list (iop ikey (value nat)) :=
  [ IBuild [(KNet n10_8, VUser 1); (KNet n10_2_16, VUser 2); (KAddr a_2, VUser 3); (KAddr a_255, VUser 4)];
    IInsert 0 (KAddr a_2) (VUser 3);
    IBuild [(KNet n10_8, VUser 1); (KNet n10_2_16, VUser 2); (KAddr a_2, VUser 3); (KAddr a_255, VUser 4)] ].
Definition sh_rops : list (iop (option net) (value nat)) :=
  [ IBuild [(Some q10_8, VUser 1); (Some q10_2_16, VUser 2); (Some q_2, VUser 3); (Some q_255, VUser 4)];
    IInsert 0 (Some q_2) (VUser 3);
    IBuild [(Some q10_8, VUser 1); (Some q10_2_16, VUser 2); (Some q_2, VUser 3); (Some q_255, VUser 4)] ].
Example sh_resolves : Forall2 iresolves sh_ops sh_rops /\ Forall iop_ok sh_ops /\ is_target (iver sh_rops 0) n10_8 q10_8.
Proof.
  split_and!; [|repeat constructor|left; by eexists].
  repeat first [ apply Forall2_nil; exact I | apply Forall2_cons; split | apply ir_build | apply ir_insert
    | (apply (a_net4 _ _ 8); vm_compute; reflexivity) | (apply (a_net4 _ _ 16); vm_compute; reflexivity)
    | exact (ik_addr _ _ (addr_is4 a_2 eq_refl)) | exact (ik_addr _ _ (addr_is4 a_255 eq_refl)) | reflexivity | constructor ].
Qed.
Definition sh_run (other : nat) := match result (run (vs <- run_hist ip_exec sh_ops [] ;; share_prog bump (nth 0 vs.1 None) (nth other vs.1 None) n10_8 [] (KAddr a_255)) ∅ 1%positive) with
  | inl (e, f, s', e', f', x) => Some (map snd e, map snd f, map snd e', map snd f', x)
  | inr _ => None
  end.
Example sh_run1 : sh_run 1 = Some ([VUser 1; VUser 2; VUser 3; VUser 4], [VUser 1; VUser 2; VUser 3; VUser 4],
  [VUser 1; VUser 102; VUser 103; VUser 104], [VUser 1; VUser 2; VUser 3; VUser 104], (VUser 104, true)).
Proof. vm_compute. reflexivity. Qed.
Example sh_run2 : sh_run 2 = Some ([VUser 1; VUser 2; VUser 3; VUser 4], [VUser 1; VUser 2; VUser 3; VUser 4],
  [VUser 1; VUser 102; VUser 103; VUser 104], [VUser 1; VUser 2; VUser 3; VUser 4], (VUser 4, true)).
Proof. vm_compute. reflexivity. Qed.
Example sh_one_call : let l ver := iver (stamps 0 sh_rops) ver in
  one_call (l 0) (l 1) q10_2_16 /\ one_call (l 0) (l 1) q_255 /\ ~ one_call (l 0) (l 1) q_2 /\ ~ one_call (l 0) (l 2) q_255.
Proof. cbn zeta. split_and!; [by exists 0|by exists 0|intros (i & H1 & H2)..]; vm_compute in H1; vm_compute in H2; congruence. Qed.
