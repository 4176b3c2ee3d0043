(** * Properties of package iptree, continued: UpdateDescendants (C47).

    Conventions as in Properties_iptree.v. [cb]: the client's callback with its
    own state [St]; it gets (address, mask, value) and may return a new value;
    [cb_plain]: the new value is not of iptree's own unexported type. [ip_update
    cb t n s]: t.UpdateDescendants(n, cb), returning the callback's final state.
    [wp m h (dom h) Q]: [m] does not panic and ends with [Q]; it may write any
    cell. *)
From Verif Require Import Prog History NumSpec IpModel IpSpec IpUpdSpec IpHist IpPropProofs IpUpdProofs Properties_iptree.
Open Scope N_scope.

(** ** C47 *)
(** [uwalk cb p s e s' e']: [e] is the enumeration before, [e'] the one after, and
    the callback, started in [s], is called exactly for the networks strictly
    inside [p], in order, once each. [is_target l n p]: [p] is stored, or [n] has
    no host bits and [p] is the smallest network around all stored networks of its
    IPv6 /64. If so, exactly that walk happens; if not, nothing does, not even a
    write to memory. In all cases the tree is still consistent: a later lookup
    [k] answers from the enumeration [e']. *)
Theorem C47_update : forall U St (cb : St -> bytes * bytes * value U -> St * option (value U)) (h : heap U) ops rops,
  cb_plain cb -> Forall2 iresolves ops rops -> Forall iop_ok ops ->
  wp (run_hist ip_exec ops []) h ∅ (fun vs h1 _ => forall ver n p s k r, nth ver vs.1 None <> None -> net_is n p -> ikey_is k r ->
    let t := nth ver vs.1 None in let l := iver rops ver in
    wp (e <- ip_enumerate t ;; s' <- ip_update cb t n s ;; e' <- ip_enumerate t ;; x <- ip_get_key t k ;; Ret (e, s', e', x)) h1 (dom h1)
      (fun y h' _ => let '(e, s', e', x) := y in nenumerates l e /\
        (is_target l n p -> uwalk cb p s e s' e') /\
        (~ is_target l n p -> s' = s /\ e' = e /\ h' = h1) /\
        exists l', nenumerates l' e' /\ exists res, x = match res with Some v => (v, true) | None => (VNil, false) end /\
          match r with Some q => nlongest l' q res | None => res = None end)).
Proof. intros. by apply ip_pf_update_hist. Qed.
Print Assumptions C47_update.
(** Outside the IPv6 networks of 64 or more bits, the targets are the stored
    networks: what is not stored is never accepted. *)
Theorem C47_short_targets : forall V (l : ilog V) n (p : net), p.1 = false \/ p.2.1 < 64 -> (is_target l n p <-> exists v, ilog_get l p = Some v).
Proof. exact @ip_pf_short_targets. Qed.
Print Assumptions C47_short_targets.
(** The walk determines the result: no call is left out or made twice. *)
Theorem C47_walk_unique : forall U St (cb : St -> bytes * bytes * value U -> St * option (value U)) p s e s1 e1 s2 e2,
  uwalk cb p s e s1 e1 -> uwalk cb p s e s2 e2 -> s1 = s2 /\ e1 = e2.
Proof. exact @uwalk_fun. Qed.
Print Assumptions C47_walk_unique.
(** What is not a network updates nothing. *)
Theorem C47_not_a_network : forall U St (cb : St -> bytes * bytes * value U -> St * option (value U)) t n s h W,
  (forall q, ~ net_is (Some n) q) -> wp (ip_update cb t (Some n) s) h W (fun s' h' W' => s' = s /\ h' = h).
Proof. exact @ip_pf_update_none. Qed.
Print Assumptions C47_not_a_network.

(** A counting callback that adds 100 to each value. *)
Definition bump (s : list nat) (x : bytes * bytes * value nat) : list nat * option (value nat) :=
  match x.2 with VUser v => (s ++ [v], Some (VUser (v + 100)%nat)) | _ => (s, None) end.
Lemma bump_plain : cb_plain bump.
Proof. intros s [[ip m] v] s' v'. unfold bump. cbn [snd]. destruct v; intros [= <- <-]; done. Qed.

(** The second half of the claim is false: ::1/128 and ::2/128 are stored, ::/126
    is not, and is accepted as the target because the two meet there. *)
Definition n126 : ipnet := Some (v6 [] [x00], repeat xff 15 ++ [xfc]).
Theorem C47_unstored_refuted : exists ops rops (n : ipnet) p ver,
  Forall2 iresolves ops rops /\ Forall iop_ok ops /\ net_is n p /\ ilog_get (iver rops ver) p = None /\
  match result (run (vs <- run_hist ip_exec ops [] ;; s' <- ip_update bump (nth ver vs.1 None) n [] ;; Ret s') ∅ 1%positive) with
  | inl s' => s' = [1%nat; 2%nat]
  | inr _ => False
  end.
Proof.
  exists [ IBuild [(KAddr (v6 [] [x01]), VUser 1%nat); (KAddr (v6 [] [x02]), VUser 2%nat)] ].
  exists [ IBuild [(Some (true, (128, 1)), VUser 1%nat); (Some (true, (128, 2)), VUser 2%nat)] ].
  exists n126, (true, (126, 0)), 0%nat. split_and!.
  - repeat first [ apply Forall2_nil; exact I | apply Forall2_cons; split | apply ir_build | (apply an_addr6; vm_compute; reflexivity) | reflexivity | constructor ].
  - repeat constructor.
  - assert (H : ikey_is (KNet n126) (Some (true, (126, 0)))) by (apply (a_net6 _ _ 126); vm_compute; reflexivity). by inversion H.
  - vm_compute. reflexivity.
  - vm_compute. reflexivity.
Qed.
Print Assumptions C47_unstored_refuted.
(** Like every in-place change, it is seen through older versions that share
    nodes. *)
Theorem C47_shared_refuted : exists ops (n : ipnet) old new,
  Forall iop_ok ops /\ match result (run (vs <- run_hist ip_exec ops [] ;;
                     e <- ip_enumerate (nth old vs.1 None) ;; ip_update bump (nth new vs.1 None) n [] ;;;
                     e' <- ip_enumerate (nth old vs.1 None) ;; Ret (e, e')) ∅ 1%positive) with
  | inl (e, e') => e <> e' /\ old <> new
  | inr _ => False
  end.
Proof.
  exists [ IBuild [(KNet n10_8, VUser 1%nat); (KNet n10_1_16, VUser 2%nat)]; IInsert 0 (KNet n6_32) (VUser 3%nat) ], n10_8, 0%nat, 1%nat.
  split; [repeat constructor|]. vm_compute. done.
Qed.
Print Assumptions C47_shared_refuted.

(** ** A case that meets the hypotheses: version 2 of [ex_ip] stores 2001:db8::/32
    and, inside it, 2001:db8:1::/64 and 2001:db8:1::1. *)
Example ex_update : ilog_get (iver ex_ip_r 2) q6_32 = Some (VUser 2%nat) /\
  match result (run (vs <- run_hist ip_exec ex_ip [] ;; s' <- ip_update bump (nth 2 vs.1 None) n6_32 [] ;;
                     e' <- ip_enumerate (nth 2 vs.1 None) ;; Ret (s', map snd e')) ∅ 1%positive) with
  | inl x => x = ([3%nat; 5%nat], [VUser 1%nat; VUser 6%nat; VUser 2%nat; VUser 103%nat; VUser 105%nat])
  | inr _ => False
  end.
Proof. split; vm_compute; reflexivity. Qed.
