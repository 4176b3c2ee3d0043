(** * Property C64: UpdateDescendants while its goroutines are running. *)
(** [c_ip_update] (ChanUpdModel.v) is UpdateDescendants with the goroutine of
    Enumerate, which walks the tree and sends pointers to nodes, and the receiver,
    which calls the callback and writes into the nodes meanwhile; one more
    goroutine walks the part of a /64 when the receiver gets there. [always h a h' s']:
    under every interleaving, the steps come to an end, nothing blocks or panics,
    and the memory and the state of the callback are then [h'] and [s']. [like]:
    two memories differ at most in the Value fields of radix nodes. *)
From Verif Require Import Prog History NumModel NumSpec IpModel IpSpec IpUpdSpec IpHist IpPropProofs IpUpdProofs.
From Verif Require Import Channel ChanUpdModel ChanUpdProofs ChanUpdProps Properties_iptree Properties_iptree2.
Open Scope nat_scope.

(** C64: conventions and specification as in C47; the enumeration before, [e], and
    the one after, [e'], are related as there. *)
Theorem C64_update_schedules : forall U St (cb : St -> bytes * bytes * value U -> St * option (value U)) (h : heap U) ops rops,
  cb_plain cb -> Forall2 iresolves ops rops -> Forall iop_ok ops ->
  wp (run_hist ip_exec ops []) h ∅ (fun vs h1 _ => forall ver n p s, nth ver vs.1 None <> None -> net_is n p ->
    let t := nth ver vs.1 None in let l := iver rops ver in
    exists h2 s2 e e', always h1 (c_ip_update cb t n s) h2 s2 /\ like h2 h1 /\
      returns (ip_enumerate t) h1 e /\ returns (ip_enumerate t) h2 e' /\ nenumerates l e /\
      (is_target l n p -> uwalk cb p s e s2 e') /\
      (~ is_target l n p -> s2 = s /\ h2 = h1)).
Proof. intros. by apply pf_update_schedules. Qed.
Print Assumptions C64_update_schedules.

(** C64: in any memory, the goroutines end as the sequential model does, whatever
    is known about that. *)
Theorem C64_refines : forall U St (cb : St -> bytes * bytes * value U -> St * option (value U)) (h : heap U) t n s W Q,
  wp (ip_update cb t n s) h W Q ->
  exists h' s' W', Q s' h' W' /\ always h (c_ip_update cb t n s) h' s' /\ like h' h.
Proof. exact @update_always. Qed.
Print Assumptions C64_refines.

(** ** The case of [ex_update]: 37 steps, whatever their order. *)
Example ex_update_schedules :
  match run (run_hist ip_exec ex_ip []) ∅ 1%positive with
  | (inl vs, h1, _) =>
    match exec h1 (c_ip_update bump (nth 2 vs.1 None) n6_32 []) h1 with
    | Some (_, s, steps) => s = [3; 5] /\ steps = 37
    | None => False
    end
  | _ => False
  end.
Proof. vm_compute. split; reflexivity. Qed.
