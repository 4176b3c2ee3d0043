(** * Property C67: callbacks of UpdateDescendants that look at the tree. *)
(** [cb s x]: what the callback does with state [s] and network [x] (CallModel.v): any
    number of lookups and enumerations of the tree that is being updated, each
    depending on the answers so far, and at last a new state and perhaps a new value.
    [ask_plain]: that value is not of iptree's own unexported type, if none of the
    values it was given is. [ask_run t]: such
    a callback as a program on the tree [t]. Other conventions as in C47 and C64. *)
From Verif Require Import Prog History NumModel NumSpec IpModel IpSpec IpUpdSpec IpHist IpPropProofs IpUpdProofs.
From Verif Require Import Channel ChanUpdModel ChanUpdProofs ChanUpdProps CallModel CallSpec CallProofs Properties_iptree Properties_iptree2.
Open Scope nat_scope.

(** C67: [uwalk_by]: the callback is called exactly for the networks strictly inside
    [p], in order, once each; and [asks]: while it is called, the tree answers it
    like a tree that holds the new values of the networks visited before, and the old
    ones of the networks that are still to come, including that of the call. *)
Theorem C67_calling : forall U St (cb : St -> bytes * bytes * value U -> ask U (St * option (value U))) (h : heap U) ops rops,
  (forall s x, plain x.2 -> ask_plain (cb s x)) -> Forall2 iresolves ops rops -> Forall iop_ok ops ->
  wp (run_hist ip_exec ops []) h ∅ (fun vs h1 _ => forall ver n p s k r, nth ver vs.1 None <> None -> net_is n p -> ikey_is k r ->
    let t := nth ver vs.1 None in let l := iver rops ver in
    wp (e <- ip_enumerate t ;; s' <- ip_update_by (fun s x => ask_run t (cb s x)) t n s ;; e' <- ip_enumerate t ;; x <- ip_get_key t k ;; Ret (e, s', e', x)) h1 (dom h1)
      (fun y h' _ => let '(e, s', e', x) := y in nenumerates l e /\
        (is_target l n p -> uwalk_by (fun e s x r => asks e (cb s x) r) p [] s e s' e') /\
        (~ is_target l n p -> s' = s /\ e' = e /\ h' = h1) /\
        exists l', nenumerates l' e' /\ exists res, x = match res with Some v => (v, true) | None => (VNil, false) end /\
          match r with Some q => nlongest l' q res | None => res = None end)).
Proof. intros. by apply pf_calling. Qed.
Print Assumptions C67_calling.

(** C67: the same under every interleaving with the goroutines of Enumerate. *)
Theorem C67_schedules : forall U St (cb : St -> bytes * bytes * value U -> ask U (St * option (value U))) (h : heap U) ops rops,
  (forall s x, plain x.2 -> ask_plain (cb s x)) -> Forall2 iresolves ops rops -> Forall iop_ok ops ->
  wp (run_hist ip_exec ops []) h ∅ (fun vs h1 _ => forall ver n p s, nth ver vs.1 None <> None -> net_is n p ->
    let t := nth ver vs.1 None in let l := iver rops ver in
    exists h2 s2 e e', always h1 (c_ip_update_by (fun s x => ask_run t (cb s x)) t n s) h2 s2 /\ like h2 h1 /\
      returns (ip_enumerate t) h1 e /\ returns (ip_enumerate t) h2 e' /\ nenumerates l e /\
      (is_target l n p -> uwalk_by (fun e s x r => asks e (cb s x) r) p [] s e s2 e') /\
      (~ is_target l n p -> s2 = s /\ h2 = h1)).
Proof. intros. by apply pf_calling_schedules. Qed.
Print Assumptions C67_schedules.

(** C67: the walk determines the result. *)
Theorem C67_walk_unique : forall U St (cb : St -> bytes * bytes * value U -> ask U (St * option (value U))) p s e s1 e1 s2 e2,
  uwalk_by (fun e s x r => asks e (cb s x) r) p [] s e s1 e1 -> uwalk_by (fun e s x r => asks e (cb s x) r) p [] s e s2 e2 -> s1 = s2 /\ e1 = e2.
Proof. intros U St cb p s e s1 e1 s2 e2. apply uwalk_by_fun. Qed.
Print Assumptions C67_walk_unique.

(** C67: a callback that asks nothing walks as in C47. *)
Theorem C67_pure : forall U St (cb : St -> bytes * bytes * value U -> St * option (value U)) p s e s' e',
  uwalk_by (fun e s x r => asks (U := U) e (Done (cb s x)) r) p [] s e s' e' -> uwalk cb p s e s' e'.
Proof. exact @pf_pure. Qed.
Print Assumptions C67_pure.

(** ** A callback that asks the tree twice: it adds to each value what the tree now
    gives for 2001:db8:1::1, and notes that and how many networks the tree holds. *)
Definition inherit (s : list (nat * nat)) (x : bytes * bytes * value nat) : ask nat (list (nat * nat) * option (value nat)) :=
  AskGet (KAddr a6) (fun r => AskEnum (fun e =>
    match r.1, x.2 with
    | VUser a, VUser v => Done (s ++ [(a, length e)], Some (VUser (a + v)))
    | _, _ => Done (s, None)
    end)).
Lemma inherit_plain s x : ask_plain (inherit s x).
Proof. constructor. intros v b Hv. constructor. intros e He. cbn [fst]. destruct v; try by constructor. destruct x.2; by constructor. Qed.
(** Version 2 of [ex_ip], below 2001:db8::/32: the first call, for 2001:db8:1::/64,
    finds 5 for 2001:db8:1::1, and so does the second, for 2001:db8:1::1 itself. *)
Example ex_calling : is_target (iver ex_ip_r 2) n6_32 q6_32 /\
  match result (run (vs <- run_hist ip_exec ex_ip [] ;; let t := nth 2 vs.1 None in
                     s' <- ip_update_by (fun s x => ask_run t (inherit s x)) t n6_32 [] ;;
                     e' <- ip_enumerate t ;; Ret (s', map snd e')) ∅ 1%positive) with
  | inl x => x = ([(5, 5); (5, 5)], [VUser 1; VUser 6; VUser 2; VUser 8; VUser 10])
  | inr _ => False
  end.
Proof. split; [left; exists (VUser 2); vm_compute; reflexivity|vm_compute; reflexivity]. Qed.
(** And one whose second call sees what the first one wrote: it looks up
    2001:db8:1::/64, which is visited first. *)
Definition chain (s : list nat) (x : bytes * bytes * value nat) : ask nat (list nat * option (value nat)) :=
  AskGet (KNet n6_64) (fun r =>
    match r.1, x.2 with
    | VUser a, VUser v => Done (s ++ [a], Some (VUser (a + v)))
    | _, _ => Done (s, None)
    end).
Lemma chain_plain s x : ask_plain (chain s x).
Proof. constructor. intros v b Hv. cbn [fst]. destruct v; try by constructor. destruct x.2; by constructor. Qed.
Example ex_chain :
  match result (run (vs <- run_hist ip_exec ex_ip [] ;; let t := nth 2 vs.1 None in
                     s' <- ip_update_by (fun s x => ask_run t (chain s x)) t n6_32 [] ;;
                     e' <- ip_enumerate t ;; Ret (s', map snd e')) ∅ 1%positive) with
  | inl x => x = ([3; 6], [VUser 1; VUser 6; VUser 2; VUser 6; VUser 11])
  | inr _ => False
  end.
Proof. vm_compute. reflexivity. Qed.
