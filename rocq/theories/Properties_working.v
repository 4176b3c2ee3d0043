(** * Property C68: callbacks of UpdateDescendants that work on other trees. *)
(** [cb s x]: what the callback does with state [s] and network [x] (WorkModel.v): any
    number of lookups and enumerations of the tree that is being updated, and any
    number of operations on trees of its own, which it keeps from call to call; each
    step may depend on the answers so far. [work_plain]: the values it stores are not
    of iptree's own unexported type, if none of those it was given is. [desk]: its
    state, the operations performed on its own trees, and these trees; it starts
    without trees. Other conventions as in C47 and C67. *)
From Verif Require Import Prog History NumModel NumSpec IpModel IpSpec IpUpdSpec IpHist IpPropProofs IpUpdProofs.
From Verif Require Import WorkModel WorkSpec WorkProofs CopyProofs Properties_iptree Properties_iptree2.
Open Scope nat_scope.

(** C68: the two kinds of trees do not disturb each other. [uwalk_by]: the callback is
    called exactly for the networks strictly inside [p], in order, once each.
    [worked]: while it is called, the tree that is being updated answers it as in C67,
    and its own trees answer according to the history of its own operations alone.
    Afterwards the tree is as the walk says, and each of the callback's own trees is
    the one that its operations make. *)
Theorem C68_working : forall U St (cb : St -> bytes * bytes * value U -> work U (St * option (value U))) (h : heap U) ops rops,
  (forall s x, plain x.2 -> work_plain (cb s x)) -> Forall2 iresolves ops rops -> Forall iop_ok ops ->
  wp (run_hist ip_exec ops []) h ∅ (fun vs h1 _ => forall ver n p s k r, nth ver vs.1 None <> None -> net_is n p -> ikey_is k r ->
    let t := nth ver vs.1 None in let l := iver rops ver in
    wp (e <- ip_enumerate t ;; d <- ip_update_by (work_cb t cb) t n (Desk s [] []) ;; e' <- ip_enumerate t ;; x <- ip_get_key t k ;; Ret (e, d, e', x)) h1 (dom h1)
      (fun y h' _ => let '(e, d, e', x) := y in nenumerates l e /\
        (is_target l n p -> uwalk_by (worked cb) p [] (s, []) e (dk_st d, dk_ops d) e') /\
        (~ is_target l n p -> d = Desk s [] [] /\ e' = e /\ h' = h1) /\
        (exists l', nenumerates l' e' /\ exists res, x = match res with Some v => (v, true) | None => (VNil, false) end /\
          match r with Some q => nlongest l' q res | None => res = None end) /\
        exists rops', Forall2 iresolves (dk_ops d) rops' /\ forall own k' r', ikey_is k' r' -> forall W,
          wp (e <- ip_enumerate (nth own (dk_own d) None) ;; x <- ip_get_key (nth own (dk_own d) None) k' ;; Ret (e, x)) h' W
            (fun y h'' _ => h'' = h' /\ nenumerates (iver rops' own) y.1 /\
              exists res, y.2 = match res with Some v => (v, true) | None => (VNil, false) end /\
                match r' with Some q => nlongest (iver rops' own) q res | None => res = None end))).
Proof. intros. by apply pf_working. Qed.
Print Assumptions C68_working.

(** C68: the walk determines the result, and the operations performed. *)
Theorem C68_walk_unique : forall U St (cb : St -> bytes * bytes * value U -> work U (St * option (value U))) p s e s1 e1 s2 e2,
  uwalk_by (worked cb) p [] s e s1 e1 -> uwalk_by (worked cb) p [] s e s2 e2 -> s1 = s2 /\ e1 = e2.
Proof. intros U St cb p s e s1 e1 s2 e2. apply worked_fun. Qed.
Print Assumptions C68_walk_unique.

(** C68: UpdateDescendants with a callback that inserts each network into a tree of its
    own copies exactly the networks strictly inside [p], with their values, and
    changes nothing. *)
Theorem C68_copy : forall U (h : heap U) ops rops, Forall2 iresolves ops rops -> Forall iop_ok ops ->
  wp (run_hist ip_exec ops []) h ∅ (fun vs h1 _ => forall ver n p, nth ver vs.1 None <> None -> net_is n p ->
    let t := nth ver vs.1 None in let l := iver rops ver in is_target l n p ->
    wp (d <- ip_update_by (work_cb t copy) t n (Desk 0 [] []) ;; e <- ip_enumerate t ;; c <- ip_enumerate (nth (pred (dk_st d)) (dk_own d) None) ;; Ret (e, c)) h1 (dom h1)
      (fun y h' _ => nenumerates l y.1 /\ exists lc, nenumerates lc y.2 /\ forall q v, ilog_get lc q = Some v <-> ilog_get l q = Some v /\ ncovers p q /\ p <> q)).
Proof. exact @pf_copy. Qed.
Print Assumptions C68_copy.

(** ** Version 2 of [ex_ip], below 2001:db8::/32: two networks are copied. *)
Example ex_copy : is_target (iver ex_ip_r 2) n6_32 q6_32 /\
  match result (run (vs <- run_hist ip_exec ex_ip [] ;; let t := nth 2 vs.1 None in
                     d <- ip_update_by (work_cb t copy) t n6_32 (Desk 0 [] []) ;;
                     e <- ip_enumerate t ;; c <- ip_enumerate (nth (pred (dk_st d)) (dk_own d) None) ;; Ret (dk_st d, map snd e, map snd c)) ∅ 1%positive) with
  | inl x => x = (2, [VUser 1; VUser 6; VUser 2; VUser 3; VUser 5], [VUser 3; VUser 5])
  | inr _ => False
  end.
Proof. split; [left; exists (VUser 2); vm_compute; reflexivity|vm_compute; reflexivity]. Qed.
(** A callback that gives each network the value that its own tree holds for it and
    the network visited before, and notes in that tree what it was called with. *)
Definition previous (s : nat) (x : bytes * bytes * value nat) : work nat (nat * option (value nat)) :=
  WOwn (IGet (pred s) (KNet n6_64)) (fun y =>
    WOwn (IInsert (pred s) (KNet n6_64) x.2) (fun _ =>
      match y with IOVal (Some v) => WDone (S s, Some v) | _ => WDone (S s, Some (VUser 100)) end)).
Lemma previous_plain s x : plain x.2 -> work_plain (previous s x).
Proof. intros H. constructor; [done|]. intros y Hy. constructor; [done|]. intros z _. destruct y as [| |[v|]|]; by constructor. Qed.
Example ex_previous :
  match result (run (vs <- run_hist ip_exec ex_ip [] ;; let t := nth 2 vs.1 None in
                     d <- ip_update_by (work_cb t previous) t n6_32 (Desk 0 [] []) ;;
                     e <- ip_enumerate t ;; Ret (dk_st d, map snd e)) ∅ 1%positive) with
  | inl x => x = (2, [VUser 1; VUser 6; VUser 2; VUser 100; VUser 3])
  | inr _ => False
  end.
Proof. vm_compute. reflexivity. Qed.
