(** * domaintree: InplaceInsert together with the other calls (C56).

    Insert gives the node of a new name no label tree; InplaceInsert and the
    creation of a tree always give one. [DtOwnSpec.bare l q]: after the changes [l]
    (newest first) the node of [q] has none. [blocked l p]: some name strictly above
    [p] is bare. InplaceInsert panics with a nil dereference exactly for blocked
    names; otherwise it does what Insert does. *)
From Verif Require Import Prog History RbModel RbSpec RbFun RbFunIns RbSim RbSimOps RbAbs StrSpec StrAbs StrPropProofs.
From Verif Require Import DomModel DomSpec DomPropProofs DlModel DlSpec DlAbs DlPropProofs DtModel DtSpec DtSim4 DtAbs DtPropProofs Properties_domaintree.
From Verif Require Import Handle DtOwnSpec DtOwnAbs.
From Coq Require Import String.
Open Scope nat_scope.
Local Notation B := list_byte_of_string.

(** On any non-nil version of any history, shared or not (the caller may write
    everything, [dom h1]; other versions may change). *)
Theorem C56_inplace_any : forall U fuel (h : heap U) ops rops,
  Forall2 tresolves ops rops -> ~ del_panics [] rops -> enough fuel (tnames ops + 1) -> 128 <= fuel ->
  wp (run_hist (dt_exec fuel) ops []) h ∅ (fun r h1 _ => h ⊆ h1 /\ tanswers [] rops r.2 /\
    forall ver d p v, nth ver r.1 None <> None -> name_is d p ->
      (blocked (bver rops ver) p -> fails (dt_inplace_insert fuel (nth ver r.1 None) d v) h1 ENil) /\
      (~ blocked (bver rops ver) p ->
        wp (dt_inplace_insert fuel (nth ver r.1 None) d v ;;; dt_enumerate fuel (nth ver r.1 None)) h1 (dom h1)
           (fun e _ _ => enumerates (TLIns p v :: tver rops ver) e))).
Proof. exact @bt_inplace_any. Qed.
Print Assumptions C56_inplace_any.
(** A client that holds one tree and mixes in-place calls with all others: it
    panics exactly if it inserts a blocked name in place or deletes a stored name of 127
    labels ([mix_panics] gives the error of the first such call); otherwise all answers
    are those of one mutable map, and memory it did not allocate is unchanged. *)
Theorem C56_mix : forall U fuel (h : heap U) ops rops,
  Forall2 mresolves ops rops -> enough fuel (mix_names ops) -> 128 <= fuel ->
  ((forall e, ~ mix_panics [] rops e) -> wp (p <- dt_new ;; run_handle (dt_exec fuel) (dt_inplace fuel) ops p) h ∅ (fun r h' _ => h ⊆ h' /\ mix_answers [] rops r.2)) /\
  (forall e, mix_panics [] rops e -> fails (p <- dt_new ;; run_handle (dt_exec fuel) (dt_inplace fuel) ops p) h e).
Proof. exact @dt_mix. Qed.
Print Assumptions C56_mix.
(** A bare name is stored, and nothing is stored below it: only names below stored
    names without subdomains are ever blocked. *)
Theorem C56_bare_leaf : forall U (l : blog (value U)), unblocked l -> forall q, q <> [] -> bare l q ->
  (exists v, tlog_get (plain l) q = Some v) /\ forall r, r <> [] -> tlog_get (plain l) (q ++ r) = None.
Proof. intros U l Hl q Hq Hb. split; [by apply bare_stored|]. intros r Hr. by apply bare_leaf. Qed.
Print Assumptions C56_bare_leaf.

(** ** Clients that mix. *)
Definition ex_dtmix : list (hop (top name (value nat)) (name * value nat)) :=
  [ HInplace (nm "example.com", VUser 1); HCall (TInsert 0 (nm "www.Example.com") (VUser 2)); HInplace (nm "ftp.example.com", VUser 3);
    HCall (TInsert 0 (nm "a.www.example.com") (VUser 4)); HInplace (nm "b.www.example.com", VUser 5); HCall (TDelete 0 (nm "ftp.example.com"));
    HCall (TEnumerate 0) ].
Definition ex_dtmix_paths : list (hop (top path (value nat)) (path * value nat)) :=
  [ HInplace ([B "COM"; B "EXAMPLE"], VUser 1); HCall (TInsert 0 [B "COM"; B "EXAMPLE"; B "WWW"] (VUser 2)); HInplace ([B "COM"; B "EXAMPLE"; B "FTP"], VUser 3);
    HCall (TInsert 0 [B "COM"; B "EXAMPLE"; B "WWW"; B "A"] (VUser 4)); HInplace ([B "COM"; B "EXAMPLE"; B "WWW"; B "B"], VUser 5); HCall (TDelete 0 [B "COM"; B "EXAMPLE"; B "FTP"]);
    HCall (TEnumerate 0) ].
(** The same up to one name: [b.www.example.com] is inserted while nothing is below
    [www.example.com]. *)
Definition ex_dtmix_bad : list (hop (top name (value nat)) (name * value nat)) := take 3 ex_dtmix ++ drop 4 ex_dtmix.
Definition ex_dtmix_bad_paths := take 3 ex_dtmix_paths ++ drop 4 ex_dtmix_paths.
Ltac ex_mres := repeat first [ apply Forall2_nil; exact I | apply Forall2_cons; split | apply mr_call; [|reflexivity] | apply mr_inplace | apply tr_insert | apply tr_delete
    | apply tr_enumerate | (apply ex_name; vm_compute; reflexivity) | exact I].
Example ex_dtmix_resolves : Forall2 mresolves ex_dtmix ex_dtmix_paths.
Proof. ex_mres. Qed.
Example ex_dtmix_bad_resolves : Forall2 mresolves ex_dtmix_bad ex_dtmix_bad_paths.
Proof. ex_mres. Qed.
Example ex_dtmix_fuel : enough 128 (mix_names ex_dtmix) /\ enough 128 (mix_names ex_dtmix_bad).
Proof. vm_compute. lia. Qed.
Example ex_dtmix_bad_stuck : mix_panics [] ex_dtmix_bad_paths ENil.
Proof.
  right. split.
  { intros e [(q & r & _ & _ & _ & []) _]. }
  right. split; [intros e [[] _]|]. right. split.
  { intros e [(q & r & E & Hq & Hr & Hb) _]. cbn in Hb. destruct Hb as [[-> _]|[_ []]].
    apply (f_equal (take 3)) in E. discriminate E. }
  left. split; [|reflexivity]. exists [B "COM"; B "EXAMPLE"; B "WWW"], [B "B"]. split_and!; [reflexivity|done|done|]. left. split; [done|]. right.
  intros q v Hu. change (tlog_get [TLIns [B "COM"; B "EXAMPLE"] (VUser 1 : value nat)] q <> Some v). cbn [tlog_get]. destruct (path_eqb [B "COM"; B "EXAMPLE"] q) eqn:E; [|done].
  apply DtFun.path_eqb_spec in E. subst q. vm_compute in Hu. discriminate.
Qed.
Example ex_dtmix_free : forall e, ~ mix_panics [] ex_dtmix_paths e.
Proof.
  assert (Hb0 : forall p, ~ blocked (V := value nat) [] p) by (intros p (q & r & _ & _ & _ & [])).
  intros e. intros [[H _]|[_ H]]; [by apply Hb0 in H|]. destruct H as [[[] _]|[_ H]].
  destruct H as [[(q & r & E & _ & _ & Hb) _]|[_ H]].
  { cbn in Hb. destruct Hb as [[-> _]|[_ []]]. apply (f_equal (take 3)) in E. discriminate E. }
  destruct H as [[[] _]|[_ H]]. destruct H as [[(q & r & E & Hq & Hr & Hb) _]|[_ H]].
  { cbn in Hb. destruct Hb as [[-> _]|[Hu [[-> _]|[_ []]]]]; [|discriminate Hu]. apply (f_equal (take 4)) in E. discriminate E. }
  destruct H as [[[H _] _]|[_ H]]; [discriminate H|]. destruct H as [[[] _]|[_ []]].
Qed.
Example ex_dtmix_run : match run (p <- dt_new ;; run_handle (dt_exec 128) (dt_inplace 128) ex_dtmix p) ∅ 1%positive with (inl r, _, _) => r.2 | _ => [] end =
  [ None; Some TONone; None; Some TONone; None; Some (TOBool true);
    Some (TOList [(B "example.com", VUser 1); (B "www.example.com", VUser 2); (B "a.www.example.com", VUser 4); (B "b.www.example.com", VUser 5)]) ].
Proof. vm_compute. reflexivity. Qed.
Example ex_dtmix_bad_run : match run (p <- dt_new ;; run_handle (dt_exec 128) (dt_inplace 128) ex_dtmix_bad p) ∅ 1%positive with (inr e, _, _) => e | _ => EFuel end = ENil.
Proof. vm_compute. reflexivity. Qed.
