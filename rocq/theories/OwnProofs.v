(** * Clients with trees of their own: one for each package. *)
From Verif Require Import Prog History RbModel RbSpec RbFun RbSim RbSimOps RbAbs StrSpec StrAbs StrPropProofs.
From Verif Require Import DomModel DomSpec DomPropProofs DlModel DlSpec DlAbs DlPropProofs NumModel NumSim NumSpec NumAbs NumPropProofs.
From Verif Require Import IpModel IpSpec IpUpdSpec IpHist IpPropProofs UxModel UxSpec UxHist Handle RbHandle IpHandle.
From Verif Require Import DtModel DtSpec DtAbs DtOwnSpec DtOwnAbs VersSpec VersProofs IpVersSpec IpAllSpec IpAllProofs StaleSpec RbStaleProofs UxVersSpec UxVersProofs Concurrent Gor.
Open Scope nat_scope.

(** Each constructor: the hypotheses, the program and what its answers are, all as in the
    theorem named. *)
Inductive tree_client {U} : client U -> Prop :=
(* C53: one tree, all calls *)
| tc_strtree fuel (cmp : bytes -> bytes -> Z) (ops : list (hop (sop (value U)) (bytes * value U))) :
    lawful cmp -> Forall (hop_ok on_handle (fun _ => True)) ops -> enough fuel (length ops) ->
    tree_client (Client _ (p <- str_new_custom (Some cmp) ;; run_handle (str_exec fuel) (str_inplace fuel) ops p)
      (fun r => exists m', h_spec (s_one str_compare) s_mut ops (cmp, []) m' r.2))
| tc_dltree fuel (ops : list (hop (dop (value U)) (dkey * value U))) :
    Forall (hop_ok d_on_handle d_key_ok) ops -> enough fuel (length ops) ->
    tree_client (Client _ (p <- dl_new ;; run_handle (dl_exec fuel) (dl_inplace fuel) ops p)
      (fun r => exists m', h_spec dstep d_mut ops (dl_compare, []) m' r.2))
| tc_uxtree ops : Forall (hop_ok i_on_handle (fun x => IpSpec.plain x.2)) ops ->
    tree_client (Client _ (t <- ip_new ;; run_handle ux_exec ux_inplace ops t)
      (fun r => exists l', h_spec ustep u_mut ops [] l' r.2))
(* C56: one tree, all calls *)
| tc_domaintree fuel ops rops : Forall2 mresolves ops rops -> enough fuel (mix_names ops) -> 128 <= fuel -> (forall e, ~ mix_panics [] rops e) ->
    tree_client (Client _ (p <- dt_new ;; run_handle (dt_exec fuel) (dt_inplace fuel) ops p)
      (fun r => mix_answers [] rops r.2))
(* C74: many versions, all calls on the latest *)
| tc_str_versions fuel (cmp : bytes -> bytes -> Z) (ops : list (lvop (value U))) : lawful cmp -> deep fuel (length ops) ->
    tree_client (Client _ (p <- str_new_custom (Some cmp) ;; run_hist (str_lexec fuel) ops [p])
      (fun r => exists css, spec_run (lvstep cmp) ops [[[]]] css r.2))
| tc_dl_versions fuel (ops : list (lvop (value U))) : deep fuel (length ops) ->
    tree_client (Client _ (p <- dl_new ;; run_hist (dl_lexec fuel) ops [p])
      (fun r => exists css, spec_run (lvstep dl_compare) ops [[[]]] css r.2))
(* C71, C73, C76: many versions, all calls on any *)
| tc_numtree c (ops : list (vop U)) : num_cfg c -> Forall (vop_ok (cW c)) ops ->
    tree_client (Client _ (run_hist (v_exec c) ops [None])
      (fun r => exists ms, spec_run (vstep (cW c)) ops [∅] ms r.2))
| tc_iptree St (ops : list (aop (value U) St)) : Forall aop_ok ops ->
    tree_client (Client _ (run_hist a_exec ops [])
      (fun r => exists ids gs, aspec 0 [] [] ops r.2 ids gs))
| tc_ux_versions (ops : list (wop (value U))) : Forall wop_ok ops ->
    tree_client (Client _ (run_hist x_exec ops [])
      (fun r => exists ids gs, xspec 0 [] [] ops r.2 ids gs)).

Lemma tree_client_starts {U} (h : heap U) c : tree_client c -> starts h c.
Proof.
  assert (Hd : forall A (m : prog U A) (Q : A -> Prop), wp m h ∅ (fun r h' _ => h ⊆ h' /\ Q r) -> wp m h ∅ (fun r _ _ => Q r)).
  { intros A m Q H. eapply wp_mono; [exact H|]. cbn beta. intros a h' W' [_ Ha]. exact Ha. }
  intros [fuel cmp ops H1 H2 H3|fuel ops H1 H2|ops H1|fuel ops rops H1 H2 H3 H4|fuel cmp ops H1 H2|fuel ops H1|cf ops H1 H2|St ops H1|ops H1]; cbn [starts]; apply Hd.
  - by apply str_handle.
  - by apply dl_handle.
  - by apply ux_handle.
  - by apply dt_mix.
  - by apply pf_str_older.
  - by apply pf_dl_older.
  - apply pf_versions; [by apply num_cfg_ok|done].
  - by apply pf_ip_all.
  - by apply pf_ux_versions.
Qed.
Lemma pf_own {U} (h : heap U) (cs : list (client U)) gs h' : Forall tree_client cs -> rtc gstep (map begun cs, h) (gs, h') ->
  Forall2 (going_well h h') cs gs /\ ~ g_race gs /\ h ⊆ h'.
Proof. intros H. apply own_goroutines. eapply Forall_impl; [exact H|]. intros c. apply tree_client_starts. Qed.
