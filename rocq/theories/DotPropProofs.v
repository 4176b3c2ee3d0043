(** * Dot on any version. *)
From Verif Require Import Prog History RbModel RbSpec RbFun RbFunIns RbSim RbSimOps RbAbs StrSpec StrAbs.
From Verif Require Import DomModel DomSpec DlModel DlSpec DlAbs NumModel NumSpec NumFun NumSim NumAbs.
From Verif Require Import NumPropProofs StrPropProofs DlPropProofs DotModel DotSpec DotProofs.
Open Scope nat_scope.

(** Dot with any sufficient fuel draws [d]. *)
Definition dot_draws {U C} (h : heap U) (dot : nat -> prog U (list (dline C))) (d : shape C) : Prop :=
  exists n, forall fuel, n <= fuel -> wp (dot fuel) h ∅ (fun ls h' _ => h' = h /\ drawing ls d).
Section proofs.
Context {U : Type}.
Local Notation heap := (heap U).

Lemma dot_str fuel (h : heap) (ops : list (sop (value U))) ver : Forall sop_lawful ops -> enough fuel (keys ops) ->
  wp (run_hist (str_exec fuel) ops []) h ∅ (fun r h1 _ => h ⊆ h1 /\ exists e,
    match nth ver r.1 None with
    | None => e = [] /\ forall fuel, str_dot fuel (nth ver r.1 None) = (Ret [] : prog U _)
    | Some l => exists root cmp d, h1 !! l = Some (CStr root cmp) /\ rb_shape h1 root d /\ map fst (inorder d) = e /\
        dot_draws h1 (fun fuel => str_dot fuel (nth ver r.1 None)) d
    end /\
    StronglySorted (fun x y => ver_cmp ops ver x.1 y.1 < 0)%Z e /\
    (forall k v, (k, v) ∈ e -> log_get (ver_cmp ops ver) (ver_log ops ver) k = Some v) /\
    (forall k v, log_get (ver_cmp ops ver) (ver_log ops ver) k = Some v -> exists k', (k', v) ∈ e /\ ver_cmp ops ver k' k = 0%Z)).
Proof.
  intros H1 H2. pose proof (StrPropProofs.pf_enumerate fuel h ops ver H1 H2) as H. apply wp_bind_inv in H. eapply wp_mono; [exact H|]. cbv beta. clear H.
  intros r h1 W1 H. destruct (nth ver r.1 None) as [l|] eqn:El.
  - cbn [str_enumerate] in H. apply wp_bind_inv in H. cbn [ld_str load bind wp] in H. destruct H as (c & Hc & H). destruct c as [| | | |root cmp|]; try (exfalso; exact H). cbn [wp fst] in H.
    destruct (rb_enum_shape _ _ _ _ _ H) as (d & Hd & Hh & Hs). split; [done|]. eexists; split; [|exact Hs].
    exists root, cmp, d. split_and!; [done|done|done|]. exists (dsize d). intros fd Hfd. cbn [str_dot]. apply wp_bind. cbn [ld_str load bind wp]. eexists; split; [exact Hc|]. cbn [wp fst].
    eapply wp_mono; [by apply rb_dot_ok|]. cbv beta. intros ls h' W' (-> & _ & ?). done.
  - cbn [str_enumerate wp] in H. destruct H as [Hh Hs]. split; [done|]. exists []. split; [|done]. done.
Qed.
Lemma dot_dl fuel (h : heap) (ops : list (dop (value U))) rops ver : Forall2 resolves ops rops -> enough fuel (dkeys ops) ->
  wp (run_hist (dl_exec fuel) ops []) h ∅ (fun r h1 _ => h ⊆ h1 /\ exists e,
    match nth ver r.1 None with
    | None => e = [] /\ forall fuel, dl_dot fuel (nth ver r.1 None) = (Ret [] : prog U _)
    | Some l => exists root d, h1 !! l = Some (CDl root) /\ rb_shape h1 root d /\ map fst (inorder d) = e /\
        dot_draws h1 (fun fuel => dl_dot fuel (nth ver r.1 None)) d
    end /\
    StronglySorted (fun x y => shortlex_lt x.1 y.1) e /\ forall k v, (k, v) ∈ e <-> klog_get (dl_log rops ver) k = Some v).
Proof.
  intros H1 H2. pose proof (DlPropProofs.dl_pf_enumerate fuel h ops rops ver H1 H2) as H. apply wp_bind_inv in H. eapply wp_mono; [exact H|]. cbv beta. clear H.
  intros r h1 W1 H. destruct (nth ver r.1 None) as [l|] eqn:El.
  - cbn [dl_raw_enumerate] in H. apply wp_bind_inv in H. cbn [ld_dl load bind wp] in H. destruct H as (c & Hc & H). destruct c as [| | |root| |]; try (exfalso; exact H). cbn [wp] in H.
    destruct (rb_enum_shape _ _ _ _ _ H) as (d & Hd & Hh & Hs). split; [done|]. eexists; split; [|exact Hs].
    exists root, d. split_and!; [done|done|done|]. exists (dsize d). intros fd Hfd. cbn [dl_dot]. apply wp_bind. cbn [ld_dl load bind wp]. eexists; split; [exact Hc|]. cbn [wp].
    eapply wp_mono; [by apply rb_dot_ok|]. cbv beta. intros ls h' W' (-> & _ & ?). done.
  - cbn [dl_raw_enumerate wp] in H. destruct H as [Hh Hs]. split; [done|]. exists []. split; [|done]. done.
Qed.
Lemma dot_num c (h : heap) ops ver : num_cfg c -> Forall (nop_ok (cW c)) ops ->
  wp (run_hist (n_exec c) ops [None]) h ∅ (fun r h1 _ => h ⊆ h1 /\ exists d,
    num_shape h1 (nth ver r.1 None) d /\ dot_draws h1 (fun fuel => n_dot fuel (nth ver r.1 None)) d /\
    s_enum (cW c) (nth ver (n_contents (cW c) ops [∅]) ∅) (leaves (preorder d))).
Proof.
  intros H1 H2. pose proof (NumPropProofs.pf_enumerate c h ops ver H1 H2) as H. apply wp_bind_inv in H. eapply wp_mono; [exact H|]. cbv beta. clear H.
  intros r h1 W1 H. assert (Hd : exists d (e : list (loc * numnode U)), num_shape h1 (nth ver r.1 None) d /\ (h ⊆ h1 /\
        s_enum (cW c) (nth ver (n_contents (cW c) ops [∅]) ∅) (map (fun x => (nn_key x.2, nn_bits x.2, nn_val x.2)) e)) /\
        leaves (preorder d) = map (fun x => (nn_key x.2, nn_bits x.2, nn_val x.2)) e).
  { destruct (nth ver r.1 None) as [l|] eqn:El.
    - cbn [n_enumerate] in H. exact (num_enum_shape _ _ _ _ _ _ H).
    - cbn [n_enumerate wp] in H. exists Nil, []. split; [done|]. split; [exact H|done]. }
  destruct Hd as (d & e & Hd & [Hh Hs] & E). split; [done|]. exists d. split; [done|]. split; [|by rewrite E].
  exists (dsize d). intros fd Hfd. eapply wp_mono; [by apply n_dot_ok|]. cbv beta. intros ls h' W' (-> & _ & ?). done.
Qed.
End proofs.
