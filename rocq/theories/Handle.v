(** * One handle: a client that keeps only its latest tree and mixes calls that
    return a new tree with calls that change the tree in place. *)
From Verif Require Import Prog History NumFoot.
Open Scope nat_scope.

(** [HCall o]: the copy-on-write operation [o] of a history ([run_hist]), applied to
    the handle as the only version; the handle becomes the tree it returns.
    [HInplace k]: an in-place call. *)
Inductive hop (O K : Type) := HCall (o : O) | HInplace (k : K).
Arguments HCall {_ _}.
Arguments HInplace {_ _}.

Section handle.
Context {U V O K X S : Type}.
Variable exec : list V -> O -> prog U (list V * X).
Variable inplace : V -> K -> prog U V.

Definition h_exec (p : V) (o : hop O K) : prog U (V * option X) :=
  match o with
  | HCall o => r <- exec [p] o ;; Ret (List.last r.1 p, Some r.2)
  | HInplace k => p' <- inplace p k ;; Ret (p', None)
  end.
Fixpoint run_handle (ops : list (hop O K)) (p : V) : prog U (V * list (option X)) :=
  match ops with
  | [] => Ret (p, [])
  | o :: ops => r <- h_exec p o ;; x <- run_handle ops r.1 ;; Ret (x.1, r.2 :: x.2)
  end.

(** Specification: one abstract state, changed by every call. [step] is the step of
    histories, [istep] that of the in-place call. *)
Variable step : list S -> O -> list S -> X -> Prop.
Variable istep : S -> K -> S -> Prop.
Definition h_step (m : S) (o : hop O K) (m' : S) (x : option X) : Prop :=
  match o with
  | HCall o => exists ms r, step [m] o ms r /\ m' = List.last ms m /\ x = Some r
  | HInplace k => istep m k m' /\ x = None
  end.
Fixpoint h_spec (ops : list (hop O K)) (m m' : S) (outs : list (option X)) : Prop :=
  match ops, outs with
  | [], [] => m' = m
  | o :: ops, x :: outs => exists m1, h_step m o m1 x /\ h_spec ops m1 m' outs
  | _, _ => False
  end.
Definition hop_ok (okop : O -> Prop) (okk : K -> Prop) (o : hop O K) : Prop :=
  match o with HCall o => okop o | HInplace k => okk k end.

Variable R : nat -> heap U -> V -> S -> Prop.
Variable okop : O -> Prop.
Variable okk : K -> Prop.
Variable N : nat.
Hypothesis R_mono : forall n n' h p m, n <= n' -> R n h p m -> R n' h p m.
Hypothesis exec_ok : forall n h p m o, n < N -> R n h p m -> okop o ->
  wp (exec [p] o) h ∅ (fun r h' _ => exists ms, step [m] o ms r.2 /\ R (n + 1) h' (List.last r.1 p) (List.last ms m)).
Hypothesis inplace_ok : forall n h p m k, n < N -> R n h p m -> okk k ->
  wp (inplace p k) h (dom h) (fun p' h' _ => exists m', istep m k m' /\ R (n + 1) h' p' m').

Lemma h_exec_ok n h p m o : n < N -> R n h p m -> hop_ok okop okk o ->
  wp (h_exec p o) h (dom h) (fun r h' _ => exists m', h_step m o m' r.2 /\ R (n + 1) h' r.1 m').
Proof using exec_ok inplace_ok.
  intros Hn HR Ho. destruct o as [o|k]; cbn [h_exec hop_ok h_step] in *; apply wp_bind.
  - eapply wp_mono; [eapply (wp_weaken_W _ _ ∅); [by apply exec_ok|apply empty_subseteq]|].
    cbn beta. intros r h' W' (W1 & (ms & Hst & HR') & _). cbn [wp fst snd]. exists (List.last ms m). split; [|done]. by exists ms, r.2.
  - eapply wp_mono; [by apply inplace_ok|]. cbn beta. intros r h' W' (m' & Hst & HR'). cbn [wp fst snd]. eauto.
Qed.
Lemma run_handle_ok ops : forall n h p m, n + length ops <= N -> R n h p m -> Forall (hop_ok okop okk) ops ->
  wp (run_handle ops p) h (dom h) (fun r h' _ => exists m', h_spec ops m m' r.2 /\ R N h' r.1 m').
Proof using R_mono exec_ok inplace_ok.
  induction ops as [|o ops IH]; intros n h p m Hn HR Hops; cbn [run_handle wp h_spec] in *; simpl length in Hn.
  { exists m. split; [done|]. eapply R_mono; [|exact HR]. lia. }
  inversion Hops as [|? ? Ho Hops']; subst. apply wp_bind.
  eapply wp_mono; [eapply wp_frame, wp_new, h_exec_ok; [|exact HR|done]; lia|]. cbn beta.
  intros r h1 W1 [[(m1 & Hst & HR1) Hnew] [_ (HW & _)]]. apply wp_bind.
  eapply wp_mono; [eapply (wp_weaken_W _ _ (dom h1)); [apply (IH (n + 1) h1 r.1 m1); [lia|done|done]|]|].
  { intros l Hl. destruct (Hnew _ Hl); [by apply HW|done]. }
  cbn beta. intros x h2 W2 (W3 & (m' & Hsp & HR') & _). cbn [wp fst snd]. exists m'. eauto.
Qed.

(** The client creates its tree; it runs in any memory and leaves the rest of it alone. *)
Variable start : prog U V.
Variable m0 : S.
Hypothesis start_ok : wp start ∅ ∅ (fun p h' _ => R 0 h' p m0).
Lemma start_handle_ok h ops : length ops <= N -> Forall (hop_ok okop okk) ops ->
  wp (p <- start ;; run_handle ops p) h ∅ (fun r h' _ => h ⊆ h' /\ exists m', h_spec ops m0 m' r.2).
Proof using R_mono exec_ok inplace_ok start_ok.
  intros Hn Hops. apply wp_cow0.
  assert (Hw : wp (p <- start ;; run_handle ops p) (∅ : heap U) ∅ (fun r h' _ => exists m', h_spec ops m0 m' r.2)).
  { apply wp_bind. eapply wp_mono; [apply wp_new, start_ok|]. cbn beta. intros p h1 W1 [HR Hnew].
    eapply wp_mono; [eapply (wp_weaken_W _ _ (dom h1)); [by apply (run_handle_ok ops 0 h1 p m0)|]|].
    - intros l Hl. destruct (Hnew _ Hl) as [Hl'|]; [|done]. rewrite dom_empty_L in Hl'. set_solver.
    - cbn beta. intros r h' W' (W2 & (m' & ? & _) & _). eauto. }
  eapply wp_local in Hw; [|apply map_empty_subseteq]. eapply wp_mono; [exact Hw|]. cbn beta.
  intros r h' W' (h0 & Hm & _). exact Hm.
Qed.
End handle.
