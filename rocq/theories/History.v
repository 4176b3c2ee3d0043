(** * Histories: a client that keeps every version it ever obtained and applies
    an arbitrary list of operations to arbitrary earlier versions. *)
From Verif Require Import Prog.

Section history.
Context {U V op out S : Type}.

(** [exec vs o] performs [o] given the handles [vs] obtained so far and returns
    the new list of handles and the observable result. *)
Variable exec : list V -> op -> prog U (list V * out).

(** The whole history: final handles and all results, in order. *)
Fixpoint run_hist (ops : list op) (vs : list V) : prog U (list V * list out) :=
  match ops with
  | [] => Ret (vs, [])
  | o :: ops =>
    r <- exec vs o ;;
    x <- run_hist ops r.1 ;;
    Ret (x.1, r.2 :: x.2)
  end.

(** Specification: [step ss o ss' x], over abstract states. *)
Variable step : list S -> op -> list S -> out -> Prop.

Fixpoint spec_run (ops : list op) (ss ss' : list S) (outs : list out) : Prop :=
  match ops, outs with
  | [], [] => ss' = ss
  | o :: ops, x :: outs => exists ss1, step ss o ss1 x /\ spec_run ops ss1 ss' outs
  | _, _ => False
  end.

Variable R : heap U -> V -> S -> Prop.
Variable okop : op -> Prop.
Hypothesis exec_ok : forall h vs ss o, Forall2 (R h) vs ss -> okop o ->
  wp (exec vs o) h ∅ (fun r h' _ => exists ss', step ss o ss' r.2 /\ Forall2 (R h') r.1 ss').

Lemma run_hist_wp ops : forall h vs ss, Forall okop ops -> Forall2 (R h) vs ss ->
  wp (run_hist ops vs) h ∅ (fun r h' _ => exists ss', spec_run ops ss ss' r.2 /\ Forall2 (R h') r.1 ss').
Proof using exec_ok.
  induction ops as [|o ops IH]; intros h vs ss Hops HR.
  { simpl. exists ss. done. }
  inversion Hops as [|? ? Ho Hops']; subst. simpl. apply wp_bind.
  eapply wp_mono; [by apply exec_ok|]. cbn beta. intros [vs' x] h' W' (ss' & Hst & HR'). simpl in *.
  apply wp_bind. eapply wp_mono.
  { eapply (wp_call _ _ ∅); [by apply (IH h' vs' ss')|apply empty_subseteq]. }
  cbn beta. intros [vs'' outs] h'' W'' [(W1 & (ss'' & Hsp & HR'') & _) _]. simpl in *. eauto.
Qed.
End history.

(** The same with a weight on operations and a bound on the total weight. *)
Section bounded.
Context {U V op out St : Type}.
Variable exec : list V -> op -> prog U (list V * out).
Variable step : list St -> op -> list St -> out -> Prop.
Variable R : nat -> heap U -> V -> St -> Prop.
Variable okop : op -> Prop.
Variable w : op -> nat.
Variable N : nat.
Definition weight (ops : list op) : nat := list_sum (map w ops).
Hypothesis exec_ok : forall n h vs ss o, n + w o <= N -> Forall2 (R n h) vs ss -> okop o ->
  wp (exec vs o) h ∅ (fun r h' _ => exists ss', step ss o ss' r.2 /\ Forall2 (R (n + w o) h') r.1 ss').

Lemma run_hist_wp_n ops : forall n h vs ss, Forall okop ops -> Forall2 (R n h) vs ss -> n + weight ops <= N ->
  wp (run_hist exec ops vs) h ∅ (fun r h' _ => exists ss', spec_run step ops ss ss' r.2 /\ Forall2 (R (n + weight ops) h') r.1 ss').
Proof using exec_ok.
  unfold weight. induction ops as [|o ops IH]; intros n h vs ss Hops HR HN.
  { simpl. exists ss. by rewrite Nat.add_0_r. }
  inversion Hops as [|? ? Ho Hops']; subst. simpl in HN |- *. apply wp_bind.
  eapply wp_mono; [apply exec_ok with (n := n); [lia|done|done]|]. cbn beta. intros [vs' x] h' W' (ss' & Hst & HR'). simpl in *.
  apply wp_bind. eapply wp_mono.
  { eapply (wp_call _ _ ∅); [apply (IH (n + w o) h' vs' ss'); [done|done|lia]|apply empty_subseteq]. }
  cbn beta. intros [vs'' outs] h'' W'' [(W1 & (ss'' & Hsp & HR'') & _) _]. simpl in *.
  rewrite <- Nat.add_assoc in HR''. eauto.
Qed.
End bounded.

(** The same with a condition on the rest of the history in the current state. *)
Section bounded_s.
Context {U V op out St : Type}.
Variable exec : list V -> op -> prog U (list V * out).
Variable step : list St -> op -> list St -> out -> Prop.
Variable R : nat -> heap U -> V -> St -> Prop.
Variable good : list St -> list op -> Prop.
Variable w : op -> nat.
Variable N : nat.
Hypothesis exec_ok : forall n h vs ss o ops, n + w o <= N -> Forall2 (R n h) vs ss -> good ss (o :: ops) ->
  wp (exec vs o) h ∅ (fun r h' _ => exists ss', step ss o ss' r.2 /\ Forall2 (R (n + w o) h') r.1 ss' /\ good ss' ops).
Lemma run_hist_wp_s ops : forall n h vs ss, good ss ops -> Forall2 (R n h) vs ss -> n + weight w ops <= N ->
  wp (run_hist exec ops vs) h ∅ (fun r h' _ => exists ss', spec_run step ops ss ss' r.2 /\ Forall2 (R (n + weight w ops) h') r.1 ss').
Proof using exec_ok.
  unfold weight. induction ops as [|o ops IH]; intros n h vs ss Hops HR HN.
  { simpl. exists ss. by rewrite Nat.add_0_r. }
  simpl in HN |- *. apply wp_bind.
  eapply wp_mono; [apply exec_ok with (n := n) (ops := ops); [lia|done|done]|]. cbn beta. intros [vs' x] h' W' (ss' & Hst & HR' & Hg). simpl in *.
  apply wp_bind. eapply wp_mono.
  { eapply (wp_call _ _ ∅); [apply (IH (n + w o) h' vs' ss'); [done|done|lia]|apply empty_subseteq]. }
  cbn beta. intros [vs'' outs] h'' W'' [(W1 & (ss'' & Hsp & HR'') & _) _]. simpl in *.
  rewrite <- Nat.add_assoc in HR''. eauto.
Qed.
End bounded_s.

(** Sequences of calls that write nothing that exists. *)
Section cow.
Context {U : Type}.
Local Notation heap := (heap U).
Lemma wp_then {A B} (m : prog U A) (f : A -> prog U B) (h : heap) (Q : A -> heap -> Prop) (R : B -> heap -> Prop) :
  wp m h ∅ (fun a h' _ => Q a h') ->
  (forall a h', h ⊆ h' -> Q a h' -> wp (f a) h' ∅ (fun b h'' _ => R b h'')) ->
  wp (bind m f) h ∅ (fun b h'' _ => h ⊆ h'' /\ R b h'').
Proof.
  intros Hm Hf. apply wp_bind. eapply wp_mono; [apply (wp_cow _ _ ∅ Q Hm)|].
  cbn beta. intros a h1 W1 (HQ & Hs & _). eapply wp_mono; [apply (wp_cow _ _ W1 R); by apply Hf|].
  cbn beta. intros b h2 W2 (? & ? & _). split; [by etrans|done].
Qed.
Lemma wp_cow0 {A} (m : prog U A) (h : heap) (Q : A -> heap -> Prop) :
  wp m h ∅ (fun a h' _ => Q a h') -> wp m h ∅ (fun a h' _ => h ⊆ h' /\ Q a h').
Proof. intros H. eapply wp_mono; [apply (wp_cow _ _ ∅ Q H)|]. cbn beta. tauto. Qed.
End cow.
