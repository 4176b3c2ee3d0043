(** * Red-black trees: older versions of a tree whose latest version is changed in place. *)
From Verif Require Import Prog History RbModel RbSpec RbFun RbFunIns RbFunDel RbSim RbSimIns RbSimOps RbSimDel2 RbAbs StrSpec StrAbs RbHandle NumFoot StaleSpec.
Open Scope nat_scope.

Section ov.
Context {U : Type}.
Local Notation heap := (heap U).
Local Notation value := (value U).
Local Notation tree := (tree U).
Implicit Types (h : heap) (p : ptr) (F : gset loc).

(** From [p] at most [n] nodes outside [F] lead to nil or to a node of [F]. *)
Fixpoint ov h F (n : nat) p : Prop :=
  match p with
  | None => True
  | Some a => a ∈ F \/
      match n with
      | O => False
      | S n => a ∉ F /\ exists nn, h !! a = Some (CRb nn) /\ ov h F n (rb_l nn) /\ ov h F n (rb_r nn)
      end
  end.
Lemma ov_le h F n : forall n' p, n <= n' -> ov h F n p -> ov h F n' p.
Proof.
  induction n as [|n IH]; intros n' [a|] Hn; cbn [ov]; [..|by destruct n'].
  - intros [H|[]]. destruct n'; cbn [ov]; by left.
  - by destruct n'.
  - intros [H|(H0 & nn & H1 & H2 & H3)]; destruct n' as [|n']; [lia|cbn [ov]; by left|lia|]. cbn [ov]. right.
    split; [done|]. exists nn. split_and!; [done|apply IH; [lia|done]|apply IH; [lia|done]].
Qed.
Lemma ov_in h F n a : a ∈ F -> ov h F n (Some a).
Proof. intros H. destruct n; cbn [ov]; by left. Qed.
Lemma ov_inplace h h' F F' n : F ⊆ F' -> (forall x c, h !! x = Some c -> x ∉ F -> h' !! x = Some c) -> forall p, ov h F n p -> ov h' F' n p.
Proof.
  intros HF Hag. induction n as [|n IH]; intros [a|]; cbn [ov]; try done.
  - intros [H|[]]. left. by apply HF.
  - intros [H|(H0 & nn & H1 & H2 & H3)]; [left; by apply HF|]. destruct (decide (a ∈ F')) as [Hin|Hin]; [by left|right].
    split; [done|]. exists nn. split_and!; [by apply Hag|by apply IH|by apply IH].
Qed.
Lemma ov_rep h h' F' (t : tree) : h ⊆ h' -> forall p, rep h p t -> ov h' F' (height t) p.
Proof.
  intros Hs. induction t as [|c l IHl k v r IHr]; intros p Hp.
  - simpl in Hp. subst p. done.
  - destruct Hp as (a & pl & pr & -> & Ha & Hl & Hr). simpl height. cbn [ov]. destruct (decide (a ∈ F')) as [Hin|Hin]; [by left|right].
    split; [done|]. eexists. split; [by eapply lookup_weaken|]. cbn [rb_l rb_r].
    split; [eapply ov_le; [|by apply IHl]|eapply ov_le; [|by apply IHr]]; lia.
Qed.
(** A node of a tree is the root of a part of it. *)
Lemma sub_of_owned h t : forall p F a, owned h p t F -> a ∈ F ->
  exists s, rep h (Some a) s /\ s <> E /\ (forall e, e ∈ inord s -> e ∈ inord t) /\ height s <= height t.
Proof.
  induction t as [|c l IHl k v r IHr]; intros p F a Ho Ha.
  { destruct Ho as [_ ->]. set_solver. }
  destruct Ho as [[(b & pl & pr & _ & Hb & _) _]|(b & pl & pr & Fl & Fr & -> & Hb & _ & Hl & Hr & _ & _ & _ & ->)]; [by rewrite lookup_empty in Hb|].
  apply elem_of_union in Ha as [[->%elem_of_singleton|Ha]%elem_of_union|Ha].
  - exists (T c l k v r). split_and!; [|done|done|done]. exists b, pl, pr. split_and!; [done|done|..]; (eapply mrep_rep; [apply map_empty_subseteq|done]).
  - destruct (IHl _ _ _ Hl Ha) as (s & Hs & Hn & Hi & Hh). exists s. split_and!; [done|done| |simpl; lia].
    intros e He. simpl. apply elem_of_app. left. by apply Hi.
  - destruct (IHr _ _ _ Hr Ha) as (s & Hs & Hn & Hi & Hh). exists s. split_and!; [done|done| |simpl; lia].
    intros e He. simpl. apply elem_of_app. right. apply elem_of_list_further. by apply Hi.
Qed.
Lemma ov_persist h h' F F' q (t : tree) n : h ⊆ h' -> owned h q t F -> forall p, ov h F n p -> ov h' F' (n + height t) p.
Proof.
  intros Hs Ho.
  assert (Hin : forall a m, a ∈ F -> height t <= m -> ov h' F' m (Some a)).
  { intros a m Ha Hm. destruct (sub_of_owned _ _ _ _ _ Ho Ha) as (s & Hr & _ & _ & Hh). eapply ov_le; [|by eapply ov_rep]. lia. }
  induction n as [|n IH]; intros [a|].
  - cbn [ov]. intros [H|[]]. apply Hin; [done|lia].
  - intros _. by destruct (height t).
  - cbn [ov]. intros [H|(H0 & nn & H1 & H2 & H3)]; [apply (Hin a (S n + height t)); [done|lia]|]. simpl plus. cbn [ov].
    destruct (decide (a ∈ F')) as [Hi|Hi]; [by left|right]. split; [done|]. exists nn. split_and!; [by eapply lookup_weaken|by apply IH|by apply IH].
  - done.
Qed.
(** What a version sees after the nodes of [F] were rewritten to the tree [t']. *)
Lemma ov_view h h' F F' q (t' : tree) n : owned h' q t' F' -> F ⊆ F' -> (forall x c, h !! x = Some c -> x ∉ F -> h' !! x = Some c) ->
  forall p (t : tree), ov h F n p -> rep h p t ->
  exists t2, rep h' p t2 /\ (forall e, e ∈ inord t2 -> e ∈ inord t \/ e ∈ inord t') /\ height t2 <= n + height t' /\ (t2 = E <-> t = E).
Proof.
  intros Ho HF Hag.
  assert (Hin : forall a (t : tree) m, a ∈ F -> rep h (Some a) t -> exists t2, rep h' (Some a) t2 /\ (forall e, e ∈ inord t2 -> e ∈ inord t \/ e ∈ inord t') /\ height t2 <= m + height t' /\ (t2 = E <-> t = E)).
  { intros a t m Ha Hr. destruct (sub_of_owned _ _ _ _ a Ho) as (s & Hs & Hn & Hi & Hh); [by apply HF|]. exists s. split_and!; [done| |lia|].
    - intros e He. right. by apply Hi.
    - split; [done|]. intros ->. simpl in Hr. done. }
  induction n as [|n IH]; intros [a|] t; cbn [ov].
  - intros [H|[]] Hr. by apply Hin.
  - intros _ Hr. exists E. destruct t; [|by destruct Hr as (? & ? & ? & ? & _)]. split_and!; [done| |simpl; lia|done]. intros e He. simpl in He. by apply elem_of_nil in He.
  - intros [H|(H0 & nn & H1 & H2 & H3)] Hr; [by apply (Hin a t (S n))|].
    destruct t as [|c l k v r]; [done|]. destruct Hr as (a' & pl & pr & [= <-] & Ha & Hl & Hr). rewrite H1 in Ha. injection Ha as ->. cbn [rb_l rb_r] in *.
    destruct (IH _ _ H2 Hl) as (l2 & Hl2 & Hil & Hhl & _). destruct (IH _ _ H3 Hr) as (r2 & Hr2 & Hir & Hhr & _).
    exists (T c l2 k v r2). split_and!.
    + exists a, pl, pr. split_and!; [done|by apply Hag|done|done].
    + intros e. simpl. rewrite !elem_of_app, !elem_of_cons. intros [He|[He|He]]; [destruct (Hil _ He)| |destruct (Hir _ He)]; tauto.
    + simpl. lia.
    + done.
  - intros _ Hr. exists E. destruct t; [|by destruct Hr as (? & ? & ? & ? & _)]. split_and!; [done| |simpl; lia|done]. intros e He. simpl in He. by apply elem_of_nil in He.
Qed.
End ov.
