(** * Counting accesses: syntactic bounds and independence of fuel. *)
From Verif Require Import Prog CostSpec.

Section cost.
Context {U : Type}.
Local Notation prog := (prog U).
Local Notation heap := (heap U).

(** A bound whatever is found in memory. *)
Fixpoint cost {A} (m : prog A) (s a : nat) : Prop :=
  match m with
  | Ret _ | Fail _ => True
  | Alloc c k => 0 < s /\ 0 < a /\ forall l, cost (k l) (s - 1) (a - 1)
  | Load l k => 0 < s /\ forall c, cost (k c) (s - 1) a
  | Store l c k => 0 < s /\ cost k (s - 1) a
  end.
Lemma cost_mono {A} (m : prog A) : forall s a s' a', cost m s a -> s <= s' -> a <= a' -> cost m s' a'.
Proof.
  induction m as [x|e|c k IH|l k IH|l c k IH]; intros s a s' a'; simpl; try done.
  - intros (H1 & H2 & H3) Hs Ha. split_and!; [lia|lia|]. intros l. eapply IH; [apply H3|lia|lia].
  - intros (H1 & H3) Hs Ha. split; [lia|]. intros c. eapply IH; [apply H3|lia|lia].
  - intros (H1 & H3) Hs Ha. split; [lia|]. eapply IH; [apply H3|lia|lia].
Qed.
Lemma cost_bind {A B} (m : prog A) (f : A -> prog B) s2 a2 : (forall x, cost (f x) s2 a2) -> forall s1 a1, cost m s1 a1 -> cost (bind m f) (s1 + s2) (a1 + a2).
Proof.
  intros Hf. induction m as [x|e|c k IH|l k IH|l c k IH]; intros s1 a1; simpl; try done.
  - intros _. eapply cost_mono; [apply Hf|lia|lia].
  - intros (H1 & H2 & H3). split_and!; [lia|lia|]. intros l. eapply cost_mono; [eapply IH, H3|lia|lia].
  - intros (H1 & H3). split; [lia|]. intros c. eapply cost_mono; [eapply IH, H3|lia|lia].
  - intros (H1 & H3). split; [lia|]. eapply cost_mono; [eapply IH, H3|lia|lia].
Qed.
Lemma cost_step {A B} (m : prog A) (f : A -> prog B) s1 a1 s a : cost m s1 a1 -> s1 <= s -> a1 <= a -> (forall x, cost (f x) (s - s1) (a - a1)) -> cost (bind m f) s a.
Proof.
  intros Hm Hs Ha Hf. eapply cost_mono; [eapply cost_bind; [exact Hf|exact Hm]|lia|lia].
Qed.
Lemma cost_assoc {A B C} (m : prog A) (f : A -> prog B) (g : B -> prog C) : forall s a, cost (bind m (fun x => bind (f x) g)) s a -> cost (bind (bind m f) g) s a.
Proof.
  induction m as [x|e|c k IH|l k IH|l c k IH]; intros s a; simpl; try done.
  - intros (H1 & H2 & H3). auto.
  - intros (H1 & H2). auto.
  - intros (H1 & H2). auto.
Qed.
Lemma cost_ret {A B} (x : A) (f : A -> prog B) s a : cost (f x) s a -> cost (bind (Ret x) f) s a.
Proof. done. Qed.
Lemma cost_costs {A} (m : prog A) : forall h s a, cost m s a -> costs m h s a.
Proof.
  induction m as [x|e|c k IH|l k IH|l c k IH]; intros h s a; simpl; try done.
  - intros (H1 & H2 & H3). auto.
  - intros (H1 & H2). auto.
  - intros (H1 & H2). auto.
Qed.
Lemma costs_mono {A} (m : prog A) : forall h s a s' a', costs m h s a -> s <= s' -> a <= a' -> costs m h s' a'.
Proof.
  induction m as [x|e|c k IH|l k IH|l c k IH]; intros h s a s' a'; simpl; try done.
  - intros (H1 & H2 & H3) Hs Ha. split_and!; [lia|lia|]. intros l Hl. eapply IH; [by apply H3|lia|lia].
  - intros (H1 & H3) Hs Ha. split; [lia|]. intros c Hc. eapply IH; [by apply H3|lia|lia].
  - intros (H1 & H3) Hs Ha. split; [lia|]. eapply IH; [apply H3|lia|lia].
Qed.
Lemma costs_bind {A B} (m : prog A) (f : A -> prog B) s2 a2 (Q : A -> heap -> gset loc -> Prop) : forall h W s1 a1,
  costs m h s1 a1 -> wp m h W Q -> (forall x h' W', Q x h' W' -> costs (f x) h' s2 a2) -> costs (bind m f) h (s1 + s2) (a1 + a2).
Proof.
  induction m as [x|e|c k IH|l k IH|l c k IH]; intros h W s1 a1; simpl; intros Hm Hw Hf; try done.
  - eapply costs_mono; [by eapply Hf|lia|lia].
  - destruct Hm as (H1 & H2 & H3). split_and!; [lia|lia|]. intros l Hl. eapply costs_mono; [eapply IH; [by apply H3|by apply Hw|done]|lia|lia].
  - destruct Hm as (H1 & H3), Hw as (c & Hc & Hw). split; [lia|]. intros c' Hc'. rewrite Hc in Hc'. injection Hc' as <-. eapply costs_mono; [eapply IH; [by apply H3|exact Hw|done]|lia|lia].
  - destruct Hm as (H1 & H3), Hw as (_ & _ & Hw). split; [lia|]. eapply costs_mono; [eapply IH; [apply H3|exact Hw|done]|lia|lia].
Qed.

(** The run with addresses handed out in order. *)
Lemma costs_tally {A} (m : prog A) : forall h next s a, (forall l, (next <= l)%positive -> h !! l = None) -> costs m h s a ->
  (tally m h next).1 <= s /\ (tally m h next).2 <= a.
Proof.
  induction m as [x|e|c k IH|l k IH|l c k IH]; intros h next s a Hn; cbn [costs tally fst snd]; [lia|lia|..].
  - intros (H1 & H2 & H3). specialize (H3 next (Hn next ltac:(lia))). apply (IH _ _ (Pos.succ next)) in H3; [lia|].
    intros l Hl. rewrite lookup_insert_ne by lia. apply Hn. lia.
  - intros (H1 & H3). destruct (h !! l) as [c|] eqn:E; cbn [fst snd]; [|lia]. specialize (H3 c eq_refl). apply (IH _ _ next) in H3; [lia|done].
  - intros (H1 & H3). destruct (h !! l) as [c'|] eqn:E; cbn [fst snd]; [|lia]. apply (IH _ next) in H3; [lia|].
    intros l' Hl'. destruct (decide (l = l')) as [->|]; [|rewrite lookup_insert_ne by done; by apply Hn]. by rewrite Hn in E.
Qed.

(** [approx m m']: the same accesses, except that [m] may run out of fuel. *)
Inductive approx {A} : prog A -> prog A -> Prop :=
| ap_fuel m : approx (Fail EFuel) m
| ap_ret a : approx (Ret a) (Ret a)
| ap_fail e : approx (Fail e) (Fail e)
| ap_alloc c k k' : (forall l, approx (k l) (k' l)) -> approx (Alloc c k) (Alloc c k')
| ap_load l k k' : (forall c, approx (k c) (k' c)) -> approx (Load l k) (Load l k')
| ap_store l c k k' : approx k k' -> approx (Store l c k) (Store l c k').
Lemma approx_refl {A} (m : prog A) : approx m m.
Proof. induction m; constructor; auto. Qed.
Lemma approx_bind {A B} (m m' : prog A) (f f' : A -> prog B) : approx m m' -> (forall x, approx (f x) (f' x)) -> approx (bind m f) (bind m' f').
Proof. intros Hm Hf. induction Hm; simpl; try constructor; auto. Qed.
Lemma approx_costs {A} (m m' : prog A) : approx m m' -> forall h W Q s a, wp m h W Q -> cost m s a -> costs m' h s a.
Proof.
  induction 1 as [m|x|e|c k k' H IH|l k k' H IH|l c k k' H IH]; intros h W Q s a Hw Hc; simpl in *; try done.
  - destruct Hc as (? & ? & Hc). split_and!; [done|done|]. intros l Hl. eapply IH; [by apply Hw|apply Hc].
  - destruct Hc as (? & Hc), Hw as (c & Hl & Hw). split; [done|]. intros c' Hc'. rewrite Hl in Hc'. injection Hc' as <-. eapply IH; [exact Hw|apply Hc].
  - destruct Hc as (? & Hc), Hw as (_ & _ & Hw). split; [done|]. eapply IH; [exact Hw|apply Hc].
Qed.
Lemma approx_wp {A} (m m' : prog A) : approx m m' -> forall h W Q, wp m h W Q -> wp m' h W Q.
Proof.
  induction 1 as [m|x|e|c k k' H IH|l k k' H IH|l c k k' H IH]; intros h W Q Hw; simpl in *; try done.
  - intros l Hl. by apply IH, Hw.
  - destruct Hw as (c & Hl & Hw). exists c. auto.
  - destruct Hw as (? & ? & Hw). auto.
Qed.
End cost.

(** Straight-line code: [c_lem] proves the cost of one call. *)
Ltac c_arith := cbn [Nat.add Nat.sub Nat.mul]; lia.
Create HintDb cost discriminated.
Ltac c_step :=
  match goal with
  | |- cost (Ret _) _ _ => exact I
  | |- cost (Fail _) _ _ => exact I
  | |- cost (bind (Ret _) _) _ _ => apply cost_ret; cbn beta iota
  | |- cost (bind (Fail _) _) _ _ => exact I
  | |- cost (bind (bind _ _) _) _ _ => apply cost_assoc
  | |- cost (bind _ _) _ _ => eapply cost_step; [solve [eauto with cost nocore]|c_arith|c_arith|intros; cbn [Nat.sub]; rewrite ?Nat.sub_0_r]
  | |- context [if ?b then _ else _] => destruct b
  | |- context [match ?x with _ => _ end] => destruct x
  end.
Ltac c_go := repeat c_step.
Ltac ap_step :=
  match goal with
  | |- approx ?m ?m => apply approx_refl
  | |- approx (Fail EFuel) _ => apply ap_fuel
  | H : _ |- approx _ _ => by apply H
  | |- approx (bind _ _) (bind _ _) => apply approx_bind; [|intros]
  | |- context [if ?b then _ else _] => destruct b
  | |- context [match ?x with _ => _ end] => destruct x
  end.
Ltac ap_go := repeat ap_step.

Section access.
Context {U : Type}.
Lemma cost_alloc (c : cell U) : cost (alloc c) 1 1.
Proof. simpl. split_and!; [lia|lia|done]. Qed.
Lemma cost_load p : cost (load (U := U) p) 1 0.
Proof. destruct p; simpl; [|done]. split; [lia|done]. Qed.
Lemma cost_store p (c : cell U) : cost (store p c) 1 0.
Proof. destruct p; simpl; [|done]. split; [lia|done]. Qed.
Lemma cost_ld_rb p : cost (ld_rb (U := U) p) 1 0.
Proof. destruct p; simpl; [|done]. split; [lia|by intros []]. Qed.
Lemma cost_st_rb p (c : rbnode U) : cost (st_rb p c) 1 0.
Proof. apply cost_store. Qed.
Lemma cost_ld_num p : cost (ld_num (U := U) p) 1 0.
Proof. destruct p; simpl; [|done]. split; [lia|by intros []]. Qed.
Lemma cost_st_num p (c : numnode U) : cost (st_num p c) 1 0.
Proof. apply cost_store. Qed.
Lemma cost_ld_dom p : cost (ld_dom (U := U) p) 1 0.
Proof. destruct p; simpl; [|done]. split; [lia|by intros []]. Qed.
Lemma cost_st_dom p (c : domnode U) : cost (st_dom p c) 1 0.
Proof. apply cost_store. Qed.
Lemma cost_ld_dl p : cost (ld_dl (U := U) p) 1 0.
Proof. destruct p; simpl; [|done]. split; [lia|by intros []]. Qed.
Lemma cost_ld_str p : cost (ld_str (U := U) p) 1 0.
Proof. destruct p; simpl; [|done]. split; [lia|by intros []]. Qed.
Lemma cost_ld_ip p : cost (ld_ip (U := U) p) 1 0.
Proof. destruct p; simpl; [|done]. split; [lia|by intros []]. Qed.
End access.
Global Hint Resolve cost_alloc cost_load cost_store cost_ld_rb cost_st_rb cost_ld_num cost_st_num cost_ld_dom cost_st_dom cost_ld_dl cost_ld_str cost_ld_ip : cost.
