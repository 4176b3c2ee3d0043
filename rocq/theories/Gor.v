(** * Goroutines with trees of their own.

    Any number of goroutines run whole client programs in one memory, interleaved at
    single memory accesses ([mstep], Concurrent.v). No Go source is modelled here. *)
From Verif Require Import Prog History Concurrent.
Open Scope nat_scope.

Section machine.
Context {U : Type}.
Local Notation heap := (heap U).

(** A goroutine: what it has left to do and the type of its result. *)
Record gor := Gor { g_ret : Type; g_prog : prog U g_ret }.
(** One of the goroutines makes one access. *)
Inductive gaccess (g : gor) (h : heap) : gor -> heap -> Prop :=
| ga_access m' h' : mstep (g_prog g, h) (m', h') -> gaccess g h (Gor (g_ret g) m') h'.
Inductive gstep : list gor * heap -> list gor * heap -> Prop :=
| gs_access i gs h g g' h' : gs !! i = Some g -> gaccess g h g' h' -> gstep (gs, h) (<[i := g']> gs, h').
(** Two goroutines about to access the same cell, one of them writing it. *)
Definition g_race (gs : list gor) : Prop := exists i j x y l, i <> j /\
  gs !! i = Some x /\ gs !! j = Some y /\ writes (g_prog x) l /\ accesses (g_prog y) l.

(** A client: a program, and what is known of its result. *)
Inductive client := Client (A : Type) (m : prog U A) (Q : A -> Prop).
Definition begun (c : client) : gor := match c with Client A m _ => Gor A m end.
(** What is left of a client that began in memory [h0], in memory [h]: it can go on, or
    it has a result, which satisfies [Q] and which it also has when it runs alone. *)
Definition going_well (h0 h : heap) (c : client) (g : gor) : Prop :=
  match c with Client A m Q => exists m', g = Gor A m' /\
    ((exists r, m' = Ret r) \/ exists x, mstep (m', h) x) /\
    forall r, m' = Ret r -> Q r /\ exists h1, rtc mstep (m, h0) (Ret r, h1)
  end.

(** ** Proof. A goroutine sees [hv]: what was there before, and [W], its own. *)
Definition owns (h0 : heap) (c : client) (g : gor) (hv : heap) (W : gset loc) : Prop :=
  match c with Client A m0 Q => exists m, g = Gor A m /\ wp m hv W (fun r _ _ => Q r) /\ rtc mstep (m0, h0) (m, hv) /\
    dom h0 ## W /\ dom hv = dom h0 ∪ W end.
Definition ginv (h0 : heap) (cs : list client) (gs : list gor) (h : heap) : Prop :=
  h0 ⊆ h /\ exists (hv : nat -> heap) (W : nat -> gset loc),
    (forall i g, gs !! i = Some g -> exists c, cs !! i = Some c /\ owns h0 c g (hv i) (W i) /\ hv i ⊆ h) /\
    (forall i j, i <> j -> is_Some (gs !! i) -> is_Some (gs !! j) -> W i ## W j).
Definition starts (h : heap) (c : client) : Prop := match c with Client A m Q => wp m h ∅ (fun r _ _ => Q r) end.
Lemma ginv_start h cs : Forall (starts h) cs -> ginv h cs (map begun cs) h.
Proof.
  intros H. split; [done|]. exists (fun _ => h), (fun _ => ∅). split; [|intros; apply disjoint_empty_l].
  intros i g Hg. rewrite list_lookup_fmap in Hg. destruct (cs !! i) as [c|] eqn:Ec; [|done]. injection Hg as <-. exists c. split_and!; [done| |done].
  rewrite Forall_forall in H. pose proof (H c (elem_of_list_lookup_2 _ _ _ Ec)) as Hs. destruct c as [A m Q]. exists m. split_and!; [done|done|done|apply disjoint_empty_r|by rewrite union_empty_r_L].
Qed.
(** One access, seen from the goroutine: it changes its own part only. *)
Lemma own_step {A} (m m' : prog U A) h h' hv W Q : wp m hv W Q -> hv ⊆ h -> W ⊆ dom hv -> mstep (m, h) (m', h') ->
  exists hv' W', wp m' hv' W' Q /\ mstep (m, hv) (m', hv') /\ hv' ⊆ h' /\
    ((hv' = hv /\ W' = W /\ h' = h) \/ (exists l c, h !! l = None /\ hv' = <[l := c]> hv /\ W' = {[l]} ∪ W /\ h' = <[l := c]> h) \/
     exists l c, l ∈ W /\ hv' = <[l := c]> hv /\ W' = W /\ h' = <[l := c]> h).
Proof.
  intros Hw Hs HW Hm. inversion Hm as [c k ? l Hl|l k ? c Hl|l c k ? Hl]; subst; cbn [wp] in Hw.
  - assert (Hv : hv !! l = None) by (by eapply lookup_weaken_None). exists (<[l := c]> hv), ({[l]} ∪ W). split_and!; [by apply Hw|by constructor|by apply insert_mono|].
    right. left. exists l, c. done.
  - destruct Hw as (c' & Hc & Hw). pose proof (lookup_weaken _ _ _ _ Hc Hs) as E. rewrite Hl in E. injection E as <-. exists hv, W. split_and!; [done|by constructor|done|by left].
  - destruct Hw as (Hin & Hsome & Hw). exists (<[l := c]> hv), W. split_and!; [done|by constructor|by apply insert_mono|]. right. right. exists l, c. done.
Qed.
Lemma ginv_step h0 cs gs h gs' h' : ginv h0 cs gs h -> gstep (gs, h) (gs', h') -> ginv h0 cs gs' h'.
Proof.
  intros (H0 & hv & W & HA & HB) Hst. inversion Hst as [i ? ? g g' ? Hg Hacc]; subst.
  destruct (HA i g Hg) as (c & Hc & Ho & Hsub). destruct c as [A m0 Q]. destruct Ho as (m & -> & Hw & Hrun & Hd & Hdom).
  inversion Hacc as [m' ? Hm E1 E2]. subst. cbn [g_prog g_ret] in *.
  destruct (own_step m m' h h' (hv i) (W i) _ Hw Hsub ltac:(rewrite Hdom; apply union_subseteq_r) Hm) as (hv' & W' & Hw' & Hm' & Hs' & Hcase).
  assert (Hdis : forall j, j <> i -> is_Some (gs !! j) -> W i ## W j) by (intros j Hj Hsj; apply HB; [done|by eexists|done]).
  assert (Hlen : i < length gs) by (by eapply lookup_lt_Some).
  assert (Hnew : dom h0 ## W' /\ dom hv' = dom h0 ∪ W' /\ (forall j, j <> i -> is_Some (gs !! j) -> W' ## W j) /\ h0 ⊆ h' /\ forall j g, j <> i -> gs !! j = Some g -> hv j ⊆ h').
  { destruct Hcase as [(-> & -> & ->)|[(l & x & Hl & -> & -> & ->)|(l & x & Hl & -> & -> & ->)]].
    - split_and!; [done|done|done|done|]. intros j g Hj Hgj. by destruct (HA j g Hgj) as (? & _ & _ & ?).
    - assert (Hl0 : l ∉ dom h0). { apply not_elem_of_dom. by eapply lookup_weaken_None. }
      split_and!; [clear -Hd Hl0; set_solver|rewrite dom_insert_L, Hdom; clear; set_solver| |by apply insert_subseteq_r; [apply not_elem_of_dom|]|].
      + intros j Hj [g Hgj]. destruct (HA j g Hgj) as (c & _ & Ho & Hsj). assert (l ∉ W j) as Hlj; [|specialize (Hdis j Hj ltac:(by eexists)); clear -Hlj Hdis; set_solver].
        destruct c as [? ? ?]. destruct Ho as (? & _ & _ & _ & _ & Hdj). assert (l ∉ dom (hv j)) as Hlj; [|rewrite Hdj in Hlj; clear -Hlj; set_solver]. apply not_elem_of_dom. by eapply lookup_weaken_None.
      + intros j g Hj Hgj. destruct (HA j g Hgj) as (? & _ & _ & Hsj). apply insert_subseteq_r; [|done]. by eapply lookup_weaken_None.
    - split_and!; [done| |done| |].
      + rewrite dom_insert_L, Hdom. clear -Hl. set_solver.
      + apply insert_subseteq_r; [|done]. apply not_elem_of_dom. clear -Hl Hd. set_solver.
      + intros j g Hj Hgj. destruct (HA j g Hgj) as (c & _ & Ho & Hsj). apply insert_subseteq_r; [|done]. apply not_elem_of_dom.
        destruct c as [? ? ?]. destruct Ho as (? & _ & _ & _ & _ & Hdj). rewrite Hdj. specialize (Hdis j Hj ltac:(by eexists)). clear -Hdis Hl Hd. set_solver. }
  destruct Hnew as (N1 & N2 & N3 & N4 & N5). split; [done|]. exists (fun j => if decide (j = i) then hv' else hv j), (fun j => if decide (j = i) then W' else W j). split.
  - intros j g Hgj. destruct (decide (j = i)) as [->|Hj].
    + rewrite list_lookup_insert in Hgj by done. injection Hgj as <-. exists (Client A m0 Q). split_and!; [done| |done]. exists m'. split_and!; [done|done| |done|done].
      eapply rtc_r; [exact Hrun|done].
    + rewrite list_lookup_insert_ne in Hgj by done. destruct (HA j g Hgj) as (c & ? & ? & _). exists c. split_and!; [done|done|by eapply N5].
  - intros j1 j2 Hne H1 H2. assert (Hs : forall j, is_Some (<[i := Gor A m']> gs !! j) -> is_Some (gs !! j)).
    { intros j. rewrite !lookup_lt_is_Some, insert_length. done. }
    destruct (decide (j1 = i)) as [->|], (decide (j2 = i)) as [->|]; [done|apply N3; [done|by apply Hs]| |apply HB; [done|by apply Hs..]].
    symmetry. apply N3; [done|by apply Hs].
Qed.
Lemma wp_goes {A} (m : prog U A) hv W Q h : wp m hv W Q -> hv ⊆ h -> (exists r, m = Ret r) \/ exists x, mstep (m, h) x.
Proof.
  intros Hw Hs. destruct m as [r|e|c k|l k|l c k]; cbn [wp] in Hw.
  - left. by exists r.
  - done.
  - right. exists (k (fresh (dom h)), <[fresh (dom h) := c]> h). constructor. apply not_elem_of_dom, is_fresh.
  - destruct Hw as (c & Hc & _). right. exists (k c, h). constructor. by eapply lookup_weaken.
  - destruct Hw as (_ & [x Hx] & _). right. exists (k, <[l := c]> h). constructor. exists x. by eapply lookup_weaken.
Qed.
Theorem own_goroutines h cs gs h' : Forall (starts h) cs -> rtc gstep (map begun cs, h) (gs, h') ->
  Forall2 (going_well h h') cs gs /\ ~ g_race gs /\ h ⊆ h'.
Proof.
  intros Hs Hr. assert (Hi : ginv h cs gs h' /\ length gs = length cs).
  { assert (H : forall x y, rtc gstep x y -> ginv h cs x.1 x.2 -> length x.1 = length cs -> ginv h cs y.1 y.2 /\ length y.1 = length cs).
    { induction 1 as [x|x y z Hxy Hyz IH]; [done|]. intros H1 H2. apply IH; destruct x as [x1 x2], y as [y1 y2]; cbn [fst snd] in *; [by eapply ginv_step|].
      inversion Hxy; subst. by rewrite insert_length. }
    apply (H _ _ Hr); [by apply ginv_start|by cbn [fst]; rewrite map_length]. }
  destruct Hi as [(H0 & hv & W & HA & HB) Hlen]. split_and!; [|intros (i & j & x & y & l & Hne & Hx & Hy & Hwr & Hac)|done].
  - apply Forall2_same_length_lookup_2; [done|]. intros i c g Hc Hg. destruct (HA i g Hg) as (c' & Hc' & Ho & Hsub). rewrite Hc in Hc'. injection Hc' as <-.
    destruct c as [A m0 Q]. destruct Ho as (m & -> & Hw & Hrun & _). exists m. split_and!; [done|by eapply wp_goes|].
    intros r ->. split; [exact Hw|]. by exists (hv i).
  - destruct (HA i x Hx) as ([A m0 Q] & _ & (m & -> & Hw & _ & Hd & Hdom) & _). destruct (HA j y Hy) as ([A' m0' Q'] & _ & (m' & -> & Hw' & _ & Hd' & Hdom') & _). cbn [g_prog] in *.
    assert (HlW : l ∈ W i). { destruct m; cbn [writes] in Hwr; try done. subst. cbn [wp] in Hw. by destruct Hw. }
    assert (Hlv : l ∈ dom (hv j)). { destruct m'; cbn [accesses] in Hac; try done; subst; cbn [wp] in Hw'; [destruct Hw' as (c & Hc & _); by eapply elem_of_dom_2|destruct Hw' as (_ & H & _); by apply elem_of_dom]. }
    specialize (HB i j Hne ltac:(by eexists) ltac:(by eexists)). rewrite Hdom' in Hlv. clear -HB Hlv HlW Hd. set_solver.
Qed.
(** However they are scheduled, all goroutines end: there is no endless run. *)
Lemma gacc (g : gor) : Acc (fun g' g => exists h h', gaccess g h g' h') g.
Proof.
  destruct g as [A m]. induction (wait_free m) as [m _ IH]. constructor. intros g' (h & h' & H). inversion H as [m' ? Hm]; subst. cbn [g_prog g_ret] in *. apply IH. eauto.
Qed.
Lemma all_end gs : Acc (fun gs' gs => exists h h', gstep (gs, h) (gs', h')) gs.
Proof.
  induction gs as [|g gs IH]; [constructor; intros gs' (h & h' & H); inversion H; subst; done|].
  revert gs IH. induction (gacc g) as [g _ IHg]. intros gs Hgs. pose proof Hgs as Hgs0. induction Hgs as [gs Hacc IH]. constructor. intros gs' (h & h' & H). inversion H as [i ? ? x x' ? Hx Ha]; subst.
  destruct i as [|i]; cbn in Hx.
  - injection Hx as ->. cbn. apply IHg; [eauto|done].
  - cbn. apply IH; [exists h, h'; by econstructor|]. apply Hacc. exists h, h'. by econstructor.
Qed.
(** ** A scheduler for examples; an allocation gets the given address. *)
Definition g_ended (g : gor) : bool := match g_prog g with Ret _ => true | _ => false end.
Definition g_choose (x : list gor * heap) (i : nat) (l : loc) : list gor * heap :=
  match x.1 !! i with
  | Some g =>
    match g_prog g with
    | Alloc c k => match x.2 !! l with None => (<[i := Gor (g_ret g) (k l)]> x.1, <[l := c]> x.2) | Some _ => x end
    | Load l' k => match x.2 !! l' with Some c => (<[i := Gor (g_ret g) (k c)]> x.1, x.2) | None => x end
    | Store l' c k => match x.2 !! l' with Some _ => (<[i := Gor (g_ret g) k]> x.1, <[l' := c]> x.2) | None => x end
    | _ => x
    end
  | None => x
  end.
(** [n] rounds: each goroutine in turn makes an access. *)
Fixpoint g_round (is : list nat) (l : loc) (x : list gor * heap) : list gor * heap * loc :=
  match is with [] => (x, l) | i :: is => g_round is (Pos.succ l) (g_choose x i l) end.
Fixpoint g_rounds (n : nat) (is : list nat) (l : loc) (x : list gor * heap) : list gor * heap :=
  match n with O => x | S n => let y := g_round is l x in g_rounds n is y.2 y.1 end.
Lemma g_choose_sound x i l : rtc gstep x (g_choose x i l).
Proof.
  unfold g_choose. destruct x as [gs h]. cbn [fst snd]. destruct (gs !! i) as [g|] eqn:Eg; [|done]. destruct (g_prog g) as [r|e|c k|l' k|l' c k] eqn:Em; try done.
  - destruct (h !! l) eqn:El; [done|]. apply rtc_once. econstructor; [done|]. constructor. rewrite Em. by constructor.
  - destruct (h !! l') eqn:El; [|done]. apply rtc_once. econstructor; [done|]. constructor. rewrite Em. by constructor.
  - destruct (h !! l') eqn:El; [|done]. apply rtc_once. econstructor; [done|]. constructor. rewrite Em. constructor. by eexists.
Qed.
Lemma g_rounds_sound n is : forall l x, rtc gstep x (g_rounds n is l x).
Proof.
  assert (Hr : forall is l x, rtc gstep x (g_round is l x).1).
  { clear n is. induction is as [|i is IH]; intros l x; cbn [g_round]; [done|]. etransitivity; [apply g_choose_sound|apply IH]. }
  induction n as [|n IH]; intros l x; cbn [g_rounds]; [done|]. etransitivity; [apply Hr|apply IH].
Qed.
End machine.
Arguments gor : clear implicits.
Arguments client : clear implicits.
