(** * Goroutines that fill a channel.

    Every Enumerate of the library makes an unbuffered channel, starts a goroutine
    that sends into it and closes it on return ("defer close(ch)"), and returns the
    channel: strtree/strtree.go:63-77, dltree/dltree.go:80-111,
    numtree/node32.go:88-104, numtree/node64.go:96-112,
    domaintree/domaintree.go:79-88, iptree/iptree.go:230-244 and the copies in
    uintX. The goroutines of domaintree and iptree themselves range over channels
    of other goroutines, to any depth. Here: that fragment of Go, its interleaving
    semantics, and the proof that scheduling does not matter. The memory is read
    only; that it does not change under the reader is C50. *)
From Verif Require Import Prog.

Section chan.
Context {U M : Type}.
Variable h : heap U.

(** Statements of a sending goroutine. [SSend m]: ch <- m, on its own channel.
    [SRange p body]: for m := range X.Enumerate() { body m }, where [p] is what the
    goroutine started by X.Enumerate() executes. *)
Inductive stmt :=
| SSkip
| SFail
| SLoad (l : loc) (k : cell U -> stmt)
| SSend (m : M)
| SSeq (a b : stmt)
| SRange (p : stmt) (body : M -> stmt).

(** A goroutine. [GRet]: the function has returned, the deferred close is next.
    [GEnd]: the channel is closed and the goroutine gone. [GDo s g]: executes [s],
    then goes on as [g]. [GLoop c body g]: at the head of a range loop over the
    channel of goroutine [c]. *)
Inductive gor :=
| GRet
| GEnd
| GDo (s : stmt) (g : gor)
| GLoop (c : gor) (body : M -> stmt) (g : gor).

(** One step of a goroutine or of one it has started. [Some m]: it hands [m] over
    on its channel, and the receiver takes it in the same step (unbuffered). *)
Inductive gstep : gor -> option M -> gor -> Prop :=
| gs_skip g : gstep (GDo SSkip g) None g
| gs_load l k c g : h !! l = Some c -> gstep (GDo (SLoad l k) g) None (GDo (k c) g)
| gs_send m g : gstep (GDo (SSend m) g) (Some m) g
| gs_seq a b g : gstep (GDo (SSeq a b) g) None (GDo a (GDo b g))
| gs_range p body g : gstep (GDo (SRange p body) g) None (GLoop (GDo p GRet) body g)
| gs_recv c m c' body g : gstep c (Some m) c' -> gstep (GLoop c body g) None (GDo (body m) (GLoop c' body g))
| gs_closed body g : gstep (GLoop GEnd body g) None g
| gs_close : gstep GRet None GEnd
| gs_child g g' : bstep g g' -> gstep g None g'
(** Goroutines started by loops that are under way go on by themselves. *)
with bstep : gor -> gor -> Prop :=
| bs_do s g g' : bstep g g' -> bstep (GDo s g) (GDo s g')
| bs_child c c' body g : gstep c None c' -> bstep (GLoop c body g) (GLoop c' body g)
| bs_loop c body g g' : bstep g g' -> bstep (GLoop c body g) (GLoop c body g').
Scheme gstep_mind := Induction for gstep Sort Prop
  with bstep_mind := Induction for bstep Sort Prop.
Combined Scheme steps_ind from gstep_mind, bstep_mind.

(** The receiver of the channel: after having received [out] it is ready to
    receive iff [want out]. A receiver that drains the channel always is. *)
Inductive ustep (want : list M -> bool) : gor * list M -> gor * list M -> Prop :=
| us_run g g' out : gstep g None g' -> ustep want (g, out) (g', out)
| us_recv g m g' out : gstep g (Some m) g' -> want out = true -> ustep want (g, out) (g', out ++ [m]).
Definition going (s : stmt) : gor * list M := (GDo s GRet, []).

(** ** What is sent when nothing is interleaved. *)
Definition oapp (a b : option (list M)) : option (list M) :=
  match a, b with Some x, Some y => Some (x ++ y) | _, _ => None end.
Section oc.
Variable f : M -> option (list M).
Fixpoint oconcat (ms : list M) : option (list M) :=
  match ms with [] => Some [] | m :: ms => oapp (f m) (oconcat ms) end.
End oc.
Fixpoint den (s : stmt) : option (list M) :=
  match s with
  | SSkip => Some []
  | SFail => None
  | SLoad l k => match h !! l with Some c => den (k c) | None => None end
  | SSend m => Some [m]
  | SSeq a b => oapp (den a) (den b)
  | SRange p body => match den p with Some ms => oconcat (fun m => den (body m)) ms | None => None end
  end.

(** ** Proof: what remains to be sent, and the number of steps left. *)
Section sums.
Variable f : M -> nat.
Fixpoint nsum (ms : list M) : nat := match ms with [] => 0 | m :: ms => f m + nsum ms end.
End sums.
Definition olist (x : option (list M)) : list M := match x with Some l => l | None => [] end.
Fixpoint cost (s : stmt) : nat :=
  match s with
  | SSkip => 1
  | SFail => 0
  | SLoad l k => match h !! l with Some c => 1 + cost (k c) | None => 0 end
  | SSend _ => 1
  | SSeq a b => 1 + cost a + cost b
  | SRange p body => 1 + (cost p + 1) + nsum (fun m => cost (body m)) (olist (den p)) + 1
  end.
Fixpoint rem (g : gor) : option (list M) :=
  match g with
  | GRet | GEnd => Some []
  | GDo s g => oapp (den s) (rem g)
  | GLoop c body g => oapp (match rem c with Some ms => oconcat (fun m => den (body m)) ms | None => None end) (rem g)
  end.
Fixpoint meas (g : gor) : nat :=
  match g with
  | GRet => 1
  | GEnd => 0
  | GDo s g => cost s + meas g
  | GLoop c body g => meas c + nsum (fun m => cost (body m)) (olist (rem c)) + 1 + meas g
  end.
Lemma oapp_assoc a b c : oapp a (oapp b c) = oapp (oapp a b) c.
Proof. destruct a, b, c; cbn; rewrite ?app_assoc; done. Qed.
Lemma oapp_nil_r a : oapp a (Some []) = a.
Proof. destruct a; cbn; [by rewrite app_nil_r|done]. Qed.
Lemma oapp_nil_l a : oapp (Some []) a = a.
Proof. by destruct a. Qed.
Lemma oapp_some a b L : oapp a b = Some L -> exists x y, a = Some x /\ b = Some y /\ L = x ++ y.
Proof. destruct a, b; cbn; intros E; try done. injection E as <-. eauto. Qed.

Lemma steps_ok :
  (forall g o g', gstep g o g' -> forall L, rem g = Some L ->
     match o with None => rem g' = Some L | Some m => exists L', L = m :: L' /\ rem g' = Some L' end /\ meas g = S (meas g')) /\
  (forall g g', bstep g g' -> forall L, rem g = Some L -> rem g' = Some L /\ meas g = S (meas g')).
Proof.
  apply steps_ind; intros; cbn [rem meas den cost] in *.
  - rewrite oapp_nil_l in H. split; [done|lia].
  - rewrite e in *. split; [done|lia].
  - apply oapp_some in H as (x & y & [= <-] & E & ->). split; [by exists y|lia].
  - rewrite oapp_assoc. split; [done|lia].
  - rewrite oapp_nil_r. split; [done|]. apply oapp_some in H as (x & y & E1 & _). destruct (den p) as [ms|] eqn:E; [|done]. cbn [oapp olist]. lia.
  - apply oapp_some in H0 as (x & y & E1 & E2 & ->). destruct (rem c) as [ms|] eqn:Ec; [|done].
    destruct (H _ eq_refl) as [(L' & -> & Hr) Hm]. cbn [oconcat] in E1. apply oapp_some in E1 as (x1 & x2 & E3 & E4 & ->).
    rewrite Hr. rewrite E3, E4, E2. cbn [oapp]. rewrite app_assoc. split; [done|]. cbn [olist nsum]. lia.
  - cbn [oconcat] in H. rewrite oapp_nil_l in H. split; [done|]. cbn [olist nsum]. lia.
  - split; [done|lia].
  - auto.
  - apply oapp_some in H0 as (x & y & E1 & E2 & ->). destruct (H _ E2) as [Hr Hm]. rewrite Hr, E1. split; [done|lia].
  - apply oapp_some in H0 as (x & y & E1 & E2 & ->). destruct (rem c) as [ms|] eqn:Ec; [|done]. destruct (H _ eq_refl) as [Hr Hm]. rewrite Hr, E1, E2. split; [done|]. cbn [olist]. lia.
  - apply oapp_some in H0 as (x & y & E1 & E2 & ->). destruct (H _ E2) as [Hr Hm]. rewrite Hr, E1. split; [done|lia].
Qed.

Lemma progress g : forall L, rem g = Some L -> g = GEnd \/ (exists g', gstep g None g') \/ exists m g', gstep g (Some m) g'.
Proof.
  induction g as [| |s g IH|c IHc body g IH]; intros L HL.
  - right; left. eexists. apply gs_close.
  - by left.
  - right. cbn [rem] in HL. apply oapp_some in HL as (x & y & E1 & _). destruct s as [| |l k|m|a b|p body]; cbn [den] in E1; try done.
    + left. eexists. constructor.
    + destruct (h !! l) as [c|] eqn:E; [|done]. left. eexists. by constructor.
    + right. do 2 eexists. constructor.
    + left. eexists. constructor.
    + left. eexists. constructor.
  - right; left. cbn [rem] in HL. apply oapp_some in HL as (x & y & E1 & _). destruct (rem c) as [ms|] eqn:Ec; [|done].
    destruct (IHc _ eq_refl) as [->|[(c' & Hc)|(m & c' & Hc)]].
    + eexists. apply gs_closed.
    + eexists. apply gs_child. by apply bs_child.
    + eexists. by apply gs_recv.
Qed.

Definition blocked (g : gor) : Prop := exists m g', gstep g (Some m) g'.
(** Two successive receives in any schedule are in the order of [L]; no schedule is
    longer than the first number of steps; a state without further step is either
    complete or waits for a receiver that does not receive. *)
Lemma chan_ok (want : list M -> bool) s L : den s = Some L -> forall n g out, nsteps (ustep want) n (going s) (g, out) ->
  n + meas g = cost s + 1 /\ (exists L', L = out ++ L' /\ rem g = Some L').
Proof.
  intros Hd n g out Hn. remember (going s) as x eqn:Ex. remember (g, out) as y eqn:Ey. revert g out Ey.
  assert (Hgen : forall n x y, nsteps (ustep want) n x y -> forall L1, rem x.1 = Some L1 ->
    n + meas y.1 = meas x.1 /\ exists L2 L', y.2 = x.2 ++ L2 /\ L1 = L2 ++ L' /\ rem y.1 = Some L').
  { clear. induction 1 as [x|n x x' y Hs Hn IH]; intros L1 HL.
    - split; [done|]. exists [], L1. by rewrite app_nil_r.
    - destruct Hs as [g g' out Hs|g m g' out Hs Hw]; cbn [fst snd] in *; destruct (proj1 steps_ok _ _ _ Hs _ HL) as [H1 H2].
      + destruct (IH _ H1) as (E & L2 & L' & ? & ? & ?). split; [lia|]. by exists L2, L'.
      + destruct H1 as (L1' & -> & H1). destruct (IH _ H1) as (E & L2 & L' & E1 & -> & E2). split; [lia|]. exists (m :: L2), L'. rewrite E1, <- app_assoc. done. }
  intros g out ->. subst x. destruct (Hgen _ _ _ Hn L) as (E & L2 & L' & E1 & E2 & E3).
  { cbn [going fst rem]. by rewrite Hd, oapp_nil_r. }
  cbn [going fst snd meas] in *. split; [lia|]. exists L'. split; [|done]. by rewrite E1, app_nil_l.
Qed.
(** For every schedule and every receiver. *)
End chan.
Global Arguments stmt U M : clear implicits.
Global Arguments gor U M : clear implicits.

(** Meanwhile other goroutines may allocate and fill new memory: each step happens
    in some memory that agrees with the one at the start where that is defined. *)
Definition gustep {U M} (h : heap U) (want : list M -> bool) (x y : gor U M * list M) : Prop :=
  exists h', h ⊆ h' /\ ustep h' want x y.

(** The goroutine executing [s] delivers [L], whatever the scheduling and whatever
    the receiver does: what has been received is a beginning of [L]; there is no
    infinite schedule; once the channel is closed all of [L] has been received; if
    nothing can move, either the channel is closed or the receiver does not
    receive, part of [L] is missing and the goroutine is blocked in a send; with a
    receiver that drains the channel it is closed in the end. There is no panic
    (a goroutine that panics could not move). *)
Definition delivers {U M} (h : heap U) (s : stmt U M) (L : list M) : Prop :=
  exists N, forall want n g out,
  nsteps (gustep h want) n (going s) (g, out) ->
  out `prefix_of` L /\
  n <= N /\
  (g = GEnd -> out = L) /\
  ((forall x, ~ gustep h want (g, out) x) -> (g = GEnd /\ out = L) \/ (want out = false /\ out <> L /\ blocked h g)) /\
  ((forall l, want l = true) -> (forall x, ~ gustep h want (g, out) x) -> g = GEnd /\ out = L).

Section grow.
Context {U M : Type} (h : heap U).
Lemma steps_back h' : h ⊆ h' ->
  (forall g o g', gstep (M := M) h' g o g' -> forall L, rem h g = Some L -> gstep h g o g') /\
  (forall g g', bstep (M := M) h' g g' -> forall L, rem h g = Some L -> bstep h g g').
Proof.
  intros Hh. apply steps_ind; intros; try (by econstructor).
  - cbn [rem den] in H. apply oapp_some in H as (x & y & E1 & _). destruct (h !! l) as [c'|] eqn:Ec; [|done].
    pose proof (lookup_weaken _ _ _ _ Ec Hh). simplify_eq. by constructor.
  - cbn [rem] in H0. apply oapp_some in H0 as (x & y & E1 & _). destruct (rem h c) as [ms|] eqn:Ec; [|done]. apply gs_recv. by eapply H.
  - apply gs_child. by eapply H.
  - cbn [rem] in H0. apply oapp_some in H0 as (x & y & E1 & E2 & _). apply bs_do. by eapply H.
  - cbn [rem] in H0. apply oapp_some in H0 as (x & y & E1 & _). destruct (rem h c) as [ms|] eqn:Ec; [|done]. apply bs_child. by eapply H.
  - cbn [rem] in H0. apply oapp_some in H0 as (x & y & E1 & E2 & _). apply bs_loop. by eapply H.
Qed.
Lemma gustep_back want x y L : gustep (M := M) h want x y -> rem h x.1 = Some L -> ustep h want x y /\ exists L', rem h y.1 = Some L'.
Proof.
  intros (h' & Hh & Hu) HL. destruct Hu as [g g' out Hs|g m g' out Hs Hw]; cbn [fst] in *;
    pose proof (proj1 (steps_back h' Hh) _ _ _ Hs _ HL) as Hs'; destruct (proj1 (steps_ok h) _ _ _ Hs' _ HL) as [Hr _].
  - split; [by constructor|eauto].
  - split; [by constructor|]. destruct Hr as (L' & _ & Hr). eauto.
Qed.
Lemma gnsteps_back want n x y : nsteps (gustep (M := M) h want) n x y -> forall L, rem h x.1 = Some L -> nsteps (ustep h want) n x y.
Proof.
  induction 1 as [x|n x x' y Hs Hn IH]; intros L HL; [constructor|].
  destruct (gustep_back _ _ _ _ Hs HL) as [Hs' [L' HL']]. econstructor; [exact Hs'|]. by eapply IH.
Qed.
Lemma chan_delivers s L : den (M := M) h s = Some L -> delivers h s L.
Proof.
  intros Hd. exists (cost h s + 1). intros want n g out Hn.
  apply (gnsteps_back want _ _ _) with (L := L) in Hn; [|cbn [going fst rem]; by rewrite Hd, oapp_nil_r].
  destruct (chan_ok h want s L Hd _ _ _ Hn) as [Hc (L' & -> & Hr)].
  assert (Hsub : (forall x, ~ gustep h want (g, out) x) -> forall x, ~ ustep h want (g, out) x). { intros Hx x Hu. apply (Hx x). exists h. done. }
  assert (Hend : g = GEnd -> out = out ++ L'). { intros ->. cbn [rem] in Hr. injection Hr as <-. by rewrite app_nil_r. }
  assert (Hter : (forall x, ~ gustep h want (g, out) x) -> g = GEnd \/ (want out = false /\ out <> out ++ L' /\ blocked h g)).
  { intros Hst. destruct (progress h _ _ Hr) as [->|[(g' & Hs)|(m & g' & Hs)]]; [by left| |].
    - exfalso. by eapply (Hsub Hst), us_run.
    - right. destruct (want out) eqn:Ew; [exfalso; by eapply (Hsub Hst), us_recv|]. split; [done|]. split; [|by exists m, g'].
      destruct (proj1 (steps_ok h) _ _ _ Hs _ Hr) as [(L2 & -> & _) _]. intros E. apply (f_equal length) in E. rewrite app_length in E. cbn in E. lia. }
  split_and!; [by exists L'|lia|done| |].
  - intros Hst. destruct (Hter Hst) as [->|?]; [left; auto|by right].
  - intros Hw Hst. destruct (Hter Hst) as [->|(E & _)]; [auto|]. by rewrite Hw in E.
Qed.
End grow.

(** A receiver that stops after [k] values. *)
Lemma stops_early {U M} (h : heap U) (s : stmt U M) L k want n g out : delivers h s L -> k < length L -> (forall l, k <= length l -> want l = false) ->
  nsteps (gustep h want) n (going s) (g, out) -> length out <= k /\ g <> GEnd.
Proof.
  intros (N & HN) Hk Hw Hn.
  assert (Ho : length out <= k).
  { assert (Hgen : forall n x y, nsteps (gustep h want) n x y -> length x.2 <= k -> length y.2 <= k).
    { clear -Hw. induction 1 as [x|n x x' y (h' & _ & Hs) Hn IH]; intros Hx; [done|]. apply IH.
      destruct Hs as [|g m g' out Hs Hwo]; cbn [snd] in *; [done|]. rewrite app_length. cbn [length].
      destruct (decide (k <= length out)) as [Hc|Hc]; [rewrite (Hw _ Hc) in Hwo; done|lia]. }
    eapply (Hgen _ _ _ Hn). cbn. lia. }
  split; [done|]. intros ->. destruct (HN _ _ _ _ Hn) as (_ & _ & HE & _). rewrite (HE eq_refl) in Ho. lia.
Qed.
