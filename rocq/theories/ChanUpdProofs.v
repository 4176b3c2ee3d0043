(** * Every schedule of UpdateDescendants and its goroutines gives the result of
    the sequential model. *)
From Verif Require Import Prog NumModel IpModel Channel ChanUpdModel.
Open Scope nat_scope.

(** ** Memories that differ in the values of the radix nodes only. *)
Definition cell_like {U} (c c' : cell U) : Prop :=
  match c, c' with
  | CNum n, CNum n' => nn_key n = nn_key n' /\ nn_bits n = nn_bits n' /\ nn_leaf n = nn_leaf n' /\ nn_c0 n = nn_c0 n' /\ nn_c1 n = nn_c1 n'
  | _, _ => c = c'
  end.
Definition like {U} (h h' : heap U) : Prop := forall l,
  match h !! l, h' !! l with Some c, Some c' => cell_like c c' | None, None => True | _, _ => False end.

Lemma cell_like_refl {U} (c : cell U) : cell_like c c.
Proof. by destruct c. Qed.
Lemma cell_like_trans {U} (a b d : cell U) : cell_like a b -> cell_like b d -> cell_like a d.
Proof.
  intros H1 H2. destruct a as [| n | | | |]; try (cbn in H1; subst; exact H2).
  destruct b as [| n' | | | |]; try (cbn in H1; done). destruct d as [| n'' | | | |]; try (cbn in H2; done).
  cbn in *. intuition congruence.
Qed.
Lemma like_refl {U} (h : heap U) : like h h.
Proof. intros l. destruct (h !! l); [apply cell_like_refl|done]. Qed.
Lemma like_get {U} (h h0 : heap U) l c : like h h0 -> h !! l = Some c -> exists c0, h0 !! l = Some c0 /\ cell_like c c0.
Proof. intros H E. specialize (H l). rewrite E in H. destruct (h0 !! l) as [c0|]; [|done]. eauto. Qed.
Lemma like_get_back {U} (h h0 : heap U) l c0 : like h h0 -> h0 !! l = Some c0 -> exists c, h !! l = Some c /\ cell_like c c0.
Proof. intros H E. specialize (H l). rewrite E in H. destruct (h !! l) as [c|]; [|done]. eauto. Qed.
Lemma like_insert {U} (h h0 : heap U) l c c0 : like h h0 -> h0 !! l = Some c0 -> cell_like c c0 -> like (<[l := c]> h) h0.
Proof.
  intros H E Hc l'. destruct (decide (l = l')) as [<-|Hne].
  - rewrite lookup_insert, E. done.
  - rewrite lookup_insert_ne by done. apply H.
Qed.

Section proofs.
Context {U St : Type}.
Local Notation heap := (heap U).
Local Notation stmt := (stmt U loc).
Local Notation gor := (gor U loc).
Local Notation act := (act U St).
Local Notation main := (main U St).
Local Notation frame := (frame U St).

(** ** Senders that do not look at the values. *)
Inductive blind : stmt -> Prop :=
| bl_skip : blind SSkip
| bl_fail : blind SFail
| bl_load l k : (forall c c', cell_like c c' -> k c = k c') -> (forall c, blind (k c)) -> (forall c, (forall n, c <> CNum n) -> k c = SFail) -> blind (SLoad l k)
| bl_send m : blind (SSend m)
| bl_seq a b : blind a -> blind b -> blind (SSeq a b).
Inductive gblind : gor -> Prop :=
| gb_ret : gblind GRet
| gb_end : gblind GEnd
| gb_do s g : blind s -> gblind g -> gblind (GDo s g).

Lemma blind_den h h0 s : blind s -> like h h0 -> den h s = den h0 s.
Proof.
  intros Hb Hl. induction Hb as [| |l k Hk Hb IH|m|a b Ha IHa Hb IHb]; cbn [den]; try done.
  - specialize (Hl l). destruct (h !! l) as [c|], (h0 !! l) as [c0|]; try done. rewrite IH. by rewrite (Hk c c0).
  - by rewrite IHa, IHb.
Qed.
Lemma gblind_bstep h g g' : gblind g -> ~ bstep h g g'.
Proof. intros Hg. revert g'. induction Hg as [| |s g Hs Hg IH]; intros g' H; inversion H; subst. by eapply IH. Qed.
Lemma gblind_step h h0 g o g' : gblind g -> like h h0 -> gstep h g o g' -> gstep h0 g o g' /\ gblind g'.
Proof.
  intros Hg Hl H. inversion H; subst; try (by inversion Hg).
  - inversion Hg; subst. split; [constructor|done].
  - inversion Hg as [| |s0 g1 Hb Hg1]; subst. inversion Hb as [| |l1 k1 Hk Hb1| |]; subst.
    destruct (like_get _ _ _ _ Hl H0) as (c0 & E & Hc). rewrite (Hk c c0 Hc). split; [by constructor|]. by constructor.
  - inversion Hg; subst. split; [constructor|done].
  - inversion Hg as [| |s0 g1 Hb Hg1]; subst. inversion Hb; subst. split; [constructor|]. constructor; [done|]. by constructor.
  - inversion Hg as [| |s0 g1 Hb Hg1]; subst. inversion Hb.
  - split; [constructor|constructor].
  - by apply gblind_bstep in H0.
Qed.
Lemma like_sym (h h0 : heap) : like h h0 -> like h0 h.
Proof.
  intros H l. specialize (H l). destruct (h !! l) as [c|], (h0 !! l) as [c0|]; try done.
  destruct c as [|n| | | |], c0 as [|n0| | | |]; cbn in *; intuition congruence.
Qed.

(** ** What remains to be done, sequentially, with the number of steps. [h0] is the
    memory at the beginning; the senders see no difference. *)
Variable h0 : heap.
Definition res := (heap * St * nat)%type.
Definition andthen (x : option res) (f : heap -> St -> option res) : option res :=
  match x with
  | Some (h, s, n) => match f h s with Some (h', s', n') => Some (h', s', n + n') | None => None end
  | None => None
  end.
Definition tick (n : nat) (x : option res) : option res :=
  match x with Some (h, s, m) => Some (h, s, n + m) | None => None end.
Definition drops (drop : option loc) (ms : list loc) : option (list loc) :=
  match drop with
  | None => Some ms
  | Some l =>
    match h0 !! l with
    | Some (CNum n) => if nn_leaf n then match ms with [] => None | _ :: ms => Some ms end else Some ms
    | _ => None
    end
  end.
Section loop.
Variable f : St -> loc -> heap -> option res.
Fixpoint loop (ms : list loc) (h : heap) (s : St) : option res :=
  match ms with
  | [] => Some (h, s, 0)
  | m :: ms => andthen (f s m h) (fun h s => loop ms h s)
  end.
End loop.
Fixpoint exec (a : act) (h : heap) : option res :=
  match a with
  | ARet s => Some (h, s, 0)
  | AFail => None
  | ALoad l k => match h !! l with Some c => tick 1 (exec (k c) h) | None => None end
  | AStore l c k => match h !! l with Some _ => tick 1 (exec k (<[l := c]> h)) | None => None end
  | ARange p drop s body k =>
    match den h0 p with
    | Some ms =>
      match drops drop ms with
      | Some ms =>
        tick (1 + (match drop with Some _ => 1 | None => 0 end) + (cost h0 p + 1) + 1)
          (andthen (loop (fun s m h => exec (body s m) h) ms h s) (fun h s => exec (k s) h))
      | None => None
      end
    | None => None
    end
  end.
Definition looping (ms : option (list loc)) (c : gor) (body : St -> loc -> act) (k : St -> act) (h : heap) (s : St) : option res :=
  match ms with
  | Some ms => tick (meas h0 c + 1) (andthen (loop (fun s m h => exec (body s m) h) ms h s) (fun h s => exec (k s) h))
  | None => None
  end.
Fixpoint unwind (fs : list frame) (h : heap) (s : St) : option res :=
  match fs with
  | [] => Some (h, s, 0)
  | Frame c body k :: fs => andthen (looping (rem h0 c) c body k h s) (unwind fs)
  end.
Definition finish (st : heap * main * list frame) : option res :=
  let '(h, m, fs) := st in
  match m, fs with
  | MRun a, fs => andthen (exec a h) (unwind fs)
  | MTest l s, Frame c body k :: fs =>
    tick 1 (andthen (looping (match rem h0 c with Some ms => drops (Some l) ms | None => None end) c body k h s) (unwind fs))
  | MDrop s, Frame c body k :: fs =>
    andthen (looping (match rem h0 c with Some (_ :: ms) => Some ms | _ => None end) c body k h s) (unwind fs)
  | _, [] => None
  end.

Lemma andthen_assoc x f g : andthen (andthen x f) g = andthen x (fun h s => andthen (f h s) g).
Proof.
  destruct x as [[[h s] n]|]; cbn; [|done]. destruct (f h s) as [[[h1 s1] n1]|]; cbn; [|done].
  destruct (g h1 s1) as [[[h2 s2] n2]|]; cbn; [|done]. by rewrite Nat.add_assoc.
Qed.
Lemma andthen_tick n x f : andthen (tick n x) f = tick n (andthen x f).
Proof. destruct x as [[[h s] m]|]; cbn; [|done]. destruct (f h s) as [[[h1 s1] n1]|]; cbn; [|done]. by rewrite Nat.add_assoc. Qed.
Lemma tick_tick n m x : tick n (tick m x) = tick (n + m) x.
Proof. destruct x as [[[h s] k]|]; cbn; [|done]. by rewrite Nat.add_assoc. Qed.
Lemma tick_0 x : tick 0 x = x.
Proof. by destruct x as [[[h s] k]|]. Qed.
Lemma andthen_ret h s f : andthen (Some (h, s, 0)) f = f h s.
Proof. cbn. by destruct (f h s) as [[[h1 s1] n1]|]. Qed.
Lemma andthen_ext x f g : (forall h s, f h s = g h s) -> andthen x f = andthen x g.
Proof. intros H. destruct x as [[[h s] m]|]; cbn; [|done]. by rewrite H. Qed.

(** ** Code that changes values only. *)
Inductive okact : act -> Prop :=
| ok_ret s : okact (ARet s)
| ok_fail : okact AFail
| ok_load l k : (forall c c0, h0 !! l = Some c0 -> cell_like c c0 -> okact (k c)) -> okact (ALoad l k)
| ok_store l c c0 k : h0 !! l = Some c0 -> cell_like c c0 -> okact k -> okact (AStore l c k)
| ok_range p drop s body k : blind p -> (forall s m, okact (body s m)) -> (forall s, okact (k s)) -> okact (ARange p drop s body k).
Definition okframe (f : frame) : Prop :=
  match f with Frame c body k => gblind c /\ (forall s m, okact (body s m)) /\ forall s, okact (k s) end.
Definition okst (st : heap * main * list frame) : Prop :=
  let '(h, m, fs) := st in like h h0 /\ Forall okframe fs /\ match m with MRun a => okact a | _ => True end.

Lemma unwind_other c c' body k fs1 fs2 : (rem h0 c = rem h0 c' /\ meas h0 c = S (meas h0 c')) ->
  forall h s, unwind (fs1 ++ Frame c body k :: fs2) h s = tick 1 (unwind (fs1 ++ Frame c' body k :: fs2) h s).
Proof.
  intros [E1 E2]. induction fs1 as [|[c1 body1 k1] fs1 IH]; intros h s; cbn [app unwind].
  - rewrite E1. unfold looping. rewrite E2. destruct (rem h0 c') as [ms|]; [|done].
    rewrite !andthen_tick, tick_tick. f_equal.
  - destruct (looping (rem h0 c1) c1 body1 k1 h s) as [[[h1 s1] n1]|]; [|done]. cbn. rewrite IH.
    destruct (unwind (fs1 ++ Frame c' body k :: fs2) h1 s1) as [[[h2 s2] n2]|]; cbn; [|done]. do 2 f_equal. lia.
Qed.
Lemma andthen_tick_r x n f : andthen x (fun h s => tick n (f h s)) = tick n (andthen x f).
Proof. destruct x as [[[h s] m]|]; cbn; [|done]. destruct (f h s) as [[[h1 s1] n1]|]; cbn; [|done]. do 2 f_equal. lia. Qed.
Lemma tick_inv n x r : tick n x = Some r -> exists h s m, x = Some (h, s, m) /\ r = (h, s, n + m).
Proof. destruct x as [[[h s] m]|]; cbn; intros E; [|done]. injection E as <-. eauto. Qed.
Lemma tick_some x h s n : tick 1 x = Some (h, s, n) -> exists m, n = S m /\ x = Some (h, s, m).
Proof. intros (h1 & s1 & m & -> & [= -> -> ->])%tick_inv. eauto. Qed.

Lemma gstep_rem h c o c' L : gblind c -> like h h0 -> gstep h c o c' -> rem h0 c = Some L ->
  gblind c' /\ meas h0 c = S (meas h0 c') /\
  match o with None => rem h0 c' = Some L | Some m => exists L', L = m :: L' /\ rem h0 c' = Some L' end.
Proof.
  intros Hb Hl Hs Hr. destruct (gblind_step _ _ _ _ _ Hb Hl Hs) as [Hs0 Hb'].
  destruct (proj1 (steps_ok h0) _ _ _ Hs0 _ Hr) as [H Hm]. done.
Qed.

(** The state of the others never is lost. *)
Lemma finish_rem h m fs1 c body k fs2 r : finish (h, m, fs1 ++ Frame c body k :: fs2) = Some r -> exists L, rem h0 c = Some L.
Proof.
  assert (H : forall fs1 h s r, unwind (fs1 ++ Frame c body k :: fs2) h s = Some r -> exists L, rem h0 c = Some L).
  { clear. induction fs1 as [|[c1 body1 k1] fs1 IH]; intros h s r; cbn [app unwind].
    - unfold looping. destruct (rem h0 c) as [L|]; [eauto|done].
    - destruct (looping (rem h0 c1) c1 body1 k1 h s) as [[[h1 s1] n1]|]; [|done]. cbn.
      destruct (unwind (fs1 ++ Frame c body k :: fs2) h1 s1) as [r1|] eqn:E; [|done]. intros _. by eapply IH. }
  assert (H2 : forall x, andthen x (unwind (fs1 ++ Frame c body k :: fs2)) = Some r -> exists L, rem h0 c = Some L).
  { intros [[[h1 s1] n1]|]; [|done]. cbn. destruct (unwind (fs1 ++ Frame c body k :: fs2) h1 s1) as [r1|] eqn:E; [|done]. intros _. by eapply H. }
  cbn [finish]. destruct m as [a|l s|s]; [apply H2|..].
  - destruct fs1 as [|[c1 body1 k1] fs1]; cbn [app].
    + destruct (rem h0 c); [eauto|done].
    + intros (h1 & s1 & m & E & _)%tick_inv. revert E. destruct (looping _ c1 body1 k1 h s) as [[[h2 s2] n1]|]; [|done]. cbn.
      destruct (unwind (fs1 ++ Frame c body k :: fs2) h2 s2) as [r1|] eqn:E; [|done]. intros _. by eapply H.
  - destruct fs1 as [|[c1 body1 k1] fs1]; cbn [app].
    + destruct (rem h0 c); [eauto|done].
    + destruct (looping _ c1 body1 k1 h s) as [[[h2 s2] n1]|]; [|done]. cbn.
      destruct (unwind (fs1 ++ Frame c body k :: fs2) h2 s2) as [r1|] eqn:E; [|done]. intros _. by eapply H.
Qed.

Lemma looping_step ms c c' body k h s : meas h0 c = S (meas h0 c') -> looping ms c body k h s = tick 1 (looping ms c' body k h s).
Proof. intros E. unfold looping. destruct ms as [ms|]; [|done]. rewrite E, tick_tick. f_equal. Qed.

(** ** Each step is one of the remaining ones. *)
Lemma step_ok st st' r : cstep st st' -> okst st -> finish st = Some r ->
  okst st' /\ exists n, r.2 = S n /\ finish st' = Some (r.1, n).
Proof.
  assert (Hfin : forall x, tick 1 x = Some r -> exists n, r.2 = S n /\ x = Some (r.1, n)).
  { intros x H. destruct r as [[h s] n]. apply tick_some in H as (m & -> & ->). cbn. eauto. }
  intros H Hok. destruct H; cbn [okst] in Hok; destruct Hok as (Hl & Hfs & Ha).
  - cbn [finish exec]. rewrite H, andthen_tick. intros E. split; [|by apply Hfin]. split; [done|]. split; [done|].
    inversion Ha; subst. destruct (like_get _ _ _ _ Hl H) as (c0 & E0 & Hc). by eapply H1.
  - cbn [finish exec]. destruct H as [c1 H]. rewrite H, andthen_tick. intros E. split; [|by apply Hfin].
    inversion Ha; subst. split; [by eapply like_insert|done].
  - cbn [finish exec]. inversion Ha; subst. destruct (den h0 p) as [ms|] eqn:Ed; [|done]. cbn [drops]. intros E. split.
    + split; [done|]. split; [|constructor]. constructor; [|done]. split; [|done]. repeat constructor; done.
    + apply Hfin. rewrite <- E. rewrite andthen_ret. cbn [unwind rem]. rewrite Ed. cbn [oapp]. rewrite app_nil_r. unfold looping. cbn [meas].
      rewrite !andthen_tick, tick_tick. f_equal.
  - cbn [finish exec]. inversion Ha; subst. destruct (den h0 p) as [ms|] eqn:Ed; [|done]. intros E. split.
    + split; [done|]. split; [|done]. constructor; [|done]. split; [|done]. repeat constructor; done.
    + apply Hfin. rewrite <- E. cbn [rem]. rewrite Ed. cbn [oapp]. rewrite app_nil_r. unfold looping. cbn [meas].
      destruct (drops (Some l) ms) as [ms'|]; [|done]. rewrite !andthen_tick, !tick_tick. f_equal.
  - cbn [finish]. destruct fs as [|[c body k] fs]; [done|]. intros E.
    destruct (like_get _ _ _ _ Hl H) as ([|n0| | | |] & E0 & Hc); try (cbn in Hc; done). cbn in Hc.
    assert (nn_leaf n = nn_leaf n0) as El by intuition. rewrite El. cbn [drops] in E. rewrite E0 in E.
    destruct (nn_leaf n0).
    + split; [done|]. apply Hfin in E as (m & E1 & E2). exists m. split; [done|]. cbn [finish]. rewrite <- E2.
      by destruct (rem h0 c) as [[|? ?]|].
    + split; [split; [done|]; split; [done|constructor]|]. apply Hfin in E as (m & E1 & E2). exists m. split; [done|]. cbn [finish exec]. rewrite <- E2. rewrite andthen_ret. cbn [unwind].
      by destruct (rem h0 c).
  - cbn [finish]. inversion Hfs as [|? ? Hf Hfs']; subst. cbn [okframe] in Hf. destruct Hf as (Hb & Hbody & Hk). intros E.
    destruct (rem h0 c) as [L|] eqn:Er; [|done]. destruct (gstep_rem _ _ _ _ _ Hb Hl H Er) as (Hb' & Hm & L' & -> & Er').
    split. { split; [done|]. split; [constructor; done|constructor]. }
    apply Hfin. rewrite <- E. cbn [finish exec]. rewrite andthen_ret. cbn [unwind]. rewrite Er'. rewrite (looping_step _ c c') by done. by rewrite andthen_tick.
  - cbn [finish rem]. done.
  - cbn [finish exec]. rewrite andthen_ret. cbn [unwind]. inversion Hfs as [|? ? Hf Hfs']; subst. cbn [okframe] in Hf. destruct Hf as (Hb & Hbody & Hk). intros E.
    destruct (rem h0 c) as [L|] eqn:Er; [|done]. destruct (gstep_rem _ _ _ _ _ Hb Hl H Er) as (Hb' & Hm & L' & -> & Er').
    split. { split; [done|]. split; [constructor; done|]. apply Hbody. }
    apply Hfin. rewrite <- E. cbn [unwind]. rewrite Er'. rewrite (looping_step _ c c') by done. unfold looping. cbn [loop].
    rewrite !andthen_assoc, !andthen_tick, tick_tick.
    rewrite (andthen_ext _ _ (fun h s => tick (meas h0 c' + 1) (andthen (andthen (loop (fun s m h => exec (body s m) h) L' h s) (fun h s => exec (k s) h)) (unwind fs)))).
    + rewrite andthen_tick_r, tick_tick. f_equal. rewrite !andthen_assoc. apply andthen_ext. intros h1 s1. by rewrite andthen_assoc.
    + intros h1 s1. by rewrite andthen_tick.
  - cbn [finish exec]. rewrite andthen_ret. cbn [unwind]. inversion Hfs as [|? ? Hf Hfs']; subst. cbn [okframe] in Hf. destruct Hf as (Hb & Hbody & Hk). intros E.
    split. { split; [done|]. split; [done|]. apply Hk. }
    apply Hfin. rewrite <- E. unfold looping. cbn [rem meas loop]. rewrite andthen_ret, andthen_tick. done.
  - intros E. destruct (finish_rem _ _ _ _ _ _ _ _ E) as [L Er]. apply Forall_app in Hfs as [Hf1 Hf2]. inversion Hf2 as [|? ? Hf Hf3]; subst. cbn [okframe] in Hf. destruct Hf as (Hb & Hbody & Hk).
    destruct (gstep_rem _ _ _ _ _ Hb Hl H Er) as (Hb' & Hm & Er').
    split. { split; [done|]. split; [|done]. apply Forall_app. split; [done|]. by constructor. }
    assert (Hu : rem h0 c = rem h0 c' /\ meas h0 c = S (meas h0 c')) by (rewrite Er, Er'; done).
    apply Hfin. rewrite <- E. cbn [finish]. destruct m as [a|l s|s].
    + rewrite (andthen_ext _ (unwind (fs1 ++ Frame c body k :: fs2)) _ (unwind_other c c' body k fs1 fs2 Hu)). by rewrite andthen_tick_r.
    + destruct fs1 as [|[c1 body1 k1] fs1]; cbn [app].
      * rewrite Er, Er'. rewrite (looping_step _ c c') by done. by rewrite andthen_tick.
      * rewrite (andthen_ext _ (unwind (fs1 ++ Frame c body k :: fs2)) _ (unwind_other c c' body k fs1 fs2 Hu)). by rewrite andthen_tick_r.
    + destruct fs1 as [|[c1 body1 k1] fs1]; cbn [app].
      * rewrite Er, Er'. rewrite (looping_step _ c c') by done. by rewrite andthen_tick.
      * rewrite (andthen_ext _ (unwind (fs1 ++ Frame c body k :: fs2)) _ (unwind_other c c' body k fs1 fs2 Hu)). by rewrite andthen_tick_r.
Qed.

Lemma progress_main st r : okst st -> finish st = Some r ->
  (exists h s, st = (h, MRun (ARet s), []) /\ r = (h, s, 0)) \/ exists st', cstep st st'.
Proof.
  destruct st as [[h m] fs]. intros (Hl & Hfs & Ha).
  assert (Hhead : forall c body k fs' L, fs = Frame c body k :: fs' -> rem h0 c = Some L ->
    c = GEnd \/ (exists c', gstep h c None c') \/ exists x c', gstep h c (Some x) c').
  { intros c body k fs' L -> Er. inversion Hfs as [|? ? Hf Hfs']; subst. destruct Hf as (Hb & _).
    destruct (progress h0 c L Er) as [?|[[c' Hs]|(x & c' & Hs)]]; [by left|..].
    - right; left. exists c'. by apply (gblind_step h0 h c None c' Hb (like_sym _ _ Hl)).
    - right; right. exists x, c'. by apply (gblind_step h0 h c (Some x) c' Hb (like_sym _ _ Hl)). }
  destruct m as [a|l s|s]; cbn [finish].
  - destruct a as [s| |l k|l c k|p drop s body k]; cbn [exec]; try done.
    + rewrite andthen_ret. destruct fs as [|[c body k] fs]; [intros [= <-]; left; eauto|]. cbn [unwind].
      destruct (rem h0 c) as [L|] eqn:Er; [|done]. intros _. right.
      destruct (Hhead _ _ _ _ _ eq_refl Er) as [->|[[c' Hs]|(x & c' & Hs)]].
      * eexists. apply cs_closed.
      * eexists. by apply (cs_other h _ [] c c').
      * eexists. by eapply cs_recv.
    + destruct (h !! l) as [c|] eqn:E; [|done]. right. eexists. by apply cs_load.
    + destruct (h !! l) as [c1|] eqn:E; [|done]. right. eexists. apply cs_store. eauto.
    + intros _. right. destruct drop; eexists; [apply cs_range_drop|apply cs_range].
  - destruct fs as [|[c body k] fs]; [done|]. intros (h1 & s1 & m1 & E & _)%tick_inv. right.
    destruct (rem h0 c) as [L|]; [|done]. cbn [drops] in E. destruct (h0 !! l) as [[|n0| | | |]|] eqn:El; try done.
    destruct (like_get_back _ _ _ _ Hl El) as ([|n1| | | |] & E1 & Hc); try (cbn in Hc; done). eexists. by apply cs_test.
  - destruct fs as [|[c body k] fs]; [done|]. destruct (rem h0 c) as [L|] eqn:Er; [|done]. intros _. right.
    destruct (Hhead _ _ _ _ _ eq_refl Er) as [->|[[c' Hs]|(x & c' & Hs)]].
    + eexists. apply cs_drop_closed.
    + eexists. by apply (cs_other h _ [] c c').
    + eexists. by eapply cs_drop.
Qed.

Lemma final_stuck h s st : ~ cstep (h, MRun (ARet (U := U) (St := St) s), []) st.
Proof. intros H. inversion H; subst. by destruct fs1. Qed.
End proofs.

(** However the goroutines are scheduled, the code [a] started in memory [h] comes
    to an end (no step is possible any more, after a bounded number of them), has
    not panicked or blocked, and has left the memory [h'] and the result [s']. *)
Definition always {U St} (h : heap U) (a : act U St) (h' : heap U) (s' : St) : Prop :=
  exists N, forall n st, nsteps cstep n (h, MRun a, []) st ->
    n <= N /\ ((forall st', ~ cstep st st') <-> st = (h', MRun (ARet s'), [])) /\
    (forall h1 s1, st = (h1, MRun (ARet s1), []) -> h1 = h' /\ s1 = s').

Section link.
Context {U St : Type}.
Local Notation heap := (heap U).
Local Notation act := (act U St).
Implicit Types h : heap.

Lemma exec_always h (a : act) h' s' n : okact h a -> exec h a h = Some (h', s', n) -> always h a h' s'.
Proof.
  intros Hok He. exists n. intros k st Hs.
  assert (Hinv : okst h st /\ exists j, k + j = n /\ finish h st = Some (h', s', j)).
  { assert (Hst : forall k st1 st, nsteps cstep k st1 st -> forall n, okst h st1 -> finish h st1 = Some (h', s', n) -> okst h st /\ exists j, k + j = n /\ finish h st = Some (h', s', j)).
    { clear. intros k st1 st H. induction H as [x|k x y z Hxy Hyz IH]; intros n Hok Hf; [eauto|].
      destruct (step_ok _ _ _ _ Hxy Hok Hf) as (Hok' & m & Em & Hf'). cbn [fst snd] in *. destruct (IH m Hok' Hf') as (? & j & ? & ?). split; [done|]. exists j. split; [lia|done]. }
    apply (Hst _ _ _ Hs n).
    - split; [apply like_refl|]. split; [constructor|done].
    - cbn [finish]. rewrite He. cbn. by rewrite Nat.add_0_r. }
  destruct Hinv as (Hok' & j & Hj & Hf). split; [lia|].
  assert (Hu : forall h1 s1, st = (h1, MRun (ARet s1), []) -> h1 = h' /\ s1 = s').
  { intros h1 s1 ->. cbn in Hf. injection Hf as -> -> _. done. }
  split; [|done]. split.
  - intros Hstuck. destruct (progress_main _ _ _ Hok' Hf) as [(h1 & s1 & -> & E)|[st' Hst']]; [|by destruct (Hstuck st')].
    destruct (Hu _ _ eq_refl) as [-> ->]. done.
  - intros ->. apply final_stuck.
Qed.

(** ** Sequential programs. *)
Inductive ro {A} : prog U A -> Prop :=
| ro_ret a : ro (Ret a)
| ro_fail e : ro (Fail e)
| ro_load l k : (forall c, ro (k c)) -> ro (Load l k).
Lemma ro_bind {A B} (m : prog U A) (f : A -> prog U B) : ro m -> (forall a, ro (f a)) -> ro (bind m f).
Proof. intros Hm Hf. induction Hm as [a|e|l k Hk IH]; cbn [bind]; [done|constructor|]. constructor. intros c. apply IH. Qed.
Lemma ro_ld_num p : ro (ld_num (U := U) p).
Proof. destruct p as [l|]; [|constructor]. cbn. constructor. intros []; constructor. Qed.
Lemma ro_ld_ip p : ro (ld_ip (U := U) p).
Proof. destruct p as [l|]; [|constructor]. cbn. constructor. intros []; constructor. Qed.
Lemma ro_same c k1 k2 b : ro (same_masked (U := U) c k1 k2 b).
Proof. unfold same_masked. apply ro_bind; [|intros; constructor]. unfold mask. destruct (nth_error (cmasks c) (N.to_nat b)); constructor. Qed.
Lemma ro_exact c fuel : forall p k b, ro (exact_ (U := U) c fuel p k b).
Proof.
  induction fuel as [|fuel IH]; intros p k b; cbn [exact_]; [constructor|]. apply ro_bind; [apply ro_ld_num|]. intros nn.
  destruct (N.ltb b (nn_bits nn)); [constructor|]. destruct (N.eqb (nn_bits nn) b).
  - apply ro_bind; [unfold leaf_and_same; destruct (nn_leaf nn); [apply ro_same|constructor]|]. intros []; constructor.
  - apply ro_bind; [apply ro_same|]. intros [|]; cbn [negb]; [|constructor]. destruct (chld nn (bbit c k (nn_bits nn))); [|constructor].
    apply ro_bind; [apply IH|]. intros []; constructor.
Qed.
Lemma ro_find c p k b : ro (n_find_node (U := U) c p k b).
Proof. destruct p; [|constructor]. unfold n_find_node. apply ro_bind; [apply ro_exact|]. intros []; constructor. Qed.

Section h0.
Variable h0 : heap.
Lemma ok_ado {A} (m : prog U A) (k : A -> act) : ro m -> (forall a, okact h0 (k a)) -> okact h0 (ado m k).
Proof. intros Hm Hk. induction Hm as [a|e|l f Hf IH]; cbn [ado]; [done|constructor|]. constructor. intros. apply IH. Qed.
Lemma exec_ado {A} (m : prog U A) h W Q : ro m -> wp m h W Q -> exists a n, Q a h W /\ forall (k : A -> act), exec h0 (ado m k) h = tick n (exec h0 (k a) h).
Proof.
  intros Hm. induction Hm as [a|e|l f Hf IH]; intros H.
  - exists a, 0. split; [done|]. intros k. by rewrite tick_0.
  - done.
  - cbn [wp] in H. destruct H as (c & E & H). destruct (IH c H) as (a & n & HQ & Ha). exists a, (1 + n). split; [done|].
    intros k. cbn [ado exec]. rewrite E, Ha. by rewrite tick_tick.
Qed.

(** [a] does what the program [m] does. *)
Definition does (a : act) (m : prog U St) : Prop := forall h W Q, like h h0 -> wp m h W Q ->
  exists h' s' n W', exec h0 a h = Some (h', s', n) /\ Q s' h' W' /\ like h' h0.
Lemma does_ret s : does (ARet s) (Ret s).
Proof. intros h W Q Hl H. exists h, s, 0, W. done. Qed.
Lemma does_ado {A} (m : prog U A) (k : A -> act) f : ro m -> (forall a, does (k a) (f a)) -> does (ado m k) (a <- m ;; f a).
Proof.
  intros Hm Hk h W Q Hl H. apply wp_bind_inv in H. destruct (exec_ado _ _ _ _ Hm H) as (a & n & H1 & Ha).
  destruct (Hk a _ _ _ Hl H1) as (h' & s' & n' & W' & E & HQ & Hl'). exists h', s', (n + n'), W'. rewrite Ha, E. done.
Qed.

Context (cb : St -> pair_ (U := U) -> prog U (St * option (value U))).
Hypothesis Hro : forall s x, ro (cb s x).
Lemma ado_bind {A B} (m : prog U A) (f : A -> prog U B) (k : B -> act) : ro m -> forall h, exec h0 (ado (bind m f) k) h = exec h0 (ado m (fun a => ado (f a) k)) h.
Proof. intros Hm. induction Hm as [a|e|l g Hg IH]; intros h; cbn [bind ado]; [done|done|]. cbn [exec]. destruct (h !! l); [|done]. by rewrite IH. Qed.
Lemma does_node mk s l : does (c_node cb mk s l) (upd_node cb mk s l).
Proof using Hro.
  intros h W Q Hl H. unfold c_node, upd_node in *. cbn [ld_num load bind] in H |- *. cbn [wp] in H. destruct H as (c & E & H).
  cbn [ado exec]. rewrite E. destruct c as [|nn| | | |]; try (cbn in H; done). cbn [bind] in *.
  apply wp_bind_inv in H. destruct (exec_ado _ _ _ _ (Hro _ _) H) as ([s1 r] & n & H1 & Ha). rewrite ado_bind, Ha by done. clear H Ha.
  destruct r as [v|].
  - cbn [st_num bind store wp ado exec] in *. destruct H1 as (_ & _ & H). rewrite E. eexists _, _, _, _. split; [done|]. split; [exact H|].
    destruct (like_get _ _ _ _ Hl E) as (c0 & E0 & Hc). eapply like_insert; [done|exact E0|]. destruct c0; try (cbn in Hc; done).
  - cbn [wp ado exec] in *. eexists _, _, _, _. split; [done|]. split; [exact H1|done].
Qed.
Lemma ok_ado_bind {A B} (m : prog U A) (f : A -> prog U B) (k : B -> act) : ro m -> (forall a, okact h0 (ado (f a) k)) -> okact h0 (ado (bind m f) k).
Proof. intros Hm Hk. induction Hm as [a|e|l g Hg IH]; cbn [bind ado]; [done|constructor|]. constructor. intros. apply IH. Qed.
Lemma ok_node mk s l : okact h0 (c_node cb mk s l).
Proof using Hro.
  unfold c_node, upd_node. cbn [ld_num load bind ado]. constructor. intros c c0 E0 Hc. destruct c as [|nn| | | |]; try constructor. cbn [bind].
  apply ok_ado_bind; [done|]. intros [s1 [v|]]; [|constructor]. cbn [st_num bind store ado]. econstructor; [exact E0| |constructor].
  destruct c0; try (cbn in Hc; done).
Qed.
Lemma does_loop (body : St -> loc -> act) (f : St -> loc -> prog U St) (F : St -> list loc -> prog U St) :
  (forall s, F s [] = Ret s) -> (forall s l ls h W Q, wp (F s (l :: ls)) h W Q -> wp (s <- f s l ;; F s ls) h W Q) -> (forall s l, does (body s l) (f s l)) ->
  forall ls s h W Q, like h h0 -> wp (F s ls) h W Q ->
  exists h' s' n W', loop (fun s m h => exec h0 (body s m) h) ls h s = Some (h', s', n) /\ Q s' h' W' /\ like h' h0.
Proof.
  intros H0 H1 Hb. induction ls as [|l ls IH]; intros s h W Q Hl H.
  - rewrite H0 in H. exists h, s, 0, W. done.
  - apply H1 in H. apply wp_bind_inv in H. destruct (Hb _ _ _ _ _ Hl H) as (h' & s' & n & W' & E & H' & Hl').
    destruct (IH _ _ _ _ Hl' H') as (h2 & s2 & n2 & W2 & E2 & HQ & Hl2). exists h2, s2, (n + n2), W2. cbn [loop]. rewrite E. cbn. rewrite E2. done.
Qed.

(** The walks. *)
Lemma blind_ptrs fuel : forall p, blind (s_ptrs (U := U) fuel p).
Proof.
  induction fuel as [|fuel IH]; intros [l|]; cbn [s_ptrs]; try constructor.
  - intros c c' Hc. destruct c as [|n| | | |], c' as [|n'| | | |]; try (cbn in Hc; done). cbn in Hc.
    destruct Hc as (_ & _ & -> & -> & ->). done.
  - intros [|n| | | |]; try constructor.
    + destruct (nn_leaf n); constructor.
    + constructor; [destruct (nn_c0 n)|destruct (nn_c1 n)]; first [apply IH|constructor].
  - intros [|n| | | |] Hn; try done. by destruct (Hn n).
Qed.
Lemma blind_n_ptrs c p : blind (s_n_ptrs (U := U) c p).
Proof. destruct p; [apply blind_ptrs|constructor]. Qed.
Lemma ptrs_den c fuel : forall p h W Q, wp (enumerate_ c fuel p) h W Q -> exists e, den h (s_ptrs fuel p) = Some (map fst e) /\ Q e h W.
Proof.
  induction fuel as [|fuel IH]; intros [l|] h W Q H; cbn [enumerate_] in H; try done.
  cbn [ld_num load bind wp] in H. destruct H as (cc & E & H). cbn [s_ptrs den]. rewrite E.
  destruct cc as [|nn| | | |]; try (cbn in H; done). cbn [bind] in H.
  assert (IH' : forall p Q, wp (match p with None => Ret [] | Some _ => enumerate_ c fuel p end) h W Q ->
    exists e, den h (match p with None => SSkip | Some _ => s_ptrs fuel p end) = Some (map fst e) /\ Q e h W).
  { intros [q|] Q' H'; [by apply IH|]. exists []. done. }
  apply wp_bind_inv in H. destruct (IH' _ _ H) as (xs & Ex & H1). apply wp_bind_inv in H1. destruct (IH' _ _ H1) as (ys & Ey & H2).
  eexists; split; [|exact H2]. cbn [den]. rewrite Ex, Ey. destruct (nn_leaf nn); cbn; by rewrite ?map_app.
Qed.
Lemma n_ptrs_den c p h W Q : wp (n_enumerate c p) h W Q -> exists e, den h (s_n_ptrs c p) = Some (map fst e) /\ Q e h W.
Proof. destruct p; [apply ptrs_den|]. intros H. exists []. done. Qed.
(** A leaf is the first in its own enumeration. *)
Lemma ptrs_first fuel l h n ms : h !! l = Some (CNum n) -> nn_leaf n = true -> den h (s_ptrs fuel (Some l)) = Some ms -> ms <> [].
Proof.
  intros E Hleaf. destruct fuel as [|fuel]; cbn [s_ptrs den]; [done|]. rewrite E, Hleaf. cbn [den].
  intros (x & y & [= <-] & _ & ->)%oapp_some. done.
Qed.

Lemma does_below c l s (body : St -> loc -> act) (f : St -> loc -> prog U St) (F : St -> list loc -> prog U St) :
  (forall s, F s [] = Ret s) -> (forall s l ls h W Q, wp (F s (l :: ls)) h W Q -> wp (s <- f s l ;; F s ls) h W Q) -> (forall s l, does (body s l) (f s l)) ->
  does (ARange (s_n_ptrs c (Some l)) (Some l) s body ARet) (ls <- below c (Some l) ;; F s ls).
Proof.
  intros H0 H1 Hb h W Q Hl H. unfold below in H. apply wp_bind_inv in H. apply wp_bind_inv in H.
  destruct (n_ptrs_den _ _ _ _ _ H) as (e & Ee & H2). apply wp_bind_inv in H2. cbn [ld_num load bind wp] in H2.
  destruct H2 as (cc & E & H2). destruct cc as [|nn| | | |]; try (cbn in H2; done). cbn [bind wp] in H2.
  cbn [exec]. rewrite <- (blind_den h h0 _ (blind_n_ptrs c (Some l)) Hl), Ee. cbn [drops].
  destruct (like_get _ _ _ _ Hl E) as ([|n0| | | |] & E0 & Hc); try (cbn in Hc; done). rewrite E0.
  assert (nn_leaf n0 = nn_leaf nn) as -> by (cbn in Hc; intuition).
  assert (Hd : (if nn_leaf nn then match map fst e with [] => None | _ :: ms => Some ms end else Some (map fst e)) = Some (map fst (if nn_leaf nn then tl e else e))).
  { destruct (nn_leaf nn) eqn:Ef; [|done]. pose proof (ptrs_first _ _ _ _ _ E Ef Ee) as Hne. destruct e; done. }
  rewrite Hd. destruct (does_loop body f F H0 H1 Hb _ _ _ _ _ Hl H2) as (h' & s' & n & W' & El & HQ & Hl').
  rewrite El. cbn. eexists _, _, _, _. split; [done|]. split; [exact HQ|done].
Qed.
Lemma does_all c p s (body : St -> loc -> act) (f : St -> loc -> prog U St) (F : St -> list loc -> prog U St) :
  (forall s, F s [] = Ret s) -> (forall s l ls h W Q, wp (F s (l :: ls)) h W Q -> wp (s <- f s l ;; F s ls) h W Q) -> (forall s l, does (body s l) (f s l)) ->
  does (ARange (s_n_ptrs c p) None s body ARet) (xs <- n_enumerate c p ;; F s (map fst xs)).
Proof.
  intros H0 H1 Hb h W Q Hl H. apply wp_bind_inv in H.
  destruct (n_ptrs_den _ _ _ _ _ H) as (e & Ee & H2). cbn [exec].
  rewrite <- (blind_den h h0 _ (blind_n_ptrs c p) Hl), Ee. cbn [drops].
  destruct (does_loop body f F H0 H1 Hb _ _ _ _ _ Hl H2) as (h' & s' & n & W' & El & HQ & Hl').
  rewrite El. cbn. eexists _, _, _, _. split; [done|]. split; [exact HQ|done].
Qed.
Lemma ok_loop c p drop s (body : St -> loc -> act) : (forall s l, okact h0 (body s l)) -> okact h0 (ARange (s_n_ptrs c p) drop s body ARet).
Proof. intros Hb. constructor; [apply blind_n_ptrs|done|]. intros. constructor. Qed.

(** The step of the loop over the upper tree. *)
Definition top_step (s : St) (l : loc) : prog U St :=
  nn <- ld_num (Some l) ;;
  match nn_val nn with
  | VSub p => xs <- n_enumerate c64 p ;; upd_list cb (pair6s (msip nn)) s (map fst xs)
  | _ => upd_node cb pair6 s l
  end.
Lemma does_top s l : does (c_top cb s l) (top_step s l).
Proof.
  apply does_ado; [apply ro_ld_num|]. intros nn. destruct (nn_val nn); try apply does_node.
  apply (does_all c64 p s _ (upd_node cb (pair6s (msip nn))) (upd_list cb (pair6s (msip nn)))); [done|done|]. intros. apply does_node.
Qed.
Lemma ok_top s l : okact h0 (c_top cb s l).
Proof. apply ok_ado; [apply ro_ld_num|]. intros nn. destruct (nn_val nn); try apply ok_node. apply ok_loop. intros. apply ok_node. Qed.

Lemma does_wp a m m' : (forall h W Q, wp m' h W Q -> wp m h W Q) -> does a m -> does a m'.
Proof. intros Hm Hd h W Q Hl H. by eapply Hd, Hm. Qed.

Lemma does_update t n s : does (c_ip_update_by cb t n s) (ip_update_by cb t n s).
Proof.
  unfold c_ip_update_by, ip_update_by. destruct n as [n|]; [|intros h W Q Hl H; done].
  destruct (ip4_key n) as [[key bits]|].
  { eapply does_wp; [|apply does_ado with (f := fun target => match target with None => Ret s | Some _ => ls <- below c32 target ;; upd_list cb pair4 s ls end)].
    - intros h W Q H. apply wp_bind. apply wp_bind. apply wp_bind_inv in H. eapply wp_mono; [exact H|]. cbn beta. intros a h' W' H'. by apply wp_bind_inv in H'.
    - apply ro_bind; [apply ro_ld_ip|]. intros. apply ro_find.
    - intros [l|]; [|apply does_ret]. apply does_below with (f := upd_node cb pair4); [done|done|]. intros. apply does_node. }
  destruct (ip6_key n) as [[[[mskey msbits] lskey] lsbits]|]; [|apply does_ret].
  set (F := fun target : ptr =>
        match target with
        | None => Ret s
        | Some _ =>
          tn <- ld_num target ;;
          match nn_val tn with
          | VSub p =>
            pn <- ld_num p ;;
            target <- (if (N.eqb (nn_key pn) lskey) && (N.eqb (nn_bits pn) lsbits) then Ret p
                       else n_find_node c64 p lskey (Z.of_N lsbits)) ;;
            match target with
            | None => Ret s
            | Some _ =>
              ls <- below c64 target ;;
              upd_list cb (pair6s (unpack64 mskey ++ repeat x00 8)) s ls
            end
          | _ => ls <- below c64 target ;; upd_top cb s ls
          end
        end).
  eapply does_wp; [|apply does_ado with (f := F)].
  - intros h W Q H. apply wp_bind. apply wp_bind. apply wp_bind_inv in H. eapply wp_mono; [exact H|]. cbn beta. intros a h' W' H'. by apply wp_bind_inv in H'.
  - apply ro_bind; [apply ro_ld_ip|]. intros. apply ro_find.
  - intros [l|]; [|apply does_ret]. unfold F. apply does_ado; [apply ro_ld_num|]. intros tn.
    assert (Htop : does (ARange (s_n_ptrs c64 (Some l)) (Some l) s (c_top cb) ARet) (ls <- below c64 (Some l) ;; upd_top cb s ls)).
    { apply does_below with (f := top_step); [done| |intros; apply does_top]. intros s' l' ls h W Q H. cbn [upd_top] in H. unfold top_step.
      apply wp_bind, wp_bind. apply wp_bind_inv in H. eapply wp_mono; [exact H|]. cbn beta. intros nn h' W' H'. by apply wp_bind_inv in H'. }
    destruct (nn_val tn) as [| |p|]; try exact Htop.
    eapply does_wp; [|apply does_ado with (f := fun target : ptr => match target with None => Ret s | Some _ => ls <- below c64 target ;; upd_list cb (pair6s (unpack64 mskey ++ repeat x00 8)) s ls end)].
    + intros h W Q H. apply wp_bind. apply wp_bind. apply wp_bind_inv in H. eapply wp_mono; [exact H|]. cbn beta. intros a h' W' H'. by apply wp_bind_inv in H'.
    + apply ro_bind; [apply ro_ld_num|]. intros pn. destruct (_ && _); [constructor|apply ro_find].
    + intros [l'|]; [|apply does_ret]. apply does_below with (f := upd_node cb (pair6s (unpack64 mskey ++ repeat x00 8))); [done|done|]. intros. apply does_node.
Qed.
Lemma ok_update t n s : okact h0 (c_ip_update_by cb t n s).
Proof.
  unfold c_ip_update_by. destruct n as [n|]; [|constructor].
  destruct (ip4_key n) as [[key bits]|].
  { apply ok_ado; [apply ro_bind; [apply ro_ld_ip|]; intros; apply ro_find|]. intros [l|]; [|constructor]. apply ok_loop. intros. apply ok_node. }
  destruct (ip6_key n) as [[[[mskey msbits] lskey] lsbits]|]; [|constructor].
  apply ok_ado; [apply ro_bind; [apply ro_ld_ip|]; intros; apply ro_find|]. intros [l|]; [|constructor].
  apply ok_ado; [apply ro_ld_num|]. intros tn.
  assert (Htop : okact h0 (ARange (s_n_ptrs c64 (Some l)) (Some l) s (c_top cb) ARet)) by (apply ok_loop; intros; apply ok_top).
  destruct (nn_val tn) as [| |p|]; try exact Htop.
  apply ok_ado; [apply ro_bind; [apply ro_ld_num|]; intros pn; destruct (_ && _); [constructor|apply ro_find]|].
  intros [l'|]; [|constructor]. apply ok_loop. intros. apply ok_node.
Qed.
End h0.

(** ** The statement: whatever the sequential model ends with, every schedule does. *)
Lemma update_by_always (cb : St -> pair_ (U := U) -> prog U (St * option (value U))) h t n s W Q : (forall s x, ro (cb s x)) ->
  wp (ip_update_by cb t n s) h W Q -> exists h' s' W', Q s' h' W' /\ always h (c_ip_update_by cb t n s) h' s' /\ like h' h.
Proof.
  intros Hro H. destruct (does_update h cb Hro t n s h W Q (like_refl h) H) as (h' & s' & k & W' & E & HQ & Hl).
  exists h', s', W'. split; [done|]. split; [|done]. eapply exec_always; [by apply ok_update|exact E].
Qed.
Lemma update_always (cb : St -> pair_ (U := U) -> St * option (value U)) h t n s W Q :
  wp (ip_update cb t n s) h W Q -> exists h' s' W', Q s' h' W' /\ always h (c_ip_update cb t n s) h' s' /\ like h' h.
Proof. apply update_by_always. intros. constructor. Qed.
End link.
