(** * Red-black insertion of a key the comparison function does not accept as equal to itself:
    unless the search meets an equal key, the loop goes on for ever. *)
From Verif Require Import Prog RbModel RbSpec RbFun RbFunIns RbSim RbSimFix RbSimIns RbSimOps RbAbs.

Section fn.
Context {U : Type}.
Local Notation tree := (tree U).
Local Notation frame := (frame U).
Local Notation value := (value U).
Variable cmp : bytes -> bytes -> Z.
Variable key : bytes.
Hypothesis Hself : cmp key key <> 0%Z.
Local Notation todir := (todir cmp key).
Definition unfound (t : tree) : Prop := (f_get cmp key t).2 = false.
Definition trod (f : frame) : Prop := f_dir f = todir (f_k f) /\ cmp (f_k f) key <> 0%Z.
Lemma unfound_inv c l k v r : unfound (T c l k v r) <-> cmp k key <> 0%Z /\ unfound (if todir k then r else l).
Proof.
  unfold unfound. cbn [f_get]. destruct (cmp k key =? 0)%Z eqn:E; [split; [done|]; intros [H _]; apply Z.eqb_eq in E; done|].
  apply Z.eqb_neq in E. destruct (todir k); tauto.
Qed.
Lemma unfound_recolor c t : unfound (recolor c t) <-> unfound t.
Proof. by destruct t. Qed.
Lemma unfound_pre t : unfound t -> unfound (pre key t).
Proof using Hself.
  destruct t as [|c l k v r]; [intros _; apply unfound_inv; by destruct (todir key)|]. cbn [pre flip].
  destruct (isred l && isred r); [|done]. rewrite !unfound_inv. intros [? H]. split; [done|]. destruct (todir k); by apply unfound_recolor.
Qed.
Lemma unfound_mk d c near k v far : d = todir k -> cmp k key <> 0%Z -> unfound near -> unfound (mk d c near k v far).
Proof. intros Hd Hk Hn. unfold mk. destruct d; apply unfound_inv; by rewrite <- Hd. Qed.
Definition next_ctx c l k v r (ctx : list frame) : list frame := Fr c k v (todir k) (if todir k then l else r) false :: ctx.
(** Wherever the loop stands, it does not stop. *)
Lemma unfound_step ctx t ctx1 t1 : Forall trod ctx -> unfound t -> fixv ctx (pre key t) = Some (ctx1, t1) ->
  exists c l k v r, t1 = T c l k v r /\ cmp k key <> 0%Z /\ Forall trod (next_ctx c l k v r ctx1) /\ unfound (if todir k then r else l).
Proof using Hself.
  intros Hctx Ht%unfound_pre. assert (Hne : pre key t <> E) by (by destruct t as [|? l ? ? r]; [|simpl; destruct (isred l && isred r)]).
  destruct (pre key t) as [|c l k v r]; [done|]. clear Hne. pose proof Ht as [Hk Hc]%unfound_inv.
  assert (Hsame : forall ctx', Forall trod ctx' -> exists c' l' k' v' r', T c l k v r = T c' l' k' v' r' /\ cmp k' key <> 0%Z /\ Forall trod (next_ctx c' l' k' v' r' ctx') /\ unfound (if todir k' then r' else l')).
  { intros ctx' H. exists c, l, k, v, r. split; [done|]. split; [done|]. split; [|done]. by constructor. }
  unfold fixv. destruct ctx as [|f1 rest]; [intros [= <- <-]; by apply Hsame|].
  destruct (isred _ && f_red f1); [|intros [= <- <-]; by apply Hsame].
  destruct rest as [|f2 rest]; [done|]. inversion Hctx as [|? ? Hf1 H2]; subst. inversion H2 as [|? ? Hf2 Hrest]; subst.
  destruct (Bool.eqb (f_dir f1) (f_dir f2)) eqn:Ed.
  - intros [= <- <-]. apply Hsame. constructor; [|done]. exact Hf1.
  - intros [= <- <-]. set (t0 := T c l k v r) in *.
    assert (Hc' : unfound (child (todir k) t0)) by (unfold t0; simpl; by destruct (todir k)).
    set (P := mk (f_dir f1) true (child (f_dir f2) t0) (f_k f1) (f_v f1) (f_oth f1)).
    set (G := mk (f_dir f2) true (child (f_dir f1) t0) (f_k f2) (f_v f2) (f_oth f2)).
    assert (HP : f_dir f2 = todir k -> unfound P) by (intros E; apply unfound_mk; [apply Hf1..|by rewrite E]).
    assert (HG : f_dir f1 = todir k -> unfound G) by (intros E; apply unfound_mk; [apply Hf2..|by rewrite E]).
    assert (E12 : f_dir f1 = negb (f_dir f2)) by (by destruct (f_dir f1), (f_dir f2)).
    unfold mk at 1. destruct (f_dir f2) eqn:E2; eexists _, _, k, v, _; (split; [reflexivity|]); (split; [done|]); (split; [by constructor|]); destruct (todir k); auto.
Qed.
(** ... and it is never stuck when started at the black root of a red-black tree. *)
Definition going (ctx : list frame) (t : tree) : Prop :=
  match ctx with [] => t <> E /\ exists n, rb t false n | [f] => f_red f = true -> calm t | _ => True end.
Lemma going_step ctx t : going ctx t -> exists ctx1 t1, fixv ctx (pre key t) = Some (ctx1, t1) /\
  forall c l k v r, t1 = T c l k v r -> going (next_ctx c l k v r ctx1) (if todir k then r else l).
Proof.
  intros HK. assert (Hne : pre key t <> E) by (by destruct t as [|? l ? ? r]; [|simpl; destruct (isred l && isred r)]).
  destruct ctx as [|f1 [|f2 rest]]; cbn [fixv].
  - eexists _, _. split; [reflexivity|]. intros c l k v r Ht. unfold next_ctx. cbn [going f_red]. intros ->.
    destruct HK as [Hn [n Hb]]. destruct t as [|c0 l0 k0 v0 r0]; [done|]. cbn [pre flip] in Ht.
    apply rb_inv in Hb as [-> (m & c1 & c2 & -> & Hl & Hr)].
    destruct (isred l0 && isred r0) eqn:Eb; [|done]. injection Ht as <- <- <- <-. apply andb_true_iff in Eb as [El Er].
    rewrite (rb_color _ _ _ Hl) in El. rewrite (rb_color _ _ _ Hr) in Er. subst c1 c2.
    destruct (todir k0); (apply (calm_recolor cmp key); right; eauto).
  - destruct (isred (pre key t) && f_red f1) eqn:Eb.
    + exfalso. apply andb_true_iff in Eb as [E1 E2]. destruct (HK E2) as [Hn Hcalm]. destruct t as [|c0 l0 k0 v0 r0]; [done|]. cbn [pre] in E1. congruence.
    + eexists _, _. split; [reflexivity|]. intros. done.
  - destruct (isred (pre key t) && f_red f1); [|eexists _, _; split; [reflexivity|]; intros; done].
    destruct (Bool.eqb (f_dir f1) (f_dir f2)).
    + eexists _, _. split; [reflexivity|]. intros. done.
    + destruct (pre key t) as [|c l k v r]; [done|]. eexists _, _. split; [reflexivity|]. intros c' l' k' v' r' Ht. unfold next_ctx.
      destruct rest; [|done]. cbn [going f_red]. intros ->. unfold mk in Ht at 1. by destruct (f_dir f2).
Qed.
Lemma unfound_none v : forall fuel ctx t, Forall trod ctx -> unfound t -> ins_loop cmp key fuel ctx t v = None.
Proof using Hself.
  induction fuel as [|fuel IH]; intros ctx t Hc Ht; [done|]. cbn [ins_loop].
  destruct (fixv ctx (pre key t)) as [[ctx1 t1]|] eqn:E; [|done].
  destruct (unfound_step _ _ _ _ Hc Ht E) as (c & l & k & v0 & r & -> & Hk & Hc1 & Ht1).
  rewrite (proj2 (Z.eqb_neq _ _) Hk). by apply IH.
Qed.

Lemma fixv_trod ctx (t : tree) ctx1 t1 : Forall trod ctx -> fixv ctx t = Some (ctx1, t1) -> Forall trod ctx1.
Proof.
  intros H. unfold fixv. destruct ctx as [|f1 rest]; [by intros [= <- <-]|]. destruct (isred t && f_red f1); [|by intros [= <- <-]].
  inversion H as [|? ? H1 H2]; subst. destruct rest as [|f2 rest]; [done|]. inversion H2; subst.
  destruct (Bool.eqb _ _); [intros [= <- <-]; by constructor|]. destruct t; [done|]. by intros [= <- <-].
Qed.
Lemma ins_loop_size_trod v : forall fuel (ctx : list frame) (t t' : tree), Forall trod ctx -> ins_loop cmp key fuel ctx t v = Some t' ->
  size t' <= S (size (plug ctx t)).
Proof using Hself.
  induction fuel as [|fuel IH]; intros ctx t t' Hctx Hins; [done|].
  destruct t as [|c l k v0 r].
  - exfalso. rewrite unfound_none in Hins; done.
  - cbn [ins_loop] in Hins. destruct (fixv ctx (pre key (T c l k v0 r))) as [[ctx' t1]|] eqn:Ef; [|done].
    assert (exists c' l' r', pre key (T c l k v0 r) = T c' l' k v0 r' /\ size (T c' l' k v0 r') = size (T c l k v0 r)) as (c1 & l1 & r1 & Hp & Hps).
    { unfold size. simpl. destruct (isred l && isred r); eexists _, _, _; (split; [done|]); rewrite !app_length; simpl; by rewrite ?inord_recolor. }
    rewrite Hp in Ef. pose proof (fixv_trod _ _ _ _ Hctx Ef) as Htr. apply (fixv_size cmp key) in Ef as (c' & l' & r' & -> & Hs).
    rewrite (plug_size ctx _ _ Hps) in Hs.
    destruct (cmp k key =? 0)%Z eqn:Ek.
    + injection Hins as <-. rewrite (plug_size ctx' _ (T c' l' k v0 r')) by (unfold size; simpl; by rewrite !app_length). lia.
    + cbv zeta in Hins. apply IH in Hins; [|constructor; [|done]; split; [done|by apply Z.eqb_neq]].
      rewrite <- Hs. etrans; [exact Hins|]. apply le_n_S. apply Nat.eq_le_incl.
      simpl plug. unfold size. rewrite !inord_plug, !app_length. unfold plug1, mk. simpl.
      destruct (RbFun.todir cmp key k); simpl; rewrite !app_length; simpl; lia.
Qed.
End fn.
Lemma f_ins_size_any {U} cmp key fuel (t : tree U) v t' : f_ins cmp key fuel t v = Some t' -> size t' <= S (size t).
Proof.
  destruct (Z.eq_dec (cmp key key) 0%Z) as [H|H]; [by apply f_ins_size|]. destruct t as [|c l k v0 r]; [by intros [= <-]|].
  unfold f_ins. intros Hi. apply fmap_Some in Hi as (t1 & Hi & ->). apply ins_loop_size_trod in Hi; [|done|constructor].
  unfold size in *. rewrite inord_recolor. exact Hi.
Qed.

(** ** The loops in memory. *)
Lemma fails_bind_k {U A B} (m : prog U A) (f : A -> prog U B) h W e :
  wp m h W (fun a h' _ => fails (f a) h' e) -> fails (bind m f) h e.
Proof. intros H. eapply fails_bind_r; [exact H|]. done. Qed.

Section mem.
Context {U : Type}.
Local Notation heap := (heap U).
Local Notation tree := (tree U).
Local Notation frame := (frame U).
Local Notation value := (value U).
Implicit Types h : heap.
Variable cmp : bytes -> bytes -> Z.
Variable key : bytes.
Hypothesis Hself : cmp key key <> 0%Z.
Notation trods ctx := (Forall (trod cmp key) (map snd ctx)).

Section ins.
Variable h0 : heap.
Variable fr : loc.
Local Notation focq := (focq h0 fr).
Local Notation foc h W ctx a := (focq h W ctx (Some a%positive) a%positive).
Local Notation dst := (dst h0 fr).
Lemma insert_loop_hang fuel : forall h W ctx q t Fc Ft gp g p c0 c1 dir r,
  trods ctx -> unfound cmp key t -> going (map snd ctx) t ->
  dst h W ctx q t Fc Ft ->
  p = par fr ctx ->
  (hdred ctx = true -> g = par fr (tail ctx) /\ dir = hddir (tail ctx)) ->
  (r <? 0)%Z = hddir ctx -> r <> 0%Z ->
  (forall cc, cc = (if hddir ctx then c1 else c0) -> cc = None \/ cc = q /\ rooted q Ft) ->
  fails (insert_loop (Some cmp) fuel key gp g p (Some (hdloc fr ctx)) c0 c1 dir r) h EFuel.
Proof using Hself.
  induction fuel as [|fuel IH]; intros h W ctx q t Fc Ft gp g p c0 c1 dir r Htr Hun Hgo Hdst -> Hv Hr Hr0 Hcc.
  { cbn [insert_loop]. rewrite (proj2 (Z.eqb_neq r 0) Hr0). done. }
  destruct (going_step cmp key _ _ Hgo) as (ctx1 & t1 & Efix & Hgo1).
  destruct (unfound_step cmp key Hself _ _ _ _ Htr Hun Efix) as (c1' & l1' & k1' & v1' & r1' & Et1 & Hk1 & Htr1 & Hun1).
  specialize (Hgo1 _ _ _ _ _ Et1).
  cbn [insert_loop]. rewrite (proj2 (Z.eqb_neq r 0) Hr0). rewrite Hr.
  pose proof (dst_ctx _ _ _ _ _ _ _ _ _ Hdst) as Hc.
  destruct (crep_hd _ _ _ _ _ _ Hc) as (kg & vg & pog & Hg & Hg0 & HgF & _).
  apply (fails_bind_k _ _ _ W). eapply wp_ld_rb; [exact Hg|]. rewrite rchld_near.
  apply (fails_bind_k _ _ _ W).
  eapply wp_mono with (Q := fun x h' W' => exists a c l k v0 r pl pr Fl Fr c0 c1,
     x = (Some a, c0, c1) /\ pre key t = T c l k v0 r /\ focq h' W' ctx q a c l k v0 r pl pr Fc Fl Fr /\
     (c0 = None \/ c0 = pl /\ rooted pl Fl) /\ (c1 = None \/ c1 = pr /\ rooted pr Fr)).
  { destruct t as [|ct lt kt vt rt].
    - destruct Hdst as [_ [-> ->] Hd HW Hfz]. apply wp_bind, wp_alloc. intros b Hb. cbn [wp].
      exists b, true, E, key, VNil, E, None, None, ∅, ∅, None, None. split_and!; [done|done| |by left|by left].
      apply focq_fresh; try done; clear -HW; set_solver.
    - destruct q as [q|]. 2: { destruct Hdst as [_ Ht _ _ _]. apply (mrep_ptr h0) in Ht as [Ht _]. by specialize (Ht eq_refl). }
      apply wp_bind. eapply maybe_copy_wp; [exact Hdst|by apply Hcc|].
      intros h' W' a pl pr Fl Fr Hf. eapply flip_wp; [exact Hf|].
      intros h2 W2 c' l' r' pl' pr' Fl' Fr' x0 x1 Hfl Hf2 Hx0 Hx1.
      exists a, c', l', kt, vt, r', pl', pr', Fl', Fr', x0, x1. done. }
  intros x h1 W1 (a & c & l & k & v0 & rt & pl & pr & Fl & Fr & x0 & x1 & -> & Hpre & Hf & Hx0 & Hx1).
  apply (fails_bind_k _ _ _ W1). eapply foc_set; [exact Hf|done|done|]. clear Hf. intros h2 Hf.
  apply (fails_bind_k _ _ _ W1). rewrite Hpre in Efix. eapply fix_wp; [exact Hf|exact Hv|exact Efix|].
  intros h3 ctx' c' l' r' pl' pr' Fl' Fr' Fc' g' p' dbl Hctx' Et2 Hf3 -> Hg3 Hdf Hdt _.
  cbn beta iota. subst ctx1. rewrite Et1 in Et2. injection Et2 as -> -> -> -> ->.
  apply (fails_bind_k _ _ _ W1). eapply wp_ld_rb; [exact (foc_node _ _ _ _ _ _ _ _ _ _ _ _ _ _ _ _ _ Hf3)|].
  cbn [rb_l rb_r rb_key].
  set (yy := if dbl then _ else _).
  assert ((yy.1 = None \/ yy.1 = pl' /\ rooted pl' Fl') /\ (yy.2 = None \/ yy.2 = pr' /\ rooted pr' Fr')) as [Hy0 Hy1].
  { unfold yy. destruct dbl.
    - destruct (Hdt eq_refl). eauto 10.
    - destruct (Hdf eq_refl) as (-> & -> & -> & ->). eauto 10. }
  clearbody yy. destruct yy as [y0 y1]. simpl in Hy0, Hy1.
  cbn [call_cmp bind].
  unfold next_ctx in Htr1, Hgo1. set (d := todir cmp key k) in *.
  eapply (IH h3 W1 ((a, RbFun.Fr c' k v0 d (if d then l' else r') false) :: ctx')).
  - exact Htr1.
  - exact Hun1.
  - exact Hgo1.
  - apply foc_descend. exact Hf3.
  - done.
  - simpl. intros Hred. destruct (Hg3 Hred) as [-> <-]. done.
  - done.
  - exact Hk1.
  - simpl. intros cc ->. by destruct d.
Qed.
End ins.

Lemma insert_hang fuel h p t v : rep h p t -> rbt t -> t <> E -> unfound cmp key t -> fails (insert (Some cmp) fuel p key v) h EFuel.
Proof using Hself.
  intros Hp Hb Hne Hun. destruct t as [|c l k v0 r]; [done|]. pose proof Hp as (a0 & pl & pr & -> & Ha0 & _).
  unfold insert. apply (fails_bind_k _ _ _ ∅), wp_alloc. intros fr Hfr. apply fails_bind_l.
  eapply (insert_loop_hang h fr fuel _ (∅ ∪ {[fr]}) [] (Some a0)); [constructor|exact Hun|split; [done|exact Hb]| |done|done|done|done|].
  - split.
    + split_and!; [by rewrite lookup_insert|done|reflexivity].
    + by apply mrep_shared.
    + set_solver.
    + set_solver.
    + by apply insert_subseteq.
  - intros cc ->. by left.
Qed.

(** In place. *)
Section inplace.
Variable fr : loc.
Local Notation focq := (focq ∅ fr).
Local Notation foc h W ctx a := (focq h W ctx (Some a%positive) a%positive).
Local Notation dst := (dst ∅ fr).
Lemma inplace_loop_hang fuel : forall h W ctx q t Fc Ft gp g p dir r,
  trods ctx -> unfound cmp key t -> going (map snd ctx) t ->
  dst h W ctx q t Fc Ft ->
  p = par fr ctx ->
  (hdred ctx = true -> g = par fr (tail ctx) /\ dir = hddir (tail ctx)) ->
  (r <? 0)%Z = hddir ctx -> r <> 0%Z ->
  fails (inplace_loop (Some cmp) fuel key gp g p (Some (hdloc fr ctx)) dir r) h EFuel.
Proof using Hself.
  induction fuel as [|fuel IH]; intros h W ctx q t Fc Ft gp g p dir r Htr Hun Hgo Hdst -> Hv Hr Hr0.
  { cbn [inplace_loop]. rewrite (proj2 (Z.eqb_neq r 0) Hr0). done. }
  destruct (going_step cmp key _ _ Hgo) as (ctx1 & t1 & Efix & Hgo1).
  destruct (unfound_step cmp key Hself _ _ _ _ Htr Hun Efix) as (c1' & l1' & k1' & v1' & r1' & Et1 & Hk1 & Htr1 & Hun1).
  specialize (Hgo1 _ _ _ _ _ Et1).
  cbn [inplace_loop]. rewrite (proj2 (Z.eqb_neq r 0) Hr0). rewrite Hr.
  pose proof (dst_ctx _ _ _ _ _ _ _ _ _ Hdst) as Hc.
  destruct (crep_hd _ _ _ _ _ _ Hc) as (kg & vg & pog & Hg & Hg0 & HgF & _).
  apply (fails_bind_k _ _ _ W). eapply wp_ld_rb; [exact Hg|]. rewrite rchld_near.
  apply (fails_bind_k _ _ _ W).
  eapply wp_mono with (Q := fun n h' W' => exists a c l k v0 r pl pr Fl Fr,
     n = Some a /\ pre key t = T c l k v0 r /\ foc h' W' ctx a c l k v0 r pl pr Fc Fl Fr).
  { destruct t as [|ct lt kt vt rt].
    - destruct Hdst as [_ [-> ->] Hd HW Hfz]. apply wp_bind, wp_alloc. intros b Hb.
      apply wp_bind. eapply (foc_set ∅ fr _ _ ctx None b true E key VNil E None None Fc ∅ ∅); [|done|done|].
      { apply focq_fresh; try done; clear -HW; set_solver. }
      intros h' Hf. cbn [wp]. exists b, true, E, key, VNil, E, None, None, ∅, ∅. done.
    - pose proof (dst_t _ _ _ _ _ _ _ _ _ Hdst) as Ht. apply (owned_rooted cmp) in Ht.
      destruct (dst_owned _ _ _ _ _ _ _ _ _ _ _ _ _ Hdst Ht) as (a & pl & pr & Fl & Fr & -> & Hf & HFt).
      eapply (inplace_flip_wp cmp); [exact Hf|].
      intros h2 c' l' r' Hfl Hf2.
      exists a, c', l', kt, vt, r', pl, pr, Fl, Fr. done. }
  intros x h1 W1 (a & c & l & k & v0 & rt & pl & pr & Fl & Fr & -> & Hpre & Hf).
  apply (fails_bind_k _ _ _ W1). rewrite Hpre in Efix. eapply fix_wp; [exact Hf|exact Hv|exact Efix|].
  intros h3 ctx' c' l' r' pl' pr' Fl' Fr' Fc' g' p' dbl Hctx' Et2 Hf3 -> Hg3 _ _ _.
  cbn beta iota. subst ctx1. rewrite Et1 in Et2. injection Et2 as -> -> -> -> ->.
  apply (fails_bind_k _ _ _ W1). eapply wp_ld_rb; [exact (foc_node _ _ _ _ _ _ _ _ _ _ _ _ _ _ _ _ _ Hf3)|].
  cbn [rb_key call_cmp bind].
  unfold next_ctx in Htr1, Hgo1. set (d := todir cmp key k) in *.
  eapply (IH h3 W1 ((a, RbFun.Fr c' k v0 d (if d then l' else r') false) :: ctx')).
  - exact Htr1.
  - exact Hun1.
  - exact Hgo1.
  - apply foc_descend. exact Hf3.
  - done.
  - simpl. intros Hred. destruct (Hg3 Hred) as [-> <-]. done.
  - done.
  - exact Hk1.
Qed.
End inplace.
Lemma inplace_hang fuel h p t v F : owned h p t F -> rbt t -> t <> E -> unfound cmp key t -> fails (inplace_insert (Some cmp) fuel p key v) h EFuel.
Proof using Hself.
  intros Hp Hb Hne Hun. destruct t as [|c l k v0 r]; [done|]. destruct (owned_rooted cmp _ _ _ _ _ _ _ _ Hp) as (a0 & -> & Ha0).
  unfold inplace_insert. apply (fails_bind_k _ _ _ ∅), wp_alloc. intros fr Hfr. apply fails_bind_l.
  pose proof (fresh_notin_m _ _ _ _ _ _ Hp Hfr) as Hfr'.
  eapply (inplace_loop_hang fr fuel _ (F ∪ {[fr]}) [] (Some a0)); [constructor|exact Hun|split; [done|exact Hb]| |done|done|done|done].
  split.
  - split_and!; [by rewrite lookup_insert|done|reflexivity].
  - eapply mrep_agree; [exact Hp|]. intros x Hx. rewrite lookup_insert_ne; [done|]. intros ->. done.
  - clear -Hfr'. set_solver.
  - clear. set_solver.
  - apply empty_sub.
Qed.
End mem.
