(** * The memory model of insertion implements the functional version. *)
From Verif Require Import Prog RbModel RbSpec RbFun RbSim RbSimFix.

Section ins.
Context {U : Type}.
Local Notation heap := (heap U).
Local Notation tree := (tree U).
Local Notation frame := (frame U).
Local Notation value := (value U).
Implicit Types h : heap.
Variable h0 : heap.
Variable fr : loc.
Notation lctx := (list (loc * frame)).
Local Notation mrep := (mrep h0).
Local Notation crep := (crep h0 fr).
Local Notation focq := (focq h0 fr).
Local Notation foc h W ctx a := (focq h W ctx (Some a%positive) a%positive).

(** A hole with its tree. *)
Record dst h (W : gset loc) (ctx : lctx) (q : ptr) (t : tree) (Fc Ft : gset loc) : Prop := {
  dst_ctx : crep h ctx q Fc;
  dst_t : mrep h q t Ft;
  dst_d : Fc ## Ft;
  dst_W : Fc ∪ Ft ⊆ W;
  dst_frozen : h0 ⊆ h }.

Lemma fresh_notin_m h p t F a : mrep h p t F -> h !! a = None -> a ∉ F.
Proof. intros H Ha Hin. apply (mrep_dom h0 _ _ _ _ H) in Hin as [[? ?] _]. congruence. Qed.
Lemma fresh_notin_c h ctx q F a : crep h ctx q F -> h !! a = None -> a ∉ F.
Proof. intros H Ha Hin. apply (crep_dom h0 _ _ _ _ _ H) in Hin as [[? ?] _]. congruence. Qed.

(** Putting the node into the hole. *)
Lemma foc_set h W ctx q a c l k v r pl pr Fc Fl Fr n d (Q : unit -> heap -> gset loc -> Prop) :
  focq h W ctx q a c l k v r pl pr Fc Fl Fr -> n = Some (hdloc fr ctx) -> d = hddir ctx ->
  (forall h', foc h' W ctx a c l k v r pl pr Fc Fl Fr -> Q tt h' W) ->
  wp (set_rchld n d (Some a)) h W Q.
Proof.
  intros [Hc Ha Ha0 Hl Hr Hal Har Hlr Hac Hcl Hcr HW Hfz] -> -> HQ.
  destruct (crep_hd _ _ _ _ _ _ Hc) as (kg & vg & pog & Hg & Hg0 & HgF & Hset).
  eapply wp_set_rchld; [exact Hg|done|clear -HgF HW; set_solver|]. apply HQ.
  set (g := hdloc fr ctx) in *.
  split; try done.
  - apply Hset; [by rewrite lookup_insert|]. intros. by rewrite lookup_insert_ne.
  - rewrite lookup_insert_ne; [done|]. clear -Hac HgF. set_solver.
  - eapply mrep_agree; [exact Hl|]. intros. rewrite lookup_insert_ne; [done|]. clear -Hcl HgF H. set_solver.
  - eapply mrep_agree; [exact Hr|]. intros. rewrite lookup_insert_ne; [done|]. clear -Hcr HgF H. set_solver.
  - by apply frozen_insert.
Qed.

Lemma rep_isred h p (t : tree) (Q : bool -> heap -> gset loc -> Prop) W : rep h p t -> Q (isred t) h W -> wp (is_red p) h W Q.
Proof.
  destruct t as [|c l k v r]; simpl.
  - intros -> HQ. done.
  - intros (a & pl & pr & -> & Ha & _) HQ. unfold is_red. apply wp_bind. eapply wp_ld_rb; [exact Ha|]. done.
Qed.
Lemma both_red_wp h W k v pl pr c (l r : tree) (Q : bool -> heap -> gset loc -> Prop) :
  rep h pl l -> rep h pr r -> Q (isred l && isred r) h W -> wp (both_red (RbN k v pl pr c)) h W Q.
Proof.
  intros Hl Hr HQ. unfold both_red. cbn [rb_l rb_r].
  destruct l as [|cl l1 kl vl l2]; simpl in Hl; [by subst|].
  destruct Hl as (al & pll & plr & -> & Hal & _).
  destruct r as [|cr r1 kr vr r2]; simpl in Hr; [subst; by rewrite andb_false_r in HQ|].
  destruct Hr as (ar & prl & prr & -> & Har & _).
  apply wp_bind. eapply wp_ld_rb; [exact Hal|]. cbn [rb_red]. simpl in HQ. destruct cl; [|done].
  apply wp_bind. eapply wp_ld_rb; [exact Har|]. done.
Qed.

(** A fresh node between the path and subtrees. *)
Lemma focq_fresh h W ctx q a c l k v r pl pr Fc Fl Fr :
  h !! a = None -> crep h ctx q Fc -> mrep h pl l Fl -> mrep h pr r Fr -> Fl ## Fr -> Fc ## Fl -> Fc ## Fr ->
  Fl ∪ Fr ∪ Fc ⊆ W -> h0 ⊆ h ->
  focq (<[a := CRb (RbN k v pl pr c)]> h) ({[a]} ∪ W) ctx q a c l k v r pl pr Fc Fl Fr.
Proof.
  intros Ha Hc Hl Hr H1 H2 H3 HW Hfz.
  pose proof (fresh_notin_c _ _ _ _ _ Hc Ha) as F1.
  pose proof (fresh_notin_m _ _ _ _ _ Hl Ha) as F2.
  pose proof (fresh_notin_m _ _ _ _ _ Hr Ha) as F3.
  split; try done.
  - eapply crep_agree; [exact Hc|]. intros x Hx. rewrite lookup_insert_ne; [done|]. clear -F1 Hx. set_solver.
  - by rewrite lookup_insert.
  - by eapply frozen_none.
  - eapply mrep_agree; [exact Hl|]. intros x Hx. rewrite lookup_insert_ne; [done|]. clear -F2 Hx. set_solver.
  - eapply mrep_agree; [exact Hr|]. intros x Hx. rewrite lookup_insert_ne; [done|]. clear -F3 Hx. set_solver.
  - clear -HW. set_solver.
  - apply frozen_insert; [done|]. by eapply frozen_none.
Qed.

(** Copying the node in the hole unless it is already private. *)
Lemma full_copy_wp h W ctx q c l k v r Fc Ft (Q : ptr -> heap -> gset loc -> Prop) :
  dst h W ctx q (T c l k v r) Fc Ft ->
  (forall h' W' a pl pr Fl Fr, focq h' W' ctx q a c l k v r pl pr Fc Fl Fr -> Q (Some a) h' W') ->
  wp (full_copy q) h W Q.
Proof.
  intros [Hc Ht Hd HW Hfz] HQ.
  destruct (mrep_open _ _ _ _ _ _ _ _ _ false Hfz Ht) as (a & pl & pr & Fl & Fr & -> & Ha & Hl & Hr & Hlr & Hal & Har & HF).
  simpl in Ha, Hl, Hr. unfold full_copy. apply wp_bind. eapply wp_ld_rb; [exact Ha|]. apply wp_bind, wp_alloc. intros b Hb.
  cbn [wp]. eapply HQ. apply focq_fresh; try done.
  - destruct HF as [(_ & _ & ->)|(_ & -> & -> & ->)]; clear -Hd; set_solver.
  - destruct HF as [(_ & _ & ->)|(_ & -> & -> & ->)]; clear -Hd; set_solver.
  - destruct HF as [(_ & _ & ->)|(_ & -> & -> & ->)]; clear -Hd HW; set_solver.
Qed.

Lemma dst_owned h W ctx q c l k v r Fc Ft : dst h W ctx q (T c l k v r) Fc Ft -> rooted q Ft ->
  exists a pl pr Fl Fr, q = Some a /\ foc h W ctx a c l k v r pl pr Fc Fl Fr /\ Ft = {[a]} ∪ Fl ∪ Fr.
Proof.
  intros [Hc Ht Hd HW Hfz] (a & -> & HaF).
  destruct (mrep_open _ _ _ _ _ _ _ _ _ false Hfz Ht) as (a' & pl & pr & Fl & Fr & [= <-] & Ha & Hl & Hr & Hlr & Hal & Har & HF).
  simpl in Ha, Hl, Hr. destruct HF as [(_ & Ha0 & ->)|(_ & -> & _)]; [|set_solver].
  exists a, pl, pr, Fl, Fr. split; [done|]. split; [|done]. split; try done; clear -Hd HW; set_solver.
Qed.

Lemma maybe_copy_wp h W ctx q cc c l k v r Fc Ft (Q : ptr -> heap -> gset loc -> Prop) :
  dst h W ctx q (T c l k v r) Fc Ft -> (cc = None \/ (cc = q /\ rooted q Ft)) ->
  (forall h' W' a pl pr Fl Fr, focq h' W' ctx q a c l k v r pl pr Fc Fl Fr -> Q (Some a) h' W') ->
  wp (if ptr_eqb q cc then Ret q else full_copy q) h W Q.
Proof.
  intros Hd Hcc HQ. destruct Hcc as [->|[-> Hro]].
  - rewrite ptr_eqb_ne; [by eapply full_copy_wp|]. destruct Hd as [_ Ht _ _ _]. intros ->.
    apply (mrep_ptr h0) in Ht as [Ht _]. by specialize (Ht eq_refl).
  - rewrite ptr_eqb_refl. cbn [wp]. destruct (dst_owned _ _ _ _ _ _ _ _ _ _ _ Hd Hro) as (a & pl & pr & Fl & Fr & -> & Hf & HFt).
    by eapply HQ.
Qed.

Lemma color_copy_wp h W p c l k v r F col (Q : ptr -> heap -> gset loc -> Prop) :
  h0 ⊆ h -> mrep h p (T c l k v r) F -> F ⊆ W ->
  (forall a h' F', h !! a = None -> h0 ⊆ h' -> mrep h' (Some a) (T col l k v r) F' -> a ∈ F' -> F' ⊆ {[a]} ∪ F ->
     (forall x, x <> a -> h' !! x = h !! x) -> Q (Some a) h' ({[a]} ∪ W)) ->
  wp (color_copy p col) h W Q.
Proof.
  intros Hfz Ht HW HQ.
  destruct (mrep_open _ _ _ _ _ _ _ _ _ false Hfz Ht) as (a & pl & pr & Fl & Fr & -> & Ha & Hl & Hr & Hlr & Hal & Har & HF).
  simpl in Ha, Hl, Hr. unfold color_copy. apply wp_bind. eapply wp_ld_rb; [exact Ha|]. apply wp_bind, wp_alloc. intros b Hb.
  pose proof (fresh_notin_m _ _ _ _ _ Hl Hb) as F2.
  pose proof (fresh_notin_m _ _ _ _ _ Hr Hb) as F3.
  assert (h0 !! b = None) as Hb0 by (by eapply frozen_none).
  cbn [wp rb_key rb_val rb_l rb_r]. apply (HQ b _ ({[b]} ∪ Fl ∪ Fr)); try done.
  - by apply frozen_insert.
  - right. exists b, pl, pr, Fl, Fr. split_and!; try done.
    + by rewrite lookup_insert.
    + eapply mrep_agree; [exact Hl|]. intros x Hx. rewrite lookup_insert_ne; [done|]. clear -F2 Hx. set_solver.
    + eapply mrep_agree; [exact Hr|]. intros x Hx. rewrite lookup_insert_ne; [done|]. clear -F3 Hx. set_solver.
  - clear; set_solver.
  - destruct HF as [(_ & _ & ->)|(_ & -> & -> & ->)]; clear; set_solver.
  - intros x Hx. by rewrite lookup_insert_ne.
Qed.

Lemma mrep_weaken h h' p t F a : mrep h p t F -> h !! a = None -> (forall x, x <> a -> h' !! x = h !! x) -> mrep h' p t F.
Proof.
  intros H Ha Hag. eapply mrep_agree; [exact H|]. intros x Hx. apply Hag. intros ->.
  by apply (fresh_notin_m _ _ _ _ _ H Ha).
Qed.
Lemma crep_weaken h h' ctx q F a : crep h ctx q F -> h !! a = None -> (forall x, x <> a -> h' !! x = h !! x) -> crep h' ctx q F.
Proof.
  intros H Ha Hag. eapply crep_agree; [exact H|]. intros x Hx. apply Hag. intros ->.
  by apply (fresh_notin_c _ _ _ _ _ H Ha).
Qed.

(** The colour flip of the copying insertion. *)
Lemma flip_wp h W ctx q a c l k v r pl pr Fc Fl Fr (Q : ptr * ptr * ptr -> heap -> gset loc -> Prop) :
  focq h W ctx q a c l k v r pl pr Fc Fl Fr ->
  (forall h' W' c' l' r' pl' pr' Fl' Fr' c0 c1, flip (T c l k v r) = T c' l' k v r' ->
     focq h' W' ctx q a c' l' k v r' pl' pr' Fc Fl' Fr' ->
     (c0 = None \/ c0 = pl' /\ rooted pl' Fl') -> (c1 = None \/ c1 = pr' /\ rooted pr' Fr') ->
     Q (Some a, c0, c1) h' W') ->
  wp (nn <- ld_rb (Some a) ;;
      b <- both_red nn ;;
      if b then
        set_red (Some a) true ;;;
        c0 <- color_copy (rb_l nn) false ;;
        c1 <- color_copy (rb_r nn) false ;;
        set_rchld (Some a) false c0 ;;; set_rchld (Some a) true c1 ;;;
        Ret (Some a, c0, c1)
      else Ret (Some a, None, None)) h W Q.
Proof.
  intros Hf HQ. pose proof Hf as [Hc Ha Ha0 Hl Hr Hal Har Hlr Hac Hcl Hcr HW Hfz].
  apply wp_bind. eapply wp_ld_rb; [exact Ha|]. apply wp_bind.
  eapply both_red_wp; [by eapply mrep_rep|by eapply mrep_rep|].
  destruct (isred l && isred r) eqn:Eb.
  2: { cbn [wp]. eapply HQ; [|exact Hf|by left|by left]. simpl. by rewrite Eb. }
  pose proof Eb as Eb'. apply andb_true_iff in Eb as [El Er].
  destruct l as [|cl l1 kl vl l2]; [done|]. destruct r as [|cr r1 kr vr r2]; [done|]. simpl in El, Er. subst cl cr.
  apply wp_bind. eapply wp_set_red; [by rewrite (RbN_ndir false) in Ha|clear -HW; set_solver|].
  set (h1 := <[a:=_]> h). cbn [rb_l rb_r].
  assert (Hag1 : forall x, x <> a -> h1 !! x = h !! x) by (intros; by apply lookup_insert_ne).
  assert (Ha1 : h1 !! a = Some (CRb (ndir false true k v pl pr))) by apply lookup_insert.
  assert (Hfz1 : h0 ⊆ h1) by (by apply frozen_insert). clearbody h1.
  apply wp_bind. eapply color_copy_wp with (F := Fl); [exact Hfz1| |clear -HW; set_solver|].
  { eapply mrep_agree; [exact Hl|]. intros x Hx. apply Hag1. intros ->. done. }
  intros al h2 Fl' Hal1 Hfz2 Hl' Hlin Hlsub Hag2.
  assert (Hr1 : mrep h1 pr (T true r1 kr vr r2) Fr).
  { eapply mrep_agree; [exact Hr|]. intros x Hx. apply Hag1. intros ->. done. }
  assert (Hc1 : crep h1 ctx q Fc).
  { eapply crep_agree; [exact Hc|]. intros x Hx. apply Hag1. intros ->. done. }
  assert (Hr2 : mrep h2 pr (T true r1 kr vr r2) Fr) by (eapply mrep_weaken; [exact Hr1|exact Hal1|done]).
  assert (Hc2 : crep h2 ctx q Fc) by (eapply crep_weaken; [exact Hc1|exact Hal1|done]).
  pose proof (fresh_notin_m _ _ _ _ _ Hr1 Hal1) as N1.
  pose proof (fresh_notin_c _ _ _ _ _ Hc1 Hal1) as N2.
  assert (Na : al <> a) by congruence.
  assert (Ha2 : h2 !! a = Some (CRb (ndir false true k v pl pr))) by (rewrite Hag2 by done; done).
  apply wp_bind. eapply color_copy_wp; [exact Hfz2|exact Hr2|clear -HW; set_solver|].
  intros ar h3 Fr' Har1 Hfz3 Hr' Hrin Hrsub Hag3.
  assert (Hl3 : mrep h3 (Some al) (T false l1 kl vl l2) Fl') by (eapply mrep_weaken; [exact Hl'|exact Har1|done]).
  assert (Hc3 : crep h3 ctx q Fc) by (eapply crep_weaken; [exact Hc2|exact Har1|done]).
  pose proof (fresh_notin_m _ _ _ _ _ Hl' Har1) as N3.
  pose proof (fresh_notin_c _ _ _ _ _ Hc2 Har1) as N4.
  assert (Nb : ar <> a) by congruence.
  assert (Ha3 : h3 !! a = Some (CRb (ndir false true k v pl pr))) by (rewrite Hag3 by done; done).
  assert (Nal : a ∉ Fl') by (clear -Hal Hlsub Na; set_solver).
  assert (Nar : a ∉ Fr') by (clear -Har Hrsub Nb; set_solver).
  apply wp_bind. eapply wp_set_rchld; [exact Ha3|done|clear -HW; set_solver|].
  apply wp_bind. eapply wp_set_rchld_far; [by rewrite lookup_insert|done|clear -HW; set_solver|].
  rewrite insert_insert. cbn [wp].
  set (h4 := <[a:=_]> h3).
  assert (Hag4 : forall x, x <> a -> h4 !! x = h3 !! x) by (intros; by apply lookup_insert_ne).
  eapply (HQ h4 _ true (T false l1 kl vl l2) (T false r1 kr vr r2) (Some al) (Some ar) Fl' Fr').
  - simpl. done.
  - split; try done.
    + eapply crep_agree; [exact Hc3|]. intros x Hx. apply Hag4. intros ->. done.
    + unfold h4. by rewrite lookup_insert.
    + eapply mrep_agree; [exact Hl3|]. intros x Hx. apply Hag4. intros ->. done.
    + eapply mrep_agree; [exact Hr'|]. intros x Hx. apply Hag4. intros ->. done.
    + clear -Hlr Hlsub Hrsub N1 N3. set_solver.
    + clear -Hcl Hlsub N2. set_solver.
    + clear -Hcr Hrsub N4. set_solver.
    + clear -HW Hlsub Hrsub. set_solver.
    + by apply frozen_insert.
  - right. split; [done|]. by exists al.
  - right. split; [done|]. by exists ar.
Qed.

Section loop.
Variable cmp : bytes -> bytes -> Z.
Variable key : bytes.

Lemma fixv_next (ctx : list frame) (t : tree) ctx1 t1 : fixv ctx t = Some (ctx1, t1) -> t <> E -> t1 <> E.
Proof.
  unfold fixv. intros H Ht. destruct ctx as [|f1 ctx]; [by injection H as <- <-|].
  destruct (isred t && f_red f1); [|by injection H as <- <-].
  destruct ctx as [|f2 ctx]; [done|]. destruct (eqb _ _); [by injection H as <- <-|].
  destruct t; [done|]. injection H as <- <-. by destruct (f_dir f2).
Qed.

Lemma pick_dir (d : bool) (A : Type) (x y : A) (P : A -> Prop) : P x -> P y -> P (if d then x else y).
Proof. by destruct d. Qed.

(** The state when the search goes on below the focused node. *)
Lemma foc_descend h W ctx a c l k v r pl pr Fc Fl Fr d :
  foc h W ctx a c l k v r pl pr Fc Fl Fr ->
  dst h W ((a, RbFun.Fr c k v d (if d then l else r) false) :: ctx) (if d then pr else pl) (if d then r else l)
    ({[a]} ∪ (if d then Fl else Fr) ∪ Fc) (if d then Fr else Fl).
Proof.
  intros [Hc Ha Ha0 Hl Hr Hal Har Hlr Hac Hcl Hcr HW Hfz]. split.
  - exists (if d then pl else pr), (if d then Fl else Fr), Fc. simpl. rewrite (RbN_ndir d) in Ha.
    split_and!; try done; destruct d; try done; clear -Hlr Hcl Hcr; set_solver.
  - by destruct d.
  - destruct d; clear -Hlr Hcl Hcr Hal Har; set_solver.
  - destruct d; clear -HW; set_solver.
  - done.
Qed.

Lemma insert_loop_wp fuel : forall h W ctx q t Fc Ft gp g p c0 c1 dir r v t',
  ins_loop cmp key fuel (map snd ctx) t v = Some t' ->
  dst h W ctx q t Fc Ft ->
  p = par fr ctx ->
  (hdred ctx = true -> g = par fr (tail ctx) /\ dir = hddir (tail ctx)) ->
  (r <? 0)%Z = hddir ctx -> r <> 0%Z ->
  (forall cc, cc = (if hddir ctx then c1 else c0) -> cc = None \/ cc = q /\ rooted q Ft) ->
  wp (insert_loop (Some cmp) fuel key gp g p (Some (hdloc fr ctx)) c0 c1 dir r) h W (fun n h' W' =>
    exists ctx' a c l k v0 r pl pr Fc Fl Fr, n = Some a /\ foc h' W' ctx' a c l k v0 r pl pr Fc Fl Fr /\
      plug (map snd ctx') (T c l k v r) = t').
Proof.
  induction fuel as [|fuel IH]; intros h W ctx q t Fc Ft gp g p c0 c1 dir r v t' Hins Hdst -> Hv Hr Hr0 Hcc; [done|].
  simpl in Hins. destruct (fixv (map snd ctx) (pre key t)) as [[ctx1 t1]|] eqn:Efix; [|done].
  cbn [insert_loop]. rewrite (proj2 (Z.eqb_neq r 0) Hr0). rewrite Hr.
  pose proof (dst_ctx _ _ _ _ _ _ _ Hdst) as Hc.
  destruct (crep_hd _ _ _ _ _ _ Hc) as (kg & vg & pog & Hg & Hg0 & HgF & _).
  apply wp_bind. eapply wp_ld_rb; [exact Hg|]. rewrite rchld_near.
  apply wp_bind.
  eapply wp_mono with (Q := fun x h' W' => exists a c l k v0 r pl pr Fl Fr c0 c1,
     x = (Some a, c0, c1) /\ pre key t = T c l k v0 r /\ focq h' W' ctx q a c l k v0 r pl pr Fc Fl Fr /\
     (c0 = None \/ c0 = pl /\ rooted pl Fl) /\ (c1 = None \/ c1 = pr /\ rooted pr Fr)).
  { destruct t as [|ct lt kt vt rt].
    - destruct Hdst as [_ [-> ->] Hd HW Hfz]. apply wp_bind, wp_alloc. intros b Hb. cbn [wp].
      exists b, true, E, key, VNil, E, None, None, ∅, ∅, None, None. split_and!; [done|done| |by left|by left].
      apply focq_fresh; try done; clear -HW; set_solver.
    - destruct q as [q|]. 2: { destruct Hdst as [_ Ht _ _ _]. apply (mrep_ptr h0) in Ht as [Ht _]. by specialize (Ht eq_refl). }
      apply wp_bind. eapply maybe_copy_wp; [exact Hdst|by apply Hcc|].
      intros h' W' a pl pr Fl Fr Hf. eapply flip_wp; [exact Hf|].
      intros h2 W2 c' l' r' pl' pr' Fl' Fr' x0 x1 Hfl Hf2 Hx0 Hx1.
      exists a, c', l', kt, vt, r', pl', pr', Fl', Fr', x0, x1. done. }
  intros x h1 W1 (a & c & l & k & v0 & rt & pl & pr & Fl & Fr & x0 & x1 & -> & Hpre & Hf & Hx0 & Hx1).
  apply wp_bind. eapply foc_set; [exact Hf|done|done|]. clear Hf. intros h2 Hf.
  apply wp_bind. rewrite Hpre in Efix. eapply fix_wp; [exact Hf|exact Hv|exact Efix|].
  intros h3 ctx' c' l' r' pl' pr' Fl' Fr' Fc' g' p' dbl <- -> Hf3 -> Hg3 Hdf Hdt _.
  cbn beta iota.
  apply wp_bind. eapply wp_ld_rb; [exact (foc_node _ _ _ _ _ _ _ _ _ _ _ _ _ _ _ _ _ Hf3)|].
  cbn [rb_l rb_r rb_key].
  set (yy := if dbl then _ else _).
  assert ((yy.1 = None \/ yy.1 = pl' /\ rooted pl' Fl') /\ (yy.2 = None \/ yy.2 = pr' /\ rooted pr' Fr')) as [Hy0 Hy1].
  { unfold yy. destruct dbl.
    - destruct (Hdt eq_refl). eauto 10.
    - destruct (Hdf eq_refl) as (-> & -> & -> & ->). eauto 10. }
  clearbody yy. destruct yy as [y0 y1]. simpl in Hy0, Hy1.
  apply wp_bind. cbn [call_cmp wp].
  destruct (cmp k key =? 0)%Z eqn:Er.
  - injection Hins as <-.
    destruct fuel; cbn [insert_loop]; rewrite Er; cbn [wp]; exists ctx', a, c', l', k, v0, r', pl', pr', Fc', Fl', Fr'; done.
  - set (d := todir cmp key k) in *.
    eapply (IH h3 W1 ((a, RbFun.Fr c' k v0 d (if d then l' else r') false) :: ctx')).
    + exact Hins.
    + apply foc_descend. exact Hf3.
    + done.
    + simpl. intros Hred. destruct (Hg3 Hred) as [-> <-]. done.
    + done.
    + by apply Z.eqb_neq.
    + simpl. intros cc ->. by destruct d.
Qed.

(** The end of both insertions: the value is set and the root blackened. *)
Lemma ins_end_wp h W ctx a c l k v0 r pl pr Fc Fl Fr v (Q : ptr -> heap -> gset loc -> Prop) :
  foc h W ctx a c l k v0 r pl pr Fc Fl Fr ->
  (forall b h' F, h0 ⊆ h' -> mrep h' (Some b) (recolor false (plug (map snd ctx) (T c l k v r))) F -> F ⊆ W -> {[a]} ∪ Fl ∪ Fr ∪ Fc ⊆ {[fr]} ∪ F -> Q (Some b) h' W) ->
  wp (set_val (Some a) v ;;;
      rn <- ld_rb (Some fr) ;;
      let n := rb_r rn in
      set_red n false ;;;
      Ret n) h W Q.
Proof.
  intros [Hc Ha Ha0 Hl Hr Hal Har Hlr Hac Hcl Hcr HW Hfz] HQ.
  rewrite (RbN_ndir false) in Ha. apply wp_bind. eapply wp_set_val; [exact Ha|clear -HW; set_solver|].
  set (h1 := <[a:=_]> h).
  assert (Hag1 : forall x, x <> a -> h1 !! x = h !! x) by (intros; by apply lookup_insert_ne).
  assert (Ha1 : h1 !! a = Some (CRb (ndir false c k v pl pr))) by apply lookup_insert.
  assert (Hfz1 : h0 ⊆ h1) by (by apply frozen_insert). clearbody h1.
  assert (mrep h1 (Some a) (T c l k v r) ({[a]} ∪ Fl ∪ Fr)) as Ht.
  { apply (mrep_node h0 h1 a false _ _ _ _ _ _ _ _ _ Ha1); try done.
    - eapply mrep_agree; [exact Hl|]. intros x Hx. apply Hag1. intros ->. done.
    - eapply mrep_agree; [exact Hr|]. intros x Hx. apply Hag1. intros ->. done. }
  destruct (crep_plug h0 fr h1 ctx (Some a) (T c l k v r) Fc ({[a]} ∪ Fl ∪ Fr)) as (qr & F & Hq1 & Hq2 & Hq3 & Hq4 & Hq5 & Hq6 & Hq8 & Hq7).
  { eapply crep_agree; [exact Hc|]. intros x Hx. apply Hag1. intros ->. done. }
  { exact Ht. }
  { clear -Hac Hcl Hcr. set_solver. }
  apply wp_bind. eapply wp_ld_rb; [exact Hq1|]. cbn [ndir rb_r].
  destruct Hq7 as (b & -> & HbF). { right. exists a. clear; set_solver. }
  destruct (plug (map snd ctx) (T c l k v r)) as [|c' l' k' v' r']; [by destruct Hq4|].
  destruct (mrep_open _ _ _ _ _ _ _ _ _ false Hfz1 Hq4) as (b' & pl' & pr' & Fl' & Fr' & [= <-] & Hb & Hl' & Hr' & Hlr' & Hal' & Har' & HF).
  destruct HF as [(_ & Hb0 & ->)|(_ & -> & _)]; [|clear -HbF; set_solver].
  apply wp_bind. eapply wp_set_red; [exact Hb|clear -HW Hq6; set_solver|].
  cbn [wp]. eapply (HQ b _ ({[b]} ∪ Fl' ∪ Fr')).
  - by apply frozen_insert.
  - simpl recolor. apply (mrep_node h0 _ b false _ _ _ _ _ pl' pr'); try done.
    + by rewrite lookup_insert.
    + eapply mrep_agree; [exact Hl'|]. intros x Hx. rewrite lookup_insert_ne; [done|]. intros ->. done.
    + eapply mrep_agree; [exact Hr'|]. intros x Hx. rewrite lookup_insert_ne; [done|]. intros ->. done.
  - etrans; [exact Hq6|]. clear -HW; set_solver.
  - clear -Hq8; set_solver.
Qed.
End loop.
End ins.
