(** * The memory model of the red-black tree implements the functional version:
    representation predicates and rotations. *)
From Verif Require Import Prog RbModel RbSpec RbFun.

(** A node seen from a direction: [near] is its child in direction [d]. *)
Definition ndir {U} (d c : bool) (k : bytes) (v : value U) (near far : ptr) : rbnode U :=
  if d then RbN k v far near c else RbN k v near far c.

Section nodes.
Context {U : Type}.
Local Notation heap := (heap U).
Implicit Types h : heap.

Lemma ndir_negb d c k v x y : ndir (U:=U) (negb d) c k v x y = ndir d c k v y x.
Proof. by destruct d. Qed.
Lemma rchld_near d c k v x y : rchld (ndir (U:=U) d c k v x y) d = x.
Proof. by destruct d. Qed.
Lemma rchld_far d c k v x y : rchld (ndir (U:=U) d c k v x y) (negb d) = y.
Proof. by destruct d. Qed.
Lemma with_near d c k v x y p : with_rchld (ndir (U:=U) d c k v x y) d p = ndir d c k v p y.
Proof. by destruct d. Qed.
Lemma with_far d c k v x y p : with_rchld (ndir (U:=U) d c k v x y) (negb d) p = ndir d c k v x p.
Proof. by destruct d. Qed.
Lemma ndir_red d c k v x y : rb_red (ndir (U:=U) d c k v x y) = c.
Proof. by destruct d. Qed.
Lemma ndir_key d c k v x y : rb_key (ndir (U:=U) d c k v x y) = k.
Proof. by destruct d. Qed.
Lemma ndir_val d c k v x y : rb_val (ndir (U:=U) d c k v x y) = v.
Proof. by destruct d. Qed.

(** Field assignments. *)
Lemma wp_set_rchld a d0 d c k v x y p h W (Q : unit -> heap -> gset loc -> Prop) :
  h !! a = Some (CRb (ndir d c k v x y)) -> d0 = d -> a ∈ W ->
  Q tt (<[a := CRb (ndir d c k v p y)]> h) W ->
  wp (set_rchld (Some a) d0 p) h W Q.
Proof.
  intros Ha -> HW HQ. unfold set_rchld. apply wp_bind. eapply wp_ld_rb; [exact Ha|].
  rewrite with_near. by eapply wp_st_rb; [|by eexists|].
Qed.
Lemma wp_set_rchld_far a d0 d c k v x y p h W (Q : unit -> heap -> gset loc -> Prop) :
  h !! a = Some (CRb (ndir d c k v x y)) -> d0 = negb d -> a ∈ W ->
  Q tt (<[a := CRb (ndir d c k v x p)]> h) W ->
  wp (set_rchld (Some a) d0 p) h W Q.
Proof.
  intros Ha -> HW HQ. unfold set_rchld. apply wp_bind. eapply wp_ld_rb; [exact Ha|].
  rewrite with_far. by eapply wp_st_rb; [|by eexists|].
Qed.
Lemma wp_set_red a d c k v x y b h W (Q : unit -> heap -> gset loc -> Prop) :
  h !! a = Some (CRb (ndir d c k v x y)) -> a ∈ W ->
  Q tt (<[a := CRb (ndir d b k v x y)]> h) W ->
  wp (set_red (Some a) b) h W Q.
Proof.
  intros Ha HW HQ. unfold set_red. apply wp_bind. eapply wp_ld_rb; [exact Ha|].
  eapply wp_st_rb; [done|by eexists|]. by destruct d.
Qed.
Lemma wp_set_val a d c k v x y b h W (Q : unit -> heap -> gset loc -> Prop) :
  h !! a = Some (CRb (ndir d c k v x y)) -> a ∈ W ->
  Q tt (<[a := CRb (ndir d c k b x y)]> h) W ->
  wp (set_val (Some a) b) h W Q.
Proof.
  intros Ha HW HQ. unfold set_val. apply wp_bind. eapply wp_ld_rb; [exact Ha|].
  eapply wp_st_rb; [done|by eexists|]. by destruct d.
Qed.
Lemma wp_set_key a d c k v x y b h W (Q : unit -> heap -> gset loc -> Prop) :
  h !! a = Some (CRb (ndir d c k v x y)) -> a ∈ W ->
  Q tt (<[a := CRb (ndir d c b v x y)]> h) W ->
  wp (set_key (Some a) b) h W Q.
Proof.
  intros Ha HW HQ. unfold set_key. apply wp_bind. eapply wp_ld_rb; [exact Ha|].
  eapply wp_st_rb; [done|by eexists|]. by destruct d.
Qed.

(** Lookups in updated memory. *)
Ltac lk := repeat first [rewrite lookup_insert by done | rewrite lookup_insert_ne by done].

Lemma wp_single n s d cn kn vn on cs ks vs x y h W (Q : ptr -> heap -> gset loc -> Prop) :
  h !! n = Some (CRb (ndir d cn kn vn (Some s) on)) ->
  h !! s = Some (CRb (ndir d cs ks vs x y)) ->
  n <> s -> n ∈ W -> s ∈ W ->
  (forall h', h' !! n = Some (CRb (ndir d true kn vn y on)) ->
     h' !! s = Some (CRb (ndir d false ks vs x (Some n))) ->
     (forall z, z <> n -> z <> s -> h' !! z = h !! z) -> Q (Some s) h' W) ->
  wp (single (Some n) d) h W Q.
Proof.
  intros Hn Hs Hne HnW HsW HQ. unfold single. apply wp_bind. eapply wp_ld_rb; [exact Hn|].
  rewrite rchld_near. apply wp_bind. eapply wp_ld_rb; [exact Hs|]. rewrite rchld_far.
  apply wp_bind. eapply wp_set_rchld; [exact Hn|done|done|].
  apply wp_bind. eapply wp_set_rchld_far; [lk; exact Hs|done|done|].
  apply wp_bind. eapply wp_set_red; [lk; done|done|].
  apply wp_bind. eapply wp_set_red; [lk; done|done|].
  cbn [wp]. apply HQ; intros; lk; done.
Qed.

Lemma wp_double n s q d cn kn vn on cs ks vs x cq kq vq y z h W (Q : ptr -> heap -> gset loc -> Prop) :
  h !! n = Some (CRb (ndir d cn kn vn (Some s) on)) ->
  h !! s = Some (CRb (ndir d cs ks vs x (Some q))) ->
  h !! q = Some (CRb (ndir d cq kq vq y z)) ->
  n <> s -> n <> q -> s <> q -> n ∈ W -> s ∈ W -> q ∈ W ->
  (forall h', h' !! n = Some (CRb (ndir d true kn vn z on)) ->
     h' !! s = Some (CRb (ndir d true ks vs x y)) ->
     h' !! q = Some (CRb (ndir d false kq vq (Some s) (Some n))) ->
     (forall w, w <> n -> w <> s -> w <> q -> h' !! w = h !! w) -> Q (Some q) h' W) ->
  wp (double (Some n) d) h W Q.
Proof.
  intros Hn Hs Hq H1 H2 H3 HnW HsW HqW HQ. unfold double. apply wp_bind. eapply wp_ld_rb; [exact Hn|].
  rewrite rchld_near. apply wp_bind. rewrite <- ndir_negb in Hs, Hq.
  eapply wp_single; [exact Hs|exact Hq|done|done|done|].
  intros h1 Hs1 Hq1 Ho1. rewrite ndir_negb in Hs1, Hq1.
  apply wp_bind. eapply wp_set_rchld; [rewrite Ho1 by done; exact Hn|done|done|].
  eapply wp_single; [by lk|by lk|done|done|done|].
  intros h2 Hn2 Hq2 Ho2. apply HQ; [done| |done|].
  - rewrite Ho2 by done. by lk.
  - intros w Hw1 Hw2 Hw3. rewrite Ho2 by done. lk. by apply Ho1.
Qed.
End nodes.

(** ** Trees in memory. *)
Section rep.
Context {U : Type}.
Local Notation heap := (heap U).
Local Notation tree := (tree U).
Local Notation frame := (frame U).
Local Notation value := (value U).
Implicit Types h : heap.

(** [p] points to a tree in [h]; nodes may be shared. *)
Fixpoint rep h (p : ptr) (t : tree) : Prop :=
  match t with
  | E => p = None
  | T c l k v r => exists a pl pr, p = Some a /\ h !! a = Some (CRb (RbN k v pl pr c)) /\
                     rep h pl l /\ rep h pr r
  end.

Lemma rep_mono h h' p t : h ⊆ h' -> rep h p t -> rep h' p t.
Proof.
  intros Hs. revert p. induction t as [|c l IHl k v r IHr]; simpl; intros p; [done|].
  intros (a & pl & pr & -> & Ha & Hl & Hr). exists a, pl, pr. split_and!; auto.
  eapply lookup_weaken; eauto.
Qed.
Lemma rep_det h p t1 t2 : rep h p t1 -> rep h p t2 -> t1 = t2.
Proof.
  revert p t2. induction t1 as [|c l IHl k v r IHr]; intros p t2; simpl.
  - intros ->. destruct t2; [done|]. simpl. naive_solver.
  - intros (a & pl & pr & -> & Ha & Hl & Hr). destruct t2; simpl; [done|].
    intros (a' & pl' & pr' & [= <-] & Ha' & Hl' & Hr'). rewrite Ha in Ha'. injection Ha' as -> -> -> -> ->.
    f_equal; eauto.
Qed.

(** Everything below is relative to a part [h0] of the memory that stays as it is. *)
Variable h0 : heap.

(** A tree some of whose nodes (the set [F], each used once) are private,
    outside [h0]; the other subtrees are in [h0]. *)
Fixpoint mrep h (p : ptr) (t : tree) (F : gset loc) : Prop :=
  match t with
  | E => p = None /\ F = ∅
  | T c l k v r =>
    (rep h0 p t /\ F = ∅) \/
    exists a pl pr Fl Fr, p = Some a /\ h !! a = Some (CRb (RbN k v pl pr c)) /\ h0 !! a = None /\
      mrep h pl l Fl /\ mrep h pr r Fr /\ a ∉ Fl /\ a ∉ Fr /\ Fl ## Fr /\ F = {[a]} ∪ Fl ∪ Fr
  end.

Lemma mrep_agree h h' p t F : mrep h p t F -> (forall x, x ∈ F -> h' !! x = h !! x) -> mrep h' p t F.
Proof.
  revert p F. induction t as [|c l IHl k v r IHr]; simpl; intros p F; [done|].
  intros [H|(a & pl & pr & Fl & Fr & -> & Ha & H0 & Hl & Hr & H1 & H2 & H3 & ->)] Hag; [by left|right].
  exists a, pl, pr, Fl, Fr. split_and!; try done.
  - rewrite Hag by set_solver. done.
  - apply IHl; [done|]. intros x Hx. apply Hag. set_solver.
  - apply IHr; [done|]. intros x Hx. apply Hag. set_solver.
Qed.
Lemma mrep_dom h p t F : mrep h p t F -> forall x, x ∈ F -> is_Some (h !! x) /\ h0 !! x = None.
Proof.
  revert p F. induction t as [|c l IHl k v r IHr]; simpl; intros p F.
  { intros [_ ->]. set_solver. }
  intros [[_ ->]|(a & pl & pr & Fl & Fr & -> & Ha & H0 & Hl & Hr & H1 & H2 & H3 & ->)] x Hx; [set_solver|].
  apply elem_of_union in Hx as [[->%elem_of_singleton|Hx]%elem_of_union|Hx]; [by rewrite Ha|eauto|eauto].
Qed.
Lemma mrep_shared h p t : rep h0 p t -> mrep h p t ∅.
Proof. destruct t; simpl; [done|]. intros H. by left. Qed.
Lemma mrep_rep h p t F : h0 ⊆ h -> mrep h p t F -> rep h p t.
Proof.
  intros Hs. revert p F. induction t as [|c l IHl k v r IHr]; intros p F; [by intros [-> _]|].
  intros [[H _]|(a & pl & pr & Fl & Fr & -> & Ha & H0 & Hl & Hr & _)]; [by eapply rep_mono|].
  simpl. eauto 10.
Qed.
Lemma mrep_ptr h p t F : mrep h p t F -> (p = None <-> t = E).
Proof. destruct t as [|c l k v r]; simpl; [naive_solver|]. split; [|done]. naive_solver. Qed.

(** The root node is private. *)
Definition rooted (p : ptr) (F : gset loc) : Prop := exists a, p = Some a /\ a ∈ F.

(** Opening a node, private or not. *)
Lemma mrep_open h p c l k v r F d : h0 ⊆ h -> mrep h p (T c l k v r) F ->
  exists a pn pf Fn Ff, p = Some a /\ h !! a = Some (CRb (ndir d c k v pn pf)) /\
    mrep h pn (if d then r else l) Fn /\ mrep h pf (if d then l else r) Ff /\ Fn ## Ff /\ a ∉ Fn /\ a ∉ Ff /\
    ((a ∈ F /\ h0 !! a = None /\ F = {[a]} ∪ Fn ∪ Ff) \/ (is_Some (h0 !! a) /\ F = ∅ /\ Fn = ∅ /\ Ff = ∅)).
Proof.
  intros Hs [[H ->]|(a & pl & pr & Fl & Fr & -> & Ha & H0 & Hl & Hr & H1 & H2 & H3 & ->)].
  - destruct H as (a & pl & pr & -> & Ha & Hl & Hr).
    exists a, (if d then pr else pl), (if d then pl else pr), ∅, ∅. split_and!; try set_solver.
    + apply (lookup_weaken _ h) in Ha; [|done]. by destruct d.
    + destruct d; by apply mrep_shared.
    + destruct d; by apply mrep_shared.
    + right. split; [by eexists|done].
  - exists a, (if d then pr else pl), (if d then pl else pr), (if d then Fr else Fl), (if d then Fl else Fr).
    destruct d; split_and!; try done; try set_solver.
Qed.
(** Building a private node. *)
Lemma mrep_node h a d c l k v r pn pf Fn Ff :
  h !! a = Some (CRb (ndir d c k v pn pf)) -> h0 !! a = None ->
  mrep h pn (if d then r else l) Fn -> mrep h pf (if d then l else r) Ff ->
  a ∉ Fn -> a ∉ Ff -> Fn ## Ff -> mrep h (Some a) (T c l k v r) ({[a]} ∪ Fn ∪ Ff).
Proof.
  intros. right. destruct d; simpl in *.
  - exists a, pf, pn, Ff, Fn. split_and!; try done. set_solver.
  - exists a, pn, pf, Fn, Ff. split_and!; try done.
Qed.
Lemma mrep_mk h a d c near k v far pn pf Fn Ff :
  h !! a = Some (CRb (ndir d c k v pn pf)) -> h0 !! a = None ->
  mrep h pn near Fn -> mrep h pf far Ff ->
  a ∉ Fn -> a ∉ Ff -> Fn ## Ff -> mrep h (Some a) (mk d c near k v far) ({[a]} ∪ Fn ∪ Ff).
Proof.
  intros. unfold mk. destruct d; by apply (mrep_node _ _ _ _ _ _ _ _ _ _ _ _ H H0).
Qed.

(** A path from the fake root [fr] to a hole holding pointer [q]; all nodes of
    the path are private. *)
Variable fr : loc.
Notation lctx := (list (loc * frame)).

Fixpoint crep h (ctx : lctx) (q : ptr) (F : gset loc) : Prop :=
  match ctx with
  | [] => h !! fr = Some (CRb (ndir true false [] VNil q None)) /\ h0 !! fr = None /\ F = {[fr]}
  | (a, f) :: ctx => exists po Fo Fc,
      h !! a = Some (CRb (ndir (f_dir f) (f_red f) (f_k f) (f_v f) q po)) /\ h0 !! a = None /\
      mrep h po (f_oth f) Fo /\ crep h ctx (Some a) Fc /\
      a ∉ Fo /\ a ∉ Fc /\ Fo ## Fc /\ F = {[a]} ∪ Fo ∪ Fc
  end.

Definition hdloc (ctx : lctx) : loc := match ctx with [] => fr | (a, _) :: _ => a end.
Definition hddir (ctx : lctx) : bool := match ctx with [] => true | (_, f) :: _ => f_dir f end.
Definition hdred (ctx : lctx) : bool := match ctx with [] => false | (_, f) :: _ => f_red f end.
Definition par (ctx : lctx) : ptr := match ctx with [] => None | _ :: ctx => Some (hdloc ctx) end.

Lemma crep_agree h h' ctx q F : crep h ctx q F -> (forall x, x ∈ F -> h' !! x = h !! x) -> crep h' ctx q F.
Proof.
  revert q F. induction ctx as [|[a f] ctx IH]; simpl; intros q F.
  - intros (H1 & H2 & ->) Hag. rewrite Hag by set_solver. done.
  - intros (po & Fo & Fc & Ha & H0 & Ho & Hc & H1 & H2 & H3 & ->) Hag.
    exists po, Fo, Fc. split_and!; try done.
    + rewrite Hag by set_solver. done.
    + eapply mrep_agree; [exact Ho|]. intros. apply Hag. set_solver.
    + eapply IH; [exact Hc|]. intros. apply Hag. set_solver.
Qed.
Lemma crep_dom h ctx q F : crep h ctx q F -> forall x, x ∈ F -> is_Some (h !! x) /\ h0 !! x = None.
Proof.
  revert q F. induction ctx as [|[a f] ctx IH]; simpl; intros q F.
  - intros (H1 & H2 & ->) x ->%elem_of_singleton. by rewrite H1.
  - intros (po & Fo & Fc & Ha & H0 & Ho & Hc & H1 & H2 & H3 & ->) x Hx.
    apply elem_of_union in Hx as [[->%elem_of_singleton|Hx]%elem_of_union|Hx]; [by rewrite Ha| |eauto].
    by eapply mrep_dom.
Qed.
(** The node holding the hole. *)
Lemma crep_hd h ctx q F : crep h ctx q F ->
  exists k v po, h !! hdloc ctx = Some (CRb (ndir (hddir ctx) (hdred ctx) k v q po)) /\
    h0 !! hdloc ctx = None /\ hdloc ctx ∈ F /\
    (forall h' q', h' !! hdloc ctx = Some (CRb (ndir (hddir ctx) (hdred ctx) k v q' po)) ->
       (forall x, x ∈ F -> x <> hdloc ctx -> h' !! x = h !! x) -> crep h' ctx q' F).
Proof.
  destruct ctx as [|[a f] ctx]; simpl.
  - intros (H1 & H2 & ->). exists [], VNil, None. split_and!; try done; set_solver.
  - intros (po & Fo & Fc & Ha & H0 & Ho & Hc & H1 & H2 & H3 & ->). exists (f_k f), (f_v f), po.
    split_and!; try done; [set_solver|]. intros h' q' Hh Hag.
    exists po, Fo, Fc. split_and!; try done.
    + eapply mrep_agree; [exact Ho|]. intros x Hx. apply Hag; [set_solver|]. set_solver.
    + eapply crep_agree; [exact Hc|]. intros x Hx. apply Hag; [set_solver|]. set_solver.
Qed.

Lemma crep_plug h ctx : forall q t F Ft, crep h ctx q F -> mrep h q t Ft -> F ## Ft ->
  exists qr Fr, h !! fr = Some (CRb (ndir true false [] VNil qr None)) /\ h0 !! fr = None /\ fr ∈ F /\
    mrep h qr (plug (map snd ctx) t) Fr /\ fr ∉ Fr /\ Fr ⊆ F ∪ Ft /\ F ∪ Ft ⊆ {[fr]} ∪ Fr /\
    (ctx <> [] \/ rooted q Ft -> rooted qr Fr).
Proof.
  induction ctx as [|[a f] ctx IH]; simpl; intros q t F Ft.
  - intros (H1 & H2 & ->) Ht Hd. exists q, Ft. split_and!; try done; try set_solver.
  - intros (po & Fo & Fc & Ha & H0 & Ho & Hc & H1 & H2 & H3 & ->) Ht Hd.
    destruct (IH (Some a) (plug1 f t) Fc ({[a]} ∪ Ft ∪ Fo)) as (qr & Fr & Hq1 & Hq2 & Hq3 & Hq4 & Hq5 & Hq6 & Hq8 & Hq7).
    + done.
    + unfold plug1. eapply mrep_mk; try done; clear -Hd H1 H2 H3; set_solver.
    + clear -Hd H1 H2 H3; set_solver.
    + exists qr, Fr. split_and!; try done.
      * clear -Hq3; set_solver.
      * clear -Hq6; set_solver.
      * clear -Hq8; set_solver.
      * intros _. apply Hq7. right. exists a. split; [done|]. clear; set_solver.
Qed.

Lemma frozen_agree h h' : h0 ⊆ h -> (forall x, h' !! x = h !! x \/ h0 !! x = None) -> h0 ⊆ h'.
Proof.
  intros Hs Hag. apply map_subseteq_spec. intros x y Hx.
  destruct (Hag x) as [->|?]; [by eapply lookup_weaken|congruence].
Qed.
Lemma frozen_insert h a (c : cell U) : h0 ⊆ h -> h0 !! a = None -> h0 ⊆ <[a:=c]> h.
Proof. intros. by apply insert_subseteq_r. Qed.
Lemma frozen_none h a : h0 ⊆ h -> h !! a = None -> h0 !! a = None.
Proof. intros Hs Ha. eapply lookup_weaken_None; eauto. Qed.
End rep.

Ltac lk := repeat first [rewrite lookup_insert by done | rewrite lookup_insert_ne by done].

Section ptr.
Context {U : Type}.
Local Notation heap := (heap U).
Local Notation tree := (tree U).
Local Notation frame := (frame U).
Implicit Types h : heap.

Lemma mrep_ptr_in h0 h b (t : tree) F : mrep h0 h (Some b) t F -> b ∈ F \/ is_Some (h0 !! b).
Proof.
  destruct t as [|c l k v r]; simpl; [naive_solver|].
  intros [[(a & pl & pr & [= <-] & Ha & _) ->]|(a & pl & pr & Fl & Fr & [= <-] & Ha & H0 & Hl & Hr & H1 & H2 & H3 & ->)].
  - right. by rewrite Ha.
  - left. set_solver.
Qed.
Lemma mrep_ptr_ne h0 h a p (t : tree) F : mrep h0 h p t F -> a ∉ F -> h0 !! a = None -> p <> Some a.
Proof. intros H H1 H2 ->. apply mrep_ptr_in in H as [?|[? ?]]; [done|congruence]. Qed.

Lemma ptr_eqb_refl p : ptr_eqb p p = true.
Proof. unfold ptr_eqb. by rewrite bool_decide_eq_true. Qed.
Lemma ptr_eqb_ne p q : p <> q -> ptr_eqb p q = false.
Proof. intros. unfold ptr_eqb. by rewrite bool_decide_eq_false. Qed.

(** The test by which the code finds the direction of a child. *)
Lemma crep_dir h0 fr h (ctx : list (loc * frame)) a F n : crep h0 fr h ctx (Some a) F -> h0 !! a = None -> a ∉ F ->
  h !! hdloc fr ctx = Some (CRb n) -> ptr_eqb (rchld n true) (Some a) = hddir ctx.
Proof.
  destruct ctx as [|[b f] ctx]; simpl.
  - intros (H1 & H2 & ->) Ha Hn. rewrite H1. intros [= <-]. apply ptr_eqb_refl.
  - intros (po & Fo & Fc & Hb & H0 & Ho & Hc & H1 & H2 & H3 & ->) Ha Hn. rewrite Hb. intros [= <-].
    destruct (f_dir f); simpl; [apply ptr_eqb_refl|]. apply ptr_eqb_ne.
    eapply mrep_ptr_ne; [exact Ho| |done]. set_solver.
Qed.
Lemma crep_dir2 h0 fr h a (f : frame) ctx b F n d : crep h0 fr h ((a, f) :: ctx) (Some b) F -> h0 !! b = None -> b ∉ F ->
  h !! a = Some (CRb n) -> ptr_eqb (Some b) (rchld n d) = Bool.eqb (f_dir f) d.
Proof.
  intros (po & Fo & Fc & Hb & H0 & Ho & Hc & H1 & H2 & H3 & ->) Ha Hn. rewrite Hb. intros [= <-].
  destruct (f_dir f), d; simpl; try apply ptr_eqb_refl; apply ptr_eqb_ne; intros Heq; symmetry in Heq; revert Heq;
    (eapply mrep_ptr_ne; [exact Ho| |done]); set_solver.
Qed.
End ptr.
