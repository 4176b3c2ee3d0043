(** * The memory model of deletion implements the functional version. *)
From Verif Require Import Prog RbModel RbSpec RbFun RbSim RbSimFix RbSimIns.

Section del.
Context {U : Type}.
Local Notation heap := (heap U).
Local Notation tree := (tree U).
Local Notation frame := (frame U).
Local Notation value := (value U).
Implicit Types h : heap.
Variable h0 : heap.
Variable fr : loc.
Notation lctx := (list (loc * frame)).
Local Notation mrep := (mrep h0).
Local Notation crep := (crep h0 fr).
Local Notation focq := (focq h0 fr).
Local Notation foc h W ctx a := (focq h W ctx (Some a%positive) a%positive).
Local Notation dst := (dst h0 fr).

(** The node of the frame marked nearest to the hole. *)
Fixpoint tvar (ctx : lctx) : ptr :=
  match ctx with [] => None | (a, f) :: ctx => if f_mark f then Some a else tvar ctx end.

Lemma copy_open_wp d h W p c l k v r F (Q : ptr -> heap -> gset loc -> Prop) :
  h0 ⊆ h -> mrep h p (T c l k v r) F -> F ⊆ W ->
  (forall a h' pn pf Fn Ff, h !! a = None -> h0 !! a = None -> h0 ⊆ h' ->
     h' !! a = Some (CRb (ndir d c k v pn pf)) ->
     mrep h' pn (if d then r else l) Fn -> mrep h' pf (if d then l else r) Ff ->
     Fn ## Ff -> a ∉ Fn -> a ∉ Ff -> Fn ⊆ F -> Ff ⊆ F ->
     (forall x, x <> a -> h' !! x = h !! x) -> Q (Some a) h' ({[a]} ∪ W)) ->
  wp (full_copy p) h W Q.
Proof.
  intros Hfz Ht HW HQ.
  destruct (mrep_open _ _ _ _ _ _ _ _ _ d Hfz Ht) as (a & pl & pr & Fl & Fr & -> & Ha & Hl & Hr & Hlr & Hal & Har & HF).
  unfold full_copy. apply wp_bind. eapply wp_ld_rb; [exact Ha|]. apply wp_bind, wp_alloc. intros b Hb.
  pose proof (fresh_notin_m _ _ _ _ _ _ Hl Hb) as F2.
  pose proof (fresh_notin_m _ _ _ _ _ _ Hr Hb) as F3.
  assert (h0 !! b = None) as Hb0 by (by eapply frozen_none).
  cbn [wp]. apply (HQ b _ pl pr Fl Fr); try done.
  - by apply frozen_insert.
  - by rewrite lookup_insert.
  - eapply mrep_agree; [exact Hl|]. intros x Hx. rewrite lookup_insert_ne; [done|]. intros ->. done.
  - eapply mrep_agree; [exact Hr|]. intros x Hx. rewrite lookup_insert_ne; [done|]. intros ->. done.
  - destruct HF as [(_ & _ & ->)|(_ & -> & -> & ->)]; clear; set_solver.
  - destruct HF as [(_ & _ & ->)|(_ & -> & -> & ->)]; clear; set_solver.
  - intros x Hx. by rewrite lookup_insert_ne.
Qed.

(** Going down from the focused node, with any mark. *)
Lemma foc_descend_mark h W ctx a c l k v r pl pr Fc Fl Fr d m :
  foc h W ctx a c l k v r pl pr Fc Fl Fr ->
  dst h W ((a, RbFun.Fr c k v d (if d then l else r) m) :: ctx) (if d then pr else pl) (if d then r else l)
    ({[a]} ∪ (if d then Fl else Fr) ∪ Fc) (if d then Fr else Fl).
Proof.
  intros H. apply (foc_descend _ _ _ _ _ _ _ _ _ _ _ _ _ _ _ _ d) in H as [H1 H2 H3 H4 H5]. split; done.
Qed.

(** The focused node seen from a direction. *)
Lemma foc_dir h W ctx a c l k v r pl pr Fc Fl Fr d :
  foc h W ctx a c l k v r pl pr Fc Fl Fr ->
  exists pn po Fn Fo, h !! a = Some (CRb (ndir d c k v pn po)) /\ mrep h pn (if d then r else l) Fn /\
    mrep h po (if d then l else r) Fo /\ a ∉ Fn /\ a ∉ Fo /\ Fn ## Fo /\ Fc ## Fn /\ Fc ## Fo /\
    {[a]} ∪ Fn ∪ Fo ∪ Fc ⊆ W.
Proof.
  intros [Hc Ha Ha0 Hl Hr Hal Har Hlr Hac Hcl Hcr HW Hfz]. rewrite (RbN_ndir d) in Ha.
  destruct d; [exists pr, pl, Fr, Fl|exists pl, pr, Fl, Fr]; split_and!; try done; set_solver.
Qed.

Definition del_post (ctx : lctx) (a : loc) (near : tree) (step : list frame) (mark dir : bool)
    (p' : ptr) h' (W' : gset loc) : Prop :=
  exists ctx' f' q' Fc' Ft', p' = Some (hdloc fr ctx') /\ f' :: map snd ctx' = step /\
    f_dir f' = dir /\ f_mark f' = mark /\ dst h' W' ((a, f') :: ctx') q' near Fc' Ft' /\ tvar ctx' = tvar ctx.

(** The other child is red: rotate it up. *)
Lemma del_other_red h W ctx a c k v pn near po oc ol sk sv orr Fc Fn Fo dir mark :
  crep h ctx (Some a) Fc -> h0 !! a = None -> h0 ⊆ h -> a ∉ Fc ->
  h !! a = Some (CRb (ndir dir c k v pn po)) -> mrep h pn near Fn -> mrep h po (T oc ol sk sv orr) Fo ->
  a ∉ Fn -> a ∉ Fo -> Fn ## Fo -> Fc ## Fn -> Fc ## Fo -> {[a]} ∪ Fn ∪ Fo ∪ Fc ⊆ W ->
  wp (x <- full_copy po ;; set_rchld (Some a) (negb dir) x ;;;
      x <- single (Some a) (negb dir) ;; set_rchld (Some (hdloc fr ctx)) (hddir ctx) x ;;;
      pn <- ld_rb (Some (hdloc fr ctx)) ;; Ret (rchld pn (hddir ctx))) h W
   (del_post ctx a near
      (Fr true k v dir (child dir (T oc ol sk sv orr)) mark ::
       Fr false sk sv dir (child (negb dir) (T oc ol sk sv orr)) false :: map snd ctx) mark dir).
Proof.
  intros Hc Ha0 Hfz Hac Ha Hn Ho Han Hao Hno Hcn Hco HW.
  apply wp_bind. eapply (copy_open_wp dir) with (F := Fo); [exact Hfz|exact Ho|clear -HW; set_solver|].
  intros b h1 pon pof Fon Fof Hb Hb0 Hfz1 Hb1 Hon Hof Hod Hbn Hbf Hs1 Hs2 Hag1.
  assert (Nab : a <> b) by congruence.
  assert (Hc1 : crep h1 ctx (Some a) Fc) by (eapply crep_weaken; [exact Hc|exact Hb|done]).
  assert (Hn1 : mrep h1 pn near Fn) by (eapply mrep_weaken; [exact Hn|exact Hb|done]).
  pose proof (fresh_notin_c _ _ _ _ _ _ _ Hc Hb) as Nbc.
  pose proof (fresh_notin_m _ _ _ _ _ _ Hn Hb) as Nbn.
  destruct (crep_hd _ _ _ _ _ _ Hc1) as (kg & vg & pog & Hg & Hg0 & HgF & Hset).
  set (g := hdloc fr ctx) in *.
  assert (Nga : g <> a) by (clear -HgF Hac; set_solver).
  assert (Ngb : g <> b) by (clear -HgF Nbc; set_solver).
  apply wp_bind. eapply wp_set_rchld_far; [rewrite Hag1 by done; exact Ha|done|clear -HW; set_solver|].
  apply wp_bind. eapply wp_single.
  { rewrite lookup_insert. by rewrite <- ndir_negb. }
  { rewrite lookup_insert_ne by done. rewrite Hb1. by rewrite <- ndir_negb. }
  { done. } { clear -HW; set_solver. } { clear; set_solver. }
  intros h2 Ha2 Hb2 Hag2. rewrite ndir_negb in Ha2, Hb2.
  assert (Hag2' : forall x, x <> a -> x <> b -> h2 !! x = h1 !! x).
  { intros. rewrite Hag2 by done. by rewrite lookup_insert_ne. }
  apply wp_bind. eapply wp_set_rchld; [rewrite Hag2' by done; exact Hg|done|clear -HgF HW; set_solver|].
  set (h3 := <[g:=_]> h2).
  assert (Hg3 : h3 !! g = Some (CRb (ndir (hddir ctx) (hdred ctx) kg vg (Some b) pog))) by apply lookup_insert.
  assert (Ha3 : h3 !! a = Some (CRb (ndir dir true k v pn pon))) by (unfold h3; by rewrite lookup_insert_ne).
  assert (Hb3 : h3 !! b = Some (CRb (ndir dir false sk sv (Some a) pof))) by (unfold h3; by rewrite lookup_insert_ne).
  assert (Hag3 : forall x, x <> a -> x <> b -> x <> g -> h3 !! x = h1 !! x).
  { intros. unfold h3. rewrite lookup_insert_ne by done. by apply Hag2'. }
  clearbody h3.
  apply wp_bind. eapply wp_ld_rb; [exact Hg3|]. rewrite rchld_near. cbn [wp].
  assert (Naon : a ∉ Fon) by (clear -Hao Hs1; set_solver).
  assert (Naof : a ∉ Fof) by (clear -Hao Hs2; set_solver).
  exists ((b, Fr false sk sv dir (child (negb dir) (T oc ol sk sv orr)) false) :: ctx),
    (Fr true k v dir (child dir (T oc ol sk sv orr)) mark), pn, ({[a]} ∪ Fon ∪ ({[b]} ∪ Fof ∪ Fc)), Fn.
  split_and!; try done. split.
  - exists pon, Fon, ({[b]} ∪ Fof ∪ Fc). cbn [f_dir f_red f_k f_v f_oth]. split_and!; try done.
    + eapply mrep_agree; [exact Hon|]. intros x Hx. apply Hag3; [| |]; clear -Hx Hs1 Hao Hbn Hco HgF; set_solver.
    + exists pof, Fof, Fc. cbn [f_dir f_red f_k f_v f_oth]. split_and!; try done.
      * eapply mrep_agree; [destruct dir; exact Hof|]. intros x Hx. apply Hag3; [| |]; clear -Hx Hs2 Hao Hbf Hco HgF; set_solver.
      * apply Hset; [done|]. intros x Hx Hxg. apply Hag3; [| |done]; clear -Hx Hac Nbc; set_solver.
      * clear -Hs2 Hco. set_solver.
    + clear -Naof Hac Nab. set_solver.
    + clear -Hbn Hod Hs1 Hco. set_solver.
  - eapply mrep_agree; [exact Hn1|]. intros x Hx. apply Hag3; [| |]; clear -Hx Han Nbn Hcn HgF; set_solver.
  - clear -Han Nbn Hs1 Hs2 Hno Hcn. set_solver.
  - clear -HW Hs1 Hs2. set_solver.
  - apply (frozen_agree _ h1); [done|]. intros x.
    destruct (decide (x = a)) as [->|]; [by right|]. destruct (decide (x = b)) as [->|]; [by right|].
    destruct (decide (x = g)) as [->|]; [by right|]. left. by apply Hag3.
Qed.

Ltac agree H := eapply mrep_agree; [exact H|]; let x := fresh "x" in intros x ?; rewrite lookup_insert_ne; [done|]; intros ->; done.

Section sib.
Variables (h : heap) (W : gset loc) (ctx : lctx) (a1 : loc) (f1 : frame).
Variables (a : loc) (k : bytes) (v : value) (pn po : ptr) (near oth : tree) (Fn Fo : gset loc) (dir mark : bool).
Variables (s : loc) (sk : bytes) (sv : value) (Fc : gset loc).
Let pd := f_dir f1.
Hypothesis Ha : h !! a = Some (CRb (ndir dir false k v pn po)).
Hypothesis Ha0 : h0 !! a = None.
Hypothesis Hn : mrep h pn near Fn.
Hypothesis Ho : mrep h po oth Fo.
Hypothesis Ha1 : h !! a1 = Some (CRb (ndir pd (f_red f1) (f_k f1) (f_v f1) (Some a) (Some s))).
Hypothesis Ha10 : h0 !! a1 = None.
Hypothesis Hs0 : h0 !! s = None.
Hypothesis Hfz : h0 ⊆ h.
Hypothesis Hc : crep h ctx (Some a1) Fc.
Hypothesis Hdis : a ∉ Fn /\ a ∉ Fo /\ Fn ## Fo /\ a1 ∉ Fn /\ a1 ∉ Fo /\ s ∉ Fn /\ s ∉ Fo /\
   a ∉ Fc /\ a1 ∉ Fc /\ s ∉ Fc /\ a <> a1 /\ a <> s /\ a1 <> s /\ Fn ## Fc /\ Fo ## Fc.
Hypothesis HW : {[a; a1; s]} ∪ Fn ∪ Fo ∪ Fc ⊆ W.

(** Both children of the sibling are black: recolour. *)
Lemma del_recolor sc x y (xt yt : tree) Fx Fy :
  h !! s = Some (CRb (ndir pd sc sk sv x y)) -> mrep h x xt Fx -> mrep h y yt Fy -> Fx ## Fy ->
  {[a; a1; s]} ∪ Fn ∪ Fo ∪ Fc ## Fx -> {[a; a1; s]} ∪ Fn ∪ Fo ∪ Fc ## Fy -> Fx ∪ Fy ⊆ W ->
  wp (set_red (Some a1) false ;;; set_red (Some a) true ;;; set_red (Some s) true ;;; Ret (Some a1)) h W
   (del_post ((a1, f1) :: ctx) a near
      (Fr true k v dir oth mark :: Fr false (f_k f1) (f_v f1) pd (mk pd true xt sk sv yt) (f_mark f1) :: map snd ctx) mark dir).
Proof.
  intros Hs Hx Hy Hxy HXx HXy HWx.
  destruct Hdis as (D1 & D2 & D3 & D4 & D5 & D6 & D7 & D8 & D9 & D10 & D11 & D12 & D13 & D14 & D15).
  apply wp_bind. eapply wp_set_red; [exact Ha1|clear -HW; set_solver|].
  apply wp_bind. eapply wp_set_red; [rewrite lookup_insert_ne by done; exact Ha|clear -HW; set_solver|].
  apply wp_bind. eapply wp_set_red; [rewrite !lookup_insert_ne by done; exact Hs|clear -HW; set_solver|].
  cbn [wp]. set (h' := <[s:=_]> _).
  assert (Ha' : h' !! a = Some (CRb (ndir dir true k v pn po))) by (unfold h'; rewrite lookup_insert_ne by done; by rewrite lookup_insert).
  assert (Ha1' : h' !! a1 = Some (CRb (ndir pd false (f_k f1) (f_v f1) (Some a) (Some s)))) by (unfold h'; rewrite !lookup_insert_ne by done; by rewrite lookup_insert).
  assert (Hs' : h' !! s = Some (CRb (ndir pd true sk sv x y))) by (unfold h'; by rewrite lookup_insert).
  assert (Hag : forall z, z <> a -> z <> a1 -> z <> s -> h' !! z = h !! z).
  { intros. unfold h'. by rewrite !lookup_insert_ne. }
  clearbody h'.
  exists ((a1, Fr false (f_k f1) (f_v f1) pd (mk pd true xt sk sv yt) (f_mark f1)) :: ctx), (Fr true k v dir oth mark), pn,
    ({[a]} ∪ Fo ∪ ({[a1]} ∪ ({[s]} ∪ Fx ∪ Fy) ∪ Fc)), Fn.
  split_and!; try done. split.
  - exists po, Fo, ({[a1]} ∪ ({[s]} ∪ Fx ∪ Fy) ∪ Fc). cbn [f_dir f_red f_k f_v f_oth]. split_and!; try done.
    + eapply mrep_agree; [exact Ho|]. intros z Hz. apply Hag; intros ->; done.
    + exists (Some s), ({[s]} ∪ Fx ∪ Fy), Fc. cbn [f_dir f_red f_k f_v f_oth]. split_and!; try done.
      * eapply mrep_mk; try done.
        -- eapply mrep_agree; [exact Hx|]. intros z Hz. apply Hag; clear -Hz HXx; set_solver.
        -- eapply mrep_agree; [exact Hy|]. intros z Hz. apply Hag; clear -Hz HXy; set_solver.
        -- clear -HXx; set_solver.
        -- clear -HXy; set_solver.
      * eapply crep_agree; [exact Hc|]. intros z Hz. apply Hag; intros ->; done.
      * clear -HXx HXy D13. set_solver.
      * clear -HXx HXy D10. set_solver.
    + clear -D8 D11 D12 HXx HXy. set_solver.
    + clear -D5 D7 D15 HXx HXy. set_solver.
  - eapply mrep_agree; [exact Hn|]. intros z Hz. apply Hag; intros ->; done.
  - clear -HXx HXy D1 D3 D4 D6 D14. set_solver.
  - clear -HW HWx. set_solver.
  - apply (frozen_agree _ h); [done|]. intros z.
    destruct (decide (z = a)) as [->|]; [by right|]. destruct (decide (z = a1)) as [->|]; [by right|].
    destruct (decide (z = s)) as [->|]; [by right|]. left. by apply Hag.
Qed.

(** After the rotation at the parent: the last assignments, [r] is the new top,
    [b] its child away from the path. *)
Lemma del_rot_end W2 h' r b c1 c2 c3 rk rv bk bv (x : ptr) (xt : tree) Fx Fb (bt : tree) u :
  h' !! a = Some (CRb (ndir dir false k v pn po)) ->
  h' !! a1 = Some (CRb (ndir pd c1 (f_k f1) (f_v f1) (Some a) x)) ->
  h' !! r = Some (CRb (ndir pd c2 rk rv (Some a1) (Some b))) ->
  h' !! b = Some (CRb (ndir pd c3 bk bv u.1 u.2)) ->
  (forall h'', h'' !! b = Some (CRb (ndir pd false bk bv u.1 u.2)) ->
     (forall z, z ∈ Fb -> z <> b -> h'' !! z = h' !! z) -> mrep h'' (Some b) bt Fb) ->
  b ∈ Fb -> (forall z, z ∈ Fb -> is_Some (h' !! z)) ->
  mrep h' x xt Fx ->
  h0 !! r = None -> h0 !! b = None -> h0 ⊆ h' ->
  (forall z, z ∈ Fn ∪ Fo ∪ Fc -> h' !! z = h !! z) ->
  r <> a -> r <> a1 -> r ∉ Fn ∪ Fo ∪ Fc ∪ Fx ∪ Fb ->
  {[a; a1]} ∪ Fn ∪ Fo ∪ Fc ## Fx -> {[a; a1]} ∪ Fn ∪ Fo ∪ Fc ## Fb -> Fx ## Fb ->
  W ⊆ W2 -> {[r]} ∪ Fx ∪ Fb ⊆ W2 ->
  wp (set_rchld (Some (hdloc fr ctx)) (hddir ctx) (Some r) ;;;
      set_red (Some a) true ;;;
      gn <- ld_rb (Some (hdloc fr ctx)) ;;
      let x := rchld gn (hddir ctx) in
      set_red x true ;;;
      xn <- ld_rb x ;;
      set_red (rb_l xn) false ;;;
      set_red (rb_r xn) false ;;;
      Ret (Some a1)) h' W2
   (del_post ((a1, f1) :: ctx) a near
      (Fr true k v dir oth mark :: Fr false (f_k f1) (f_v f1) pd xt (f_mark f1) ::
       Fr true rk rv pd bt false :: map snd ctx) mark dir).
Proof.
  intros Ha' Ha1' Hr' Hb' HB HbF HBd Hx Hr0 Hb0 Hfz' Hag Hra Hra1 HrF HXx HXb Hxb HWW HWx.
  destruct Hdis as (D1 & D2 & D3 & D4 & D5 & D6 & D7 & D8 & D9 & D10 & D11 & D12 & D13 & D14 & D15).
  assert (Hc' : crep h' ctx (Some a1) Fc).
  { eapply crep_agree; [exact Hc|]. intros z Hz. apply Hag. clear -Hz; set_solver. }
  destruct (crep_hd _ _ _ _ _ _ Hc') as (kg & vg & pog & Hg & Hg0 & HgF & Hset).
  set (g := hdloc fr ctx) in *.
  assert (Hne : g <> a /\ g <> a1 /\ g <> r /\ g <> b /\ b <> a /\ b <> a1 /\ b <> r).
  { clear -HgF HbF D8 D9 HrF HXb. set_solver. }
  destruct Hne as (N1 & N2 & N3 & N4 & N5 & N6 & N7).
  assert (HWs : g ∈ W2 /\ a ∈ W2 /\ a1 ∈ W2 /\ b ∈ W2 /\ r ∈ W2).
  { clear -HW HWW HWx HgF HbF. set_solver. }
  destruct HWs as (V1 & V2 & V3 & V4 & V5).
  apply wp_bind. eapply wp_set_rchld; [exact Hg|done|done|].
  apply wp_bind. eapply wp_set_red; [rewrite lookup_insert_ne by done; exact Ha'|done|].
  apply wp_bind. eapply wp_ld_rb; [rewrite lookup_insert_ne by done; by rewrite lookup_insert|].
  rewrite rchld_near. cbv zeta.
  apply wp_bind. eapply wp_set_red; [rewrite !lookup_insert_ne by done; exact Hr'|done|].
  apply wp_bind. eapply wp_ld_rb; [by rewrite lookup_insert|].
  set (h1 := <[r:=_]> _).
  assert (Ga1 : h1 !! a1 = Some (CRb (ndir pd c1 (f_k f1) (f_v f1) (Some a) x))) by (unfold h1; by rewrite !lookup_insert_ne by done).
  assert (Gb : h1 !! b = Some (CRb (ndir pd c3 bk bv u.1 u.2))) by (unfold h1; by rewrite !lookup_insert_ne by done).
  assert (Ga : h1 !! a = Some (CRb (ndir dir true k v pn po))) by (unfold h1; rewrite lookup_insert_ne by done; by rewrite lookup_insert).
  assert (Gr : h1 !! r = Some (CRb (ndir pd true rk rv (Some a1) (Some b)))) by (unfold h1; by rewrite lookup_insert).
  assert (Gg : h1 !! g = Some (CRb (ndir (hddir ctx) (hdred ctx) kg vg (Some r) pog))) by (unfold h1; rewrite !lookup_insert_ne by done; by rewrite lookup_insert).
  assert (Hag1 : forall z, z <> a -> z <> r -> z <> g -> h1 !! z = h' !! z).
  { intros. unfold h1. by rewrite !lookup_insert_ne by done. }
  clearbody h1.
  assert (Hfin : forall h2, h2 !! a1 = Some (CRb (ndir pd false (f_k f1) (f_v f1) (Some a) x)) ->
     h2 !! b = Some (CRb (ndir pd false bk bv u.1 u.2)) -> (forall z, z <> a1 -> z <> b -> h2 !! z = h1 !! z) ->
     wp (Ret (Some a1)) h2 W2 (del_post ((a1, f1) :: ctx) a near
      (Fr true k v dir oth mark :: Fr false (f_k f1) (f_v f1) pd xt (f_mark f1) ::
       Fr true rk rv pd bt false :: map snd ctx) mark dir)).
  { intros h2 Ka1 Kb Hag2. cbn [wp].
    assert (Ka : h2 !! a = Some (CRb (ndir dir true k v pn po))) by (rewrite Hag2 by done; done).
    assert (Kr : h2 !! r = Some (CRb (ndir pd true rk rv (Some a1) (Some b)))) by (rewrite Hag2 by done; done).
    assert (Kg : h2 !! g = Some (CRb (ndir (hddir ctx) (hdred ctx) kg vg (Some r) pog))) by (rewrite Hag2 by done; done).
    assert (Hag3 : forall z, z <> a -> z <> a1 -> z <> b -> z <> r -> z <> g -> h2 !! z = h' !! z).
    { intros. rewrite Hag2 by done. by apply Hag1. }
    assert (Hag4 : forall z, z ∈ Fn ∪ Fo -> h2 !! z = h !! z).
    { intros z Hz. rewrite <- Hag by (clear -Hz; set_solver).
      apply Hag3; clear -Hz HbF HXb HrF HgF D1 D2 D4 D5 D14 D15; set_solver. }
    clear Hag1 Hag2 Ga1 Gb Ga Gr Gg.
    exists ((a1, Fr false (f_k f1) (f_v f1) pd xt (f_mark f1)) :: (r, Fr true rk rv pd bt false) :: ctx), (Fr true k v dir oth mark), pn,
      ({[a]} ∪ Fo ∪ ({[a1]} ∪ Fx ∪ ({[r]} ∪ Fb ∪ Fc))), Fn.
    split_and!; try done. split.
    - exists po, Fo, ({[a1]} ∪ Fx ∪ ({[r]} ∪ Fb ∪ Fc)). cbn [f_dir f_red f_k f_v f_oth]. split_and!; try done.
      + eapply mrep_agree; [exact Ho|]. intros z Hz. apply Hag4. clear -Hz. set_solver.
      + exists x, Fx, ({[r]} ∪ Fb ∪ Fc). cbn [f_dir f_red f_k f_v f_oth]. split_and!; try done.
        * eapply mrep_agree; [exact Hx|]. intros z Hz.
          apply Hag3; clear -Hz HXx HrF Hxb HbF HgF; set_solver.
        * exists (Some b), Fb, Fc. cbn [f_dir f_red f_k f_v f_oth]. split_and!; try done.
          -- apply HB; [done|]. intros z Hz Hzb. apply Hag3; try done; clear -Hz HXb HrF HgF; set_solver.
          -- apply Hset; [done|]. intros z Hz Hzg.
             apply Hag3; try done; clear -Hz HXb HbF HrF D8 D9; set_solver.
          -- clear -HrF. set_solver.
          -- clear -HrF. set_solver.
          -- clear -HXb. set_solver.
        * clear -HXx. set_solver.
        * clear -Hra1 HXb D9. set_solver.
        * clear -HrF Hxb HXx. set_solver.
      + clear -Hra HXx HXb D8 D11. set_solver.
      + clear -D5 D15 HrF HXx HXb. set_solver.
    - eapply mrep_agree; [exact Hn|]. intros z Hz. apply Hag4. clear -Hz. set_solver.
    - clear -D1 D3 D4 D14 HrF HXx HXb. set_solver.
    - clear -HW HWW HWx. set_solver.
    - apply (frozen_agree _ h'); [done|]. intros z.
      destruct (decide (z = a)) as [->|]; [by right|]. destruct (decide (z = a1)) as [->|]; [by right|].
      destruct (decide (z = b)) as [->|]; [by right|]. destruct (decide (z = r)) as [->|]; [by right|].
      destruct (decide (z = g)) as [->|]; [by right|]. left. by apply Hag3. }
  assert (pd = true \/ pd = false) as [E|E] by (destruct pd; auto).
  - rewrite E in *. cbn [ndir rb_l rb_r].
    apply wp_bind. eapply (wp_set_red b true); [exact Gb|done|].
    apply wp_bind. eapply (wp_set_red a1 true); [rewrite lookup_insert_ne by done; exact Ga1|done|].
    apply Hfin.
    + by rewrite lookup_insert.
    + rewrite lookup_insert_ne by done. by rewrite lookup_insert.
    + intros. by rewrite !lookup_insert_ne by done.
  - rewrite E in *. cbn [ndir rb_l rb_r].
    apply wp_bind. eapply (wp_set_red a1 false); [exact Ga1|done|].
    apply wp_bind. eapply (wp_set_red b false); [rewrite lookup_insert_ne by done; exact Gb|done|].
    apply Hfin.
    + rewrite lookup_insert_ne by done. by rewrite lookup_insert.
    + by rewrite lookup_insert.
    + intros. by rewrite !lookup_insert_ne by done.
Qed.

Lemma del_rotate sc x y (xt yt : tree) Fx Fy :
  h !! s = Some (CRb (ndir pd sc sk sv x y)) -> mrep h x xt Fx -> mrep h y yt Fy -> Fx ## Fy ->
  {[a; a1; s]} ∪ Fn ∪ Fo ∪ Fc ## Fx -> {[a; a1; s]} ∪ Fn ∪ Fo ∪ Fc ## Fy -> Fx ∪ Fy ⊆ W ->
  negb (isred xt) && negb (isred yt) = false ->
  wp (gn <- ld_rb (Some (hdloc fr ctx)) ;;
          let gpDir := ptr_eqb (rb_r gn) (Some a1) in
          rs <- is_red (rchld (ndir pd sc sk sv x y) pd) ;;
          (if rs then
             x0 <- full_copy (rchld (ndir pd sc sk sv x y) pd) ;; set_rchld (Some s) pd x0 ;;;
             x0 <- double (Some a1) (negb pd) ;; set_rchld (Some (hdloc fr ctx)) gpDir x0
           else
             x0 <- full_copy (rchld (ndir pd sc sk sv x y) (negb pd)) ;; set_rchld (Some s) (negb pd) x0 ;;;
             x0 <- single (Some a1) (negb pd) ;; set_rchld (Some (hdloc fr ctx)) gpDir x0) ;;;
          set_red (Some a) true ;;;
          gn <- ld_rb (Some (hdloc fr ctx)) ;;
          let x := rchld gn gpDir in
          set_red x true ;;;
          xn <- ld_rb x ;;
          set_red (rb_l xn) false ;;;
          set_red (rb_r xn) false ;;;
          Ret (Some a1)) h W
   (del_post ((a1, f1) :: ctx) a near
      (match xt with
       | T true _ qk qv _ =>
         Fr true k v dir oth mark :: Fr false (f_k f1) (f_v f1) pd (child pd xt) (f_mark f1) ::
         Fr true qk qv pd (mk pd false (child (negb pd) xt) sk sv yt) false :: map snd ctx
       | _ =>
         Fr true k v dir oth mark :: Fr false (f_k f1) (f_v f1) pd xt (f_mark f1) ::
         Fr true sk sv pd (recolor false yt) false :: map snd ctx
       end) mark dir).
Proof.
  intros Hs Hx Hy Hxy HXx HXy HWx Hred.
  pose proof Hdis as (D1 & D2 & D3 & D4 & D5 & D6 & D7 & D8 & D9 & D10 & D11 & D12 & D13 & D14 & D15).
  destruct (crep_hd _ _ _ _ _ _ Hc) as (kg & vg & pog & Hg & Hg0 & HgF & Hset).
  apply wp_bind. eapply wp_ld_rb; [exact Hg|].
  pose proof (crep_dir _ _ _ _ _ _ _ Hc Ha10 D9 Hg) as Hgd. unfold rchld in Hgd. rewrite Hgd. cbv zeta.
  rewrite rchld_near, rchld_far.
  apply wp_bind. eapply rep_isred; [by eapply mrep_rep|]. apply wp_bind.
  destruct (isred xt) eqn:Ex.
  - (* double *)
    destruct xt as [|xc xl qk qv xr]; [done|]. simpl in Ex. subst xc.
    apply wp_bind. eapply (copy_open_wp pd) with (F := Fx); [exact Hfz|exact Hx|clear -HWx; set_solver|].
    intros q h1 qn qf Fqn Fqf Hq Hq0 Hfz1 Hq1 Hqn Hqf Hqd Nqn Nqf Hs1 Hs2 Hag1.
    assert (N1 : q <> a /\ q <> a1 /\ q <> s) by (split_and!; congruence). destruct N1 as (N1 & N2 & N3).
    pose proof (fresh_notin_c _ _ _ _ _ _ _ Hc Hq) as Nc.
    pose proof (fresh_notin_m _ _ _ _ _ _ Hn Hq) as Nn.
    pose proof (fresh_notin_m _ _ _ _ _ _ Ho Hq) as No.
    pose proof (fresh_notin_m _ _ _ _ _ _ Hy Hq) as Ny.
    apply wp_bind. eapply wp_set_rchld; [rewrite Hag1 by done; exact Hs|done|clear -HW; set_solver|].
    apply wp_bind. eapply wp_double.
    { rewrite lookup_insert_ne by done. rewrite Hag1 by done. rewrite Ha1. by rewrite <- ndir_negb. }
    { rewrite lookup_insert. by rewrite <- ndir_negb. }
    { rewrite lookup_insert_ne by done. rewrite Hq1. by rewrite <- ndir_negb. }
    { done. } { done. } { done. } { clear -HW; set_solver. } { clear -HW; set_solver. } { clear; set_solver. }
    intros h2 Ka1 Ks Kq Hag2. rewrite ndir_negb in Ka1, Ks, Kq.
    assert (Hag : forall z, z <> a1 -> z <> s -> z <> q -> h2 !! z = h1 !! z).
    { intros. rewrite Hag2 by done. by rewrite lookup_insert_ne. }
    clear Hag2.
    assert (Nsq : s ∉ Fqf /\ s ∉ Fy) by (clear -HXx HXy Hs2; set_solver). destruct Nsq as [Nsq Nsy].
    apply (wp_bind_inv (set_rchld (Some (hdloc fr ctx)) (hddir ctx) (Some q)) (fun _ => _)).
    eapply (del_rot_end _ _ q s) with (u := (qf, y)) (Fx := Fqn) (Fb := {[s]} ∪ Fqf ∪ Fy).
    + rewrite Hag by done. rewrite Hag1 by done. exact Ha.
    + exact Ka1.
    + exact Kq.
    + exact Ks.
    + intros h3 Hb3 Hag3. simpl in Hb3. eapply mrep_mk; [exact Hb3|done| | |done|done|].
      * eapply mrep_agree; [destruct pd; exact Hqf|]. intros z Hz.
        rewrite Hag3 by (clear -Hz Nsq; set_solver). apply Hag; clear -Hz HXx Hs2 Nqf; set_solver.
      * eapply mrep_agree; [exact Hy|]. intros z Hz.
        rewrite Hag3 by (clear -Hz Nsy; set_solver).
        rewrite Hag, Hag1; [done| | | |]; clear -Hz HXy Ny; set_solver.
      * clear -Hxy Hs2. set_solver.
    + clear; set_solver.
    + intros z Hz. apply elem_of_union in Hz as [[->%elem_of_singleton|Hz]%elem_of_union|Hz].
      * by rewrite Ks.
      * rewrite Hag; [by eapply mrep_dom in Hqf as [? _]| | |]; clear -Hz HXx Hs2 Nqf; set_solver.
      * rewrite Hag, Hag1; [by eapply mrep_dom in Hy as [? _]| | | |]; clear -Hz HXy Ny; set_solver.
    + eapply mrep_agree; [destruct pd; exact Hqn|]. intros z Hz. apply Hag; clear -Hz HXx Hs1 Nqn; set_solver.
    + done.
    + done.
    + apply (frozen_agree _ h1); [done|]. intros z.
      destruct (decide (z = q)) as [->|]; [by right|]. destruct (decide (z = a1)) as [->|]; [by right|].
      destruct (decide (z = s)) as [->|]; [by right|]. left. by apply Hag.
    + intros z Hz. rewrite Hag, Hag1; [done| | | |]; clear -Hz D4 D5 D6 D7 D9 D10 Nc Nn No; set_solver.
    + done.
    + done.
    + clear -Nc Nn No Nqn Nqf Ny N3. set_solver.
    + clear -HXx Hs1. set_solver.
    + clear -HXx HXy Hs2 D6 D7 D10 D12 D13. set_solver.
    + clear -Hqd Hs1 HXx Hxy. set_solver.
    + clear; set_solver.
    + clear -HW HWx Hs1 Hs2. set_solver.
  - (* single *)
    destruct yt as [|yc yl bk bv yr]; [done|]. assert (yc = true) as -> by (by destruct yc).
    apply wp_bind. eapply (copy_open_wp pd) with (F := Fy); [exact Hfz|exact Hy|clear -HWx; set_solver|].
    intros q h1 qn qf Fqn Fqf Hq Hq0 Hfz1 Hq1 Hqn Hqf Hqd Nqn Nqf Hs1 Hs2 Hag1.
    assert (N1 : q <> a /\ q <> a1 /\ q <> s) by (split_and!; congruence). destruct N1 as (N1 & N2 & N3).
    pose proof (fresh_notin_c _ _ _ _ _ _ _ Hc Hq) as Nc.
    pose proof (fresh_notin_m _ _ _ _ _ _ Hn Hq) as Nn.
    pose proof (fresh_notin_m _ _ _ _ _ _ Ho Hq) as No.
    pose proof (fresh_notin_m _ _ _ _ _ _ Hx Hq) as Nx.
    apply wp_bind. eapply wp_set_rchld_far; [rewrite Hag1 by done; exact Hs|done|clear -HW; set_solver|].
    apply wp_bind. eapply wp_single.
    { rewrite lookup_insert_ne by done. rewrite Hag1 by done. rewrite Ha1. by rewrite <- ndir_negb. }
    { rewrite lookup_insert. by rewrite <- ndir_negb. }
    { done. } { clear -HW; set_solver. } { clear -HW; set_solver. }
    intros h2 Ka1 Ks Hag2. rewrite ndir_negb in Ka1, Ks.
    assert (Hag : forall z, z <> a1 -> z <> s -> h2 !! z = h1 !! z).
    { intros. rewrite Hag2 by done. by rewrite lookup_insert_ne. }
    clear Hag2.
    assert (Nsq : s ∉ Fqf /\ s ∉ Fqn) by (clear -HXx HXy Hs1 Hs2; set_solver). destruct Nsq as [Nsq Nsy].
    apply (wp_bind_inv (set_rchld (Some (hdloc fr ctx)) (hddir ctx) (Some s)) (fun _ => _)).
    match goal with |- wp _ _ _ (del_post _ _ _ ?st _ _) => 
      replace st with (Fr true k v dir oth mark :: Fr false (f_k f1) (f_v f1) pd xt (f_mark f1) ::
         Fr true sk sv pd (T false yl bk bv yr) false :: map snd ctx) by (destruct xt as [|[] ? ? ? ?]; done) end.
    eapply (del_rot_end _ _ s q) with (u := (qn, qf)) (Fx := Fx) (Fb := {[q]} ∪ Fqn ∪ Fqf).
    + rewrite Hag by done. rewrite Hag1 by done. exact Ha.
    + exact Ka1.
    + exact Ks.
    + rewrite Hag by done. exact Hq1.
    + intros h3 Hb3 Hag3. simpl in Hb3. eapply (mrep_node h0 h3 q pd); [exact Hb3|done| | |done|done|done].
      * eapply mrep_agree; [exact Hqn|]. intros z Hz.
        rewrite Hag3 by (clear -Hz Nqn; set_solver). apply Hag; clear -Hz HXy Hs1 Nqn; set_solver.
      * eapply mrep_agree; [exact Hqf|]. intros z Hz.
        rewrite Hag3 by (clear -Hz Nqf; set_solver). apply Hag; clear -Hz HXy Hs2 Nqf; set_solver.
    + clear; set_solver.
    + intros z Hz. apply elem_of_union in Hz as [[->%elem_of_singleton|Hz]%elem_of_union|Hz].
      * rewrite Hag by done. by rewrite Hq1.
      * rewrite Hag; [by eapply mrep_dom in Hqn as [? _]| |]; clear -Hz HXy Hs1 Nqn; set_solver.
      * rewrite Hag; [by eapply mrep_dom in Hqf as [? _]| |]; clear -Hz HXy Hs2 Nqf; set_solver.
    + eapply mrep_agree; [exact Hx|]. intros z Hz. rewrite Hag, Hag1; [done| | |]; clear -Hz HXx Nx; set_solver.
    + done.
    + done.
    + apply (frozen_agree _ h1); [done|]. intros z.
      destruct (decide (z = a1)) as [->|]; [by right|].
      destruct (decide (z = s)) as [->|]; [by right|]. left. by apply Hag.
    + intros z Hz. rewrite Hag, Hag1; [done| | |]; clear -Hz D4 D5 D6 D7 D9 D10 Nc Nn No; set_solver.
    + done.
    + done.
    + clear -D6 D7 D10 HXx Nsq Nsy N3. set_solver.
    + clear -HXx. set_solver.
    + clear -HXy Hs1 Hs2 Nc Nn No N1 N2. set_solver.
    + clear -Nx Hs1 Hs2 Hxy. set_solver.
    + clear; set_solver.
    + clear -HW HWx Hs1 Hs2. set_solver.
Qed.
End sib.
End del.
