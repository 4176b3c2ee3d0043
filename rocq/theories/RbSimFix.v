(** * The memory model of the red violation fix (insertion) implements the
    functional version. *)
From Verif Require Import Prog RbModel RbSpec RbFun RbSim.

Section ins.
Context {U : Type}.
Local Notation heap := (heap U).
Local Notation tree := (tree U).
Local Notation frame := (frame U).
Local Notation value := (value U).
Implicit Types h : heap.
Variable h0 : heap.
Variable fr : loc.
Notation lctx := (list (loc * frame)).
Local Notation mrep := (mrep h0).
Local Notation crep := (crep h0 fr).

(** A private node (to be put) in a hole of a path. *)
Record focq h (W : gset loc) (ctx : lctx) (q : ptr) (a : loc) (c : bool) (l : tree) (k : bytes) (v : value) (r : tree)
    (pl pr : ptr) (Fc Fl Fr : gset loc) : Prop := {
  foc_ctx : crep h ctx q Fc;
  foc_node : h !! a = Some (CRb (RbN k v pl pr c));
  foc_new : h0 !! a = None;
  foc_l : mrep h pl l Fl;
  foc_r : mrep h pr r Fr;
  foc_al : a ∉ Fl;
  foc_ar : a ∉ Fr;
  foc_lr : Fl ## Fr;
  foc_ac : a ∉ Fc;
  foc_cl : Fc ## Fl;
  foc_cr : Fc ## Fr;
  foc_W : {[a]} ∪ Fl ∪ Fr ∪ Fc ⊆ W;
  foc_frozen : h0 ⊆ h }.
Notation foc h W ctx a := (focq h W ctx (Some a%positive) a%positive).

Lemma RbN_ndir d c k v pl pr : RbN (U:=U) k v pl pr c = ndir d c k v (if d then pr else pl) (if d then pl else pr).
Proof. by destruct d. Qed.

Lemma fix_wp h W ctx a c l k v r pl pr Fc Fl Fr gp pd ctx1 t1 (Q : ptr * ptr * bool -> heap -> gset loc -> Prop) :
  foc h W ctx a c l k v r pl pr Fc Fl Fr ->
  (hdred ctx = true -> gp = par fr (tail ctx) /\ pd = hddir (tail ctx)) ->
  fixv (map snd ctx) (T c l k v r) = Some (ctx1, t1) ->
  (forall h' ctx' c' l' r' pl' pr' Fl' Fr' Fc' g' p' dbl,
     map snd ctx' = ctx1 -> t1 = T c' l' k v r' ->
     foc h' W ctx' a c' l' k v r' pl' pr' Fc' Fl' Fr' ->
     p' = Some (hdloc fr ctx') ->
     (c' = true -> g' = par fr ctx' /\ hddir ctx' = hddir ctx) ->
     (dbl = false -> pl' = pl /\ pr' = pr /\ Fl' = Fl /\ Fr' = Fr) ->
     (dbl = true -> rooted pl' Fl' /\ rooted pr' Fr') ->
     {[a]} ∪ Fl' ∪ Fr' ∪ Fc' = {[a]} ∪ Fl ∪ Fr ∪ Fc ->
     Q (g', p', dbl) h' W) ->
  wp (fix_violation gp (par fr ctx) (Some (hdloc fr ctx)) (Some a) pd) h W Q.
Proof.
  intros Hf Hv Hfix HQ. pose proof Hf as [Hc Ha Ha0 Hl Hr Hal Har Hlr Hac Hcl Hcr HW Hfz].
  destruct (crep_hd _ _ _ _ _ _ Hc) as (kp & vp & pop & Hp & Hp0 & HpF & _).
  unfold fix_violation. apply wp_bind. eapply wp_ld_rb; [exact Ha|].
  apply wp_bind. eapply wp_ld_rb; [exact Hp|]. rewrite ndir_red. simpl rb_red.
  destruct (c && hdred ctx) eqn:Eviol.
  2: { cbn [wp]. assert (Some (ctx1, t1) = Some (map snd ctx, T c l k v r)) as [= -> ->].
       { rewrite <- Hfix. destruct ctx as [|[a1 f1] ctx]; simpl in *; [done|]. by rewrite Eviol. }
       eapply HQ; try done. }
  apply andb_true_iff in Eviol as [-> Ered]. destruct (Hv Ered) as [-> ->]. clear Hv.
  destruct ctx as [|[a1 f1] ctx]; [done|]. simpl in Ered. simpl map in Hfix. unfold fixv in Hfix. simpl in Hfix. rewrite Ered in Hfix. simpl in Hfix.
  destruct ctx as [|[a2 f2] ctx]; [done|]. cbn [map snd] in Hfix. cbn beta iota in Hfix. cbn [tail par hdloc hddir].
  change (hdloc fr ((a1, f1) :: (a2, f2) :: ctx)) with a1 in *. cbn [hddir hdred] in Hp.
  pose proof (crep_dir2 h0 fr h a1 f1 _ a Fc _ (f_dir f2) Hc Ha0 Hac Hp) as Hd2.
  pose proof Hc as (po1 & Fo1 & Fc1 & Ha1 & Ha10 & Ho1 & Hc1 & H11 & H12 & H13 & ->).
  rewrite Ha1 in Hp. injection Hp as Hnp.
  pose proof Hc1 as (po2 & Fo2 & Fc2 & Ha2 & Ha20 & Ho2 & Hc2 & H21 & H22 & H23 & ->).
  destruct (crep_hd _ _ _ _ _ _ Hc2) as (kg & vg & pog & Hg & Hg0 & HgF & Hset).
  apply wp_bind. eapply wp_ld_rb; [exact Hg|].
  rewrite (crep_dir _ _ _ _ _ _ _ Hc2 Ha20 H22 Hg).
  apply wp_bind. eapply wp_ld_rb; [exact Ha1|]. rewrite Hnp, Hd2.
  set (g := hdloc fr ctx) in *.
  assert (a <> a1 /\ a <> a2 /\ a1 <> a2 /\ a <> g /\ a1 <> g /\ a2 <> g) as (Hn1 & Hn2 & Hn3 & Hn4 & Hn5 & Hn6).
  { clear -HgF H22 H12 H21 H11 Hac. set_solver. }
  assert (a ∈ W /\ a1 ∈ W /\ a2 ∈ W /\ g ∈ W) as (HaW & Ha1W & Ha2W & HgW).
  { clear -HgF HW. set_solver. }
  destruct (eqb (f_dir f1) (f_dir f2)) eqn:Edd.
  - (* single *)
    apply eqb_prop in Edd. injection Hfix as <- <-. rewrite <- Edd in *.
    apply wp_bind. eapply wp_single; [exact Ha2|exact Ha1|congruence|done|done|].
    intros h1 Hh2 Hh1 Hag. apply wp_bind.
    eapply wp_set_rchld; [rewrite Hag by congruence; exact Hg|done|done|].
    cbn [wp].
    set (h2 := <[g:=CRb (ndir (hddir ctx) (hdred ctx) kg vg (Some a1) pog)]> h1).
    assert (Hag2 : forall x, x <> a1 -> x <> a2 -> x <> g -> h2 !! x = h !! x).
    { intros. unfold h2. rewrite lookup_insert_ne by done. by apply Hag. }
    assert (Hx2 : h2 !! a2 = Some (CRb (ndir (f_dir f1) true (f_k f2) (f_v f2) po1 po2))).
    { unfold h2. by rewrite lookup_insert_ne by done. }
    assert (Hx1 : h2 !! a1 = Some (CRb (ndir (f_dir f1) false (f_k f1) (f_v f1) (Some a) (Some a2)))).
    { unfold h2. by rewrite lookup_insert_ne by done. }
    assert (Hxg : h2 !! g = Some (CRb (ndir (hddir ctx) (hdred ctx) kg vg (Some a1) pog))).
    { unfold h2. by rewrite lookup_insert. }
    clearbody h2.
    assert (crep h2 ctx (Some a1) Fc2) as Hc2'.
    { apply Hset; [done|]. intros x Hx Hne. apply Hag2; try done; clear -Hx H22 H12; set_solver. }
    assert (mrep h2 po1 (f_oth f1) Fo1) as Ho1'.
    { eapply mrep_agree; [exact Ho1|]. intros x Hx. apply Hag2; clear -Hx H11 H13 HgF; set_solver. }
    assert (mrep h2 po2 (f_oth f2) Fo2) as Ho2'.
    { eapply mrep_agree; [exact Ho2|]. intros x Hx. apply Hag2; clear -Hx H12 H21 H23 HgF; set_solver. }
    eapply HQ with (ctx' := (a1, RbFun.Fr false (f_k f1) (f_v f1) (f_dir f1) (mk (f_dir f1) true (f_oth f1) (f_k f2) (f_v f2) (f_oth f2)) false) :: ctx)
      (Fc' := {[a1]} ∪ ({[a2]} ∪ Fo1 ∪ Fo2) ∪ Fc2); try done.
    2: { clear. set_solver. }
    split; try done.
    + exists (Some a2), ({[a2]} ∪ Fo1 ∪ Fo2), Fc2. simpl. split_and!; try done.
      * eapply mrep_mk; try done; clear -H11 H12 H13 H21 H22 H23; set_solver.
      * clear -H11 H12 H13 H21 H22 H23; set_solver.
      * clear -H11 H12 H13 H21 H22 H23; set_solver.
      * clear -H11 H12 H13 H21 H22 H23; set_solver.
    + rewrite Hag2 by congruence. done.
    + eapply mrep_agree; [exact Hl|]. intros x Hx. apply Hag2; clear -Hx Hcl HgF; set_solver.
    + eapply mrep_agree; [exact Hr|]. intros x Hx. apply Hag2; clear -Hx Hcr HgF; set_solver.
    + clear -Hac. set_solver.
    + clear -Hcl. set_solver.
    + clear -Hcr. set_solver.
    + clear -HW. set_solver.
    + apply (frozen_agree _ h); [done|]. intros x.
      destruct (decide (x = a1)) as [->|]; [by right|]. destruct (decide (x = a2)) as [->|]; [by right|].
      destruct (decide (x = g)) as [->|]; [by right|]. left. by apply Hag2.
  - (* double *)
    assert (f_dir f1 = negb (f_dir f2)) as Edd' by (destruct (f_dir f1), (f_dir f2); done). clear Edd.
    injection Hfix as <- <-. rewrite Edd' in *. rewrite ndir_negb in Ha1.
    set (d := f_dir f2) in *.
    apply wp_bind.
    rewrite (RbN_ndir d) in Ha.
    eapply wp_double; [exact Ha2|exact Ha1|exact Ha|congruence|congruence|congruence|done|done|done|].
    intros h1 Hh2 Hh1 Hha Hag. apply wp_bind.
    eapply wp_set_rchld; [rewrite Hag by congruence; exact Hg|done|done|].
    cbn [wp].
    set (h2 := <[g:=CRb (ndir (hddir ctx) (hdred ctx) kg vg (Some a) pog)]> h1).
    assert (Hag2 : forall x, x <> a -> x <> a1 -> x <> a2 -> x <> g -> h2 !! x = h !! x).
    { intros. unfold h2. rewrite lookup_insert_ne by done. by apply Hag. }
    assert (Hx2 : h2 !! a2 = Some (CRb (ndir d true (f_k f2) (f_v f2) (if d then pl else pr) po2))).
    { unfold h2. by rewrite lookup_insert_ne by done. }
    assert (Hx1 : h2 !! a1 = Some (CRb (ndir d true (f_k f1) (f_v f1) po1 (if d then pr else pl)))).
    { unfold h2. by rewrite lookup_insert_ne by done. }
    assert (Hxa : h2 !! a = Some (CRb (ndir d false k v (Some a1) (Some a2)))).
    { unfold h2. by rewrite lookup_insert_ne by done. }
    assert (Hxg : h2 !! g = Some (CRb (ndir (hddir ctx) (hdred ctx) kg vg (Some a) pog))).
    { unfold h2. by rewrite lookup_insert. }
    clearbody h2.
    assert (crep h2 ctx (Some a) Fc2) as Hc2'.
    { apply Hset; [done|]. intros x Hx Hne. apply Hag2; try done; clear -Hx H22 H12 Hac; set_solver. }
    assert (mrep h2 po1 (f_oth f1) Fo1) as Ho1'.
    { eapply mrep_agree; [exact Ho1|]. intros x Hx. apply Hag2; clear -Hx H11 H13 HgF Hac; set_solver. }
    assert (mrep h2 po2 (f_oth f2) Fo2) as Ho2'.
    { eapply mrep_agree; [exact Ho2|]. intros x Hx. apply Hag2; clear -Hx H12 H21 H23 HgF Hac; set_solver. }
    assert (mrep h2 pl l Fl) as Hl'.
    { eapply mrep_agree; [exact Hl|]. intros x Hx. apply Hag2; clear -Hx Hcl Hal HgF; set_solver. }
    assert (mrep h2 pr r Fr) as Hr'.
    { eapply mrep_agree; [exact Hr|]. intros x Hx. apply Hag2; clear -Hx Hcr Har HgF; set_solver. }
    assert (h0 ⊆ h2) as Hfz2.
    { apply (frozen_agree _ h); [done|]. intros x. destruct (decide (x = a)) as [->|]; [by right|].
      destruct (decide (x = a1)) as [->|]; [by right|]. destruct (decide (x = a2)) as [->|]; [by right|].
      destruct (decide (x = g)) as [->|]; [by right|]. left. by apply Hag2. }
    clear Hag Hag2 Hset.
    destruct d; simpl in *.
    + eapply HQ with (ctx' := ctx) (pr' := Some a1) (pl' := Some a2) (Fr' := {[a1]} ∪ Fr ∪ Fo1) (Fl' := {[a2]} ∪ Fl ∪ Fo2); try done.
      * split; try done.
        -- eapply (mrep_mk h0 h2 a2 true); try done; clear -HW Hcl Hcr Hlr H11 H12 H13 H21 H22 H23; set_solver.
        -- eapply (mrep_mk h0 h2 a1 false); try done; clear -HW Hcl Hcr Hlr H11 H12 H13 H21 H22 H23; set_solver.
        -- clear -Hac Hal. set_solver.
        -- clear -Hac Har. set_solver.
        -- clear -Hcl Hcr Hlr H11 H12 H13 H21 H22 H23; set_solver.
        -- clear -Hac. set_solver.
        -- clear -Hcl Hcr Hlr H11 H12 H13 H21 H22 H23; set_solver.
        -- clear -Hcl Hcr Hlr H11 H12 H13 H21 H22 H23; set_solver.
        -- clear -HW. set_solver.
      * intros _. split; [exists a2; clear; set_solver|exists a1; clear; set_solver].
      * clear. set_solver.
    + eapply HQ with (ctx' := ctx) (pl' := Some a1) (pr' := Some a2) (Fl' := {[a1]} ∪ Fl ∪ Fo1) (Fr' := {[a2]} ∪ Fr ∪ Fo2); try done.
      * split; try done.
        -- eapply (mrep_mk h0 h2 a1 true); try done; clear -HW Hcl Hcr Hlr H11 H12 H13 H21 H22 H23; set_solver.
        -- eapply (mrep_mk h0 h2 a2 false); try done; clear -HW Hcl Hcr Hlr H11 H12 H13 H21 H22 H23; set_solver.
        -- clear -Hac Hal. set_solver.
        -- clear -Hac Har. set_solver.
        -- clear -Hcl Hcr Hlr H11 H12 H13 H21 H22 H23; set_solver.
        -- clear -Hac. set_solver.
        -- clear -Hcl Hcr Hlr H11 H12 H13 H21 H22 H23; set_solver.
        -- clear -Hcl Hcr Hlr H11 H12 H13 H21 H22 H23; set_solver.
        -- clear -HW. set_solver.
      * intros _. split; [exists a1; clear; set_solver|exists a2; clear; set_solver].
      * clear. set_solver.
Qed.
End ins.
