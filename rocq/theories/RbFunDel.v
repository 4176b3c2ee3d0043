(** * Functional deletion: shape and content. *)
From Verif Require Import Prog RbSpec RbFun RbFunIns.
From Coq Require Import ZifyBool.

Section shape.
Context {U : Type}.
Local Notation value := (value U).
Local Notation tree := (tree U).
Local Notation frame := (frame U).

Record dinv (ctx : list frame) (t : tree) (n : nat) : Prop := {
  dinv_t : rb t (isred t) n;
  dinv_ctx : okctx ctx (isred t) n;
  dinv_red : match ctx with
    | [] => True
    | f1 :: rest => f_red f1 = true \/ isred t = true \/ (rest = [] /\ isred (f_oth f1) = false)
    end }.

Lemma rb_zero (t : tree) : rb t false 0 -> t = E.
Proof. destruct t as [|[] l k v r]; simpl; naive_solver. Qed.
Lemma rb_false (t : tree) c n : rb t c n -> isred t = false -> rb t false n.
Proof. intros H <-. by rewrite (rb_color _ _ _ H). Qed.

Lemma del_step_ok ctx c (l : tree) k v r dir mark n :
  dinv ctx (T c l k v r) n ->
  exists n', dinv (del_step ctx c l k v r dir mark) (if dir then r else l) n'.
Proof.
  intros [Ht Hctx Hred]. simpl isred in *. unfold del_step.
  set (near := if dir then r else l). set (oth := if dir then l else r).
  apply rb_inv in Ht as [_ Ht].
  destruct c.
  { (* red node *)
    destruct Ht as [Hl Hr]. simpl.
    assert (Hn : rb near false n) by by destruct dir. assert (Ho : rb oth false n) by by destruct dir.
    exists n. split; rewrite ?(rb_color _ _ _ Hn); [done|by simpl|by left]. }
  destruct Ht as (m & c1 & c2 & -> & Hl & Hr). simpl negb.
  assert (exists cn, rb near cn m) as [cn Hn] by (destruct dir; eauto).
  assert (exists co, rb oth co m) as [co Ho] by (destruct dir; eauto).
  clearbody near oth. clear Hl Hr l r c1 c2.
  destruct (isred near) eqn:En; cbn [andb negb].
  { exists m. split; rewrite ?En; [|simpl; eauto|auto].
    by rewrite (rb_color _ _ _ Hn) in En; subst. }
  apply rb_false in Hn; [|done].
  assert (Hplain : (f_red <$> hd_error ctx) = None -> isred oth = false ->
     exists n', dinv [Fr false k v dir oth mark] near n').
  { intros _ Eo. exists m. split; rewrite ?En; [done|simpl; eauto|]. right. by right. }
  destruct (isred oth) eqn:Eo.
  { (* red sibling: rotate *)
    destruct oth as [|[] sl sk sv sr]; try done.
    apply rb_inv in Ho as [<- [Hsl Hsr]].
    assert (Hc : forall d, rb (child d (T true sl sk sv sr)) false m) by (by intros []).
    exists m. split; rewrite ?En; [done| |by left].
    split; [done|]. split; [apply Hc|]. split; [exists false; apply Hc|done]. }
  assert (Hno : forall A (x y : A), match oth with T true _ _ _ _ => x | _ => y end = y).
  { intros A x y. destruct oth as [|[] ? ? ? ?]; done. }
  assert (Hsame : forall (x : bytes -> value -> list frame) (y : list frame),
    match oth with T true _ sk sv _ => x sk sv | _ => y end = y).
  { intros x y. destruct oth as [|[] ? ? ? ?]; done. }
  rewrite Hsame. clear Hsame Hno.
  destruct ctx as [|f1 rest]; [by apply Hplain|]. clear Hplain.
  assert (Hs : rb (f_oth f1) false (S m) /\ okctx rest false (S m) /\ (okctx rest true (S m))).
  { simpl in Hctx. destruct (f_red f1) eqn:Ef.
    - destruct Hctx as (_ & H1 & H2). split; [done|]. split; [by eapply okctx_black|done].
    - destruct Hred as [?|[?|[-> Hi]]]; [done|done|]. destruct Hctx as [[c' H1] _].
      split; [|done]. by eapply rb_false. }
  destruct Hs as (Hs & Hrf & Hrt). apply rb_false in Ho; [|done].
  destruct (f_oth f1) as [|sc sl sk sv sr] eqn:Efo; [by destruct Hs|].
  pose proof Hs as Hs'. apply rb_inv in Hs' as (-> & m' & c1 & c2 & [= <-] & Hsl & Hsr).
  destruct (isred sl) eqn:Esl; [|destruct (isred sr) eqn:Esr]; cbn [andb negb].
  3: { (* recolour *)
    exists m. split; rewrite ?En; [done| |by left].
    split; [done|]. split; [done|]. split; [|done].
    exists true. by apply rb_recolor_red. }
  all: set (s := T false sl sk sv sr) in *; set (pd := f_dir f1).
  all: assert (Hc : exists cc, rb (child pd s) cc m) by (destruct pd; simpl; eauto).
  all: assert (Hc' : exists cc, rb (child (negb pd) s) cc m) by (destruct pd; simpl; eauto).
  all: destruct Hc as [cc Hc], Hc' as [cc' Hc'].
  all: destruct (child pd s) as [|qc ql qk qv qr] eqn:Eq; [|destruct qc].
  all: exists m; (split; rewrite ?En; [done| |by left]); (split; [done|]); (split; [done|]).
  all: try (apply rb_inv in Hc as [<- [Hql Hqr]];
    (split; [exists false; by destruct pd|]); (split; [done|]);
    (split; [|done]); destruct pd; simpl in *; eauto 10; fail).
  all: split; [eexists; exact Hc|]; split; [done|]; split; [|done]; simpl.
  all: destruct (isred (child (negb pd) s)) eqn:Er;
    [rewrite (rb_color _ _ _ Hc') in Er; subst; by apply rb_recolor_black|].
  all: exfalso; destruct pd; simpl in *; subst; simpl in *; congruence.
Qed.

Variable cmp : bytes -> bytes -> Z.
Variable key : bytes.

Lemma del_walk_ok t : forall ctx n, dinv ctx t n -> dinv (del_walk cmp key ctx t) E 0.
Proof.
  induction t as [|c l IHl k v r IHr]; intros ctx n H.
  - simpl. pose proof (dinv_t _ _ _ H) as [_ ->]. done.
  - simpl. apply del_step_ok with (dir := todir cmp key k) (mark := (cmp k key =? 0)%Z) in H as [n' H].
    destruct (todir cmp key k); eauto.
Qed.

Lemma okctx_set_marked k v ctx : forall c n, okctx ctx c n -> okctx (set_marked k v ctx : list frame) c n.
Proof.
  induction ctx as [|f ctx IH]; intros c n; simpl; [done|].
  destruct (f_mark f); simpl; [done|]. destruct (f_red f); naive_solver.
Qed.

Lemma del_end_ok ctx : dinv ctx E 0 -> exists c n, rb (del_end ctx) c n.
Proof.
  intros [_ Hctx Hred]. unfold del_end. destruct ctx as [|f rest]; [by exists false, 0|].
  destruct (marked (f :: rest)); [|by eapply plug_ok].
  assert (f_oth f = E /\ okctx rest false 0) as [-> Hr].
  { simpl in Hctx. destruct (f_red f) eqn:Ef.
    - destruct Hctx as (_ & H1 & H2). apply rb_zero in H1. split; [done|by eapply okctx_black].
    - destruct Hred as [?|[?|[-> Hi]]]; [done|done|]. destruct Hctx as [[c' H1] _].
      apply rb_false in H1; [|done]. split; [by apply rb_zero|done]. }
  eapply (plug_ok _ _ false 0); [|done]. destruct (f_mark f); [done|by apply okctx_set_marked].
Qed.

(** The node that is unlinked has no other child. *)
Lemma del_walk_end (t : tree) : rbt t ->
  match del_walk cmp key [] t with [] => True | f :: _ => f_oth f = E end.
Proof.
  intros [n Ht]. assert (H : dinv [] t n).
  { split; [by rewrite (rb_color _ _ _ Ht)|done|done]. }
  apply del_walk_ok in H. destruct H as [_ Hctx Hred]. destruct (del_walk cmp key [] t) as [|f rest]; [done|].
  simpl in Hctx. destruct (f_red f) eqn:Ef.
  - destruct Hctx as (_ & H1 & H2). by apply rb_zero in H1.
  - destruct Hred as [?|[?|[-> Hi]]]; [done|done|]. destruct Hctx as [[c' H1] _].
    apply rb_false in H1; [|done]. by apply rb_zero.
Qed.

Lemma f_del_ok (t : tree) : rbt t -> rbt (f_del cmp key t).1.
Proof.
  intros [n Ht]. unfold f_del. simpl.
  assert (H : dinv [] t n).
  { split; [by rewrite (rb_color _ _ _ Ht)|done|done]. }
  apply del_walk_ok in H. apply del_end_ok in H as (c & n' & H). unfold rbt. by eapply rb_black_root.
Qed.
End shape.

Section content.
Context {U : Type}.
Local Notation value := (value U).
Local Notation tree := (tree U).
Local Notation frame := (frame U).
Variable cmp : bytes -> bytes -> Z.
Variable key : bytes.
Local Notation todir := (todir cmp key).
Local Notation below := (below cmp key).
Local Notation above := (above cmp key).

Lemma inord_child_dir (d : bool) (t : tree) : isred t = true ->
  exists k v, t = T true (child false t) k v (child true t).
Proof. destruct t as [|[] l k v r]; simpl; try done. eauto. Qed.

Lemma del_step_cl ctx c (l : tree) k v r dir mark :
  cl (del_step ctx c l k v r dir mark) = cl ctx ++ (if dir then inord l ++ [(k, v)] else []) /\
  cr (del_step ctx c l k v r dir mark) = (if dir then [] else (k, v) :: inord r) ++ cr ctx.
Proof.
  unfold del_step. destruct (negb c && negb (isred (if dir then r else l))).
  2: { simpl. by destruct dir. }
  set (oth := if dir then l else r).
  assert (Hpl : forall b m, cl (Fr b k v dir oth m :: ctx) = cl ctx ++ (if dir then inord l ++ [(k, v)] else []) /\
     cr (Fr b k v dir oth m :: ctx) = (if dir then [] else (k, v) :: inord r) ++ cr ctx).
  { intros b m. unfold oth. simpl. by destruct dir. }
  assert (Hpl2 : forall b m f (ctx1 : list frame), cl (f :: ctx1) = cl ctx -> cr (f :: ctx1) = cr ctx ->
    cl (Fr b k v dir oth m :: f :: ctx1) = cl ctx ++ (if dir then inord l ++ [(k, v)] else []) /\
     cr (Fr b k v dir oth m :: f :: ctx1) = (if dir then [] else (k, v) :: inord r) ++ cr ctx).
  { intros b m f ctx1 E1 E2. simpl in *. rewrite E1, E2. unfold oth. by destruct dir. }
  assert (HB : forall x y : bool, let ctx' := match ctx with
      | [] => [Fr c k v dir oth mark]
      | f1 :: rest =>
        let pd := f_dir f1 in
        match f_oth f1 with
        | E => Fr c k v dir oth mark :: ctx
        | T sc sl sk sv sr as s =>
          if negb (isred sl) && negb (isred sr) then
            Fr true k v dir oth mark :: Fr false (f_k f1) (f_v f1) pd (recolor true s) (f_mark f1) :: rest
          else
            match child pd s with
            | T true _ qk qv _ as q =>
              Fr true k v dir oth mark :: Fr false (f_k f1) (f_v f1) pd (child pd q) (f_mark f1) ::
              Fr true qk qv pd (mk pd false (child (negb pd) q) sk sv (child (negb pd) s)) false :: rest
            | _ =>
              Fr true k v dir oth mark :: Fr false (f_k f1) (f_v f1) pd (child pd s) (f_mark f1) ::
              Fr true sk sv pd (recolor false (child (negb pd) s)) false :: rest
            end
        end
      end in
    cl ctx' = cl ctx ++ (if dir then inord l ++ [(k, v)] else []) /\
    cr ctx' = (if dir then [] else (k, v) :: inord r) ++ cr ctx).
  { intros _ _. cbv zeta. destruct ctx as [|f1 rest]; [apply Hpl|].
    destruct (f_oth f1) as [|sc sl sk sv sr] eqn:Efo; [apply Hpl|].
    destruct (negb (isred sl) && negb (isred sr)).
    { apply Hpl2; simpl; rewrite Efo; by destruct (f_dir f1). }
    assert (Hs1 : forall qc ql qk qv qr, child (f_dir f1) (T sc sl sk sv sr) = T qc ql qk qv qr ->
       let q := T qc ql qk qv qr in
       let fs := Fr false (f_k f1) (f_v f1) (f_dir f1) (child (f_dir f1) q) (f_mark f1) ::
              Fr true qk qv (f_dir f1) (mk (f_dir f1) false (child (negb (f_dir f1)) q) sk sv (child (negb (f_dir f1)) (T sc sl sk sv sr))) false :: rest
       in cl fs = cl (f1 :: rest) /\ cr fs = cr (f1 :: rest)).
    { intros qc ql qk qv qr Eq q fs. unfold fs, q. simpl in *. rewrite Efo.
      destruct (f_dir f1); simpl in *; subst; simpl; split; rewrite <- ?app_assoc; simpl; rewrite <- ?app_assoc; done. }
    assert (Hs2 :
       let fs := Fr false (f_k f1) (f_v f1) (f_dir f1) (child (f_dir f1) (T sc sl sk sv sr)) (f_mark f1) ::
              Fr true sk sv (f_dir f1) (recolor false (child (negb (f_dir f1)) (T sc sl sk sv sr))) false :: rest
       in cl fs = cl (f1 :: rest) /\ cr fs = cr (f1 :: rest)).
    { cbv zeta. simpl in *. rewrite Efo, inord_recolor.
      destruct (f_dir f1); simpl in *; subst; simpl; split; rewrite <- ?app_assoc; simpl; rewrite <- ?app_assoc; done. }
    destruct (child (f_dir f1) (T sc sl sk sv sr)) as [|[] ql qk qv qr] eqn:Eq.
    - apply Hpl2; apply Hs2.
    - apply Hpl2; apply (Hs1 _ _ _ _ _ eq_refl).
    - apply Hpl2; apply Hs2. }
  destruct oth as [|[] sl sk sv sr] eqn:Eo.
  - apply (HB true true).
  - unfold oth in Eo. simpl. destruct dir; subst; simpl; rewrite <- ?app_assoc; simpl; rewrite <- ?app_assoc; done.
  - apply (HB true true).
Qed.

(** Shape of the marks. *)
Definition goes_right (f : frame) : Prop := f_dir f = true /\ f_mark f = false.
Definition onemark (ctx : list frame) : Prop :=
  exists fs1 m fs2, ctx = fs1 ++ m :: fs2 /\ f_mark m = true /\ f_dir m = false /\
    cmp (f_k m) key = 0%Z /\ Forall goes_right fs1 /\ marked fs2 = false.

Lemma del_step_head ctx c (l : tree) k v r dir mark :
  exists c' o' tl, del_step ctx c l k v r dir mark = Fr c' k v dir o' mark :: tl /\
    (marked ctx = false -> marked tl = false) /\
    (dir = true -> onemark ctx -> onemark tl).
Proof.
  unfold del_step. destruct (negb c && negb (isred (if dir then r else l))).
  2: { eauto 10. }
  set (oth := if dir then l else r).
  assert (HB : exists c' o' tl, match ctx with
      | [] => [Fr c k v dir oth mark]
      | f1 :: rest =>
        let pd := f_dir f1 in
        match f_oth f1 with
        | E => Fr c k v dir oth mark :: ctx
        | T sc sl sk sv sr as s =>
          if negb (isred sl) && negb (isred sr) then
            Fr true k v dir oth mark :: Fr false (f_k f1) (f_v f1) pd (recolor true s) (f_mark f1) :: rest
          else
            match child pd s with
            | T true _ qk qv _ as q =>
              Fr true k v dir oth mark :: Fr false (f_k f1) (f_v f1) pd (child pd q) (f_mark f1) ::
              Fr true qk qv pd (mk pd false (child (negb pd) q) sk sv (child (negb pd) s)) false :: rest
            | _ =>
              Fr true k v dir oth mark :: Fr false (f_k f1) (f_v f1) pd (child pd s) (f_mark f1) ::
              Fr true sk sv pd (recolor false (child (negb pd) s)) false :: rest
            end
        end
      end = Fr c' k v dir o' mark :: tl /\ (marked ctx = false -> marked tl = false) /\
       (dir = true -> onemark ctx -> onemark tl)).
  { destruct ctx as [|f1 rest]; [eauto 10|]. cbv zeta.
    assert (H1 : forall c1 o1, (marked (f1 :: rest) = false -> marked (Fr c1 (f_k f1) (f_v f1) (f_dir f1) o1 (f_mark f1) :: rest) = false) /\
       (onemark (f1 :: rest) -> onemark (Fr c1 (f_k f1) (f_v f1) (f_dir f1) o1 (f_mark f1) :: rest))).
    { intros c1 o1. split; [done|]. intros ([|f fs1] & m & fs2 & Eq & Hm & Hd & Hk & Hg & Hfs2).
      - simpl in Eq. injection Eq as -> ->. exists [], (Fr c1 (f_k m) (f_v m) (f_dir m) o1 (f_mark m)), fs2. done.
      - simpl in Eq. injection Eq as -> ->. inversion Hg as [|? ? Hg1 Hg2]; subst.
        exists (Fr c1 (f_k f) (f_v f) (f_dir f) o1 (f_mark f) :: fs1), m, fs2. split_and!; try done. by constructor. }
    assert (H2 : forall c1 o1 c2 k2 v2 o2, 
       (marked (f1 :: rest) = false -> marked (Fr c1 (f_k f1) (f_v f1) (f_dir f1) o1 (f_mark f1) :: Fr c2 k2 v2 (f_dir f1) o2 false :: rest) = false) /\
       (onemark (f1 :: rest) -> onemark (Fr c1 (f_k f1) (f_v f1) (f_dir f1) o1 (f_mark f1) :: Fr c2 k2 v2 (f_dir f1) o2 false :: rest))).
    { intros c1 o1 c2 k2 v2 o2. split; [done|]. intros ([|f fs1] & m & fs2 & Eq & Hm & Hd & Hk & Hg & Hfs2).
      - simpl in Eq. injection Eq as -> ->. exists [], (Fr c1 (f_k m) (f_v m) (f_dir m) o1 (f_mark m)), (Fr c2 k2 v2 (f_dir m) o2 false :: fs2). done.
      - simpl in Eq. injection Eq as -> ->. inversion Hg as [|? ? Hg1 Hg2]; subst.
        exists (Fr c1 (f_k f) (f_v f) (f_dir f) o1 (f_mark f) :: Fr c2 k2 v2 (f_dir f) o2 false :: fs1), m, fs2. split_and!; try done.
        destruct Hg1 as [Hg1 Hg3]. constructor; [done|]. by constructor. }
    destruct (f_oth f1) as [|sc sl sk sv sr] eqn:Efo; [eauto 10|].
    destruct (negb (isred sl) && negb (isred sr)).
    { eexists _, _, _. split; [done|]. split; [apply H1|intros _; apply H1]. }
    destruct (child (f_dir f1) (T sc sl sk sv sr)) as [|[] ql qk qv qr] eqn:Eq.
    all: eexists _, _, _; (split; [done|]); split; [apply H2|intros _; apply H2]. }
  destruct oth as [|[] sl sk sv sr] eqn:Eo.
  - apply HB.
  - eexists _, _, _. split; [done|]. split; [done|].
    intros -> (fs1 & m & fs2 & -> & Hm & Hd & Hk & Hg & Hfs2).
    exists (Fr false sk sv true sl false :: fs1), m, fs2. split_and!; try done. by constructor.
  - apply HB.
Qed.

Hypothesis Hcmp : lawful cmp.

Definition minv (ctx : list frame) : Prop :=
  (marked ctx = false /\ below (cl ctx) /\ above (cr ctx)) \/ onemark ctx.

Lemma cr_goes_right fs ctx : Forall goes_right fs -> cr (fs ++ ctx) = cr ctx.
Proof using Type. clear Hcmp. induction 1 as [|f fs [Hd _] Hf IH]; simpl; [done|]. by rewrite Hd. Qed.

Lemma del_walk_content t : forall ctx, minv ctx -> ordered cmp (inord (plug ctx t)) ->
  minv (del_walk cmp key ctx t) /\ inord (plug (del_walk cmp key ctx t) E) = inord (plug ctx t).
Proof using Hcmp.
  induction t as [|c l IHl k v r IHr]; intros ctx Hm Ho; [done|].
  cbn [del_walk]. set (dir := todir k) in *. set (mark := (cmp k key =? 0)%Z) in *.
  set (ctx' := del_step ctx c l k v r dir mark).
  destruct (del_step_cl ctx c l k v r dir mark) as [Ecl Ecr]. fold ctx' in Ecl, Ecr.
  assert (Ein : inord (plug ctx' (if dir then r else l)) = inord (plug ctx (T c l k v r))).
  { rewrite !inord_plug, Ecl, Ecr. simpl. destruct dir; by rewrite <- ?app_assoc, ?app_nil_r. }
  assert (Hm' : minv ctx').
  { destruct (del_step_head ctx c l k v r dir mark) as (c' & o' & tl & Eh & H1 & H2). fold ctx' in Eh.
    rewrite inord_plug in Ho. simpl in Ho. destruct Hm as [(Hnm & Hb & Ha)|Hone].
    - destruct mark eqn:Em.
      + right. exists [], (Fr c' k v dir o' true), tl. rewrite Eh. unfold mark in Em. split_and!; try done.
        * simpl. unfold dir, RbFun.todir. lia.
        * simpl. lia.
        * auto.
      + left. assert (Ho' : ordered cmp ((cl ctx ++ inord l) ++ (k, v) :: inord r ++ cr ctx)).
        { replace (_ ++ _) with (cl ctx ++ (inord l ++ (k, v) :: inord r) ++ cr ctx); [done|].
          by rewrite <- !app_assoc. }
        split_and!.
        * rewrite Eh. simpl. auto.
        * rewrite Ecl. unfold dir, RbFun.todir in *. destruct (cmp k key <? 0)%Z eqn:Ed.
          -- rewrite app_assoc. eapply (ordered_mid_lt cmp Hcmp); [exact Ho'|lia].
          -- by rewrite app_nil_r.
        * rewrite Ecr. unfold dir, RbFun.todir in *. destruct (cmp k key <? 0)%Z eqn:Ed; [done|].
          eapply (ordered_mid_gt cmp Hcmp); [exact Ho'|]. unfold mark in Em. lia.
    - (* already found: this key is smaller *)
      assert (Hlt : (cmp k key < 0)%Z).
      { destruct Hone as (fs1 & m & fs2 & -> & Hm & Hd & Hk & Hg & Hfs2).
        rewrite cr_goes_right in Ho by done. simpl in Ho. rewrite Hd in Ho.
        eapply (cmp_lt_eq cmp Hcmp); [|exact Hk].
        apply ordered_app in Ho as (_ & Ho & _). rewrite <- app_assoc in Ho. apply ordered_app in Ho as (_ & Ho & _).
        simpl in Ho. inversion Ho as [|? ? _ Hf]; subst. rewrite Forall_forall in Hf.
        apply (Hf (f_k m, f_v m)). set_solver. }
      assert (Hdir : dir = true) by (unfold dir, RbFun.todir; lia).
      assert (Hmark : mark = false) by (unfold mark; lia).
      right. destruct (H2 Hdir Hone) as (fs1 & m & fs2 & -> & Hm & Hd & Hk & Hg & Hfs2).
      exists (Fr c' k v dir o' mark :: fs1), m, fs2. rewrite Eh. split_and!; try done. by constructor. }
  destruct dir.
  - destruct (IHr ctx' Hm') as [H1 H2]; [by rewrite Ein|]. split; [done|]. by rewrite H2, Ein.
  - destruct (IHl ctx' Hm') as [H1 H2]; [by rewrite Ein|]. split; [done|]. by rewrite H2, Ein.
Qed.

Lemma set_marked_skip k v fs1 m fs2 : Forall goes_right fs1 -> f_mark m = true ->
  set_marked k v (fs1 ++ m :: fs2) = fs1 ++ Fr (f_red m) k v (f_dir m) (f_oth m) true :: fs2.
Proof using Type.
  clear Hcmp. induction 1 as [|f fs [_ Hf] _ IH]; simpl; [by intros ->|]. intros Hm. rewrite Hf. by rewrite IH.
Qed.
Lemma cl_goes_left fs (m m' : frame) fs2 : f_dir m = false -> f_dir m' = false ->
  cl (fs ++ m :: fs2) = cl (fs ++ m' :: fs2).
Proof using Type.
  clear Hcmp. intros H1 H2. induction fs as [|f fs IH]; simpl; [by rewrite H1, H2|]. by rewrite IH.
Qed.
Lemma marked_app (fs1 fs2 : list frame) : marked (fs1 ++ fs2) = marked fs1 || marked fs2.
Proof using Type. clear Hcmp. apply existsb_app. Qed.

Lemma f_del_content (t : tree) : ordered cmp (inord t) ->
  inord (f_del cmp key t).1 = a_delete cmp (inord t) key /\ (f_del cmp key t).2 = a_deleted cmp (inord t) key.
Proof using Hcmp.
  intros Ho. destruct (del_walk_content t [] ) as [Hm Hin].
  { left. split_and!; [done|constructor|constructor]. }
  { done. }
  unfold f_del. set (ctx := del_walk cmp key [] t) in *. clearbody ctx. simpl in Hin. simpl.
  rewrite inord_recolor. rewrite <- Hin in *. clear t Hin.
  destruct Hm as [(Hn & Hb & Ha)|(fs1 & m & fs2 & -> & Hm & Hd & Hk & Hg & Hfs2)].
  - rewrite Hn. rewrite inord_plug. simpl. destruct (delete_miss cmp (cl ctx) (cr ctx) key Hb Ha) as [-> ->].
    split; [|done]. unfold del_end. destruct ctx as [|f rest]; [done|]. rewrite Hn. by rewrite inord_plug.
  - assert (Hmk : marked (fs1 ++ m :: fs2) = true).
    { rewrite marked_app. simpl. rewrite Hm. by rewrite orb_true_r. }
    rewrite Hmk. rewrite inord_plug in Ho |- *. simpl in Ho |- *. rewrite cr_goes_right in Ho |- * by done.
    simpl in Ho |- *. rewrite Hd in Ho |- *. simpl in Ho |- *.
    destruct (ordered_mid cmp Hcmp _ _ _ _ key Ho Hk) as [Hb Ha].
    rewrite (delete_hit cmp) by done. rewrite (deleted_hit cmp) by done. split; [|done].
    unfold del_end. destruct fs1 as [|f fs1]; simpl.
    + rewrite Hm. simpl. rewrite Hd. rewrite inord_plug. by rewrite app_nil_r.
    + inversion Hg as [|? ? [Hfd Hfm] Hg']; subst. simpl in Hmk. rewrite Hmk, Hfm, Hfd.
      rewrite inord_plug. rewrite set_marked_skip by done. rewrite cr_goes_right by done. simpl. rewrite Hd.
      rewrite (cl_goes_left fs1 _ m) by done. rewrite <- !app_assoc. done.
Qed.
End content.
