(** * Functional insertion and lookup: top level and content. *)
From Verif Require Import Prog RbSpec RbFun.
From Coq Require Import ZifyBool.

Section content.
Context {U : Type}.
Local Notation value := (value U).
Local Notation tree := (tree U).
Local Notation frame := (frame U).

(** Content left and right of the hole. *)
Fixpoint cl (ctx : list frame) : list (bytes * value) :=
  match ctx with
  | [] => []
  | f :: ctx => cl ctx ++ (if f_dir f then inord (f_oth f) ++ [(f_k f, f_v f)] else [])
  end.
Fixpoint cr (ctx : list frame) : list (bytes * value) :=
  match ctx with
  | [] => []
  | f :: ctx => (if f_dir f then [] else (f_k f, f_v f) :: inord (f_oth f)) ++ cr ctx
  end.

Lemma inord_plug ctx : forall t, inord (plug ctx t) = cl ctx ++ inord t ++ cr ctx.
Proof.
  induction ctx as [|f ctx IH]; intros t; simpl; [by rewrite app_nil_r|].
  rewrite IH. unfold plug1, mk. destruct (f_dir f); simpl; by rewrite <- ?app_assoc, ?app_nil_r.
Qed.
Lemma inord_recolor c t : inord (recolor c t : tree) = inord t.
Proof. by destruct t. Qed.
Lemma inord_flip t : inord (flip t : tree) = inord t.
Proof.
  destruct t as [|c l k v r]; simpl; [done|]. destruct (isred l && isred r); [|done].
  simpl. by rewrite !inord_recolor.
Qed.

Variable cmp : bytes -> bytes -> Z.
Variable key : bytes.
Hypothesis Hcmp : lawful cmp.
Local Notation todir := (todir cmp key).
Local Notation below := (below cmp key).
Local Notation above := (above cmp key).

(** [fixv] keeps the node and what is left and right of it. *)
Lemma fixv_content ctx c l k v r ctx' t' :
  fixv ctx (T c l k v r : tree) = Some (ctx', t') ->
  exists c' l' r', t' = T c' l' k v r' /\ cl ctx' ++ inord l' = cl ctx ++ inord l /\
    inord r' ++ cr ctx' = inord r ++ cr ctx /\
    (below (cl ctx) -> below (cl ctx')) /\ (above (cr ctx) -> above (cr ctx')).
Proof.
  destruct ctx as [|f1 rest]; simpl.
  { intros [= <- <-]. eauto 10. }
  destruct (c && f_red f1) eqn:E1.
  2: { intros [= <- <-]. eexists _, _, _. split_and!; done. }
  destruct rest as [|f2 rest]; [done|].
  destruct (Bool.eqb (f_dir f1) (f_dir f2)) eqn:Ed.
  - intros [= <- <-]. eexists _, _, _. split_and!; [done|..].
    all: apply Bool.eqb_prop in Ed; rewrite <- Ed; simpl; rewrite <- ?Ed;
      destruct (f_dir f1); simpl; rewrite <- ?app_assoc, ?app_nil_r; simpl; rewrite <- ?app_assoc; try done.
  - intros [= <- <-]. apply Bool.eqb_false_iff in Ed.
    unfold RbSpec.below, RbSpec.above. simpl.
    destruct (f_dir f1), (f_dir f2); try done; eexists _, _, _; (split; [done|]); simpl;
      rewrite <- ?app_assoc, ?app_nil_r; simpl; rewrite <- ?app_assoc; rewrite ?Forall_app; simpl.
    + split_and!; [done|done|tauto|]. rewrite ?Forall_cons, ?Forall_app. tauto.
    + split_and!; [done|done|tauto|]. rewrite ?Forall_cons, ?Forall_app. tauto.
Qed.

Lemma ins_loop_content v : forall fuel ctx t t',
  ins_loop cmp key fuel ctx t v = Some t' ->
  ordered cmp (inord (plug ctx t)) -> below (cl ctx) -> above (cr ctx) ->
  inord t' = a_insert cmp (inord (plug ctx t)) key v.
Proof using Hcmp.
  induction fuel as [|fuel IH]; intros ctx t t'; [done|]. cbn [ins_loop].
  destruct (fixv ctx (pre key t)) as [[ctx' t1]|] eqn:Ef; [|done].
  destruct t as [|c l k v0 r].
  - (* new node *)
    apply fixv_content in Ef as (c' & l' & r' & -> & Hl & Hr & _ & _). simpl in Hl, Hr.
    rewrite cmp_refl by done. simpl. intros [= <-] Ho Hb Ha.
    rewrite !inord_plug in *. simpl. rewrite (insert_mid cmp) by done.
    rewrite <- app_assoc. simpl. rewrite Hr. rewrite app_assoc, Hl. by rewrite app_nil_r.
  - intros Hins Ho Hb Ha.
    assert (exists c1 l1 r1, pre key (T c l k v0 r) = T c1 l1 k v0 r1 /\ inord l1 = inord l /\ inord r1 = inord r)
      as (c1 & l1 & r1 & Epre & El & Er).
    { unfold pre. simpl. destruct (isred l && isred r); [|eauto 10].
      eexists _, _, _. split; [done|]. by rewrite !inord_recolor. }
    rewrite Epre in Ef.
    apply fixv_content in Ef as (c' & l' & r' & -> & Hl & Hr & Hb' & Ha').
    specialize (Hb' Hb). specialize (Ha' Ha). rewrite El in Hl. rewrite Er in Hr.
    assert (Eq : inord (plug ctx (T c l k v0 r)) = (cl ctx' ++ inord l') ++ (k, v0) :: inord r' ++ cr ctx').
    { rewrite inord_plug. simpl. rewrite Hr, Hl. by rewrite <- !app_assoc. }
    rewrite Eq in *. destruct (cmp k key =? 0)%Z eqn:Ec.
    + injection Hins as <-. apply Z.eqb_eq in Ec.
      destruct (ordered_mid cmp Hcmp _ _ _ _ key Ho Ec) as [Hb1 Ha1].
      rewrite (insert_hit cmp) by done. rewrite inord_plug. simpl. by rewrite <- !app_assoc.
    + cbv zeta in Hins. apply IH in Hins.
      * rewrite Hins. f_equal. rewrite inord_plug. simpl. destruct (todir k); simpl; by rewrite <- ?app_assoc, ?app_nil_r.
      * rewrite inord_plug. simpl. destruct (todir k) eqn:Ed; simpl.
        -- replace (_ ++ _) with ((cl ctx' ++ inord l') ++ (k, v0) :: inord r' ++ cr ctx'); [done|].
           by rewrite <- !app_assoc.
        -- replace (_ ++ _) with ((cl ctx' ++ inord l') ++ (k, v0) :: inord r' ++ cr ctx'); [done|].
           by rewrite <- !app_assoc, ?app_nil_r.
      * simpl. unfold RbFun.todir in *. destruct (cmp k key <? 0)%Z eqn:Ed.
        -- rewrite app_assoc. eapply (ordered_mid_lt cmp Hcmp); [exact Ho|lia].
        -- by rewrite app_nil_r.
      * simpl. unfold RbFun.todir in *. destruct (cmp k key <? 0)%Z eqn:Ed.
        -- done.
        -- eapply (ordered_mid_gt cmp Hcmp); [exact Ho|lia].
Qed.

Lemma f_ins_content fuel (t : tree) v (t' : tree) : f_ins cmp key fuel t v = Some t' -> ordered cmp (inord t) ->
  inord t' = a_insert cmp (inord t) key v.
Proof using Hcmp.
  destruct t as [|c l k v0 r].
  - intros [= <-]. done.
  - unfold f_ins. intros (t1 & E1 & ->)%fmap_Some Ho. rewrite inord_recolor.
    apply ins_loop_content in E1; [done|done|constructor|constructor].
Qed.

Lemma f_get_content (t : tree) : ordered cmp (inord t) ->
  f_get cmp key t = match a_get cmp (inord t) key with Some v => (v, true) | None => (VNil, false) end.
Proof using Hcmp.
  intros Ho. induction t as [|c l IHl k v r IHr]; [done|]. simpl in *.
  destruct (cmp k key =? 0)%Z eqn:Ec.
  - apply Z.eqb_eq in Ec. destruct (ordered_mid cmp Hcmp _ _ _ _ key Ho Ec) as [Hb _].
    by rewrite (get_hit cmp).
  - unfold RbFun.todir. pose proof Ho as (Hol & Hor & _)%ordered_app. inversion Hor; subst.
    destruct (cmp k key <? 0)%Z eqn:Ed.
    + rewrite IHr by done. unfold a_get. f_equal.
      assert (Hb : below (inord l ++ [(k, v)])) by (eapply (ordered_mid_lt cmp Hcmp); [exact Ho|lia]).
      replace (inord l ++ (k, v) :: inord r) with ((inord l ++ [(k, v)]) ++ inord r) by by rewrite <- app_assoc.
      generalize (inord l ++ [(k, v)]), Hb. intros l1 Hb1. induction Hb1 as [|x l1 Hx Hb1 IH]; [done|].
      simpl. replace (same_key cmp key x.1) with false by (unfold same_key; lia). apply IH.
    + rewrite IHl by done.
      assert (Ha : above ((k, v) :: inord r)) by (eapply (ordered_mid_gt cmp Hcmp); [exact Ho|lia]).
      unfold a_get. clear -Ha. induction (inord l) as [|x l1 IH]; simpl.
      * replace (find (λ x : bytes * value, same_key cmp key x.1) (inord r)) with (@None (bytes * value)).
        { inversion Ha; subst. replace (same_key cmp key k) with false; [done|]. unfold same_key. simpl in *. lia. }
        inversion Ha as [|? ? _ Ha1]; subst. clear -Ha1.
        induction Ha1 as [|x l1 Hx Hb1 IH]; [done|]. simpl.
        replace (same_key cmp key x.1) with false by (unfold same_key; lia). apply IH.
      * by destruct (same_key cmp key x.1).
Qed.
End content.

Section top.
Context {U : Type}.
Local Notation tree := (tree U).
Variable cmp : bytes -> bytes -> Z.
Variable key : bytes.

(** The stored trees: red-black with a black root. *)
Definition rbt (t : tree) : Prop := exists n, rb t false n.

Lemma f_ins_stops fuel t v : rbt t -> t = E \/ stops cmp key t -> 2 * height t + 1 < fuel ->
  exists t', f_ins cmp key fuel t v = Some t' /\ rbt t' /\ t' <> E.
Proof.
  intros [n Ht] Hst Hf. destruct t as [|c l k v0 r].
  - eexists. split; [done|]. split; [|done]. exists 1. simpl. eauto 10.
  - set (t := T c l k v0 r) in *. assert (Hred : isred t = false) by by eapply rb_color.
    destruct Hst as [Hst|Hst]; [done|]. destruct (ins_loop_ok cmp key v fuel [] t n) as (t' & c' & n' & Hi & Hr & Hne).
    + split; rewrite ?Hred; done.
    + rewrite Hred. pose proof (plen_height cmp key t). lia.
    + exists (recolor false t'). unfold f_ins. unfold t at 1. fold t. rewrite Hi. split; [done|].
      split; [by eapply rb_black_root|]. by destruct t'.
Qed.
Lemma f_ins_ok (Hself : cmp key key = 0%Z) fuel t v : rbt t -> 2 * height t + 1 < fuel ->
  exists t', f_ins cmp key fuel t v = Some t' /\ rbt t' /\ t' <> E.
Proof. intros Ht. apply f_ins_stops; [done|]. right. by left. Qed.
Lemma rbt_E : rbt E.
Proof. by exists 0. Qed.
End top.
