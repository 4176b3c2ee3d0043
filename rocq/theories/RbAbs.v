(** * Red-black roots as sorted association lists. *)
From Verif Require Import Prog RbModel RbSpec RbFun RbFunIns RbFunDel RbSim RbSimIns RbSimOps RbSimDel2.
From Coq Require Import ZifyBool.

(** Fuel that suffices for trees of at most [n] keys: the number of iterations
    is logarithmic. *)
Definition enough (fuel n : nat) : Prop := 4 * Nat.log2 (n + 1) + 2 <= fuel.
Lemma enough_le fuel n m : enough fuel n -> m <= n -> enough fuel m.
Proof.
  unfold enough. intros H Hle. assert (Nat.log2 (m + 1) <= Nat.log2 (n + 1)) by (apply Nat.log2_le_mono; lia). lia.
Qed.

(** ** Number of keys, for any comparator. *)
Section size.
Context {U : Type}.
Local Notation value := (value U).
Local Notation tree := (tree U).
Local Notation frame := (frame U).
Variable cmp : bytes -> bytes -> Z.
Variable key : bytes.
Definition size (t : tree) : nat := length (inord t).

Lemma fixv_size (ctx : list frame) c (l : tree) k v r ctx' t' :
  fixv ctx (T c l k v r) = Some (ctx', t') ->
  exists c' l' r', t' = T c' l' k v r' /\ size (plug ctx' t') = size (plug ctx (T c l k v r)).
Proof.
  intros H. apply (fixv_content cmp key) in H as (c' & l' & r' & -> & H1 & H2 & _ & _).
  exists c', l', r'. split; [done|]. unfold size. rewrite !inord_plug. simpl.
  apply (f_equal (@length _)) in H1, H2. repeat (rewrite app_length in H1 || rewrite app_length in H2).
  repeat (rewrite app_length; simpl). lia.
Qed.
Lemma plug_size (ctx : list frame) (t t' : tree) : size t = size t' -> size (plug ctx t) = size (plug ctx t').
Proof. unfold size. intros H. rewrite !inord_plug, !app_length. lia. Qed.

Lemma ins_loop_size v : cmp key key = 0%Z -> forall fuel (ctx : list frame) (t t' : tree), ins_loop cmp key fuel ctx t v = Some t' ->
  size t' <= S (size (plug ctx t)).
Proof.
  intros Hself. induction fuel as [|fuel IH]; intros ctx t t'; [done|]. cbn [ins_loop].
  destruct (fixv ctx (pre key t)) as [[ctx' t1]|] eqn:Ef; [|done].
  destruct t as [|c l k v0 r].
  - simpl pre in Ef. apply fixv_size in Ef as (c' & l' & r' & -> & Hs). rewrite Hself. simpl.
    intros [= <-]. rewrite (plug_size ctx' _ (T c' l' key VNil r')) by (unfold size; simpl; by rewrite !app_length).
    rewrite Hs. unfold size. rewrite !inord_plug, !app_length. simpl. lia.
  - assert (exists c' l' r', pre key (T c l k v0 r) = T c' l' k v0 r' /\ size (T c' l' k v0 r') = size (T c l k v0 r)) as (c1 & l1 & r1 & Hp & Hps).
    { unfold size. simpl. destruct (isred l && isred r); eexists _, _, _; (split; [done|]); rewrite !app_length; simpl; by rewrite ?inord_recolor. }
    rewrite Hp in Ef. apply fixv_size in Ef as (c' & l' & r' & -> & Hs).
    rewrite (plug_size ctx _ _ Hps) in Hs.
    destruct (cmp k key =? 0)%Z.
    + intros [= <-]. rewrite (plug_size ctx' _ (T c' l' k v0 r')) by (unfold size; simpl; by rewrite !app_length). lia.
    + intros Hl. apply IH in Hl. rewrite <- Hs. etrans; [exact Hl|]. apply le_n_S. apply Nat.eq_le_incl.
      simpl plug. unfold size. rewrite !inord_plug, !app_length. unfold plug1, mk. simpl.
      destruct (todir cmp key k); simpl; rewrite !app_length; simpl; lia.
Qed.
Lemma f_ins_size fuel (t : tree) v t' : cmp key key = 0%Z -> f_ins cmp key fuel t v = Some t' -> size t' <= S (size t).
Proof.
  intros Hself. destruct t as [|c l k v0 r]; simpl; [intros [= <-]; done|].
  intros H. apply fmap_Some in H as (t1 & H & ->). apply ins_loop_size in H; [|done].
  unfold size in *. rewrite inord_recolor. exact H.
Qed.

Lemma del_walk_size (t : tree) : forall ctx, size (plug (del_walk cmp key ctx t) E) = size (plug ctx t).
Proof.
  induction t as [|c l IHl k v r IHr]; intros ctx; [done|]. cbn [del_walk].
  pose proof (del_step_cl ctx c l k v r (todir cmp key k) (cmp k key =? 0)%Z) as [H1 H2].
  destruct (todir cmp key k).
  - rewrite IHr. unfold size. rewrite !inord_plug, H1, H2. repeat (rewrite app_length; simpl). lia.
  - rewrite IHl. unfold size. rewrite !inord_plug, H1, H2. repeat (rewrite app_length; simpl). lia.
Qed.
Lemma set_marked_size k v (ctx : list frame) (t : tree) : size (plug (set_marked k v ctx) t) = size (plug ctx t).
Proof.
  revert t. induction ctx as [|f ctx IH]; intros t; [done|]. simpl. destruct (f_mark f); simpl.
  - apply plug_size. unfold plug1, mk, size. simpl. destruct (f_dir f); simpl; by rewrite !app_length.
  - apply IH.
Qed.
Lemma del_end_size (ctx : list frame) : size (del_end ctx) <= size (plug ctx E).
Proof.
  unfold del_end. destruct ctx as [|f ctx]; [done|].
  destruct (marked (f :: ctx)); [|done].
  assert (size (plug ctx (f_oth f)) <= size (plug ctx (plug1 f E))).
  { unfold size. rewrite !inord_plug, !app_length. unfold plug1, mk. destruct (f_dir f); simpl; rewrite ?app_length; simpl; lia. }
  destruct (f_mark f); [done|]. rewrite set_marked_size. done.
Qed.
Lemma f_del_size (t : tree) : size (f_del cmp key t).1 <= size t.
Proof.
  unfold f_del. simpl. unfold size. rewrite inord_recolor.
  etrans; [apply del_end_size|]. rewrite del_walk_size. done.
Qed.
End size.

(** ** Roots. *)
Section root.
Context {U : Type}.
Local Notation heap := (heap U).
Local Notation value := (value U).
Implicit Types h : heap.
Variable cmp : bytes -> bytes -> Z.

(** [r] is the root of a red-black tree of [n] keys. *)
Definition root_shape h (r : ptr) (n : nat) : Prop :=
  exists t, rep h r t /\ rbt t /\ size t = n.
(** [r] is the root of a red-black tree with content [l]. *)
Definition root_at h (r : ptr) (l : list (bytes * value)) : Prop :=
  exists t, rep h r t /\ rbt t /\ inord t = l /\ ordered cmp l.

Lemma root_at_shape h r l : root_at h r l -> root_shape h r (length l).
Proof. intros (t & ? & ? & <- & ?). by exists t. Qed.
Lemma root_shape_mono h h' r n : h ⊆ h' -> root_shape h r n -> root_shape h' r n.
Proof. intros Hs (t & ? & ?). exists t. split; [by eapply rep_mono|done]. Qed.
Lemma root_at_mono h h' r l : h ⊆ h' -> root_at h r l -> root_at h' r l.
Proof. intros Hs (t & ? & ?). exists t. split; [by eapply rep_mono|done]. Qed.
Lemma root_at_nil h : root_at h None [].
Proof. exists E. split_and!; [done|apply rbt_E|done|constructor]. Qed.
Lemma root_shape_nil h : root_shape h None 0.
Proof. exists E. split_and!; [done|apply rbt_E|done]. Qed.
Lemma root_at_none h r l : root_at h r l -> (r = None <-> l = []).
Proof.
  intros (t & Hr & _ & <- & _). destruct t as [|c tl k v tr]; simpl in *; [naive_solver|].
  destruct Hr as (a & pl & pr & -> & _). split; [done|]. intros H. by apply app_eq_nil in H as [_ H].
Qed.

Lemma rbt_height (t : tree U) : rbt t -> height t <= 2 * Nat.log2 (size t + 1).
Proof. intros [n H]. by eapply rb_log. Qed.

Section cmpself.
Variable key : bytes.
Hypothesis Hself : cmp key key = 0%Z.

Lemma shape_insert fuel h r n v : root_shape h r n -> enough fuel n ->
  wp (insert (Some cmp) fuel r key v) h ∅ (fun r' h' _ => h ⊆ h' /\ exists n', root_shape h' r' n' /\ n' <= n + 1).
Proof using Hself.
  intros (t & Hr & Hb & <-) Hf. pose proof (rbt_height t Hb) as Hh. unfold enough in Hf.
  destruct (f_ins_ok cmp key Hself fuel t v Hb) as (t' & Ht' & Hb' & _); [lia|].
  eapply wp_mono; [eapply insert_wp; [exact Hr|exact Ht']|].
  cbn beta. intros r' h' _ (F & Hs & Hm & _). split; [done|]. exists (size t'). split.
  - exists t'. split_and!; [by eapply mrep_rep|done|done].
  - apply f_ins_size in Ht'; [lia|done].
Qed.
End cmpself.

Lemma shape_del key fuel h r n : root_shape h r n -> enough fuel n ->
  wp (del (Some cmp) fuel r key) h ∅ (fun x h' _ => h ⊆ h' /\ exists n', root_shape h' x.1 n' /\ n' <= n).
Proof.
  intros (t & Hr & Hb & <-) Hf. pose proof (rbt_height t Hb) as Hh. unfold enough in Hf.
  eapply wp_mono; [eapply del_wp; [exact Hr|exact Hb|lia]|].
  cbn beta. intros x h' _ (F & Hfl & Hs & Hm & _). split; [done|]. exists (size (f_del cmp key t).1). split.
  - eexists. split_and!; [by eapply mrep_rep|by apply f_del_ok|done].
  - apply f_del_size.
Qed.
(** Lookup: at most [2*log2(n+1)] iterations, one comparison each. *)
Lemma shape_get key fuel h r n : root_shape h r n -> 2 * Nat.log2 (n + 1) <= fuel ->
  wp (get (Some cmp) fuel r key) h ∅ (fun _ h' _ => h' = h).
Proof.
  intros (t & Hr & Hb & <-) Hf. pose proof (rbt_height t Hb) as Hh.
  eapply wp_mono; [eapply get_wp; [exact Hr|lia]|]. naive_solver.
Qed.
Lemma shape_enumerate fuel h r n : root_shape h r n -> 2 * Nat.log2 (n + 1) <= fuel ->
  wp (enumerate fuel r) h ∅ (fun l h' _ => length l = n /\ h' = h).
Proof.
  intros (t & Hr & Hb & <-) Hf. pose proof (rbt_height t Hb) as Hh.
  eapply wp_mono; [eapply enumerate_wp; [exact Hr|lia]|]. naive_solver.
Qed.

Hypothesis Hcmp : lawful cmp.

Lemma root_insert key fuel h r l v : root_at h r l -> enough fuel (length l) ->
  wp (insert (Some cmp) fuel r key v) h ∅ (fun r' h' _ => h ⊆ h' /\ root_at h' r' (a_insert cmp l key v)).
Proof using Hcmp.
  intros (t & Hr & Hb & <- & Ho) Hf. pose proof (rbt_height t Hb) as Hh. unfold enough in Hf. fold (size t) in Hf.
  destruct (f_ins_ok cmp key (cmp_refl cmp Hcmp key) fuel t v Hb) as (t' & Ht' & Hb' & _); [lia|].
  eapply wp_mono; [eapply insert_wp; [exact Hr|exact Ht']|].
  cbn beta. intros r' h' _ (F & Hs & Hm & _). split; [done|]. exists t'. split_and!.
  - by eapply mrep_rep.
  - done.
  - by eapply f_ins_content.
  - by apply ordered_a_insert.
Qed.
Lemma root_del key fuel h r l : root_at h r l -> enough fuel (length l) ->
  wp (del (Some cmp) fuel r key) h ∅ (fun x h' _ => h ⊆ h' /\ root_at h' x.1 (a_delete cmp l key) /\ x.2 = a_deleted cmp l key).
Proof using Hcmp.
  intros (t & Hr & Hb & <- & Ho) Hf. pose proof (rbt_height t Hb) as Hh. unfold enough in Hf. fold (size t) in Hf.
  eapply wp_mono; [eapply del_wp; [exact Hr|exact Hb|lia]|].
  cbn beta. intros x h' _ (F & Hfl & Hs & Hm & _). destruct (f_del_content cmp key Hcmp t Ho) as [E1 E2].
  split; [done|]. split; [|congruence]. eexists. split_and!; [by eapply mrep_rep|by apply f_del_ok|done|].
  by apply ordered_a_delete.
Qed.
Lemma root_get key fuel h r l : root_at h r l -> 2 * Nat.log2 (length l + 1) <= fuel ->
  wp (get (Some cmp) fuel r key) h ∅ (fun x h' _ => h' = h /\
    x = match a_get cmp l key with Some v => (v, true) | None => (VNil, false) end).
Proof using Hcmp.
  intros (t & Hr & Hb & <- & Ho) Hf. pose proof (rbt_height t Hb) as Hh. fold (size t) in Hf.
  eapply wp_mono; [eapply get_wp; [exact Hr|lia]|]. cbn beta. intros x h' _ (-> & -> & _). split; [done|].
  by apply f_get_content.
Qed.
Lemma root_enumerate fuel h r l : root_at h r l -> 2 * Nat.log2 (length l + 1) <= fuel ->
  wp (enumerate fuel r) h ∅ (fun x h' _ => x = l /\ h' = h).
Proof using Type.
  clear Hcmp. intros (t & Hr & Hb & <- & Ho) Hf. pose proof (rbt_height t Hb) as Hh. fold (size t) in Hf.
  eapply wp_mono; [eapply enumerate_wp; [exact Hr|lia]|]. naive_solver.
Qed.
End root.

(** ** The two comparators of the packages are lawful. *)
Lemma to_N_inj x y : Byte.to_N x = Byte.to_N y -> x = y.
Proof.
  intros H. assert (E : Byte.of_N (Byte.to_N x) = Byte.of_N (Byte.to_N y)) by by rewrite H.
  rewrite !Byte.of_to_N in E. congruence.
Qed.
Lemma str_compare_eq a b : str_compare a b = 0%Z <-> a = b.
Proof.
  revert b. induction a as [|x a IH]; intros [|y b]; simpl; try done.
  destruct (N.compare_spec (Byte.to_N x) (Byte.to_N y)) as [E|E|E].
  - rewrite IH. apply to_N_inj in E. subst. naive_solver.
  - split; [done|]. intros [= -> ->]. lia.
  - split; [done|]. intros [= -> ->]. lia.
Qed.
Lemma str_compare_range a b : (str_compare a b = -1 \/ str_compare a b = 0 \/ str_compare a b = 1)%Z.
Proof.
  revert b. induction a as [|x a IH]; intros [|y b]; simpl; auto.
  destruct (N.compare (Byte.to_N x) (Byte.to_N y)); auto.
Qed.
Lemma str_compare_anti a b : str_compare a b = (- str_compare b a)%Z.
Proof.
  revert b. induction a as [|x a IH]; intros [|y b]; simpl; try done.
  rewrite (N.compare_antisym (Byte.to_N x) (Byte.to_N y)).
  destruct (N.compare (Byte.to_N x) (Byte.to_N y)); simpl; auto.
Qed.
Lemma str_compare_trans a b c : (str_compare a b <= 0)%Z -> (str_compare b c <= 0)%Z -> (str_compare a c <= 0)%Z.
Proof.
  revert b c. induction a as [|x a IH]; intros [|y b] [|z c]; simpl; try lia.
  destruct (N.compare_spec (Byte.to_N x) (Byte.to_N y)) as [E1|E1|E1];
  destruct (N.compare_spec (Byte.to_N y) (Byte.to_N z)) as [E2|E2|E2];
  destruct (N.compare_spec (Byte.to_N x) (Byte.to_N z)) as [E3|E3|E3]; try lia; eauto.
Qed.
Lemma str_compare_lawful : lawful str_compare.
Proof.
  split; [|apply str_compare_trans]. intros a b. rewrite str_compare_anti. lia.
Qed.
Lemma dl_compare_eq a b : dl_compare a b = 0%Z <-> a = b.
Proof.
  unfold dl_compare. destruct (Z.eqb_spec (Z.of_nat (length a) - Z.of_nat (length b)) 0) as [E|E].
  - apply str_compare_eq.
  - split; [lia|]. intros ->. lia.
Qed.
Lemma dl_compare_lawful : lawful dl_compare.
Proof.
  split.
  - intros a b. unfold dl_compare.
    destruct (Z.eqb_spec (Z.of_nat (length a) - Z.of_nat (length b)) 0),
             (Z.eqb_spec (Z.of_nat (length b) - Z.of_nat (length a)) 0); try lia.
    rewrite str_compare_anti. lia.
  - intros a b c. unfold dl_compare.
    destruct (Z.eqb_spec (Z.of_nat (length a) - Z.of_nat (length b)) 0),
             (Z.eqb_spec (Z.of_nat (length b) - Z.of_nat (length c)) 0),
             (Z.eqb_spec (Z.of_nat (length a) - Z.of_nat (length c)) 0); try lia.
    apply str_compare_trans.
Qed.
