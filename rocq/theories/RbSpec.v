(** * Specification of ordered trees: association lists sorted by the comparator.
    Independent of the model. *)
From Coq Require Export Sorted.
From Verif Require Import Prog.

(** What a comparator must satisfy to be an order (a total preorder). *)
Record lawful (cmp : bytes -> bytes -> Z) : Prop := {
  cmp_anti : forall a b, Z.sgn (cmp a b) = (- Z.sgn (cmp b a))%Z;
  cmp_trans : forall a b c, (cmp a b <= 0)%Z -> (cmp b c <= 0)%Z -> (cmp a c <= 0)%Z }.

Section spec.
Context {V : Type}.
Variable cmp : bytes -> bytes -> Z.
Implicit Types l : list (bytes * V).

Definition same_key (key k : bytes) : bool := (cmp k key =? 0)%Z.

(** Content of a tree, in key order. *)
Definition ordered l : Prop := StronglySorted (fun x y => (cmp x.1 y.1 < 0)%Z) l.

(** Lookup: the (only) pair with an equal key. *)
Definition a_get l (key : bytes) : option V :=
  snd <$> find (fun x => same_key key x.1) l.

(** Insertion: a pair with an equal key keeps its key and gets the new value;
    without such a pair the new one is added at its place. *)
Definition a_insert l (key : bytes) (v : V) : list (bytes * V) :=
  if existsb (fun x => same_key key x.1) l
  then map (fun x => if same_key key x.1 then (x.1, v) else x) l
  else List.filter (fun x => cmp x.1 key <? 0)%Z l ++ (key, v) ::
       List.filter (fun x => 0 <? cmp x.1 key)%Z l.

(** Deletion: the pairs with other keys. *)
Definition a_delete l (key : bytes) : list (bytes * V) :=
  List.filter (fun x => negb (same_key key x.1)) l.
Definition a_deleted l (key : bytes) : bool := existsb (fun x => same_key key x.1) l.
End spec.

(** Sanity of the specification: it is a map up to the comparator, and the
    operations keep it ordered. *)
Section facts.
Context {V : Type}.
Variable cmp : bytes -> bytes -> Z.
Hypothesis Hcmp : lawful cmp.
Implicit Types l : list (bytes * V).

Lemma cmp_refl k : cmp k k = 0%Z.
Proof using Hcmp. pose proof (cmp_anti _ Hcmp k k). lia. Qed.
Lemma cmp_eq_lt a b c : cmp a b = 0%Z -> (cmp b c < 0)%Z -> (cmp a c < 0)%Z.
Proof using Hcmp.
  intros H1 H2. pose proof (cmp_anti _ Hcmp a b). pose proof (cmp_anti _ Hcmp b c).
  pose proof (cmp_anti _ Hcmp a c). pose proof (cmp_trans _ Hcmp a b c). pose proof (cmp_trans _ Hcmp c a b). lia.
Qed.
Lemma cmp_lt_eq a b c : (cmp a b < 0)%Z -> cmp b c = 0%Z -> (cmp a c < 0)%Z.
Proof using Hcmp.
  intros H1 H2. pose proof (cmp_anti _ Hcmp a b). pose proof (cmp_anti _ Hcmp b c).
  pose proof (cmp_anti _ Hcmp a c). pose proof (cmp_trans _ Hcmp a b c). pose proof (cmp_trans _ Hcmp b c a). lia.
Qed.
Lemma cmp_lt_trans a b c : (cmp a b < 0)%Z -> (cmp b c < 0)%Z -> (cmp a c < 0)%Z.
Proof using Hcmp.
  intros H1 H2. pose proof (cmp_anti _ Hcmp a b). pose proof (cmp_anti _ Hcmp b c).
  pose proof (cmp_anti _ Hcmp a c). pose proof (cmp_trans _ Hcmp a b c). pose proof (cmp_trans _ Hcmp b c a). lia.
Qed.
Lemma cmp_eq_trans a b c : cmp a b = 0%Z -> cmp b c = 0%Z -> cmp a c = 0%Z.
Proof using Hcmp.
  intros H1 H2. pose proof (cmp_anti _ Hcmp a b). pose proof (cmp_anti _ Hcmp b c).
  pose proof (cmp_anti _ Hcmp a c). pose proof (cmp_trans _ Hcmp a b c). pose proof (cmp_trans _ Hcmp c b a). lia.
Qed.
Lemma cmp_gt_lt a b : (cmp a b > 0)%Z <-> (cmp b a < 0)%Z.
Proof using Hcmp. pose proof (cmp_anti _ Hcmp a b). lia. Qed.
Lemma cmp_sym0 a b : cmp a b = 0%Z -> cmp b a = 0%Z.
Proof using Hcmp. pose proof (cmp_anti _ Hcmp a b). lia. Qed.

Definition below (key : bytes) l : Prop := Forall (fun x => (cmp x.1 key < 0)%Z) l.
Definition above (key : bytes) l : Prop := Forall (fun x => (cmp x.1 key > 0)%Z) l.

Lemma ordered_app l1 l2 : ordered cmp (l1 ++ l2) <->
  ordered cmp l1 /\ ordered cmp l2 /\ forall x y, x ∈ l1 -> y ∈ l2 -> (cmp x.1 y.1 < 0)%Z.
Proof using Type. clear Hcmp.
  unfold ordered. induction l1 as [|x l1 IH]; simpl.
  - split; [intros H; split_and!; [constructor|done|set_solver]|tauto].
  - split.
    + intros H. inversion H as [|? ? H1 H2]; subst. apply IH in H1 as (Ha & Hb & Hc).
      rewrite Forall_app in H2. destruct H2 as [H2 H3]. split_and!; [by constructor|done|].
      intros a b [->|Hin]%elem_of_cons Hb'; [|eauto].
      rewrite Forall_forall in H3. auto.
    + intros (Ha & Hb & Hc). inversion Ha; subst. constructor.
      * apply IH. split_and!; [done|done|]. intros. apply Hc; [by right|done].
      * apply Forall_app. split; [done|]. apply Forall_forall. intros y Hy. apply Hc; [by left|done].
Qed.

Lemma ordered_mid l1 k v l2 key : ordered cmp (l1 ++ (k, v) :: l2) -> cmp k key = 0%Z ->
  below key l1 /\ above key l2.
Proof using Hcmp.
  intros Ho E. apply ordered_app in Ho as (_ & H2 & H3). split.
  - apply Forall_forall. intros x Hx. eapply cmp_lt_eq; [|exact E]. apply (H3 x (k, v)); [done|by left].
  - inversion H2 as [|? ? _ Hf]; subst. eapply Forall_impl; [exact Hf|]. simpl. intros x Hx.
    apply cmp_gt_lt. eapply cmp_eq_lt; [|exact Hx]. by apply cmp_sym0.
Qed.
Lemma ordered_mid_lt l1 k v l2 key : ordered cmp (l1 ++ (k, v) :: l2) -> (cmp k key < 0)%Z ->
  below key (l1 ++ [(k, v)]).
Proof using Hcmp.
  intros Ho E. apply ordered_app in Ho as (_ & H2 & H3). apply Forall_app. split; [|by repeat constructor].
  apply Forall_forall. intros x Hx. eapply cmp_lt_trans; [|exact E]. apply (H3 x (k, v)); [done|by left].
Qed.
Lemma ordered_mid_gt l1 k v l2 key : ordered cmp (l1 ++ (k, v) :: l2) -> (cmp k key > 0)%Z ->
  above key ((k, v) :: l2).
Proof using Hcmp.
  intros Ho E. apply ordered_app in Ho as (_ & H2 & H3). constructor; [done|].
  inversion H2 as [|? ? _ Hf]; subst. eapply Forall_impl; [exact Hf|]. simpl. intros x Hx.
  apply cmp_gt_lt. apply cmp_gt_lt in E. eapply cmp_lt_trans; [exact E|exact Hx].
Qed.

Lemma existsb_below key l : below key l -> existsb (fun x => same_key cmp key x.1) l = false.
Proof using Type. clear Hcmp.
  induction 1 as [|x l H1 H2 IH]; [done|]. simpl. rewrite IH. unfold same_key. lia.
Qed.
Lemma existsb_above key l : above key l -> existsb (fun x => same_key cmp key x.1) l = false.
Proof using Type. clear Hcmp.
  induction 1 as [|x l H1 H2 IH]; [done|]. simpl. rewrite IH. unfold same_key. lia.
Qed.
Lemma map_other (f : bytes * V -> bytes * V) key l :
  existsb (fun x => same_key cmp key x.1) l = false ->
  map (fun x => if same_key cmp key x.1 then f x else x) l = l.
Proof using Type. clear Hcmp.
  induction l as [|x l IH]; simpl; [done|]. intros [-> H]%orb_false_iff. by rewrite IH.
Qed.
Lemma filter_other key l : existsb (fun x => same_key cmp key x.1) l = false -> a_delete cmp l key = l.
Proof using Type. clear Hcmp.
  induction l as [|x l IH]; simpl; [done|]. intros [-> H]%orb_false_iff. simpl. by rewrite IH.
Qed.

Lemma insert_mid l1 l2 key v : below key l1 -> above key l2 ->
  a_insert cmp (l1 ++ l2) key v = l1 ++ (key, v) :: l2.
Proof using Type. clear Hcmp.
  intros H1 H2. unfold a_insert. rewrite existsb_app, existsb_below, existsb_above by done. simpl.
  rewrite !List.filter_app.
  assert (List.filter (fun x => cmp x.1 key <? 0)%Z l1 = l1) as ->.
  { induction H1 as [|x l Hx H1 IH]; simpl; [done|]. by rewrite IH, (proj2 (Z.ltb_lt _ _) Hx). }
  assert (List.filter (fun x => cmp x.1 key <? 0)%Z l2 = []) as ->.
  { induction H2 as [|x l Hx H2 IH]; simpl; [done|]. rewrite IH. by destruct (Z.ltb_spec (cmp x.1 key) 0); [lia|]. }
  assert (List.filter (fun x => 0 <? cmp x.1 key)%Z l1 = []) as ->.
  { induction H1 as [|x l Hx H1 IH]; simpl; [done|]. rewrite IH. by destruct (Z.ltb_spec 0 (cmp x.1 key)); [lia|]. }
  assert (List.filter (fun x => 0 <? cmp x.1 key)%Z l2 = l2) as ->.
  { induction H2 as [|x l Hx H2 IH]; simpl; [done|]. rewrite IH. by destruct (Z.ltb_spec 0 (cmp x.1 key)); [|lia]. }
  by rewrite app_nil_r.
Qed.
Lemma insert_hit l1 l2 k v0 key v : below key l1 -> above key l2 -> cmp k key = 0%Z ->
  a_insert cmp (l1 ++ (k, v0) :: l2) key v = l1 ++ (k, v) :: l2.
Proof using Type. clear Hcmp.
  intros H1 H2 E. unfold a_insert. rewrite existsb_app. simpl.
  replace (same_key cmp key k) with true by (unfold same_key; lia). simpl. rewrite orb_true_r.
  rewrite map_app. simpl. replace (same_key cmp key k) with true by (unfold same_key; lia).
  rewrite !(map_other (fun x => (x.1, v)) key); [done| |]; [by apply existsb_above|by apply existsb_below].
Qed.
Lemma delete_hit l1 l2 k v0 key : below key l1 -> above key l2 -> cmp k key = 0%Z ->
  a_delete cmp (l1 ++ (k, v0) :: l2) key = l1 ++ l2.
Proof using Type. clear Hcmp.
  intros H1 H2 E. unfold a_delete. rewrite List.filter_app. simpl.
  replace (same_key cmp key k) with true by (unfold same_key; lia). simpl.
  fold (a_delete cmp l1 key). fold (a_delete cmp l2 key).
  rewrite !filter_other; [done| |]; [by apply existsb_above|by apply existsb_below].
Qed.
Lemma delete_miss l1 l2 key : below key l1 -> above key l2 ->
  a_delete cmp (l1 ++ l2) key = l1 ++ l2 /\ a_deleted cmp (l1 ++ l2) key = false.
Proof using Type. clear Hcmp.
  intros H1 H2. unfold a_deleted. rewrite existsb_app, existsb_below, existsb_above by done. split; [|done].
  apply filter_other. by rewrite existsb_app, existsb_below, existsb_above by done.
Qed.
Lemma deleted_hit l1 l2 k v0 key : cmp k key = 0%Z -> a_deleted cmp (l1 ++ (k, v0) :: l2) key = true.
Proof using Type. clear Hcmp.
  intros E. unfold a_deleted. rewrite existsb_app. simpl.
  replace (same_key cmp key k) with true by (unfold same_key; lia). by rewrite orb_true_r.
Qed.

Lemma get_hit l1 l2 k v0 key : below key l1 -> cmp k key = 0%Z ->
  a_get cmp (l1 ++ (k, v0) :: l2) key = Some v0.
Proof using Type. clear Hcmp.
  intros H1 E. unfold a_get. induction H1 as [|x l Hx H1 IH]; simpl.
  - by replace (same_key cmp key k) with true by (unfold same_key; lia).
  - by replace (same_key cmp key x.1) with false by (unfold same_key; lia).
Qed.
Lemma get_miss l key : existsb (fun x => same_key cmp key x.1) l = false -> a_get cmp l key = None.
Proof using Type. clear Hcmp.
  unfold a_get. induction l as [|x l IH]; simpl; [done|]. intros [-> H]%orb_false_iff. auto.
Qed.

Lemma ordered_insert_raw l1 l2 key v : ordered cmp (l1 ++ l2) -> below key l1 -> above key l2 ->
  ordered cmp (l1 ++ (key, v) :: l2).
Proof using Hcmp.
  intros (Ho1 & Ho2 & H)%ordered_app H1 H2. apply ordered_app. split_and!; [done| |].
  - constructor; [done|]. eapply Forall_impl; [exact H2|]. intros x Hx. simpl. by apply cmp_gt_lt.
  - intros x y Hx [->|Hy]%elem_of_cons; [|auto]. simpl. unfold below in H1. rewrite Forall_forall in H1. auto.
Qed.
Lemma ordered_change l1 l2 k v0 v : ordered cmp (l1 ++ (k, v0) :: l2) -> ordered cmp (l1 ++ (k, v) :: l2).
Proof using Type. clear Hcmp.
  intros (Ho1 & Ho2 & H)%ordered_app. apply ordered_app. inversion Ho2; subst. split_and!; [done|by constructor|].
  intros x y Hx [->|Hy]%elem_of_cons.
  - apply (H x (k, v0)); [done|by left].
  - apply H; [done|by right].
Qed.
Lemma ordered_filter (f : bytes * V -> bool) l : ordered cmp l -> ordered cmp (List.filter f l).
Proof using Type. clear Hcmp.
  induction 1 as [|x l H1 IH H2]; simpl; [constructor|]. destruct (f x); [|done].
  constructor; [done|]. rewrite Forall_forall in *. intros y Hy. apply H2.
  apply elem_of_list_In, filter_In in Hy as [Hy _]. by apply elem_of_list_In.
Qed.

(** Split an ordered list at a key. *)
Lemma ordered_split l key : ordered cmp l ->
  exists l1 l2, below key l1 /\ above key l2 /\
    (l = l1 ++ l2 \/ exists k v, l = l1 ++ (k, v) :: l2 /\ cmp k key = 0%Z).
Proof using Hcmp.
  induction l as [|[k v] l IH]; intros Ho.
  { exists [], []. split_and!; [constructor|constructor|by left]. }
  destruct (Z.lt_trichotomy (cmp k key) 0) as [H|[H|H]].
  - inversion Ho as [|? ? Ho' _]; subst. destruct IH as (l1 & l2 & H1 & H2 & H3); [done|].
    exists ((k, v) :: l1), l2. split_and!; [by constructor|done|].
    destruct H3 as [->|(k' & v' & -> & E)]; [by left|right]. eauto.
  - destruct (ordered_mid [] k v l key Ho H) as [_ Ha]. exists [], l. split_and!; [constructor|done|].
    right. eauto.
  - assert (Ha : above key ((k, v) :: l)) by (eapply (ordered_mid_gt [] k v l); [exact Ho|lia]).
    exists [], ((k, v) :: l). split_and!; [constructor|done|by left].
Qed.

Lemma ordered_a_insert l key v : ordered cmp l -> ordered cmp (a_insert cmp l key v).
Proof using Hcmp.
  intros Ho. destruct (ordered_split l key Ho) as (l1 & l2 & H1 & H2 & [->|(k & v0 & -> & E)]).
  - rewrite insert_mid by done. by apply ordered_insert_raw.
  - rewrite insert_hit by done. by eapply ordered_change.
Qed.
Lemma ordered_a_delete l key : ordered cmp l -> ordered cmp (a_delete cmp l key).
Proof using Type. clear Hcmp. apply ordered_filter. Qed.

(** The map laws. *)
Lemma a_get_insert l key v k : ordered cmp l ->
  a_get cmp (a_insert cmp l key v) k = if same_key cmp key k then Some v else a_get cmp l k.
Proof using Hcmp.
  intros Ho. destruct (ordered_split l key Ho) as (l1 & l2 & H1 & H2 & Hl).
  assert (Hb : same_key cmp key k = true -> below k l1).
  { unfold same_key. intros E. eapply Forall_impl; [exact H1|]. intros x Hx. eapply cmp_lt_eq; [exact Hx|].
    apply cmp_sym0. lia. }
  assert (Hfind : forall k' v', cmp k' key = 0%Z -> a_get cmp (l1 ++ (k', v') :: l2) k =
     if same_key cmp key k then Some v' else a_get cmp (l1 ++ l2) k).
  { intros k' v' E'. destruct (same_key cmp key k) eqn:E.
    - apply get_hit; [auto|]. apply (cmp_eq_trans _ key); [done|]. apply cmp_sym0. unfold same_key in E. lia.
    - unfold a_get. f_equal. clear -E E' Hcmp. induction l1 as [|x l1 IH]; simpl.
      + replace (same_key cmp k k') with false; [done|]. unfold same_key in *.
        destruct (cmp k' k =? 0)%Z eqn:E2; [|done].
        pose proof (cmp_eq_trans k k' key). pose proof (cmp_sym0 k' k). lia.
      + by rewrite IH. }
  destruct Hl as [->|(k' & v0 & -> & E)].
  - rewrite insert_mid by done. apply Hfind. apply cmp_refl.
  - rewrite insert_hit by done. rewrite !Hfind by done. by destruct (same_key cmp key k).
Qed.
Lemma a_get_delete l key k : ordered cmp l ->
  a_get cmp (a_delete cmp l key) k = if same_key cmp key k then None else a_get cmp l k.
Proof using Hcmp.
  intros _. unfold a_get, a_delete. induction l as [|x l IH]; simpl; [by destruct (same_key cmp key k)|].
  destruct (same_key cmp key x.1) eqn:E; simpl.
  - rewrite IH. destruct (same_key cmp key k) eqn:E2; [done|].
    replace (same_key cmp k x.1) with false; [done|]. unfold same_key in *.
    destruct (cmp x.1 k =? 0)%Z eqn:E3; [|done].
    pose proof (cmp_eq_trans k x.1 key). pose proof (cmp_sym0 x.1 k). lia.
  - destruct (same_key cmp k x.1) eqn:E3; [|done]. simpl.
    replace (same_key cmp key k) with false; [done|]. unfold same_key in *.
    destruct (cmp k key =? 0)%Z eqn:E4; [|done].
    pose proof (cmp_eq_trans x.1 k key). lia.
Qed.
End facts.
