(** * Domain trees as rose trees, without memory. *)
From Verif Require Import Prog RbSpec RbModel RbAbs StrSpec StrAbs StrPropProofs DomModel DomSpec DlSpec DlAbs DlPropProofs DtSpec.

Local Notation cmp := dl_compare.
Section fn.
Context {V : Type}.
Inductive dtree := DT (v : option V) (cs : list (bytes * dtree)).
Definition d_val (t : dtree) := let 'DT v _ := t in v.
Definition d_cs (t : dtree) := let 'DT _ cs := t in cs.
Definition d_nil : dtree := DT None [].
Definition dead (t : dtree) : bool := match t with DT None [] => true | _ => false end.
Fixpoint d_find (t : dtree) (p : path) : option dtree :=
  match p with
  | [] => Some t
  | a :: p => match a_get cmp (d_cs t) a with Some c => d_find c p | None => None end
  end.
Definition d_get (t : dtree) (p : path) : option V := match d_find t p with Some (DT v _) => v | None => None end.
Definition child (t : dtree) (a : bytes) : dtree := default d_nil (a_get cmp (d_cs t) a).
Fixpoint d_insert (t : dtree) (p : path) (v : V) : dtree :=
  match p with
  | [] => DT (Some v) (d_cs t)
  | a :: p => DT (d_val t) (a_insert cmp (d_cs t) a (d_insert (child t a) p v))
  end.
(** What Delete and DeleteSubdomains do with the node at [p]. *)
Definition put (t : dtree) (a : bytes) (c : dtree) : dtree :=
  DT (d_val t) (if dead c then a_delete cmp (d_cs t) a else a_insert cmp (d_cs t) a c).
Fixpoint d_upd (t : dtree) (p : path) (n : dtree) : dtree :=
  match p with
  | [] => n
  | a :: p => put t a (d_upd (child t a) p n)
  end.

(** Invariant: [N] bounds the number of branches of a node, [d] the depth. *)
Fixpoint wf (N d : nat) (t : dtree) : Prop :=
  match d with
  | O => False
  | S d => ordered cmp (d_cs t) /\ length (d_cs t) <= N /\
           Forall (fun x => (1 <= length x.1 <= 63 /\ Forall (fun c => upper c = c) x.1) /\ wf N d x.2 /\ dead x.2 = false) (d_cs t)
  end.
Definition good (a : bytes) : Prop := 1 <= length a <= 63 /\ Forall (fun c => upper c = c) a.

Lemma wf_S N d t : wf N (S d) t <-> ordered cmp (d_cs t) /\ length (d_cs t) <= N /\
  Forall (fun x => good x.1 /\ wf N d x.2 /\ dead x.2 = false) (d_cs t).
Proof. done. Qed.
Lemma wf_mono N N' d : N <= N' -> forall t, wf N d t -> wf N' d t.
Proof.
  intros HN. induction d as [|d IH]; intros t; [done|]. rewrite !wf_S. intros (H1 & H2 & H3). split_and!; [done|lia|].
  eapply Forall_impl; [exact H3|]. naive_solver.
Qed.
Lemma wf_nil N d : wf N (S d) d_nil.
Proof. split_and!; simpl; [constructor|lia|constructor]. Qed.
Lemma ag_in {W} (l : list (bytes * W)) k v : a_get cmp l k = Some v -> (k, v) ∈ l.
Proof.
  unfold a_get. intros (x & Hx & ->)%fmap_Some. apply find_some in Hx as [Hin Hk]. unfold same_key in Hk.
  apply Z.eqb_eq, dl_compare_eq in Hk as <-. destruct x. by apply elem_of_list_In.
Qed.
Lemma in_ag {W} (l : list (bytes * W)) k v : ordered cmp l -> (k, v) ∈ l -> a_get cmp l k = Some v.
Proof.
  intros Ho Hin. unfold a_get. induction l as [|x l IH]; [by inversion Hin|].
  simpl. inversion Ho as [|? ? Ho' Hall]; subst. unfold same_key.
  apply elem_of_cons in Hin as [<-|Hin].
  - simpl. by rewrite (cmp_refl _ dl_compare_lawful).
  - assert (cmp x.1 k <> 0)%Z. { rewrite Forall_forall in Hall. apply Hall in Hin. simpl in Hin. lia. }
    destruct (Z.eqb_spec (cmp x.1 k) 0); [done|]. by apply IH.
Qed.
Lemma ag_insert {W} (l : list (bytes * W)) a v k : ordered cmp l -> a_get cmp (a_insert cmp l a v) k = if bytes_eqb a k then Some v else a_get cmp l k.
Proof. intros Ho. rewrite a_get_insert by (try apply dl_compare_lawful; done). unfold same_key. by rewrite <- bytes_eqb_cmp, bytes_eqb_sym. Qed.
Lemma ag_delete {W} (l : list (bytes * W)) a k : ordered cmp l -> a_get cmp (a_delete cmp l a) k = if bytes_eqb a k then None else a_get cmp l k.
Proof. intros Ho. rewrite a_get_delete by (try apply dl_compare_lawful; done). unfold same_key. by rewrite <- bytes_eqb_cmp, bytes_eqb_sym. Qed.
Lemma ai_len {W} (l : list (bytes * W)) k v : length (a_insert cmp l k v) <= length l + 1.
Proof.
  unfold a_insert. destruct (existsb _ l); [rewrite map_length; lia|]. rewrite app_length. simpl.
  induction l as [|x l IH]; simpl; [lia|]. destruct (Z.ltb_spec (cmp x.1 k) 0), (Z.ltb_spec 0 (cmp x.1 k)); simpl; lia.
Qed.
Lemma ai_len_hit {W} (l : list (bytes * W)) k v v0 : a_get cmp l k = Some v0 -> length (a_insert cmp l k v) = length l.
Proof.
  intros H. unfold a_insert. assert (existsb (fun x => same_key cmp k x.1) l = true) as ->; [|by rewrite map_length].
  apply existsb_exists. unfold a_get in H. apply fmap_Some in H as (x & Hx & ->). apply find_some in Hx. eauto.
Qed.
Lemma ad_len {W} (l : list (bytes * W)) k : length (a_delete cmp l k) <= length l.
Proof. unfold a_delete. induction l as [|x l IH]; simpl; [lia|]. destruct (negb _); simpl; lia. Qed.
Lemma ad_Forall {W} (P : bytes * W -> Prop) l k : Forall P l -> Forall P (a_delete cmp l k).
Proof. intros Hl. unfold a_delete. rewrite List.Forall_forall in Hl |- *. intros x Hx%filter_In. by apply Hl, Hx. Qed.
Lemma ai_Forall {W} (P : bytes * W -> Prop) l k v : P (k, v) -> Forall P l -> Forall P (a_insert cmp l k v).
Proof.
  intros Hk Hl. unfold a_insert. destruct (existsb _ l).
  - apply Forall_fmap. eapply Forall_impl; [exact Hl|]. intros x Hx. unfold compose. destruct (same_key cmp k x.1) eqn:E; [|done].
    unfold same_key in E. apply Z.eqb_eq, dl_compare_eq in E. by rewrite E.
  - apply Forall_app. split; [|constructor; [done|]]; rewrite List.Forall_forall in Hl |- *; intros x Hx%filter_In; by apply Hl, Hx.
Qed.

Lemma wf_child N d t a : wf N (S d) t -> 1 <= d -> wf N d (child t a).
Proof.
  rewrite wf_S. intros (_ & _ & H) Hd. unfold child. destruct (a_get cmp (d_cs t) a) as [c|] eqn:E; simpl.
  - apply ag_in in E. rewrite Forall_forall in H. by apply H in E as (_ & ? & _).
  - destruct d; [lia|]. apply wf_nil.
Qed.
Lemma dead_insert t p v : dead (d_insert t p v) = false.
Proof.
  destruct t as [w cs], p as [|a p]; simpl; [done|]. destruct w; [done|]. destruct (a_insert cmp cs a _) eqn:E; [|done].
  unfold a_insert in E. destruct (existsb _ cs) eqn:Ex; [|by destruct (List.filter _ cs)]. destruct cs; simpl in *; done.
Qed.
Lemma wf_insert N v p : forall d t, wf N d t -> length p < d -> Forall good p -> wf (S N) d (d_insert t p v).
Proof.
  induction p as [|a p IH]; intros d t Ht Hd Hp; (destruct d as [|d]; [done|]).
  - eapply wf_mono; [|exact Ht]. lia.
  - inversion Hp as [|? ? Ha Hp']; subst. simpl in Hd. rewrite wf_S. cbn [d_insert d_cs].
    pose proof (wf_child N d t a Ht ltac:(lia)) as Hc.
    apply wf_S in Ht as (H1 & H2 & H3). split_and!.
    + by apply ordered_a_insert; [apply dl_compare_lawful|].
    + pose proof (ai_len (d_cs t) a (d_insert (child t a) p v)). lia.
    + apply ai_Forall; [split_and!; [done|apply IH; [done|lia|done]|apply dead_insert]|].
      eapply Forall_impl; [exact H3|]. intros x (? & ? & ?). split_and!; [done|eapply wf_mono; [|done]; lia|done].
Qed.
Lemma d_find_child t a p : d_find t (a :: p) = match a_get cmp (d_cs t) a with Some c => d_find c p | None => None end.
Proof. done. Qed.
Lemma d_get_cons t a p : d_get t (a :: p) = d_get (child t a) p.
Proof. unfold d_get, child. cbn [d_find]. destruct (a_get cmp (d_cs t) a); [done|]. simpl. destruct p; done. Qed.
Lemma d_get_nil p : d_get d_nil p = None.
Proof. unfold d_get. by destruct p. Qed.
Lemma path_eqb_cons a p b q : path_eqb (a :: p) (b :: q) = bytes_eqb a b && path_eqb p q.
Proof. unfold path_eqb. simpl. by destruct (bytes_eqb a b). Qed.
Lemma d_insert_get N v p : forall d t q, wf N d t -> length p < d -> d_get (d_insert t p v) q = if path_eqb p q then Some v else d_get t q.
Proof.
  induction p as [|a p IH]; intros d t q Ht Hd; (destruct d as [|d]; [done|]).
  - destruct t as [w cs]. destruct q as [|b q]; simpl; [done|]. done.
  - simpl in Hd. pose proof (wf_child N d t a Ht ltac:(lia)) as Hc. destruct q as [|b q]; [by destruct t|].
    rewrite path_eqb_cons, !d_get_cons. unfold child at 1. cbn [d_insert d_cs].
    apply wf_S in Ht as (H1 & H2 & H3).
    rewrite ag_insert by done. destruct (bytes_eqb a b) eqn:E; cbn [andb default]; [|done].
    apply bytes_eqb_true in E as ->. simpl. rewrite (IH d) by (done || lia). done.
Qed.

(** Updates of existing nodes. *)
Lemma wf_find N p : forall d t x, wf N d t -> d_find t p = Some x -> wf N (d - length p) x /\ length p < d.
Proof.
  induction p as [|a p IH]; intros d t x Ht Hx; simpl in *.
  - injection Hx as <-. destruct d; [done|]. split; [done|lia].
  - destruct (a_get cmp (d_cs t) a) as [c|] eqn:E; [|done]. destruct d as [|d]; [done|]. apply wf_S in Ht as (_ & _ & H3).
    apply ag_in in E. rewrite Forall_forall in H3. apply H3 in E as (_ & Hc & _). apply (IH d c x) in Hx as [? ?]; [|done]. split; [done|lia].
Qed.
Lemma find_child t a p x : d_find t (a :: p) = Some x -> exists c, a_get cmp (d_cs t) a = Some c /\ child t a = c /\ d_find c p = Some x.
Proof. cbn [d_find]. unfold child. destruct (a_get cmp (d_cs t) a) as [c|]; [|done]. simpl. eauto. Qed.
Lemma wf_upd N n p : forall d t x, wf N d t -> d_find t p = Some x -> wf N (d - length p) n -> wf N d (d_upd t p n).
Proof.
  induction p as [|a p IH]; intros d t x Ht Hx Hn.
  - simpl in *. by rewrite Nat.sub_0_r in Hn.
  - apply find_child in Hx as (c & Hc & Ec & Hx). destruct d as [|d]; [done|]. cbn [d_upd]. rewrite Ec. simpl in Hn.
    apply wf_S in Ht as (H1 & H2 & H3). assert (Hin := Hc). apply ag_in in Hin. rewrite Forall_forall in H3. destruct (H3 _ Hin) as (Hg & Hw & _).
    rewrite <- Forall_forall in H3. pose proof (IH d c x Hw Hx Hn) as Hc'. rewrite wf_S. unfold put. cbn [d_cs].
    destruct (dead (d_upd c p n)) eqn:Ed.
    + split_and!; [by apply ordered_a_delete|pose proof (ad_len (d_cs t) a); lia|by apply ad_Forall].
    + split_and!; [by apply ordered_a_insert; [apply dl_compare_lawful|]|erewrite ai_len_hit by done; lia|by apply ai_Forall].
Qed.
Lemma dead_get t p : dead t = true -> d_get t p = None.
Proof. destruct t as [[v|] [|x cs]]; try done. intros _. apply d_get_nil. Qed.
Lemma d_upd_get N n p : forall d t x q, wf N d t -> d_find t p = Some x ->
  d_get (d_upd t p n) q = match strip p q with Some r => d_get n r | None => d_get t q end.
Proof.
  induction p as [|a p IH]; intros d t x q Ht Hx; [done|].
  apply find_child in Hx as (c & Hc & Ec & Hx). destruct d as [|d]; [done|]. cbn [d_upd]. rewrite Ec.
  apply wf_S in Ht as (H1 & H2 & H3). assert (Hin := Hc). apply ag_in in Hin. rewrite Forall_forall in H3. destruct (H3 _ Hin) as (Hg & Hw & _).
  destruct q as [|b q]; [by destruct t|]. cbn [strip]. rewrite !d_get_cons. unfold put. unfold child at 1. cbn [d_cs].
  assert (E1 : default d_nil (a_get cmp (if dead (d_upd c p n) then a_delete cmp (d_cs t) a else a_insert cmp (d_cs t) a (d_upd c p n)) b) =
    if bytes_eqb a b then (if dead (d_upd c p n) then d_nil else d_upd c p n) else child t b).
  { destruct (dead (d_upd c p n)); [rewrite ag_delete by done|rewrite ag_insert by done]; by destruct (bytes_eqb a b). }
  rewrite E1. destruct (bytes_eqb a b) eqn:Eb; [|done]. apply bytes_eqb_true in Eb as <-. rewrite Ec.
  rewrite <- (IH d c x q Hw Hx). destruct (dead (d_upd c p n)) eqn:Ed; [|done]. by rewrite d_get_nil, dead_get.
Qed.
(** Every node but the root leads to a value. *)
Lemma alive N : forall d t, wf N d t -> dead t = false -> exists p v, d_get t p = Some v.
Proof.
  induction d as [|d IH]; intros t Ht Hd; [done|]. destruct t as [[v|] cs]; [by exists [], v|].
  destruct cs as [|[a c] cs]; [done|]. apply wf_S in Ht as (H1 & _ & H3). cbn [d_cs] in *.
  inversion H3 as [|? ? (_ & Hc & Hdc) _]; subst. destruct (IH c Hc Hdc) as (p & v & E).
  exists (a :: p), v. rewrite d_get_cons. unfold child. cbn [d_cs]. by rewrite (in_ag _ _ _ H1 (elem_of_list_here _ _)).
Qed.
Lemma find_none_get t p q : d_find t p = None -> under p q = true -> d_get t q = None.
Proof.
  revert t q. induction p as [|a p IH]; intros t q; [done|]. destruct q as [|b q]; [done|]. unfold under in *. cbn [strip].
  destruct (bytes_eqb a b) eqn:E; [|done]. apply bytes_eqb_true in E as <-. cbn [d_find]. rewrite d_get_cons. unfold child.
  destruct (a_get cmp (d_cs t) a) as [c|]; [|intros; simpl; apply d_get_nil]. intros Hn Hu. by apply IH.
Qed.
Lemma d_find_app t p q : d_find t (p ++ q) = match d_find t p with Some c => d_find c q | None => None end.
Proof. revert t. induction p as [|a p IH]; intros t; [done|]. cbn [app d_find]. destruct (a_get cmp (d_cs t) a); [apply IH|done]. Qed.
Lemma strip_spec p : forall q r, strip p q = Some r <-> q = p ++ r.
Proof.
  induction p as [|a p IH]; intros q r; simpl; [naive_solver|]. destruct q as [|b q]; [split; [done|intros [=]]|].
  destruct (bytes_eqb a b) eqn:E.
  - apply bytes_eqb_true in E as ->. rewrite IH. split; [by intros ->|by intros [= ->]].
  - split; [done|]. intros [= -> ->]. assert (bytes_eqb a a = true) by by apply bytes_eqb_true. congruence.
Qed.
Lemma under_spec p q : under p q = true <-> exists r, q = p ++ r.
Proof.
  unfold under. destruct (strip p q) as [r|] eqn:E.
  - apply strip_spec in E. split; eauto.
  - split; [done|]. intros (r & Hr). apply strip_spec in Hr. congruence.
Qed.
Lemma path_eqb_spec p q : path_eqb p q = true <-> p = q.
Proof.
  unfold path_eqb. destruct (strip p q) as [r|] eqn:E.
  - apply strip_spec in E as ->. destruct r; [by rewrite app_nil_r|]. split; [done|]. intros Ha.
    apply (f_equal length) in Ha. rewrite app_length in Ha. simpl in Ha. lia.
  - split; [done|]. intros ->. assert (strip q q = Some []) by (apply strip_spec; by rewrite app_nil_r). congruence.
Qed.

(** ** Enumeration. *)
Fixpoint d_enum (d : nat) (p : path) (t : dtree) : list (path * V) :=
  match d with
  | O => []
  | S d => (match d_val t with Some v => [(p, v)] | None => [] end) ++ List.concat (map (fun x => d_enum d (p ++ [x.1]) x.2) (d_cs t))
  end.
Lemma d_enum_in N : forall d t p q v, wf N d t -> (q, v) ∈ d_enum d p t <-> exists r, q = p ++ r /\ d_get t r = Some v.
Proof.
  induction d as [|d IH]; intros t p q v Ht; [done|]. apply wf_S in Ht as (H1 & _ & H3). cbn [d_enum]. rewrite elem_of_app. split.
  - intros [Hin|Hin].
    + destruct t as [[w|] cs]; simpl in Hin; [|by inversion Hin]. apply elem_of_list_singleton in Hin as [= -> ->].
      exists []. by rewrite app_nil_r.
    + rewrite elem_of_list_In, in_concat in Hin. destruct Hin as (l & Hl & Hin). apply in_map_iff in Hl as ([a c] & <- & Hx).
      apply elem_of_list_In in Hin, Hx. rewrite Forall_forall in H3. destruct (H3 _ Hx) as (_ & Hc & _). simpl in *.
      apply IH in Hin as (r & -> & Hr); [|done]. exists (a :: r). split; [by rewrite <- app_assoc|].
      rewrite d_get_cons. unfold child. by rewrite (in_ag _ _ _ H1 Hx).
  - intros (r & -> & Hr). destruct r as [|a r].
    + left. destruct t as [w cs]. unfold d_get in Hr. simpl in *. subst w. rewrite app_nil_r. by left.
    + right. rewrite d_get_cons in Hr. unfold child in Hr. destruct (a_get cmp (d_cs t) a) as [c|] eqn:E; [|simpl in Hr; by rewrite d_get_nil in Hr].
      apply ag_in in E. rewrite Forall_forall in H3. destruct (H3 _ E) as (_ & Hc & _). simpl in *.
      apply elem_of_list_In, in_concat. exists (d_enum d (p ++ [a]) c). split.
      * apply in_map_iff. exists (a, c). split; [done|]. by apply elem_of_list_In.
      * apply elem_of_list_In, (IH _ _ _ _ Hc). exists r. split; [by rewrite <- app_assoc|done].
Qed.
Lemma path_lt_app p a b : path_lt a b -> path_lt (p ++ a) (p ++ b).
Proof. intros H. induction p; simpl; [done|]. by constructor. Qed.
Lemma sorted_app_rel {A} (R : A -> A -> Prop) l1 l2 : StronglySorted R l1 -> StronglySorted R l2 ->
  (forall x y, x ∈ l1 -> y ∈ l2 -> R x y) -> StronglySorted R (l1 ++ l2).
Proof.
  intros H1 H2 H. induction H1 as [|x l1 H1 IH Hx]; simpl; [done|]. constructor.
  - apply IH. intros. apply H; [by right|done].
  - apply Forall_app. split; [done|]. apply Forall_forall. intros y Hy. apply H; [by left|done].
Qed.
Lemma d_enum_sorted N : forall d t p, wf N d t -> StronglySorted (fun x y => path_lt x.1 y.1) (d_enum d p t).
Proof.
  induction d as [|d IH]; intros t p Ht; [done|]. assert (Hwf := Ht). apply wf_S in Ht as (H1 & _ & H3). cbn [d_enum].
  assert (Hin : forall a c q v, (a, c) ∈ d_cs t -> (q, v) ∈ d_enum d (p ++ [a]) c -> exists r, q = p ++ a :: r).
  { intros a c q v Hac Hq. rewrite Forall_forall in H3. destruct (H3 _ Hac) as (_ & Hc & _). apply (d_enum_in N) in Hq as (r & -> & _); [|done].
    exists r. by rewrite <- app_assoc. }
  apply sorted_app_rel.
  - destruct (d_val t); repeat constructor.
  - clear Hwf. induction (d_cs t) as [|[a c] cs IHcs]; simpl; [constructor|]. inversion H1 as [|? ? H1' Ha]; subst. inversion H3 as [|? ? (_ & Hc & _) H3']; subst.
    apply sorted_app_rel; [by apply IH|apply IHcs; [done|done|]|].
    + intros a' c' q v Hac Hq. eapply Hin; [by right|exact Hq].
    + intros [q v] [q' v'] Hq Hq'. apply (Hin a c) in Hq as (r & ->); [|by left].
      rewrite elem_of_list_In, in_concat in Hq'. destruct Hq' as (l & Hl & Hq'). apply in_map_iff in Hl as ([a' c'] & <- & Hx).
      apply elem_of_list_In in Hq', Hx. apply (Hin a' c') in Hq' as (r' & ->); [|by right]. simpl.
      apply path_lt_app, pl_head. rewrite Forall_forall in Ha. apply Ha in Hx. by apply dl_compare_lt.
  - intros [q v] [q' v'] Hq Hq'. destruct (d_val t); [|by inversion Hq]. apply elem_of_list_singleton in Hq as [= -> ->].
    rewrite elem_of_list_In, in_concat in Hq'. destruct Hq' as (l & Hl & Hq'). apply in_map_iff in Hl as ([a' c'] & <- & Hx).
    apply elem_of_list_In in Hq', Hx. apply (Hin a' c') in Hq' as (r' & ->); [|done]. simpl. rewrite <- (app_nil_r p) at 1. apply path_lt_app, pl_nil.
Qed.
End fn.
Global Arguments dtree : clear implicits.
