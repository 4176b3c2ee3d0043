(** * Dot draws the tree. *)
From Verif Require Import Prog RbModel NumModel DotModel DotSpec.
Open Scope nat_scope.

Section generic.
Context {U N C : Type}.
Variable ld : ptr -> prog U N.
Variable shown : N -> C.
Variables kid0 kid1 : N -> ptr.
Variable inj : N -> cell U.
Hypothesis wp_ld : forall (h : heap U) l nn W (Q : N -> heap U -> gset loc -> Prop), h !! l = Some (inj nn) -> Q nn h W -> wp (ld (Some l)) h W Q.
Local Notation heap := (heap U).
Local Notation shape := (shape C).
Local Notation dline := (dline C).

Fixpoint mem (h : heap) (p : ptr) (t : shape) : Prop :=
  match t with
  | Nil => p = None
  | Bin x l r => exists a nn, p = Some a /\ h !! a = Some (inj nn) /\ shown nn = x /\ mem h (kid0 nn) l /\ mem h (kid1 nn) r
  end.
Lemma mem_none h p t : mem h p t -> (ptr_eqb p None = match t with Nil => true | _ => false end).
Proof. destruct t; cbn [mem]; [intros ->; done|]. intros (a & nn & -> & _). done. Qed.

Fixpoint dsize (t : shape) : nat := match t with Nil => 1 | Bin _ l r => 1 + dsize l + dsize r end.
Definition total (ts : list shape) : nat := list_sum (map dsize ts).

Definition good (i : nat) (ts : list shape) (ls : list dline) : Prop :=
  (exists m, numbers ls = seq i (length ts + m) /\ targets ls = seq (i + length ts) m) /\
  (forall s a b, DEdge s a b ∈ ls -> i <= s /\ s < a /\ b = a + 1) /\
  (forall j t, ts !! j = Some t -> draws ls (i + j) t).

Lemma draws_node (ls : list dline) i x : forall t k, draws ls k t -> draws (DNode i x :: ls) k t.
Proof.
  assert (Hn : forall k a b, DEdge k a b ∈ DNode i x :: ls <-> DEdge k a b ∈ ls) by (intros; rewrite elem_of_cons; naive_solver).
  induction t as [|y l IHl r IHr]; intros k; cbn [draws].
  - intros [H1 H2]. split; [by right|]. intros a b. rewrite Hn. apply H2.
  - intros [H1 H2]. split; [by right|].
    destruct l; [destruct r|].
    + intros a b. rewrite Hn. apply H2.
    + destruct H2 as (a & b & Ha & Hb & Hc). exists a, b. split; [|auto]. intros. rewrite Hn. apply Ha.
    + destruct H2 as (a & b & Ha & Hb & Hc). exists a, b. split; [|auto]. intros. rewrite Hn. apply Ha.
Qed.
Lemma draws_edge (ls : list dline) i a0 b0 : (forall s a b, DEdge s a b ∈ ls -> s < a /\ b = a + 1) -> forall t k, i < k -> draws ls k t -> draws (DEdge i a0 b0 :: ls) k t.
Proof.
  intros He.
  assert (Hn : forall k a b, i < k -> DEdge k a b ∈ DEdge i a0 b0 :: ls <-> DEdge k a b ∈ ls).
  { intros. rewrite elem_of_cons. split; [|by right]. intros [E|?]; [injection E; lia|done]. }
  induction t as [|y l IHl r IHr]; intros k Hk; cbn [draws].
  - intros [H1 H2]. split; [by right|]. intros a b. rewrite Hn by done. apply H2.
  - intros [H1 H2]. split; [by right|].
    destruct l; [destruct r|].
    + intros a b. rewrite Hn by done. apply H2.
    + destruct H2 as (a & b & Ha & Hb & Hc). exists a, b. destruct (He k a b (proj2 (Ha a b) (conj eq_refl eq_refl))) as [? ?].
      split; [intros; rewrite Hn by done; apply Ha|]. split; [apply IHl; [lia|done]|apply IHr; [lia|done]].
    + destruct H2 as (a & b & Ha & Hb & Hc). exists a, b. destruct (He k a b (proj2 (Ha a b) (conj eq_refl eq_refl))) as [? ?].
      split; [intros; rewrite Hn by done; apply Ha|]. split; [apply IHl; [lia|done]|apply IHr; [lia|done]].
Qed.

(** A line without edges in front. *)
Lemma good_node i t ts ls x : good (i + 1) ts ls -> (forall ls', DNode i x ∈ ls' -> (forall a b, DEdge i a b ∉ ls') -> draws ls' i t) ->
  good i (t :: ts) (DNode i x :: ls).
Proof.
  intros ((m & Hn & Ht) & He & Hd) Hx. split_and!.
  - exists m. split; [unfold numbers in *; cbn [flat_map app]; rewrite Hn; cbn [length Nat.add seq]; by rewrite Nat.add_1_r|].
    unfold targets in *. cbn [flat_map app]. rewrite Ht. f_equal. cbn [length]. lia.
  - intros s a b [E|H]%elem_of_cons; [done|]. destruct (He _ _ _ H) as (? & ? & ?). lia.
  - intros [|j] t' Hj; cbn in Hj.
    + injection Hj as <-. rewrite Nat.add_0_r. apply Hx; [by left|]. intros a b [E|H]%elem_of_cons; [done|]. destruct (He _ _ _ H) as (? & ? & ?). lia.
    + apply draws_node. replace (i + S j) with (i + 1 + j) by lia. by apply Hd.
Qed.

Lemma dot_loop_ok h W fuel : forall i queue ts, Forall2 (mem h) queue ts -> total ts <= fuel ->
  wp (dot_loop ld shown kid0 kid1 fuel i queue) h W (fun ls h' W' => h' = h /\ W' = W /\ good i ts ls).
Proof.
  induction fuel as [|fuel IH]; intros i queue ts Hq Hf.
  - destruct Hq as [|p t queue ts Hp Hq]; [|exfalso; unfold total in Hf; cbn in Hf; destruct t; cbn in Hf; lia].
    cbn. split_and!; try done. split_and!; [by exists 0|intros ??? H; by apply elem_of_nil in H|done].
  - destruct Hq as [|p t queue ts Hp Hq].
    { cbn. split_and!; try done. split_and!; [by exists 0|intros ??? H; by apply elem_of_nil in H|done]. }
    assert (Hf2 : dsize t + total ts <= S fuel) by exact Hf.
    cbn [dot_loop]. destruct p as [l|].
    + destruct t as [|x t0 t1]; [done|]. cbn [mem] in Hp. destruct Hp as (a & nn & Ea & Hl & Hx & H0 & H1). injection Ea as <-.
      apply wp_bind. eapply wp_ld; [exact Hl|]. rewrite (mem_none _ _ _ H0), (mem_none _ _ _ H1). cbn [dsize] in Hf2.
      destruct (negb (match t0 with Nil => true | _ => false end) || negb (match t1 with Nil => true | _ => false end)) eqn:Ek.
      * cbn [app tail]. apply wp_bind. eapply wp_mono; [apply (IH (i + 1) ((queue ++ [kid0 nn]) ++ [kid1 nn]) (ts ++ [t0; t1]))|].
        { rewrite <- app_assoc. apply Forall2_app; [done|]. repeat constructor; done. }
        { unfold total in *. rewrite map_app, list_sum_app. cbn. lia. }
        cbv beta. intros ls h' W' (-> & -> & (m & Hn & Ht) & He & Hd). cbn [wp]. split_and!; [done|done|].
        rewrite app_length in Hn, Ht. cbn [length] in Hn, Ht. pose proof (Forall2_length _ _ _ Hq) as Hlen. assert (Hlen2 : @length (option loc) queue = length ts) by exact Hlen.
        assert (He' : forall s a b, DEdge s a b ∈ ls -> s < a /\ b = a + 1). { intros s a b H. destruct (He _ _ _ H) as (? & ? & ?). lia. }
        split_and!.
        -- exists (S (S m)). split.
           ++ unfold numbers in *. cbn [flat_map app length]. rewrite Hn. replace (S (length ts) + S (S m)) with (S (length ts + 2 + m)) by lia. cbn [seq]. by rewrite Nat.add_1_r.
           ++ unfold targets in *. cbn [flat_map app length]. rewrite Ht, Hlen. cbn [seq].
              replace (i + S (length ts) + 1) with (S (i + S (length ts))) by lia. do 3 f_equal. lia.
        -- intros s a b [E|[E|H]%elem_of_cons]%elem_of_cons; [done| |destruct (He _ _ _ H) as (? & ? & ?); lia]. injection E as -> -> ->. cbn [length]. lia.
        -- intros [|j] t' Hj; cbn in Hj.
           ++ injection Hj as <-. rewrite Nat.add_0_r. cbn [draws]. split; [rewrite Hx; by left|].
              assert (Hch : exists a b, (forall a' b', DEdge i a' b' ∈ DNode i (Some (shown nn)) :: DEdge i (i + length (Some l :: queue)) (i + length (Some l :: queue) + 1) :: ls <-> a' = a /\ b' = b) /\
                draws (DNode i (Some (shown nn)) :: DEdge i (i + length (Some l :: queue)) (i + length (Some l :: queue) + 1) :: ls) a t0 /\
                draws (DNode i (Some (shown nn)) :: DEdge i (i + length (Some l :: queue)) (i + length (Some l :: queue) + 1) :: ls) b t1).
              { exists (i + length (Some l :: queue)), (i + length (Some l :: queue) + 1). split; [|split].
                - intros a' b'. rewrite !elem_of_cons. split; [|intros [-> ->]; auto]. intros [E|[E|H]]; [done|injection E as -> ->; done|destruct (He _ _ _ H) as (? & ? & ?); lia].
                - apply draws_node, draws_edge; [done|cbn [length]; lia|]. cbn [length]. rewrite ?Hlen, ?Hlen2. replace (i + S (length ts)) with (i + 1 + length ts) by lia.
                  apply Hd. rewrite lookup_app_r by lia. by rewrite Nat.sub_diag.
                - apply draws_node, draws_edge; [done|cbn [length]; lia|]. cbn [length]. rewrite ?Hlen, ?Hlen2. replace (i + S (length ts) + 1) with (i + 1 + (length ts + 1)) by lia.
                  apply Hd. rewrite lookup_app_r by lia. by replace (length ts + 1 - length ts) with 1 by lia. }
              destruct t0; [destruct t1; [done|]|]; exact Hch.
           ++ apply draws_node, draws_edge; [done|lia|]. replace (i + S j) with (i + 1 + j) by lia. apply Hd. by apply lookup_app_l_Some.
      * apply wp_bind. eapply wp_mono; [apply (IH (i + 1) queue ts Hq); lia|]. cbv beta. intros ls h' W' (-> & -> & Hg). cbn [wp]. split_and!; [done|done|].
        apply good_node; [done|]. intros ls' Hin Hno. cbn [draws]. rewrite Hx in Hin. split; [done|]. destruct t0; [destruct t1; [done|done]|done].
    + destruct t as [|x t0 t1]; [|by destruct Hp as (? & ? & ? & _)]. apply wp_bind. eapply wp_mono; [apply (IH (i + 1) queue ts Hq); cbn in Hf2; lia|].
      cbv beta. intros ls h' W' (-> & -> & Hg). cbn [wp]. split_and!; [done|done|]. apply good_node; [done|]. intros ls' Hin Hno. done.
Qed.
Lemma dot_ok h W p t fuel : mem h p t -> dsize t <= fuel ->
  wp (dot_loop ld shown kid0 kid1 fuel 0 [p]) h W (fun ls h' W' => h' = h /\ W' = W /\ drawing ls t).
Proof.
  intros Hm Hf. eapply wp_mono; [apply (dot_loop_ok h W fuel 0 [p] [t])|].
  - by repeat constructor.
  - unfold total. cbn. lia.
  - cbv beta. intros ls h' W' (-> & -> & (m & Hn & Ht) & He & Hd). split_and!; [done|done|]. split; [apply (Hd 0 t eq_refl)|].
    exists m. split_and!; [done|done|]. intros i a b H. destruct (He _ _ _ H) as (? & ? & ?). auto.
Qed.
End generic.

Section inst.
Context {U : Type}.
Local Notation heap := (heap U).
Lemma rb_shape_mem (h : heap) p t : rb_shape h p t -> mem rb_shown rb_l rb_r CRb h p t.
Proof. revert p. induction t as [|x l IHl r IHr]; intros p; cbn [rb_shape mem]; [done|]. intros (a & n & ? & ? & -> & ? & ?). exists a, n. split_and!; auto. Qed.
Lemma num_shape_mem (h : heap) p t : num_shape h p t -> mem num_shown nn_c0 nn_c1 CNum h p t.
Proof. revert p. induction t as [|x l IHl r IHr]; intros p; cbn [num_shape mem]; [done|]. intros (a & n & ? & ? & -> & ? & ?). exists a, n. split_and!; auto. Qed.

Lemma rb_dot_ok (h : heap) W p t fuel : rb_shape h p t -> dsize t <= fuel -> wp (rb_dot fuel p) h W (fun ls h' W' => h' = h /\ W' = W /\ drawing ls t).
Proof. intros Hm Hf. eapply dot_ok; [|by apply rb_shape_mem|done]. intros h' l nn W' Q Hl HQ. cbn. exists (CRb nn). done. Qed.
Lemma n_dot_ok (h : heap) W p t fuel : num_shape h p t -> dsize t <= fuel -> wp (n_dot fuel p) h W (fun ls h' W' => h' = h /\ W' = W /\ drawing ls t).
Proof. intros Hm Hf. eapply dot_ok; [|by apply num_shape_mem|done]. intros h' l nn W' Q Hl HQ. cbn. exists (CNum nn). done. Qed.

(** What Enumerate visits is a tree. *)
Lemma rb_enum_shape fuel : forall n (h : heap) W Q, wp (enumerate fuel n) h W Q -> exists t, rb_shape h n t /\ Q (map fst (inorder t)) h W.
Proof.
  induction fuel as [|fuel IH]; intros [l|] h W Q H; cbn [enumerate] in H; try done; try (by exists Nil).
  apply wp_bind_inv in H. cbn [ld_rb load bind wp] in H. destruct H as (c & Hc & H). destruct c as [nn| | | | |]; try (exfalso; exact H). cbn [wp] in H.
  apply wp_bind_inv in H. destruct (IH _ _ _ _ H) as (tl & Hl & H1). apply wp_bind_inv in H1. destruct (IH _ _ _ _ H1) as (tr & Hr & H2).
  exists (Bin (rb_key nn, rb_val nn, rb_red nn) tl tr). split; [cbn [rb_shape]; exists l, nn; done|]. cbn [inorder]. rewrite map_app. exact H2.
Qed.
Lemma num_enum_shape c fuel : forall n (h : heap) W Q, wp (enumerate_ c fuel n) h W Q ->
  exists t e, num_shape h n t /\ Q e h W /\ leaves (preorder t) = map (fun x => (nn_key x.2, nn_bits x.2, nn_val x.2)) e.
Proof.
  induction fuel as [|fuel IH]; intros [l|] h W Q H; cbn [enumerate_] in H; try done.
  apply wp_bind_inv in H. cbn [ld_num load bind wp] in H. destruct H as (cc & Hc & H). destruct cc as [|nn| | | |]; try (exfalso; exact H). cbn [wp] in H.
  assert (IH' : forall p Q, wp (match p with None => Ret [] | Some _ => enumerate_ c fuel p end) h W Q ->
    exists t e, num_shape h p t /\ Q e h W /\ leaves (preorder t) = map (fun x => (nn_key x.2, nn_bits x.2, nn_val x.2)) e).
  { intros [q|] Q' H'; [by apply IH|]. exists Nil, []. done. }
  apply wp_bind_inv in H. destruct (IH' _ _ H) as (tl & el & Hl & H1 & El). apply wp_bind_inv in H1. destruct (IH' _ _ H1) as (tr & er & Hr & H2 & Er).
  eexists (Bin (nn_key nn, nn_bits nn, if nn_leaf nn then Some (nn_val nn) else None) tl tr), _. split; [cbn [num_shape]; exists l, nn; done|]. split; [exact H2|].
  unfold leaves in *. cbn [preorder flat_map fst snd]. rewrite flat_map_app, El, Er, !map_app. destruct (nn_leaf nn); done.
Qed.
End inst.

(** The lines determine the tree. *)
Section unique.
Context {C : Type}.
Lemma numbers_unique (ls : list (dline C)) i x y : NoDup (numbers ls) -> DNode i x ∈ ls -> DNode i y ∈ ls -> x = y.
Proof.
  assert (Hin : forall ls j (z : option C), DNode j z ∈ ls -> j ∈ numbers ls).
  { clear. induction ls as [|l ls IH]; intros j z; [by intros H%elem_of_nil|]. intros [<-|H]%elem_of_cons; unfold numbers in *; cbn [flat_map]; apply elem_of_app; [left; by left|right; eauto]. }
  induction ls as [|l ls IH]; intros Hn H1 H2; [by apply elem_of_nil in H1|]. destruct l as [j z|s a b].
  - unfold numbers in Hn. cbn [flat_map app] in Hn. apply NoDup_cons in Hn as [Hj Hn].
    apply elem_of_cons in H1 as [E1|H1]; apply elem_of_cons in H2 as [E2|H2]; [by simplify_eq| | |by apply IH].
    + simplify_eq. exfalso. apply Hj. by eapply Hin.
    + simplify_eq. exfalso. apply Hj. by eapply Hin.
  - apply elem_of_cons in H1 as [E1|H1]; [done|]. apply elem_of_cons in H2 as [E2|H2]; [done|]. by apply IH.
Qed.
Lemma draws_unique (ls : list (dline C)) : NoDup (numbers ls) -> forall d d' i, draws ls i d -> draws ls i d' -> d = d'.
Proof.
  intros Hn. induction d as [|x l IHl r IHr]; intros [|x' l' r'] i; cbn [draws]; intros [H1 H2] [H1' H2']; [done| | |].
  - pose proof (numbers_unique _ _ _ _ Hn H1 H1'). done.
  - pose proof (numbers_unique _ _ _ _ Hn H1 H1'). done.
  - pose proof (numbers_unique _ _ _ _ Hn H1 H1') as E. injection E as <-.
    assert (HA : (l = Nil /\ r = Nil /\ forall a b, DEdge i a b ∉ ls) \/ exists a b, (forall a' b', DEdge i a' b' ∈ ls <-> a' = a /\ b' = b) /\ draws ls a l /\ draws ls b r).
    { destruct l; [destruct r|]; auto. }
    assert (HB : (l' = Nil /\ r' = Nil /\ forall a b, DEdge i a b ∉ ls) \/ exists a b, (forall a' b', DEdge i a' b' ∈ ls <-> a' = a /\ b' = b) /\ draws ls a l' /\ draws ls b r').
    { destruct l'; [destruct r'|]; auto. }
    destruct HA as [(-> & -> & N1)|(a & b & E1 & D1 & D2)]; destruct HB as [(-> & -> & N2)|(a' & b' & E2 & D1' & D2')].
    + done.
    + exfalso. apply (N1 a' b'), E2. done.
    + exfalso. apply (N2 a b), E1. done.
    + destruct (proj1 (E1 a' b') (proj2 (E2 a' b') (conj eq_refl eq_refl))) as [-> ->]. f_equal; eauto.
Qed.
Lemma drawing_unique (ls : list (dline C)) d d' : drawing ls d -> drawing ls d' -> d = d'.
Proof. intros [H1 (n & Hn & _)] [H2 _]. apply (draws_unique ls) with (i := 0); [|done|done]. rewrite Hn. apply NoDup_seq. Qed.
End unique.
