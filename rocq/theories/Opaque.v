(** * Programs do not look at the values they store: the same program on memories that
    differ in the values. *)
From Verif Require Import Prog History NumModel IpModel IpSpec IpHist IpUpdProofs.
Open Scope N_scope.

Section opaque.
Context {U' U : Type}.
(** What stands for a value of the one type in the other. *)
Variable f : U' -> value U.
Hypothesis Hf : forall u, plain (f u).
Definition erv (v : value U') : value U := match v with VNil => VNil | VUser u => f u | VSub p => VSub p | VDom p => VDom p end.
Definition ern (n : numnode U') : numnode U := NumN (nn_key n) (nn_bits n) (nn_leaf n) (erv (nn_val n)) (nn_c0 n) (nn_c1 n).
Definition erc (c : cell U') : cell U :=
  match c with
  | CRb n => CRb (RbN (rb_key n) (erv (rb_val n)) (rb_l n) (rb_r n) (rb_red n))
  | CNum n => CNum (ern n)
  | CDom n => CDom (DomN (dn_branches n) (dn_has n) (erv (dn_val n)))
  | CDl r => CDl r
  | CStr r c => CStr r c
  | CIp a b => CIp a b
  end.
Definition erh (h : heap U') : heap U := erc <$> h.

Inductive psim {A' A} (R : A' -> A -> Prop) : prog U' A' -> prog U A -> Prop :=
| ps_ret a' a : R a' a -> psim R (Ret a') (Ret a)
| ps_fail e : psim R (Fail e) (Fail e)
| ps_alloc c' c k' k : c = erc c' -> (forall l, psim R (k' l) (k l)) -> psim R (Alloc c' k') (Alloc c k)
| ps_load l k' k : (forall c', psim R (k' c') (k (erc c'))) -> psim R (Load l k') (Load l k)
| ps_store l c' c k' k : c = erc c' -> psim R k' k -> psim R (Store l c' k') (Store l c k).
Lemma psim_bind {A' A B' B} (R : A' -> A -> Prop) (S : B' -> B -> Prop) m' m g' g : psim R m' m -> (forall a' a, R a' a -> psim S (g' a') (g a)) -> psim S (bind m' g') (bind m g).
Proof. intros H Hg. induction H; cbn [bind]; try by constructor; auto. by apply Hg. Qed.
Lemma psim_mono {A' A} (R S : A' -> A -> Prop) m' m : (forall a' a, R a' a -> S a' a) -> psim R m' m -> psim S m' m.
Proof. intros HR H. induction H; constructor; auto. Qed.
Lemma psim_wp {A' A} (R : A' -> A -> Prop) m' m : psim R m' m -> forall h W Q, wp m' h W Q -> wp m (erh h) W (fun a h1 W1 => exists a' h1', R a' a /\ h1 = erh h1' /\ Q a' h1' W1).
Proof.
  induction 1 as [a' a HR|e|c' c k' k -> Hk IH|l k' k Hk IH|l c' c k' k -> Hk IH]; intros h W Q; cbn [wp].
  - intros HQ. by exists a', h.
  - done.
  - intros H l Hl. unfold erh in Hl. rewrite lookup_fmap, fmap_None in Hl. specialize (IH l _ _ _ (H l Hl)). unfold erh in *. by rewrite fmap_insert in IH.
  - intros (c' & E & H). exists (erc c'). split; [unfold erh; by rewrite lookup_fmap, E|]. by apply IH.
  - intros (A1 & [c0 A2] & H). split_and!; [done|unfold erh; rewrite lookup_fmap, A2; by eexists|]. specialize (IH _ _ _ H). unfold erh in *. by rewrite fmap_insert in IH.
Qed.

(** ** Accesses. *)
Tactic Notation "intro2" ident(x) := let y := fresh in let H := fresh in intros x y H; hnf in H; try subst y.

Definition same {A} (a' a : A) : Prop := a' = a.
Definition node (n' : numnode U') (n : numnode U) : Prop := n = ern n'.
Definition cell_ (c' : cell U') (c : cell U) : Prop := c = erc c'.
Definition val_ (v' : value U') (v : value U) : Prop := v = erv v'.
Lemma ps_load_ p : psim cell_ (load p) (load p).
Proof. destruct p; cbn [load]; constructor. intros c. by constructor. Qed.
Lemma ps_ld_num p : psim node (ld_num p) (ld_num p).
Proof. unfold ld_num. eapply psim_bind; [apply ps_load_|]. intro2 c'. destruct c'; cbn [erc]; by constructor. Qed.
Lemma ps_ld_ip p : psim same (ld_ip p) (ld_ip p).
Proof. unfold ld_ip. eapply psim_bind; [apply ps_load_|]. intro2 c'. destruct c'; cbn [erc]; by constructor. Qed.
Lemma ps_store_ p c' : psim same (store p c') (store p (erc c')).
Proof. destruct p; cbn [store]; constructor; [done|]. by constructor. Qed.
Lemma ps_st_num p n' n : node n' n -> psim same (st_num p n') (st_num p n).
Proof. intros ->. apply (ps_store_ p (CNum n')). Qed.
Lemma ps_alloc_ c' c : c = erc c' -> psim same (alloc c') (alloc c).
Proof. intros ->. constructor; [done|]. intros l. by constructor. Qed.
Lemma ps_mask c b : psim same (mask c b) (mask c b).
Proof. unfold mask. destruct (nth_error _ _); by constructor. Qed.

(** ** numtree. *)
Lemma ern_chld n b : chld (ern n) b = chld n b.
Proof. done. Qed.
Lemma ern_with n b p : with_chld (ern n) b p = ern (with_chld n b p).
Proof. unfold with_chld. by destruct (b =? 0). Qed.
Lemma ps_set_chld p b x : psim same (set_chld p b x) (set_chld p b x).
Proof. unfold set_chld. eapply psim_bind; [apply ps_ld_num|]. intro2 n'. apply ps_st_num. apply ern_with. Qed.
Lemma ps_new_node k b l v' v : val_ v' v -> psim same (new_node k b l v') (new_node k b l v).
Proof. intros ->. unfold new_node. eapply psim_bind; [by apply (ps_alloc_ (CNum (NumN k b l v' None None)))|]. intro2 x. by constructor. Qed.
Lemma ps_ncsb c k1 b1 k2 b2 : psim same (ncsb c k1 b1 k2 b2) (ncsb c k1 b1 k2 b2).
Proof. unfold ncsb. eapply psim_bind; [apply ps_mask|]. intro2 x. eapply psim_bind; [apply ps_mask|]. intro2 x2. by constructor. Qed.
Lemma ps_same c k1 k2 b : psim same (same_masked c k1 k2 b) (same_masked c k1 k2 b).
Proof. unfold same_masked. eapply psim_bind; [apply ps_mask|]. intro2 x. by constructor. Qed.
Lemma ps_leaf c n k : psim same (leaf_and_same c n k) (leaf_and_same c (ern n) k).
Proof. unfold leaf_and_same. cbn [nn_leaf ern]. destruct (nn_leaf n); [apply ps_same|by constructor]. Qed.
Ltac ps_step :=
  first
  [ done
  | by apply ps_fail
  | apply ps_ld_num | apply ps_ld_ip | apply ps_set_chld | apply ps_ncsb | apply ps_same | apply ps_leaf | apply ps_mask
  | apply ps_new_node; reflexivity
  | (apply ps_st_num; reflexivity)
  | (apply ps_alloc_; reflexivity)
  | match goal with H : forall _, _ |- _ => by apply H end
  | (apply ps_ret; reflexivity)
  | match goal with
    | |- psim _ (bind _ _) (bind _ _) => eapply psim_bind; [solve [ps_step]|let a := fresh "x" in let b := fresh "y" in let H := fresh in intros a b H; unfold same, node in H; subst b; cbn [nn_key nn_bits nn_leaf nn_c0 nn_c1 nn_val ern fst snd] in *]
    | |- psim _ (match ?x with _ => _ end) (match ?x with _ => _ end) => destruct x
    | |- psim _ (if ?x then _ else _) (if ?x then _ else _) => destruct x
    end ].
Lemma ps_insert_ c fuel : forall n cand, psim same (insert_ c fuel n cand) (insert_ c fuel n cand).
Proof.
  induction fuel as [|fuel IH]; intros n cand; cbn [insert_]; [constructor|]. destruct n as [l|]; [|by constructor].
  repeat (cbn zeta; ps_step).
Qed.
Lemma ps_n_insert c n k b v' v : val_ v' v -> psim same (n_insert c n k b v') (n_insert c n k b v).
Proof. intros Hv. unfold n_insert. eapply psim_bind; [by apply ps_new_node|]. intro2 x. apply ps_insert_. Qed.
Lemma ps_inplace_loop c fuel k s v' v : val_ v' v -> forall p b n r, psim same (inplace_loop c fuel k s v' p b n r) (inplace_loop c fuel k s v p b n r).
Proof.
  intros ->. induction fuel as [|fuel IH]; intros p b n r; cbn [inplace_loop]; [constructor|]. destruct n as [l|].
  2: { repeat (cbn zeta; ps_step). }
  eapply psim_bind; [apply ps_ld_num|]. intro2 n'. cbn [nn_key nn_bits nn_leaf nn_c0 nn_c1 nn_val ern] in *. eapply psim_bind; [apply ps_ncsb|]. intro2 cb. destruct (cb <? nn_bits n') eqn:E.
  - cbn zeta. eapply (psim_bind same); [repeat ps_step|]. intro2 m. repeat ps_step.
  - destruct (s =? nn_bits n'); [|apply IH]. eapply psim_bind; [by apply (ps_st_num _ (NumN k (nn_bits n') true v' (nn_c0 n') (nn_c1 n')))|]. intros _ _ _. by constructor.
Qed.
Lemma ps_n_inplace c n k b v' v : val_ v' v -> psim same (n_inplace_insert c n k b v') (n_inplace_insert c n k b v).
Proof. intros Hv. by apply ps_inplace_loop. Qed.
Definition sent (x' : loc * numnode U') (x : loc * numnode U) : Prop := x = (x'.1, ern x'.2).
Definition sents (l' : list (loc * numnode U')) (l : list (loc * numnode U)) : Prop := Forall2 sent l' l.
Lemma ps_enumerate_ c fuel : forall n, psim sents (enumerate_ c fuel n) (enumerate_ c fuel n).
Proof.
  induction fuel as [|fuel IH]; intros n; cbn [enumerate_]; [constructor|]. destruct n as [l|]; [|constructor].
  eapply psim_bind; [apply ps_ld_num|]. intro2 n'. cbn zeta. cbn [nn_leaf nn_c0 nn_c1 ern].
  eapply (psim_bind sents); [destruct (nn_c0 n'); [apply IH|constructor; constructor]|]. intros xs' xs Hx.
  eapply (psim_bind sents); [destruct (nn_c1 n'); [apply IH|constructor; constructor]|]. intros ys' ys Hy.
  constructor. apply Forall2_app; [destruct (nn_leaf n'); repeat constructor|]. by apply Forall2_app.
Qed.
Lemma ps_n_enumerate c n : psim sents (n_enumerate c n) (n_enumerate c n).
Proof. destruct n; [apply ps_enumerate_|constructor; constructor]. Qed.
Lemma ps_match_ c fuel : forall n k b, psim same (match_ c fuel n k b) (match_ c fuel n k b).
Proof.
  induction fuel as [|fuel IH]; intros n k b; cbn [match_]; [constructor|].
  eapply psim_bind; [apply ps_ld_num|]. intro2 n'. cbn [nn_key nn_bits nn_leaf ern]. rewrite ern_chld.
  destruct (b <? nn_bits n'); [by constructor|]. destruct (nn_bits n' =? b).
  - eapply psim_bind; [apply ps_leaf|]. intro2 x. destruct x; by constructor.
  - eapply psim_bind; [apply ps_same|]. intro2 x. destruct (negb x); [by constructor|].
    eapply (psim_bind same); [destruct (chld n' _); [apply IH|by constructor]|]. intro2 r. destruct r; [by constructor|]. destruct (nn_leaf n'); by constructor.
Qed.
Definition got (x' : value U' * bool) (x : value U * bool) : Prop := x = (erv x'.1, x'.2).
Lemma ps_n_match c n k b : psim got (n_match c n k b) (n_match c n k b).
Proof.
  destruct n; cbn [n_match]; [|by constructor]. eapply psim_bind; [apply ps_match_|]. intro2 r. destruct r; [|by constructor]. eapply psim_bind; [apply ps_ld_num|]. intro2 n'. by constructor.
Qed.
Lemma ps_exact_ c fuel : forall n k b, psim same (exact_ c fuel n k b) (exact_ c fuel n k b).
Proof.
  induction fuel as [|fuel IH]; intros n k b; cbn [exact_]; [constructor|].
  eapply psim_bind; [apply ps_ld_num|]. intro2 n'. cbn [nn_key nn_bits nn_leaf ern]. rewrite ern_chld.
  destruct (b <? nn_bits n'); [by constructor|]. destruct (nn_bits n' =? b).
  - eapply psim_bind; [apply ps_leaf|]. intro2 x. destruct x; by constructor.
  - eapply psim_bind; [apply ps_same|]. intro2 x. destruct (negb x); [by constructor|].
    destruct (chld n' _); [|by constructor]. eapply psim_bind; [apply IH|]. intro2 r. destruct r; by constructor.
Qed.
Lemma ps_n_find c n k b : psim same (n_find_node c n k b) (n_find_node c n k b).
Proof. destruct n; cbn [n_find_node]; [|by constructor]. eapply psim_bind; [apply ps_exact_|]. intro2 r. destruct r; by constructor. Qed.
Lemma ps_n_exact c n k b : psim got (n_exact c n k b) (n_exact c n k b).
Proof. unfold n_exact. eapply psim_bind; [apply ps_n_find|]. intro2 r. destruct r; [|by constructor]. eapply psim_bind; [apply ps_ld_num|]. intro2 n'. by constructor. Qed.
Lemma ps_del_ c fuel : forall n k b, psim same (del_ c fuel n k b) (del_ c fuel n k b).
Proof.
  induction fuel as [|fuel IH]; intros n k b; cbn [del_]; [constructor|].
  eapply psim_bind; [apply ps_ld_num|]. intro2 n'. cbn [nn_key nn_bits nn_leaf nn_c0 nn_c1 nn_val ern]. rewrite !ern_chld.
  destruct (b <=? nn_bits n').
  - eapply psim_bind; [apply ps_same|]. intro2 x. destruct x; by constructor.
  - eapply psim_bind; [apply ps_same|]. intro2 x. destruct (negb x); [by constructor|]. cbn zeta. rewrite ?ern_chld.
    destruct (chld n' _); [|by constructor]. eapply psim_bind; [apply IH|]. intro2 co; destruct co as [ch ok]. destruct (negb ok); [by constructor|].
    destruct (match ch with Some _ => false | None => _ end); [by constructor|]. repeat (cbn zeta; ps_step).
Qed.
Lemma ps_n_delete c n k b : psim same (n_delete c n k b) (n_delete c n k b).
Proof. destruct n; cbn [n_delete]; [apply ps_del_|by constructor]. Qed.

(** ** iptree. *)
Lemma ps_roots t : psim same (ip_roots t) (ip_roots t).
Proof. destruct t; cbn [ip_roots]; [apply ps_ld_ip|by constructor]. Qed.
Lemma ps_as_sub v : psim same (as_sub v) (as_sub (erv v)).
Proof using Hf. destruct v as [|u|p|p]; cbn [as_sub erv]; try by constructor. specialize (Hf u). destruct (f u); try by constructor. done. Qed.
Lemma ps_insert_net t n v' v : val_ v' v -> psim same (ip_insert_net t n v') (ip_insert_net t n v).
Proof using Hf.
  intros Hv. destruct n as [n|]; cbn [ip_insert_net]; [|by constructor]. destruct (ip4_key n) as [[k b]|].
  { eapply psim_bind; [apply ps_roots|]. intro2 r. eapply psim_bind; [by apply ps_n_insert|]. intro2 x. eapply psim_bind; [by apply ps_alloc_|]. intro2 l. by constructor. }
  destruct (ip6_key n) as [[[[hk hb] lk] lb]|]; [|by constructor].
  eapply psim_bind; [apply ps_roots|]. intro2 r. destruct (hb <? 64).
  { eapply psim_bind; [by apply ps_n_insert|]. intro2 x. eapply psim_bind; [by apply ps_alloc_|]. intro2 l. by constructor. }
  eapply psim_bind; [apply ps_n_exact|]. intro2 e. cbn [fst snd]. eapply (psim_bind same); [destruct e.2; [apply ps_as_sub|by constructor]|]. intro2 s.
  eapply psim_bind; [by apply ps_n_insert|]. intro2 s2. eapply psim_bind; [by apply ps_n_insert|]. intro2 x. eapply psim_bind; [by apply ps_alloc_|]. intro2 l. by constructor.
Qed.
Lemma ps_inplace_net t n v' v : val_ v' v -> psim same (ip_inplace_insert_net t n v') (ip_inplace_insert_net t n v).
Proof using Hf.
  intros Hv. destruct n as [n|]; cbn [ip_inplace_insert_net]; [|by constructor]. destruct (ip4_key n) as [[k b]|].
  { eapply psim_bind; [apply ps_ld_ip|]. intro2 r. eapply psim_bind; [by apply ps_n_inplace|]. intro2 x. apply (ps_store_ t (CIp _ _)). }
  destruct (ip6_key n) as [[[[hk hb] lk] lb]|]; [|by constructor].
  eapply psim_bind; [apply ps_ld_ip|]. intro2 r. destruct (hb <? 64).
  { eapply psim_bind; [by apply ps_n_inplace|]. intro2 x. apply (ps_store_ t (CIp _ _)). }
  eapply psim_bind; [apply ps_n_exact|]. intro2 e. cbn [fst snd]. destruct e.2.
  - eapply psim_bind; [apply ps_as_sub|]. intro2 s. eapply psim_bind; [by apply ps_n_inplace|]. intro2 s2. destruct (ptr_eqb _ _); [by constructor|].
    eapply psim_bind; [by apply ps_n_inplace|]. intro2 x. apply (ps_store_ t (CIp _ _)).
  - eapply psim_bind; [by apply ps_n_inplace|]. intro2 s2. eapply psim_bind; [by apply ps_n_inplace|]. intro2 x. apply (ps_store_ t (CIp _ _)).
Qed.
Lemma ps_get_net t n : psim got (ip_get_net t n) (ip_get_net t n).
Proof using Hf.
  destruct t as [a|], n as [n|]; cbn [ip_get_net]; try by constructor. eapply psim_bind; [apply ps_ld_ip|]. intro2 r.
  destruct (ip4_key n) as [[k b]|]; [apply ps_n_match|]. destruct (ip6_key n) as [[[[hk hb] lk] lb]|]; [|by constructor].
  eapply psim_bind; [apply ps_n_match|]. intro2 vb; destruct vb as [v b]. cbn [fst snd]. destruct (negb b || (hb <? 64)); [by constructor|].
  destruct v as [|u|s|s]; cbn [erv]; try by constructor.
  - specialize (Hf u). destruct (f u) eqn:E; try done; constructor; unfold got; cbn [erv fst snd]; by rewrite E.
  - eapply psim_bind; [apply ps_n_match|]. intro2 x. cbn [fst snd]. destruct x as [xv []]; cbn [snd]; [by constructor|]. apply ps_n_match.
Qed.
Lemma ps_delete_net t n : psim same (ip_delete_net t n) (ip_delete_net t n).
Proof using Hf.
  destruct t as [a|], n as [n|]; cbn [ip_delete_net]; try by constructor. eapply psim_bind; [apply ps_ld_ip|]. intro2 r.
  destruct (ip4_key n) as [[k b]|].
  { eapply psim_bind; [apply ps_n_delete|]. intro2 x. destruct x.2; [|by constructor]. eapply psim_bind; [by apply ps_alloc_|]. intro2 l. by constructor. }
  destruct (ip6_key n) as [[[[hk hb] lk] lb]|]; [|by constructor]. destruct (hb <? 64).
  { eapply psim_bind; [apply ps_n_delete|]. intro2 x. destruct x.2; [|by constructor]. eapply psim_bind; [by apply ps_alloc_|]. intro2 l. by constructor. }
  eapply psim_bind; [apply ps_n_exact|]. intro2 e. cbn [fst snd]. destruct e.2; [|by constructor].
  eapply psim_bind; [apply ps_as_sub|]. intro2 s. eapply psim_bind; [apply ps_n_delete|]. intro2 x. destruct x.2; [|by constructor].
  eapply (psim_bind same).
  { destruct x.1; [by apply ps_n_insert|]. eapply psim_bind; [apply ps_n_delete|]. intro2 y. by constructor. }
  intro2 r64. eapply psim_bind; [by apply ps_alloc_|]. intro2 l. by constructor.
Qed.
Definition erp (x : pair_ (U := U')) : pair_ (U := U) := (x.1, erv x.2).
Definition pairs (l' : list (pair_ (U := U'))) (l : list (pair_ (U := U))) : Prop := l = map erp l'.
Lemma ps_enum6 n : psim pairs (enum6 n) (enum6 (ern n)).
Proof using Hf.
  unfold enum6. cbn [nn_val ern]. destruct (nn_val n) as [|u|s|s] eqn:E; cbn [erv].
  - constructor. unfold pairs, pair6, erp. cbn [nn_val ern map fst snd]. by rewrite E.
  - specialize (Hf u). destruct (f u) eqn:E2; try done; constructor; unfold pairs, pair6, erp; cbn [nn_val ern map fst snd]; by rewrite E.
  - eapply psim_bind; [apply ps_n_enumerate|]. intros xs' xs Hx. constructor. unfold pairs. induction Hx as [|x' x xs' xs -> Hx IH]; cbn [map]; [done|]. by f_equal.
  - constructor. unfold pairs, pair6, erp. cbn [nn_val ern map fst snd]. by rewrite E.
Qed.
Lemma ps_enumerate t : psim pairs (ip_enumerate t) (ip_enumerate t).
Proof using Hf.
  destruct t as [a|]; cbn [ip_enumerate]; [|by constructor]. eapply psim_bind; [apply ps_ld_ip|]. intro2 r.
  eapply psim_bind; [apply ps_n_enumerate|]. intros xs' xs Hx. eapply psim_bind; [apply ps_n_enumerate|]. intros ys' ys Hy.
  eapply (psim_bind (fun z' z => z = map (map erp) z')).
  - induction Hy as [|y' y ys' ys -> Hy IH]; cbn [mapM]; [by constructor|]. eapply psim_bind; [apply ps_enum6|]. intro2 z. eapply psim_bind; [apply IH|]. intro2 zs. by constructor.
  - intro2 z'. constructor. unfold pairs. rewrite map_app, concat_map. f_equal.
    induction Hx as [|x' x xs' xs -> Hx IH]; cbn [map]; [done|]. by f_equal.
Qed.
(** ** Histories. *)
Definition op_sim (o' : iop ikey (value U')) (o : iop ikey (value U)) : Prop :=
  match o', o with
  | IBuild l', IBuild l => Forall2 (fun x' x => x = (x'.1, erv x'.2)) l' l
  | IInsert i' k' v', IInsert i k v => i' = i /\ k' = k /\ v = erv v'
  | IDelete i' k', IDelete i k => i' = i /\ k' = k
  | IGet i' k', IGet i k => i' = i /\ k' = k
  | IEnumerate i', IEnumerate i => i' = i
  | _, _ => False
  end.
Definition out_sim (x' : iout (value U')) (x : iout (value U)) : Prop :=
  match x', x with
  | IONone, IONone => True
  | IOBool b', IOBool b => b' = b
  | IOVal r', IOVal r => r = erv <$> r'
  | IOList e', IOList e => pairs e' e
  | _, _ => False
  end.
Lemma ps_fill t l' l : Forall2 (fun x' x => x = (x'.1, erv x'.2)) l' l -> psim same (ip_fill t l') (ip_fill t l).
Proof using Hf.
  induction 1 as [|[k v] ? l' l -> H IH]; cbn [ip_fill fst snd]; [by constructor|]. eapply psim_bind; [rewrite !inplace_key_eq; by apply ps_inplace_net|]. intros _ _ _. exact IH.
Qed.
Lemma ps_exec vs o' o : op_sim o' o -> psim (fun r' r => r'.1 = r.1 /\ out_sim r'.2 r.2) (ip_exec vs o') (ip_exec vs o).
Proof using Hf.
  destruct o' as [l'|i' k' v'|i' k'|i' k'|i'], o as [l|i k v|i k|i k|i]; cbn [op_sim ip_exec]; try done.
  - intros H. eapply psim_bind; [unfold ip_new; eapply psim_bind; [by apply ps_alloc_|intro2 x; by apply (ps_ret same)]|]. intro2 n. eapply psim_bind; [by apply ps_fill|]. intros _ _ _. by constructor.
  - intros (-> & -> & ->). rewrite !insert_key_eq. eapply psim_bind; [by apply ps_insert_net|]. intro2 n. by constructor.
  - intros (-> & ->). rewrite !delete_key_eq. eapply psim_bind; [apply ps_delete_net|]. intro2 n. by constructor.
  - intros (-> & ->). rewrite !get_key_eq. eapply psim_bind; [apply ps_get_net|]. intro2 vb; destruct vb as [v b]. constructor. split; [done|]. unfold ival. cbn [fst snd out_sim]. by destruct b.
  - intros ->. eapply psim_bind; [apply ps_enumerate|]. intros e ? He. constructor. by split.
Qed.
Lemma ps_hist ops' ops : Forall2 op_sim ops' ops -> forall vs, psim (fun r' r => r'.1 = r.1 /\ Forall2 out_sim r'.2 r.2) (run_hist ip_exec ops' vs) (run_hist ip_exec ops vs).
Proof using Hf.
  induction 1 as [|o' o ops' ops Ho H IH]; intros vs; cbn [run_hist]; [apply ps_ret; split; [done|constructor]|]. eapply psim_bind; [by apply ps_exec|]. intros [vs1 x'] [vs2 x] [E Hx]. cbn [fst snd] in *. subst vs2.
  eapply psim_bind; [apply IH|]. intros [ws1 y'] [ws2 y] [E2 Hy]. cbn [fst snd] in *. subst. constructor. split; [done|]. by constructor.
Qed.
Lemma ps_get_key t k : psim got (ip_get_key t k) (ip_get_key t k).
Proof using Hf. rewrite !get_key_eq. apply ps_get_net. Qed.
(** ** UpdateDescendants. *)
Section upd.
Context {St : Type}.
Variable cb' : St -> pair_ (U := U') -> St * option (value U').
Variable cb : St -> pair_ (U := U) -> St * option (value U).
Hypothesis Hcb : forall s x, cb s (erp x) = ((cb' s x).1, erv <$> (cb' s x).2).
Lemma ps_upd_node mk' mk s l : (forall n, mk (ern n) = erp (mk' n)) -> psim same (upd_node (fun s x => Ret (cb' s x)) mk' s l) (upd_node (fun s x => Ret (cb s x)) mk s l).
Proof using Hcb.
  intros Hmk. unfold upd_node. eapply psim_bind; [apply ps_ld_num|]. intro2 n. cbn [bind]. rewrite Hmk, Hcb. destruct (cb' s (mk' n)) as [s1 [v|]]; cbn [fst snd fmap option_fmap option_map]; [|by constructor].
  eapply psim_bind; [by apply (ps_st_num _ (NumN (nn_key n) (nn_bits n) (nn_leaf n) v (nn_c0 n) (nn_c1 n)))|]. intros _ _ _. by constructor.
Qed.
Lemma ps_upd_list mk' mk : (forall n, mk (ern n) = erp (mk' n)) -> forall ls s, psim same (upd_list (fun s x => Ret (cb' s x)) mk' s ls) (upd_list (fun s x => Ret (cb s x)) mk s ls).
Proof using Hcb. intros Hmk. induction ls as [|l ls IH]; intros s; cbn [upd_list]; [by constructor|]. eapply psim_bind; [by apply ps_upd_node|]. intro2 s1. apply IH. Qed.
Lemma sents_fst xs' xs : sents xs' xs -> map fst xs = map fst xs'.
Proof. induction 1 as [|x' x xs' xs -> H IH]; cbn [map fst]; [done|]. by f_equal. Qed.
Lemma ps_below c t : psim same (below c t) (below c t).
Proof. unfold below. eapply psim_bind; [apply ps_n_enumerate|]. intros xs' xs Hx. eapply psim_bind; [apply ps_ld_num|]. intro2 n. constructor. cbn [nn_leaf ern]. unfold same. symmetry. destruct (nn_leaf n); apply sents_fst; [|done]. destruct Hx as [|? ? ? ? ? Hx]; [constructor|exact Hx]. Qed.
Lemma ps_upd_top ls : forall s, psim same (upd_top (fun s x => Ret (cb' s x)) s ls) (upd_top (fun s x => Ret (cb s x)) s ls).
Proof using Hcb Hf.
  induction ls as [|l ls IH]; intros s; cbn [upd_top]; [by constructor|]. eapply psim_bind; [apply ps_ld_num|]. intro2 n. cbn [nn_val ern].
  assert (Hn : psim same (upd_node (fun s x => Ret (cb' s x)) pair6 s l) (upd_node (fun s x => Ret (cb s x)) pair6 s l)) by (by apply ps_upd_node).
  eapply (psim_bind same); [|intro2 s1; apply IH]. destruct (nn_val n) as [|u|p|p]; cbn [erv]; try exact Hn.
  - specialize (Hf u). by destruct (f u).
  - eapply psim_bind; [apply ps_n_enumerate|]. intros xs' xs Hx. rewrite (sents_fst _ _ Hx). by apply ps_upd_list.
Qed.
Lemma ps_update t n s : psim same (ip_update cb' t n s) (ip_update cb t n s).
Proof using Hcb Hf.
  unfold ip_update. destruct n as [n|]; cbn [ip_update_by]; [|by constructor]. destruct (ip4_key n) as [[k b]|].
  { eapply psim_bind; [apply ps_ld_ip|]. intro2 r. eapply psim_bind; [apply ps_n_find|]. intro2 tg. destruct tg; [|by constructor]. eapply psim_bind; [apply ps_below|]. intro2 ls. by apply ps_upd_list. }
  destruct (ip6_key n) as [[[[hk hb] lk] lb]|]; [|by constructor].
  eapply psim_bind; [apply ps_ld_ip|]. intro2 r. eapply psim_bind; [apply ps_n_find|]. intro2 tg. destruct tg as [tl|]; [|by constructor].
  eapply psim_bind; [apply ps_ld_num|]. intro2 tn. cbn [nn_val ern].
  assert (Ht : psim same (ls <- below c64 (Some tl) ;; upd_top (fun s x => Ret (cb' s x)) s ls) (ls <- below c64 (Some tl) ;; upd_top (fun s x => Ret (cb s x)) s ls)).
  { eapply psim_bind; [apply ps_below|]. intro2 ls. apply ps_upd_top. }
  destruct (nn_val tn) as [|u|p|p]; cbn [erv]; try exact Ht.
  - specialize (Hf u). by destruct (f u).
  - eapply psim_bind; [apply ps_ld_num|]. intro2 pn. cbn [nn_key nn_bits ern]. eapply (psim_bind same); [destruct (_ && _); [by constructor|apply ps_n_find]|]. intro2 tg. destruct tg; [|by constructor].
    eapply psim_bind; [apply ps_below|]. intro2 ls. by apply ps_upd_list.
Qed.
End upd.
End opaque.
