(** * Cost of the radix tree operations. *)
From Verif Require Import Prog CostSpec Cost NumModel IpModel UxModel.
Open Scope nat_scope.

Section num.
Context {U : Type}.
Local Notation value := (value U).
Lemma cost_mask c b : cost (mask (U := U) c b) 0 0.
Proof. unfold mask. c_go. Qed.
Hint Resolve cost_mask : cost.
Lemma cost_set_chld p b x : cost (set_chld (U := U) p b x) 2 0.
Proof. unfold set_chld. c_go. apply cost_st_num. Qed.
Lemma cost_new_node k b l v : cost (new_node (U := U) k b l v) 1 1.
Proof. unfold new_node. c_go. Qed.
Lemma cost_ncsb c k1 b1 k2 b2 : cost (ncsb (U := U) c k1 b1 k2 b2) 0 0.
Proof. unfold ncsb. c_go. Qed.
Hint Resolve cost_set_chld cost_new_node cost_ncsb : cost.
Lemma cost_same c k1 k2 b : cost (same_masked (U := U) c k1 k2 b) 0 0.
Proof. unfold same_masked. c_go. Qed.
Hint Resolve cost_same : cost.
Lemma cost_leaf_same c nn k : cost (leaf_and_same (U := U) c nn k) 0 0.
Proof. unfold leaf_and_same. c_go. apply cost_same. Qed.
Hint Resolve cost_leaf_same : cost.

Lemma cost_insert_ c f : forall n x, cost (insert_ (U := U) c f n x) (f * 8) (f * 1).
Proof.
  induction f as [|f IH]; intros n x; cbn [insert_ Nat.mul Nat.add]; [done|]. destruct n; [|done].
  do 3 (c_step). c_step; [c_go|]. c_step; [c_go|]. do 4 c_step.
  eapply cost_step; [apply IH|lia|lia|]. intros. eapply cost_mono with (s := 2) (a := 0); [c_go|lia|lia].
Qed.
Lemma cost_inplace_ c f k sb v : forall p b n r, cost (inplace_loop (U := U) c f k sb v p b n r) (f + 8) 2.
Proof.
  induction f as [|f IH]; intros p b n r; cbn [inplace_loop]; [done|]. destruct n; [|eapply cost_mono with (s := 3) (a := 2); [c_go|lia|lia]].
  cbn [Nat.add]. do 2 c_step. c_step; [|c_step; [c_go|eapply cost_mono; [apply IH|lia|lia]]].
  eapply cost_mono with (s := 8) (a := 2); [c_go|lia|lia].
Qed.
Lemma cost_match_ c f k b : forall n, cost (match_ (U := U) c f n k b) f 0.
Proof.
  induction f as [|f IH]; intros n; cbn [match_]; [done|].
  c_step. c_step; [done|]. c_step; [c_go|]. c_step. c_step; [done|].
  eapply cost_step with (s1 := f) (a1 := 0); [destruct (chld _ _); [apply IH|done]|lia|lia|]. intros. eapply cost_mono with (s := 0) (a := 0); [c_go|lia|lia].
Qed.
Lemma cost_exact_ c f k b : forall n, cost (exact_ (U := U) c f n k b) f 0.
Proof.
  induction f as [|f IH]; intros n; cbn [exact_]; [done|].
  c_step. c_step; [done|]. c_step; [c_go|]. c_step. c_step; [done|]. destruct (chld _ _); [|done].
  eapply cost_step with (s1 := f) (a1 := 0); [apply IH|lia|lia|]. intros. eapply cost_mono with (s := 0) (a := 0); [c_go|lia|lia].
Qed.
Lemma cost_del_ c f k b : forall n, cost (del_ (U := U) c f n k b) (f * 6) (f * 1).
Proof.
  induction f as [|f IH]; intros n; cbn [del_ Nat.mul Nat.add]; [done|].
  c_step. c_step; [c_go|]. c_step. c_step; [done|]. destruct (chld _ _); [|done].
  eapply cost_step; [apply IH|lia|lia|]. intros. eapply cost_mono with (s := 5) (a := 1); [c_go|lia|lia].
Qed.
Definition w (c : cfg) : nat := N.to_nat (cW c).
Lemma cost_n_insert c n k b v : cost (n_insert (U := U) c n k b v) (8 * w c + 17) (w c + 3).
Proof. unfold n_insert. eapply cost_step; [apply cost_new_node|lia|lia|]. intros. eapply cost_mono; [apply cost_insert_|unfold nfuel, w; lia..]. Qed.
Lemma cost_n_inplace c n k b v : cost (n_inplace_insert (U := U) c n k b v) (w c + 10) 2.
Proof. unfold n_inplace_insert. eapply cost_mono; [apply cost_inplace_|unfold nfuel, w; lia..]. Qed.
Lemma cost_n_match c n k b : cost (n_match (U := U) c n k b) (w c + 3) 0.
Proof.
  unfold n_match. destruct n; [|done]. eapply cost_step; [apply cost_match_|unfold nfuel, w; lia..|]. intros.
  eapply cost_mono with (s := 1) (a := 0); [c_go|unfold nfuel, w; lia..].
Qed.
Lemma cost_n_find c n k b : cost (n_find_node (U := U) c n k b) (w c + 2) 0.
Proof.
  unfold n_find_node. destruct n; [|done]. eapply cost_step; [apply cost_exact_|unfold nfuel, w; lia..|]. intros.
  eapply cost_mono with (s := 0) (a := 0); [c_go|unfold nfuel, w; lia..].
Qed.
Lemma cost_n_exact c n k b : cost (n_exact (U := U) c n k b) (w c + 3) 0.
Proof.
  unfold n_exact. eapply cost_step; [apply cost_n_find|lia..|]. intros. eapply cost_mono with (s := 1) (a := 0); [c_go|lia..].
Qed.
Lemma cost_n_delete c n k b : cost (n_delete (U := U) c n k b) (6 * w c + 12) (w c + 2).
Proof. unfold n_delete. destruct n; [|done]. eapply cost_mono; [apply cost_del_|unfold nfuel, w; lia..]. Qed.

(** ** iptree *)
Lemma cost_as_sub v : cost (as_sub (U := U) v) 0 0.
Proof. by destruct v. Qed.
Lemma cost_roots t : cost (ip_roots (U := U) t) 1 0.
Proof. destruct t; [apply cost_ld_ip|done]. Qed.
Ltac n_go := repeat match goal with
  | |- cost (Ret _) _ _ => exact I
  | |- cost (bind (Ret _) _) _ _ => apply cost_ret; cbn beta iota
  | |- cost (bind (bind _ _) _) _ _ => apply cost_assoc
  | |- cost (n_match c32 _ _ _) _ _ => eapply cost_mono; [apply cost_n_match|change (w c32) with 32; change (w c64) with 64; lia..]
  | |- cost (n_match c64 _ _ _) _ _ => eapply cost_mono; [apply cost_n_match|change (w c32) with 32; change (w c64) with 64; lia..]
  | |- cost (store _ _) _ _ => eapply cost_mono; [apply cost_store|lia..]
  | |- cost (bind _ _) _ _ => eapply cost_step; [first [apply cost_roots|apply cost_ld_ip|apply cost_alloc|apply cost_as_sub|apply cost_n_insert|apply cost_n_inplace|apply cost_n_match|apply cost_n_exact|apply cost_n_delete]|change (w c32) with 32; change (w c64) with 64; lia..|change (w c32) with 32; change (w c64) with 64; intros]
  | |- context [if ?b then _ else _] => destruct b
  | |- context [match ?x with _ => _ end] => destruct x
  end.
Lemma cost_ip_insert t n v : cost (ip_insert_net (U := U) t n v) 1383 167.
Proof. unfold ip_insert_net. n_go. Qed.
Lemma cost_ip_inplace t n v : cost (ip_inplace_insert_net (U := U) t n v) 249 4.
Proof. unfold ip_inplace_insert_net. n_go. Qed.
Lemma cost_ip_get t n : cost (ip_get_net (U := U) t n) 234 0.
Proof. unfold ip_get_net. n_go. Qed.
Lemma cost_ip_delete t n : cost (ip_delete_net (U := U) t n) 1186 166.
Proof. unfold ip_delete_net. n_go. Qed.
(** ** uintX iptrees *)
Lemma cost_ux_insert t n v : cost (ux_insert_net (U := U) t n v) 1383 167.
Proof. unfold ux_insert_net. n_go. Qed.
Lemma cost_ux_inplace t n v : cost (ux_inplace_insert_net (U := U) t n v) 249 4.
Proof. unfold ux_inplace_insert_net. n_go. Qed.
Lemma cost_ux_get t n : cost (ux_get_net (U := U) t n) 269 0.
Proof. unfold ux_get_net. n_go. Qed.
Lemma cost_ux_delete t n : cost (ux_delete_net (U := U) t n) 1186 166.
Proof. unfold ux_delete_net. n_go. Qed.
End num.
