(** * Cost of the red-black tree operations. *)
From Verif Require Import Prog CostSpec Cost RbModel.

Section rb.
Context {U : Type}.
Local Notation value := (value U).
Lemma cost_set_rchld n d p : cost (set_rchld (U := U) n d p) 2 0.
Proof. unfold set_rchld. c_go. apply cost_st_rb. Qed.
Lemma cost_set_red n b : cost (set_red (U := U) n b) 2 0.
Proof. unfold set_red. c_go. apply cost_st_rb. Qed.
Lemma cost_set_val n (v : value) : cost (set_val n v) 2 0.
Proof. unfold set_val. c_go. apply cost_st_rb. Qed.
Lemma cost_set_key n k : cost (set_key (U := U) n k) 2 0.
Proof. unfold set_key. c_go. apply cost_st_rb. Qed.
Lemma cost_is_red n : cost (is_red (U := U) n) 1 0.
Proof. unfold is_red. c_go. Qed.
Lemma cost_full_copy n : cost (full_copy (U := U) n) 2 1.
Proof. unfold full_copy. c_go. Qed.
Lemma cost_color_copy n b : cost (color_copy (U := U) n b) 2 1.
Proof. unfold color_copy. c_go. Qed.
Lemma cost_call_cmp f a b : cost (call_cmp (U := U) f a b) 0 0.
Proof. by destruct f. Qed.
Hint Resolve cost_set_rchld cost_set_red cost_set_val cost_set_key cost_is_red cost_full_copy cost_color_copy cost_call_cmp : cost.
Lemma cost_single n d : cost (single (U := U) n d) 10 0.
Proof. unfold single. c_go. Qed.
Hint Resolve cost_single : cost.
Lemma cost_double n d : cost (double (U := U) n d) 23 0.
Proof. unfold double. c_go. apply cost_single. Qed.
Hint Resolve cost_double : cost.
Lemma cost_both_red n : cost (both_red (U := U) n) 2 0.
Proof. unfold both_red. c_go. Qed.
Hint Resolve cost_both_red : cost.
Lemma cost_fix_violation gp g p n d : cost (fix_violation (U := U) gp g p n d) 29 0.
Proof. unfold fix_violation. c_go. Qed.
Hint Resolve cost_fix_violation : cost.
Lemma cost_insert_loop cmp key fuel : forall gp g p n c0 c1 dir r, cost (insert_loop (U := U) cmp fuel key gp g p n c0 c1 dir r) (fuel * 48) (fuel * 3).
Proof.
  induction fuel as [|fuel IH]; intros; cbn [insert_loop Nat.mul Nat.add]; [by destruct (r =? 0)%Z|].
  destruct (r =? 0)%Z; [done|]. c_go; (eapply cost_mono; [apply IH|lia|lia]).
Qed.
Lemma cost_inplace_loop cmp key fuel : forall gp g p n dir r, cost (inplace_loop (U := U) cmp fuel key gp g p n dir r) (fuel * 40) (fuel * 1).
Proof.
  induction fuel as [|fuel IH]; intros; cbn [inplace_loop Nat.mul Nat.add]; [by destruct (r =? 0)%Z|].
  destruct (r =? 0)%Z; [done|]. c_go; (eapply cost_mono; [apply IH|lia|lia]).
Qed.
Lemma cost_insert cmp fuel n key v : cost (insert (U := U) cmp fuel n key v) (fuel * 48 + 6) (fuel * 3 + 1).
Proof.
  unfold insert. destruct n; [|rewrite !(Nat.add_comm (fuel * _)); cbn [Nat.add]; c_go].
  eapply cost_step; [apply cost_alloc|lia|lia|]. intros. eapply cost_step; [apply cost_insert_loop|lia|lia|]. intros.
  eapply cost_mono with (s := 5) (a := 0); [c_go|lia|lia].
Qed.
Lemma cost_inplace_insert cmp fuel n key v : cost (inplace_insert (U := U) cmp fuel n key v) (fuel * 40 + 6) (fuel + 1).
Proof.
  unfold inplace_insert. destruct n; [|rewrite !(Nat.add_comm (fuel * _)), (Nat.add_comm fuel); cbn [Nat.add]; c_go].
  eapply cost_step; [apply cost_alloc|lia|lia|]. intros. eapply cost_step; [apply cost_inplace_loop|lia|lia|]. intros.
  eapply cost_mono with (s := 5) (a := 0); [c_go|lia|lia].
Qed.
Lemma cost_get cmp key fuel : forall n, cost (get (U := U) cmp fuel n key) fuel 0.
Proof.
  induction fuel as [|fuel IH]; intros [l|]; cbn [get]; try done. c_go. apply IH.
Qed.
Lemma cost_del_fix g p n d d' : cost (del_fix (U := U) g p n d d') 52 2.
Proof. unfold del_fix. c_go. Qed.
Hint Resolve cost_del_fix : cost.
Lemma cost_del_loop cmp key fuel : forall g p n t dir, cost (del_loop (U := U) cmp fuel key g p n t dir) (fuel * 58 + 1) (fuel * 3).
Proof.
  induction fuel as [|fuel IH]; intros; cbn [del_loop].
  - c_go.
  - rewrite (Nat.add_comm _ 1). cbn [Nat.mul Nat.add]. c_go; (eapply cost_mono; [apply IH|lia|lia]).
Qed.
Lemma cost_del cmp fuel n key : cost (del (U := U) cmp fuel n key) (fuel * 58 + 14) (fuel * 3 + 1).
Proof.
  unfold del. eapply cost_step; [apply cost_alloc|lia|lia|]. intros. eapply cost_step; [apply cost_del_loop|lia|lia|]. intros.
  eapply cost_mono with (s := 12) (a := 0); [c_go|lia|lia].
Qed.

(** More fuel changes nothing. *)
Lemma approx_insert_loop cmp key f f' : f <= f' -> forall gp g p n c0 c1 dir r, approx (insert_loop (U := U) cmp f key gp g p n c0 c1 dir r) (insert_loop cmp f' key gp g p n c0 c1 dir r).
Proof.
  revert f'. induction f as [|f IH]; intros [|f'] Hf gp g p n c0 c1 dir r; try lia; cbn [insert_loop]; try apply approx_refl.
  - destruct (r =? 0)%Z; [apply approx_refl|apply ap_fuel].
  - assert (IH' := IH f' ltac:(lia)). clear IH. ap_go.
Qed.
Lemma approx_inplace_loop cmp key f f' : f <= f' -> forall gp g p n dir r, approx (inplace_loop (U := U) cmp f key gp g p n dir r) (inplace_loop cmp f' key gp g p n dir r).
Proof.
  revert f'. induction f as [|f IH]; intros [|f'] Hf gp g p n dir r; try lia; cbn [inplace_loop]; try apply approx_refl.
  - destruct (r =? 0)%Z; [apply approx_refl|apply ap_fuel].
  - assert (IH' := IH f' ltac:(lia)). clear IH. ap_go.
Qed.
Lemma approx_get cmp key f f' : f <= f' -> forall n, approx (get (U := U) cmp f n key) (get cmp f' n key).
Proof.
  revert f'. induction f as [|f IH]; intros [|f'] Hf [l|]; try lia; cbn [get]; try apply approx_refl; try apply ap_fuel.
  assert (IH' := IH f' ltac:(lia)). clear IH. ap_go.
Qed.
Lemma approx_del_loop cmp key f f' : f <= f' -> forall g p n t dir, approx (del_loop (U := U) cmp f key g p n t dir) (del_loop cmp f' key g p n t dir).
Proof.
  revert f'. induction f as [|f IH]; intros [|f'] Hf g p n t dir; try lia; cbn [del_loop]; try apply approx_refl.
  - ap_go.
  - assert (IH' := IH f' ltac:(lia)). clear IH. ap_go.
Qed.
Lemma approx_insert cmp f f' n key v : f <= f' -> approx (insert (U := U) cmp f n key v) (insert cmp f' n key v).
Proof. intros Hf. pose proof (approx_insert_loop cmp key f f' Hf). unfold insert. ap_go. Qed.
Lemma approx_inplace_insert cmp f f' n key v : f <= f' -> approx (inplace_insert (U := U) cmp f n key v) (inplace_insert cmp f' n key v).
Proof. intros Hf. pose proof (approx_inplace_loop cmp key f f' Hf). unfold inplace_insert. ap_go. Qed.
Lemma approx_del cmp f f' n key : f <= f' -> approx (del (U := U) cmp f n key) (del cmp f' n key).
Proof. intros Hf. pose proof (approx_del_loop cmp key f f' Hf). unfold del. ap_go. Qed.

(** ** strtree and dltree. *)
Lemma cost_str_insert f t k v : cost (str_insert (U := U) f t k v) (f * 48 + 8) (f * 3 + 2).
Proof.
  unfold str_insert. eapply cost_step with (s1 := 1) (a1 := 0); [destruct t; [apply cost_ld_str|done]|lia|lia|]. intros.
  eapply cost_step; [apply cost_insert|lia|lia|]. intros. eapply cost_mono with (s := 1) (a := 1); [c_go|lia|lia].
Qed.
Lemma cost_str_delete f t k : cost (str_delete (U := U) f t k) (f * 58 + 16) (f * 3 + 2).
Proof.
  unfold str_delete. destruct t; [|done]. eapply cost_step; [apply cost_ld_str|lia|lia|]. intros.
  eapply cost_step; [apply cost_del|lia|lia|]. intros. eapply cost_mono with (s := 1) (a := 1); [c_go|lia|lia].
Qed.
Lemma cost_str_get f t k : cost (str_get (U := U) f t k) (f + 1) 0.
Proof.
  unfold str_get. destruct t; [|done]. eapply cost_step; [apply cost_ld_str|lia|lia|]. intros. eapply cost_mono; [apply cost_get|lia|lia].
Qed.
Lemma cost_str_inplace f t k v : cost (str_inplace_insert (U := U) f t k v) (f * 40 + 8) (f + 1).
Proof.
  unfold str_inplace_insert. eapply cost_step; [apply cost_ld_str|lia|lia|]. intros.
  eapply cost_step; [apply cost_inplace_insert|lia|lia|]. intros. eapply cost_mono; [apply cost_store|lia|lia].
Qed.
Lemma approx_str_insert f f' t k v : f <= f' -> approx (str_insert (U := U) f t k v) (str_insert f' t k v).
Proof. intros Hf. unfold str_insert. apply approx_bind; [apply approx_refl|]. intros nc. pose proof (approx_insert nc.2 f f' nc.1 k v Hf). ap_go. Qed.
Lemma approx_str_delete f f' t k : f <= f' -> approx (str_delete (U := U) f t k) (str_delete f' t k).
Proof. intros Hf. unfold str_delete. destruct t; [|apply approx_refl]. apply approx_bind; [apply approx_refl|]. intros nc. pose proof (approx_del nc.2 f f' nc.1 k Hf). ap_go. Qed.
Lemma approx_str_get f f' t k : f <= f' -> approx (str_get (U := U) f t k) (str_get f' t k).
Proof. intros Hf. unfold str_get. destruct t; [|apply approx_refl]. apply approx_bind; [apply approx_refl|]. intros nc. by apply approx_get. Qed.
Lemma approx_str_inplace f f' t k v : f <= f' -> approx (str_inplace_insert (U := U) f t k v) (str_inplace_insert f' t k v).
Proof. intros Hf. unfold str_inplace_insert. apply approx_bind; [apply approx_refl|]. intros nc. pose proof (approx_inplace_insert nc.2 f f' nc.1 k v Hf). ap_go. Qed.
Lemma cost_dl_insert f t k v : cost (dl_raw_insert (U := U) f t k v) (f * 48 + 8) (f * 3 + 2).
Proof.
  unfold dl_raw_insert. eapply cost_step with (s1 := 1) (a1 := 0); [destruct t; [apply cost_ld_dl|done]|lia|lia|]. intros.
  eapply cost_step; [apply cost_insert|lia|lia|]. intros. eapply cost_mono with (s := 1) (a := 1); [c_go|lia|lia].
Qed.
Lemma cost_dl_delete f t k : cost (dl_raw_delete (U := U) f t k) (f * 58 + 16) (f * 3 + 2).
Proof.
  unfold dl_raw_delete. destruct t; [|done]. eapply cost_step; [apply cost_ld_dl|lia|lia|]. intros.
  eapply cost_step; [apply cost_del|lia|lia|]. intros. eapply cost_mono with (s := 1) (a := 1); [c_go|lia|lia].
Qed.
Lemma cost_dl_get f t k : cost (dl_raw_get (U := U) f t k) (f + 1) 0.
Proof.
  unfold dl_raw_get. destruct t; [|done]. eapply cost_step; [apply cost_ld_dl|lia|lia|]. intros. eapply cost_mono; [apply cost_get|lia|lia].
Qed.
Lemma cost_dl_inplace f t k v : cost (dl_raw_inplace_insert (U := U) f t k v) (f * 40 + 8) (f + 1).
Proof.
  unfold dl_raw_inplace_insert. eapply cost_step; [apply cost_ld_dl|lia|lia|]. intros.
  eapply cost_step; [apply cost_inplace_insert|lia|lia|]. intros. eapply cost_mono; [apply cost_store|lia|lia].
Qed.
Lemma approx_dl_insert f f' t k v : f <= f' -> approx (dl_raw_insert (U := U) f t k v) (dl_raw_insert f' t k v).
Proof. intros Hf. unfold dl_raw_insert. apply approx_bind; [apply approx_refl|]. intros nc. pose proof (approx_insert dlc f f' nc k v Hf). ap_go. Qed.
Lemma approx_dl_delete f f' t k : f <= f' -> approx (dl_raw_delete (U := U) f t k) (dl_raw_delete f' t k).
Proof. intros Hf. unfold dl_raw_delete. destruct t; [|apply approx_refl]. apply approx_bind; [apply approx_refl|]. intros nc. pose proof (approx_del dlc f f' nc k Hf). ap_go. Qed.
Lemma approx_dl_get f f' t k : f <= f' -> approx (dl_raw_get (U := U) f t k) (dl_raw_get f' t k).
Proof. intros Hf. unfold dl_raw_get. destruct t; [|apply approx_refl]. apply approx_bind; [apply approx_refl|]. intros nc. by apply approx_get. Qed.
Lemma approx_dl_inplace f f' t k v : f <= f' -> approx (dl_raw_inplace_insert (U := U) f t k v) (dl_raw_inplace_insert f' t k v).
Proof. intros Hf. unfold dl_raw_inplace_insert. apply approx_bind; [apply approx_refl|]. intros nc. pose proof (approx_inplace_insert dlc f f' nc k v Hf). ap_go. Qed.
End rb.
