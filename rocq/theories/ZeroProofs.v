(** * Proofs for Properties_zero.v. *)
From Verif Require Import Prog History RbModel StrSpec StrAbs NumFoot Handle RbHandle ZeroSpec.
Open Scope nat_scope.

Section pf.
Context {U : Type}.
Local Notation heap := (heap U).
Local Notation value := (value U).
Implicit Types h : heap.
Variable fuel : nat.
Hypothesis Hfuel : 1 <= fuel.

Definition z_at h (p : ptr) (s : option (bytes * value)) : Prop :=
  exists a, p = Some a /\ match s with
  | None => h !! a = Some (CStr None None)
  | Some (k, v) => exists b, h !! a = Some (CStr (Some b) None) /\ h !! b = Some (CRb (RbN k v None None false))
  end.
Definition z_ok (o : hop (sop value) (bytes * value)) : Prop := hop_ok on_handle (fun _ => True) o.

Lemma z_new h a b k v : h !! b = Some (CRb (RbN k v None None false)) -> h !! a = Some (CStr (Some b) None) -> z_at h (Some a) (Some (k, v)).
Proof. intros. exists a. split; [done|]. by exists b. Qed.
Lemma z_call h p s o : z_at h p s -> z_ok o -> ~ z_panics s o ->
  wp (h_exec (str_exec fuel) (str_inplace fuel) p o) h (dom h) (fun r h' _ => r.2 = z_answer s o /\ z_at h' r.1 (z_step s o)).
Proof using Hfuel.
  intros (a & -> & Hs) Ho Hp. destruct fuel as [|f] eqn:Ef; [lia|]. clear Ef Hfuel.
  destruct o as [[cmp items|i k v|i k|i k|i|i]|[k v]]; cbn [hop_ok on_handle z_ok] in Ho; try subst i; try done.
  all: destruct s as [[k0 v0]|]; try (exfalso; apply Hp; by split); clear Hp.
  all: cbn [h_exec str_exec nth z_answer z_step].
  - (* Insert *) unfold str_insert. apply wp_bind, wp_bind, wp_bind, wp_bind. eapply wp_ld_str; [exact Hs|]. cbn [fst snd insert].
    apply wp_bind, wp_bind, wp_alloc. intros b Hb. cbn [wp]. apply wp_bind, wp_alloc. intros c Hc. cbn [wp fst snd List.last app].
    split; [done|]. apply z_new with (b := b); [rewrite lookup_insert_ne, lookup_insert; [done|]|by rewrite lookup_insert]. intros ->. by rewrite lookup_insert in Hc.
  - (* Delete *) unfold str_delete. apply wp_bind, wp_bind, wp_bind. eapply wp_ld_str; [exact Hs|]. cbn [fst snd]. unfold del.
    apply wp_bind, wp_bind, wp_alloc. intros b Hb. apply wp_bind. cbn [del_loop]. apply wp_bind. eapply wp_ld_rb; [by rewrite lookup_insert|]. cbn [rchld rb_r rb_l wp].
    apply wp_bind. cbn [wp]. apply wp_bind. eapply wp_ld_rb; [by rewrite lookup_insert|]. cbn [rb_r bind wp]. apply wp_bind, wp_alloc. intros c Hc. cbn [wp fst snd List.last app].
    split; [done|]. exists c. split; [done|]. by rewrite lookup_insert.
  - (* Get *) unfold str_get. apply wp_bind, wp_bind, wp_bind. eapply wp_ld_str; [exact Hs|]. cbn [get fst snd wp List.last opt_val]. split; [done|]. by exists a.
  - (* Enumerate *) destruct Hs as (b & Ha & Hb). unfold str_enumerate. apply wp_bind, wp_bind, wp_bind. eapply wp_ld_str; [exact Ha|]. cbn [fst snd enumerate].
    apply wp_bind. eapply wp_ld_rb; [exact Hb|]. cbn [rb_l rb_r rb_key rb_val]. destruct f; cbn [enumerate bind wp fst snd List.last]; (split; [done|]; exists a; split; [done|]; by exists b).
  - unfold str_enumerate. apply wp_bind, wp_bind, wp_bind. eapply wp_ld_str; [exact Hs|]. cbn [fst snd enumerate wp List.last]. split; [done|]. by exists a.
  - (* IsEmpty *) destruct Hs as (b & Ha & Hb). unfold str_is_empty. apply wp_bind, wp_bind, wp_bind. eapply wp_ld_str; [exact Ha|]. cbn [fst snd wp List.last]. split; [done|]. exists a. split; [done|]. by exists b.
  - unfold str_is_empty. apply wp_bind, wp_bind, wp_bind. eapply wp_ld_str; [exact Hs|]. cbn [fst snd wp List.last]. split; [done|]. by exists a.
  - (* InplaceInsert *) unfold str_inplace, str_inplace_insert. apply wp_bind, wp_bind, wp_bind. eapply wp_ld_str; [exact Hs|]. cbn [fst snd inplace_insert].
    apply wp_bind, wp_bind, wp_alloc. intros b Hb. assert (a <> b) by congruence. cbn [wp store bind fst snd]. split; [by apply elem_of_union_r, elem_of_dom; eexists|]. split; [by rewrite lookup_insert_ne; eauto|].     split; [done|]. apply z_new with (b := b); [rewrite lookup_insert_ne, lookup_insert; done|by rewrite lookup_insert].
Qed.

Ltac fresh_tac l Hl := repeat match type of Hl with
  | <[?r := _]> _ !! l = None => assert (l <> r) by (intros ->; by rewrite lookup_insert in Hl); rewrite lookup_insert_ne in Hl by done
  end; repeat match goal with H : _ !! ?a = Some _ |- _ => lazymatch goal with _ : l <> a |- _ => fail | _ => assert (l <> a) by (intros ->; congruence) end end.
(** The calls on a tree with a key: run them up to the comparison. *)
Ltac look := repeat first [rewrite lookup_insert | rewrite lookup_insert_ne by congruence]; first [reflexivity | eassumption].
Ltac fgo := repeat first
  [ progress cbn [fails bind ld_str load alloc ld_rb st_rb store fst snd insert insert_loop inplace_insert inplace_loop get del del_loop rchld with_rchld rb_l rb_r rb_red rb_key rb_val
      set_rchld full_copy both_red fix_violation call_cmp andb Z.eqb Z.ltb Z.compare]
  | progress unfold full_copy, both_red, fix_violation, set_rchld, call_cmp, del, insert, inplace_insert, ld_rb, st_rb
  | match goal with
    | |- exists c, _ !! _ = Some c /\ _ => eexists; split; [look|]
    | |- is_Some _ /\ _ => split; [eexists; look|]
    | |- forall l, _ !! l = None -> _ => let l := fresh "l" in let Hl := fresh "Hl" in intros l Hl; fresh_tac l Hl
    | |- context [ptr_eqb ?x None] => change (ptr_eqb x None) with false
    end ].
(** The calls on a tree with a key. *)
Lemma z_fail h p s o : z_at h p s -> z_ok o -> z_panics s o -> fails (h_exec (str_exec fuel) (str_inplace fuel) p o) h ENil.
Proof using Hfuel.
  intros (a & -> & Hs) Ho [Hne Hp]. destruct fuel as [|f] eqn:Ef; [lia|]. clear Ef Hfuel.
  destruct s as [[k0 v0]|]; [|done]. destruct Hs as (b & Ha & Hb). clear Hne.
  destruct o as [[cmp items|i k v|i k|i k|i|i]|[k v]]; cbn [hop_ok on_handle z_ok] in Ho; try (subst i); try done.
  all: cbn [h_exec str_exec nth]; apply fails_bind_l; try apply fails_bind_l.
  all: unfold str_insert, str_inplace, str_inplace_insert, str_get, str_delete; fgo; done.
Qed.

Lemma z_run ops : Forall z_ok ops -> forall h p s, z_at h p s ->
  (~ z_stuck s ops -> wp (run_handle (str_exec fuel) (str_inplace fuel) ops p) h (dom h) (fun r _ _ => r.2 = z_answers s ops)) /\
  (z_stuck s ops -> fails (run_handle (str_exec fuel) (str_inplace fuel) ops p) h ENil).
Proof using Hfuel.
  induction 1 as [|o ops Ho Hops IH]; intros h p s Hs; [by split|]. cbn [run_handle z_stuck z_answers]. split.
  - intros Hns. assert (Hp : ~ z_panics s o) by tauto. assert (Hns1 : ~ z_stuck (z_step s o) ops) by tauto.
    apply wp_bind. eapply wp_mono; [eapply wp_frame, wp_new, (z_call h p s o Hs Ho Hp)|]. cbn beta.
    intros r h1 W1 [[(Ha & Hs1) Hnew] [_ (HW & _)]]. apply wp_bind.
    eapply wp_mono; [eapply (wp_weaken_W _ _ (dom h1)); [exact (proj1 (IH h1 r.1 _ Hs1) Hns1)|]|].
    { intros x Hx. destruct (Hnew _ Hx); [by apply HW|done]. }
    cbn beta. intros x h2 W2 (W3 & Hx & _). cbn [wp fst snd]. by rewrite Ha, Hx.
  - intros [Hp|[Hp Hst]].
    + apply fails_bind_l. by eapply z_fail.
    + eapply fails_bind_r; [exact (z_call h p s o Hs Ho Hp)|]. cbn beta. intros r h1 W1 (Ha & Hs1). apply fails_bind_l. exact (proj2 (IH h1 r.1 _ Hs1) Hst).
Qed.
Lemma z_client h ops : Forall z_ok ops ->
  (~ z_stuck None ops -> wp (p <- str_new_custom None ;; run_handle (str_exec fuel) (str_inplace fuel) ops p) h ∅ (fun r h' _ => h ⊆ h' /\ r.2 = z_answers None ops)) /\
  (z_stuck None ops -> fails (p <- str_new_custom None ;; run_handle (str_exec fuel) (str_inplace fuel) ops p) h ENil).
Proof using Hfuel.
  intros Hops. split; intros Hst.
  - apply wp_cow0. eapply wp_mono; [eapply (wp_local _ ∅ h ∅ (fun r h' _ => r.2 = z_answers None ops)); [|apply map_empty_subseteq]|].
    + unfold str_new_custom. apply wp_bind, wp_bind, wp_alloc. intros a Ha. cbn [wp].
      eapply wp_mono; [eapply wp_weaken_W; [eapply (proj1 (z_run ops Hops _ (Some a) None ltac:(exists a; by rewrite lookup_insert)) Hst)|]|].
      * rewrite dom_insert_L. clear; set_solver.
      * cbn beta. intros r h' W' (W2 & Hx & _). done.
    + cbn beta. intros r h' W' (h0 & Hx & _). done.
  - unfold str_new_custom. cbn [bind fails alloc]. intros a Ha. apply (proj2 (z_run ops Hops _ (Some a) None ltac:(exists a; by rewrite lookup_insert)) Hst).
Qed.
End pf.
