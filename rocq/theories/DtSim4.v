(** * domaintree on memory: InplaceInsert on a tree that shares no node. *)
From Verif Require Import Prog History RbModel RbSpec RbFun RbFunIns RbFunDel RbSim RbSimIns RbSimOps RbSimDel2 RbAbs StrSpec StrAbs StrPropProofs.
From Verif Require Import DomModel DomSpec DomCodec DomNames DomPropProofs DlModel DlSpec DlAbs DlPropProofs DtModel DtSpec DtFun DtSim DtSim2.

Local Notation cmp := dl_compare.
Local Instance bytes_dec : EqDecision bytes := List.list_eq_dec Byte.byte_eq_dec.
Lemma a_insert_same {A} (l : list (bytes * A)) k x : ordered cmp l -> a_get cmp l k = Some x -> a_insert cmp l k x = l.
Proof.
  intros Ho Hg. unfold a_insert. pose proof (ag_in _ _ _ Hg) as Hin.
  assert (existsb (fun y => same_key cmp k y.1) l = true) as ->.
  { apply existsb_exists. exists (k, x). split; [by apply elem_of_list_In|]. unfold same_key. simpl. apply Z.eqb_eq, dl_compare_eq. done. }
  rewrite <- (map_id l) at 2. apply map_ext_in. intros [k' x'] Hin'. cbn [fst]. destruct (same_key cmp k k') eqn:E; [|done].
  unfold same_key in E. apply Z.eqb_eq, dl_compare_eq in E. subst k'. apply elem_of_list_In in Hin'. apply (in_ag l k x' Ho) in Hin'. congruence.
Qed.

Section sim.
Context {U : Type}.
Local Notation heap := (heap U).
Local Notation value := (value U).
Local Notation dtree := (dtree value).
Implicit Types h : heap.
Implicit Types t : dtree.
Variable fuel : nat.

(** The node [p] and the nodes below it are the tree [t]; all its cells are in [F],
    every node has its own cells; every node has branches. *)
Fixpoint downed (d : nat) h (p : ptr) t (F : gset loc) : Prop :=
  match d with
  | O => False
  | S d => (forall x, x ∈ F -> is_Some (h !! x)) /\
      exists a nn b l Fb (Fk : bytes -> gset loc), p = Some a /\ h !! a = Some (CDom nn) /\ dval nn = d_val t /\ dn_branches nn = Some b /\
      dl_owned h b l Fb /\ a ∉ Fb /\ {[a; b]} ∪ Fb ⊆ F /\ (forall k, Fk k ⊆ F /\ Fk k ## {[a; b]} ∪ Fb) /\ (forall k k', k <> k' -> Fk k ## Fk k') /\
      Forall2 (fun x y => x.1 = y.1 /\ exists q, x.2 = VDom q /\ downed d h q y.2 (Fk y.1)) l (d_cs t)
  end.
Definition orel d h (Fk : bytes -> gset loc) (x : bytes * value) (y : bytes * dtree) : Prop := x.1 = y.1 /\ exists q, x.2 = VDom q /\ downed d h q y.2 (Fk y.1).
Lemma orel_key d h Fk x y : orel d h Fk x y -> x.1 = y.1.
Proof. by intros [? _]. Qed.
Lemma downed_drep h : forall d p t F, downed d h p t F -> drep d h p t.
Proof.
  induction d as [|d IH]; intros p t F; [done|]. intros (_ & a & nn & b & l & Fb & Fk & -> & Ha & Hv & Hb & Hl & _ & _ & _ & _ & Hc).
  exists a, nn, l. split_and!; [done|done|done|rewrite Hb; by eapply dl_owned_at|].
  eapply Forall2_impl; [exact Hc|]. intros x y (H1 & q & H2 & H3). eauto.
Qed.
Lemma dl_owned_agree h h' b l F : dl_owned h b l F -> (forall x, x = b \/ x ∈ F -> h' !! x = h !! x) -> dl_owned h' b l F.
Proof.
  intros (r & t & Hb & Ho & HbF & H1 & H2 & H3) Hag. exists r, t. split_and!; try done; [rewrite Hag; [done|by left]|].
  eapply mrep_agree; [exact Ho|]. intros x Hx. apply Hag. by right.
Qed.
Lemma downed_agree : forall d h h' p t F, downed d h p t F -> (forall x, x ∈ F -> h' !! x = h !! x) -> downed d h' p t F.
Proof.
  induction d as [|d IH]; intros h h' p t F; [done|]. intros (Hd & a & nn & b & l & Fb & Fk & -> & Ha & Hv & Hb & Hl & HaF & HF & Hk & Hkk & Hc) Hag.
  split; [intros x Hx; rewrite Hag; [by apply Hd|done]|]. exists a, nn, b, l, Fb, Fk. split_and!; try done.
  - rewrite Hag; [done|]. clear -HF. set_solver.
  - eapply dl_owned_agree; [exact Hl|]. intros x Hx. apply Hag. clear -HF Hx. set_solver.
  - eapply Forall2_impl; [exact Hc|]. intros x y (H1 & q & H2 & H3). split; [done|]. exists q. split; [done|]. eapply IH; [exact H3|].
    intros z Hz. apply Hag. by apply (Hk y.1).
Qed.
Lemma orel_agree d h h' Fk l (cs : list (bytes * dtree)) : Forall2 (orel d h Fk) l cs -> (forall k x, x ∈ Fk k -> h' !! x = h !! x) -> Forall2 (orel d h' Fk) l cs.
Proof. intros H Hag. eapply Forall2_impl; [exact H|]. intros x y (H1 & q & H2 & H3). split; [done|]. exists q. split; [done|]. eapply downed_agree; [exact H3|]. apply Hag. Qed.
Definition fset (Fk : bytes -> gset loc) (k : bytes) (F : gset loc) : bytes -> gset loc := fun k' => if bytes_eqb k k' then F else Fk k'.
Lemma fset_same Fk k F : fset Fk k F k = F.
Proof. unfold fset. assert (bytes_eqb k k = true) as -> by by apply bytes_eqb_true. done. Qed.
Lemma fset_other Fk k F k' : k <> k' -> fset Fk k F k' = Fk k'.
Proof. intros N. unfold fset. destruct (bytes_eqb k k') eqn:E; [|done]. by apply bytes_eqb_true in E. Qed.

(** Replacing or adding one child. *)
Lemma orel_put d h h' Fk l (cs : list (bytes * dtree)) k q c F1 : Forall2 (orel d h Fk) l cs ->
  (forall k' x, k' <> k -> x ∈ Fk k' -> h' !! x = h !! x) -> downed d h' q c F1 ->
  Forall2 (orel d h' (fset Fk k F1)) (a_insert cmp l k (VDom q)) (a_insert cmp cs k c).
Proof.
  intros H Hag Hq.
  assert (Hq' : orel d h' (fset Fk k F1) (k, VDom q) (k, c)). { split; [done|]. exists q. split; [done|]. cbn [fst snd]. by rewrite fset_same. }
  assert (Hoth : forall x y, orel d h Fk x y -> x.1 <> k -> orel d h' (fset Fk k F1) x y).
  { intros [xk xv] [yk yc] (H1 & q' & H2 & H3) N. cbn [fst snd] in *. subst xk. split; [done|]. exists q'. split; [done|]. cbn [fst snd].
    rewrite fset_other by congruence. eapply downed_agree; [exact H3|]. intros z Hz. by eapply Hag. }
  unfold a_insert. rewrite (F2_existsb _ (orel_key d h Fk) l cs k H).
  destruct (existsb _ cs).
  - induction H as [|x y l cs Hx H IH]; cbn [map]; [constructor|]. constructor; [|done].
    rewrite (orel_key _ _ _ _ _ Hx). destruct (same_key cmp k y.1) eqn:E.
    + unfold same_key in E. apply Z.eqb_eq, dl_compare_eq in E. destruct y as [yk yc]. cbn [fst snd] in *. by subst yk.
    + apply Hoth; [done|]. rewrite (orel_key _ _ _ _ _ Hx). intros Hy. unfold same_key in E. rewrite Hy in E. apply Z.eqb_neq in E. apply E. by apply dl_compare_eq.
  - apply Forall2_app; [|constructor; [done|]].
    + induction H as [|x y l cs Hx H IH]; cbn [List.filter]; [constructor|]. rewrite (orel_key _ _ _ _ _ Hx).
      destruct (cmp y.1 k <? 0)%Z eqn:E; [|done]. constructor; [|done]. apply Hoth; [done|]. rewrite (orel_key _ _ _ _ _ Hx). intros Hy. rewrite Hy in E.
      assert (cmp k k = 0%Z) as E0 by by apply dl_compare_eq. rewrite E0 in E. done.
    + induction H as [|x y l cs Hx H IH]; cbn [List.filter]; [constructor|]. rewrite (orel_key _ _ _ _ _ Hx).
      destruct (0 <? cmp y.1 k)%Z eqn:E; [|done]. constructor; [|done]. apply Hoth; [done|]. rewrite (orel_key _ _ _ _ _ Hx). intros Hy. rewrite Hy in E.
      assert (cmp k k = 0%Z) as E0 by by apply dl_compare_eq. rewrite E0 in E. done.
Qed.

Lemma wp_set_dom h a nn (W : gset loc) v (Q : unit -> heap -> gset loc -> Prop) : h !! a = Some (CDom nn) -> a ∈ W ->
  Q tt (<[a := CDom (DomN (dn_branches nn) true v)]> h) W -> wp (set_has (Some a) true ;;; set_dval (Some a) v) h W Q.
Proof.
  intros Hn HW HQ. apply wp_bind. unfold set_has. apply wp_bind. eapply wp_ld_dom; [exact Hn|].
  apply wp_st_dom; [done|by eexists|]. unfold set_dval. apply wp_bind. eapply wp_ld_dom; [by rewrite lookup_insert|].
  apply wp_st_dom; [done|rewrite lookup_insert; by eexists|]. rewrite insert_insert. exact HQ.
Qed.

Lemma inplace_loop_wp N v : enough fuel N -> forall ls d h a t F, downed (S d) h (Some a) t F -> wf N (S d) t -> length ls <= d ->
  wp (x <- visit (dt_inplace_step fuel) ls (Some a) ;; set_has x.1 true ;;; set_dval x.1 v) h F
     (fun _ h' W' => exists F', downed (S d) h' (Some a) (d_insert t ls v) F' /\ F' ⊆ W').
Proof.
  intros Hf. induction ls as [|k ls IH]; intros d h a t F Ho Hwf Hd.
  - destruct Ho as (Hdom & a' & nn & b & l & Fb & Fk & [= <-] & Ha & Hv & Hb & Hl & HaF & HF & Hk & Hkk & Hc). fold (orel d h Fk) in Hc.
    cbn [visit]. cbn [bind fst]. eapply wp_set_dom; [exact Ha|clear -HF; set_solver|].
    exists F. split; [|done]. assert (b <> a). { intros ->. destruct Hl as (r & ? & Hb' & _). congruence. }
    split; [intros x Hx; destruct (decide (x = a)) as [->|]; [rewrite lookup_insert|rewrite lookup_insert_ne by done]; eauto|].
    eexists a, _, b, l, Fb, Fk. split_and!; [done|by rewrite lookup_insert|done|exact Hb|..]; try done.
    + eapply dl_owned_agree; [exact Hl|]. intros x [->|Hx]; rewrite lookup_insert_ne; try done; congruence.
    + cbn [d_insert d_cs]. eapply orel_agree; [exact Hc|]. intros k x Hx. rewrite lookup_insert_ne; [done|]. intros <-. destruct (Hk k) as [_ Hk']. clear -Hk' Hx. set_solver.
  - cbn [length] in Hd. destruct d as [|d]; [lia|].
    assert (Ho' := Ho). destruct Ho as (Hdom & a' & nn & b & l & Fb & Fk & [= <-] & Ha & Hv & Hb & Hl & HaF & HF & Hk & Hkk & Hc). fold (orel (S d) h Fk) in Hc.
    assert (Nab : b <> a). { intros ->. destruct Hl as (r & ? & Hb' & _). congruence. }
    assert (HN : length l <= N). { destruct Hwf as (_ & H & _). by rewrite (Forall2_length _ _ _ Hc). }
    pose proof (wf_child N (S d) t k Hwf ltac:(lia)) as Hwc.
    assert (Hord : ordered cmp l) by by destruct Hl as (? & ? & _ & _ & _ & _ & _ & ?).
    cbn [visit]. apply bind_assoc. unfold dt_inplace_step at 1. apply bind_assoc, wp_bind. eapply wp_ld_dom; [exact Ha|].
    apply bind_assoc, wp_bind. eapply wp_mono; [apply (wp_cow _ _ _ (fun x h' => h' = h /\ x = match a_get cmp l k with Some v => (v, true) | None => (VNil, false) end));
      eapply wp_mono; [rewrite Hb; eapply dl_get_at; [by eapply dl_owned_at|by eapply enough_get]|cbn beta; tauto]|].
    cbn beta. intros x h1 W1 ([-> ->] & _ & HW1 & _).
    pose proof (F2_get _ (orel_key (S d) h Fk) l (d_cs t) k Hc) as Hg.
    destruct (a_get cmp l k) as [q|] eqn:El, (a_get cmp (d_cs t) k) as [c|] eqn:Ec; try done; cbn [fst snd].
    + (* the child exists *)
      destruct Hg as (_ & q' & Eq & Hq). cbn [fst snd] in Eq, Hq. subst q. cbn [as_node bind fst snd].
      assert (exists m, q' = Some m) as [m ->]. { destruct Hq as (_ & m & ? & ? & ? & ? & ? & -> & _). eauto. }
      assert (Ech : child t k = c) by (unfold child; by rewrite Ec). rewrite Ech in Hwc.
      eapply wp_mono. { eapply (wp_call _ _ (Fk k)); [apply (IH d h m c (Fk k) Hq Hwc); lia|]. etrans; [apply (Hk k)|done]. }
      cbn beta. intros _ h2 W2 [(W3 & (F1 & Hq2 & HF1) & HW3 & (_ & Hdm & HG3)) [Hun (HG2 & _ & _)]].
      assert (Hag : forall x, x ∈ F -> x ∉ Fk k -> h2 !! x = h !! x).
      { intros x Hx Hnx. destruct (Hdom x Hx) as [y Hy]. rewrite Hy. by apply Hun. }
      assert (Hfr : forall x, x ∈ F1 -> x ∈ Fk k \/ x ∉ F).
      { intros x Hx. apply HF1, HG3 in Hx as [?|Hx]; [by left|]. right. intros HxF. destruct (Hdom x HxF). congruence. }
      exists (F ∪ F1). split; [|clear -HG2 HW1 HF1 HW3; set_solver].
      split.
      { intros x [Hx|Hx]%elem_of_union.
        - apply elem_of_dom, Hdm, elem_of_dom. by apply Hdom.
        - destruct Hq2 as (Hd2 & _). by apply Hd2. }
      assert (Hself : forall x, x ∈ {[a; b]} ∪ Fb -> h2 !! x = h !! x).
      { intros x Hx. apply Hag; [by apply HF|]. destruct (Hk k) as [_ Hk']. clear -Hx Hk'. set_solver. }
      exists a, nn, b, l, Fb, (fset Fk k F1). split_and!; try done.
      * rewrite Hself; [done|]. clear; set_solver.
      * eapply dl_owned_agree; [exact Hl|]. intros x Hx. apply Hself. clear -Hx. set_solver.
      * clear -HF. set_solver.
      * intros k'. destruct (decide (k = k')) as [<-|Nk]; [rewrite fset_same|rewrite fset_other by done].
        -- split; [clear; set_solver|]. destruct (Hk k) as [_ Hk']. intros x Hx Hx2. apply Hfr in Hx as [Hx|Hx]; [by apply (Hk' x)|]. by apply Hx, HF.
        -- destruct (Hk k') as [Hk1 Hk2]. split; [clear -Hk1; set_solver|done].
      * intros k1 k2 N12. destruct (decide (k = k1)) as [<-|N1], (decide (k = k2)) as [<-|N2]; rewrite ?fset_same, ?fset_other by done; [done|..].
        -- intros x Hx Hx2. apply Hfr in Hx as [Hx|Hx]; [by apply (Hkk k k2 N12 x)|]. by apply Hx, (Hk k2).
        -- intros x Hx2 Hx. apply Hfr in Hx as [Hx|Hx]; [by apply (Hkk k1 k N12 x)|]. by apply Hx, (Hk k1).
        -- by apply Hkk.
      * cbn [d_insert d_cs]. rewrite Ech. rewrite <- (a_insert_same l k (VDom (Some m)) Hord El).
        apply (orel_put (S d) h h2); [done| |done]. intros k' x Nk Hx. apply Hag; [by apply (Hk k')|]. intros Hx2. by apply (Hkk k' k Nk x).
    + (* a new child *)
      clear Hg. assert (Ech : child t k = d_nil) by (unfold child; by rewrite Ec). rewrite Ech in Hwc.
      unfold dl_new. apply bind_assoc, wp_bind, wp_bind, wp_alloc. intros b' Hb'. cbn [bind wp]. unfold dt_node. apply bind_assoc, wp_bind, wp_bind, wp_alloc. intros m Hm. cbn [bind wp].
      assert (Nmb' : m <> b') by (intros ->; by rewrite lookup_insert in Hm).
      assert (Hmh : h !! m = None) by by rewrite lookup_insert_ne in Hm.
      set (h2 := <[m := _]> _). assert (Hs2 : h ⊆ h2). { unfold h2. etrans; [by apply (insert_subseteq _ b')|by apply insert_subseteq]. }
      apply bind_assoc, wp_bind. eapply wp_ld_dom; [by eapply lookup_weaken|].
      apply bind_assoc, wp_bind. rewrite Hb.
      assert (Hag2 : forall x, x ∈ F -> h2 !! x = h !! x). { intros x Hx. destruct (Hdom x Hx) as [y Hy]. rewrite Hy. by eapply lookup_weaken. }
      assert (HmF : m ∉ F) by (intros HmF; destruct (Hdom m HmF); congruence).
      assert (Hb'F : b' ∉ F) by (intros HmF'; destruct (Hdom b' HmF'); congruence).
      assert (Hl2 : dl_owned h2 b l Fb). { eapply dl_owned_agree; [exact Hl|]. intros x Hx. apply Hag2, HF. clear -Hx. set_solver. }
      eapply wp_mono.
      { eapply (wp_call _ _ ({[b]} ∪ Fb)); [eapply (dl_inplace_at fuel h2 b l Fb ({[b]} ∪ Fb) k); [exact Hl2|done|by eapply enough_le]|].
        clear -HF HW1. set_solver. }
      cbn beta. intros _ h3 W2 [(W3 & (Fb' & Hl3 & HFb') & HW3 & (_ & Hdm3 & HG3)) [Hun3 (HG2 & _ & _)]]. cbn [bind fst snd].
      assert (Hm2 : h2 !! m = Some (CDom (DomN (Some b') false VNil))) by by (unfold h2; rewrite lookup_insert).
      assert (Hb2 : h2 !! b' = Some (CDl None)) by by (unfold h2; rewrite lookup_insert_ne, lookup_insert by done).
      assert (HmZ : m ∉ {[b]} ∪ Fb) by (clear -HmF HF; set_solver).
      assert (HbZ : b' ∉ {[b]} ∪ Fb) by (clear -Hb'F HF; set_solver).
      assert (Hfr3 : forall x, x ∈ Fb' -> x ∈ Fb \/ h2 !! x = None).
      { intros x Hx. assert (x ∈ W3) as Hx3 by (apply HFb'; clear -Hx; set_solver). apply HG3 in Hx3 as [Hx3|?]; [|by right]. left.
        apply elem_of_union in Hx3 as [->%elem_of_singleton|?]; [|done]. by destruct Hl3 as (? & ? & _ & _ & ? & _). }
      assert (Hq3 : downed (S d) h3 (Some m) d_nil {[m; b']}).
      { split. { intros x Hx. apply elem_of_dom, Hdm3, elem_of_dom. clear -Hx Hm2 Hb2. apply elem_of_union in Hx as [->%elem_of_singleton| ->%elem_of_singleton]; eauto. }
        exists m, (DomN (Some b') false VNil), b', [], ∅, (fun _ => ∅). split_and!; try done; [by apply Hun3| |clear; set_solver..|constructor].
        exists None, E. split_and!; [by apply Hun3|done|clear; set_solver|apply rbt_E|done|constructor]. }
      eapply wp_mono. { eapply (wp_call _ _ {[m; b']}); [apply (IH d h3 m d_nil _ Hq3 Hwc); lia|]. clear -HG2. set_solver. }
      cbn beta. intros _ h4 W4 [(W5 & (F1 & Hq4 & HF1) & HW5 & (_ & Hdm4 & HG5)) [Hun4 (HG4 & _ & _)]].
      assert (Hfr : forall x, x ∈ F1 -> x = m \/ x = b' \/ h3 !! x = None).
      { intros x Hx. apply HF1, HG5 in Hx as [Hx|Hx]; [|by right; right]. clear -Hx. set_solver. }
      assert (Hdom3 : forall x, is_Some (h2 !! x) -> is_Some (h3 !! x)) by (intros x Hx; by apply elem_of_dom, Hdm3, elem_of_dom).
      assert (Hdom4 : forall x, is_Some (h3 !! x) -> is_Some (h4 !! x)) by (intros x Hx; by apply elem_of_dom, Hdm4, elem_of_dom).
      assert (HdF2 : forall x, x ∈ F -> is_Some (h2 !! x)) by (intros x Hx; rewrite Hag2 by done; by apply Hdom).
      assert (Hl3d : forall x, x = b \/ x ∈ Fb' -> is_Some (h3 !! x) /\ x <> m /\ x <> b').
      { intros x Hx. split.
        - destruct Hx as [->|Hx]; [destruct Hl3 as (r & ? & -> & _); eauto|]. destruct Hl3 as (? & ? & _ & Hown & _). by eapply mrep_dom in Hown as [? _].
        - assert (x ∈ {[b]} ∪ Fb \/ h2 !! x = None) as [Hx2|Hx2].
          { destruct Hx as [->|Hx]; [left; clear; set_solver|]. apply Hfr3 in Hx as [?|?]; [left; clear -H; set_solver|by right]. }
          + split; intros ->; clear -Hx2 HmZ HbZ; set_solver.
          + split; intros ->; congruence. }
      assert (HF1F : forall x, x ∈ F1 -> x ∉ F).
      { intros x Hx HxF. apply Hfr in Hx as [->|[->|Hx]]; [done..|]. destruct (Hdom3 x (HdF2 x HxF)). congruence. }
      assert (Hag4 : forall x, x ∈ F -> x ∉ {[b]} ∪ Fb -> h4 !! x = h !! x).
      { intros x Hx Hnx. destruct (Hdom x Hx) as [y Hy]. rewrite Hy. apply Hun4; [|clear -Hx HmF Hb'F; set_solver].
        apply Hun3; [|done]. by rewrite Hag2. }
      exists (F ∪ Fb' ∪ F1). split; [|clear -HG2 HW1 HF1 HW3 HFb' HG4 HW5; set_solver].
      split.
      { intros x [[Hx|Hx]%elem_of_union|Hx]%elem_of_union.
        - by apply Hdom4, Hdom3, HdF2.
        - apply Hdom4, Hl3d. by right.
        - destruct Hq4 as (Hd4 & _). by apply Hd4. }
      assert (HaFb' : a ∉ Fb').
      { intros Hx. apply Hfr3 in Hx as [?|Hx]; [done|]. destruct (HdF2 a); [apply HF; clear; set_solver|congruence]. }
      assert (HFb'k : forall k' x, x ∈ Fk k' -> x ∈ Fb' -> False).
      { intros k' x Hx Hx2. destruct (Hk k') as [Hk1 Hk2]. apply Hfr3 in Hx2 as [Hx2|Hx2]; [apply (Hk2 x Hx); clear -Hx2; set_solver|].
        destruct (HdF2 x (Hk1 x Hx)). congruence. }
      assert (HF1b : forall x, x ∈ F1 -> x = b \/ x ∈ Fb' -> False).
      { intros x Hx Hx2. destruct (Hl3d x Hx2) as ([y Hy] & N1 & N2). apply Hfr in Hx as [?|[?|?]]; congruence. }
      exists a, nn, b, (a_insert cmp l k (VDom (Some m))), Fb', (fset Fk k F1). split_and!; try done.
      * rewrite Hag4; [done|apply HF; clear; set_solver|clear -Nab HaF; set_solver].
      * eapply dl_owned_agree; [exact Hl3|]. intros x Hx. destruct (Hl3d x Hx) as ([y Hy] & N1 & N2). rewrite Hy. apply Hun4; [done|]. clear -N1 N2. set_solver.
      * clear -HF. set_solver.
      * intros k'. destruct (decide (k = k')) as [<-|Nk]; [rewrite fset_same|rewrite fset_other by done].
        -- split; [clear; set_solver|]. intros x Hx Hx2. apply elem_of_union in Hx2 as [[->%elem_of_singleton| ->%elem_of_singleton]%elem_of_union|Hx2].
           ++ apply (HF1F a Hx), HF. clear; set_solver.
           ++ apply (HF1b b Hx). by left.
           ++ apply (HF1b x Hx). by right.
        -- destruct (Hk k') as [Hk1 Hk2]. split; [clear -Hk1; set_solver|]. intros x Hx Hx2. apply elem_of_union in Hx2 as [Hx2|Hx2].
           ++ apply (Hk2 x Hx). clear -Hx2. set_solver.
           ++ by apply (HFb'k k' x).
      * intros k1 k2 N12. destruct (decide (k = k1)) as [<-|N1], (decide (k = k2)) as [<-|N2]; rewrite ?fset_same, ?fset_other by done; [done|..].
        -- intros x Hx Hx2. by apply (HF1F x Hx), (Hk k2).
        -- intros x Hx2 Hx. by apply (HF1F x Hx), (Hk k1).
        -- by apply Hkk.
      * cbn [d_insert d_cs]. rewrite Ech.
        apply (orel_put (S d) h h4); [done| |done]. intros k' x Nk Hx. destruct (Hk k') as [Hk1 Hk2]. apply Hag4; [by apply Hk1|].
        intros Hx2. apply (Hk2 x Hx). clear -Hx2. set_solver.
Qed.

(** A root: fresh from [new(Node)], or with branches. *)
Definition iroot (d : nat) h (p : ptr) t (F : gset loc) : Prop :=
  (exists a, p = Some a /\ h !! a = Some (CDom (DomN None false VNil)) /\ t = d_nil /\ F = {[a]}) \/ downed d h p t F.
Lemma iroot_drep d h p t F : iroot (S d) h p t F -> drep (S d) h p t.
Proof. intros [(a & -> & Ha & -> & _)|H]; [by apply drep_new|by eapply downed_drep]. Qed.
Lemma dt_inplace_insert_wp N d h p t F nm ls v : enough fuel N -> iroot (S d) h p t F -> wf N (S d) t -> nm_c nm = wire ls -> Forall good_label ls -> length ls <= d ->
  wp (dt_inplace_insert fuel p nm v) h F (fun _ h' W' => exists F', downed (S d) h' p (d_insert t ls v) F' /\ F' ⊆ W').
Proof.
  intros Hf Hp Hwf Hnm Hg Hd. unfold dt_inplace_insert.
  assert (Hgo : forall h F W a t, downed (S d) h (Some a) t F -> F ⊆ W -> wf N (S d) t ->
     wp (x <- get_labels (dt_inplace_step fuel) nm (Some a) ;; set_has x.1 true ;;; set_dval x.1 v) h W (fun _ h' W' => exists F', downed (S d) h' (Some a) (d_insert t ls v) F' /\ F' ⊆ W')).
  { clear h p t F Hp Hwf. intros h F W a t Ho HW Hwf.
    assert (Hw := inplace_loop_wp N v Hf ls d h a t F Ho Hwf Hd). eapply wp_weaken_W in Hw; [|exact HW]. apply wp_bind_inv in Hw.
    apply wp_bind. eapply wp_get_labels; [exact Hnm|exact Hg|]. eapply wp_mono; [exact Hw|]. cbn beta. intros x h' W' Hx.
    eapply wp_mono; [exact Hx|]. cbn beta. intros _ h2 W2 (W3 & (F' & H1 & H2) & H3 & _). exists F'. split; [done|by etrans]. }
  destruct Hp as [(a & -> & Ha & -> & ->)|Ho].
  - apply wp_bind. eapply wp_ld_dom; [exact Ha|]. cbn [dn_branches]. unfold dl_new. apply wp_bind, wp_bind, wp_bind, wp_alloc. intros b Hb. cbn [wp].
    assert (Nab : b <> a) by congruence.
    eapply wp_set_branches; [by rewrite lookup_insert_ne|clear; set_solver|]. cbn [dn_has dn_val].
    eapply (Hgo _ {[a; b]}); [|clear; set_solver|done].
    split. { intros x Hx. apply elem_of_union in Hx as [->%elem_of_singleton| ->%elem_of_singleton]; [rewrite lookup_insert; eauto|rewrite lookup_insert_ne, lookup_insert by done; eauto]. }
    exists a, (DomN (Some b) false VNil), b, [], ∅, (fun _ => ∅). split_and!; try done; [by rewrite lookup_insert| |clear; set_solver..|constructor].
    exists None, E. split_and!; [by rewrite lookup_insert_ne, lookup_insert by done|done|clear; set_solver|apply rbt_E|done|constructor].
  - assert (Ho' := Ho). destruct Ho as (_ & a & nn & b & _ & _ & _ & -> & Ha & _ & Hb & _).
    apply wp_bind. eapply wp_ld_dom; [exact Ha|]. rewrite Hb. cbn [bind]. by eapply Hgo.
Qed.

(** Building a tree in place. *)
Fixpoint dt_fill (n : ptr) (items : list (name * value)) : prog U unit :=
  match items with
  | [] => Ret tt
  | (d, v) :: items => dt_inplace_insert fuel n d v ;;; dt_fill n items
  end.
Fixpoint d_fill (items : list (path * value)) t : dtree :=
  match items with [] => t | (p, v) :: items => d_fill items (d_insert t p v) end.
Lemma dt_fill_wp D items items' : Forall2 (fun x y : _ * value => name_is x.1 y.1 /\ x.2 = y.2) items items' -> 127 <= D ->
  forall N h p t F, iroot (S D) h p t F -> wf N (S D) t -> enough fuel (N + length items') ->
  wp (dt_fill p items) h F (fun _ h' W' => exists F', iroot (S D) h' p (d_fill items' t) F' /\ wf (N + length items') (S D) (d_fill items' t)).
Proof.
  intros Hi HD. induction Hi as [|[d v] [q v'] items items' [Hq Hv] Hi IH]; intros N h p t F Ho Hwf Hf.
  { cbn [dt_fill d_fill wp length]. rewrite Nat.add_0_r. eauto. }
  cbn [fst snd length] in *. subst v'. destruct Hq as (Hw & H1 & H2 & H3). cbn [dt_fill d_fill].
  apply wp_bind. eapply wp_mono; [eapply (dt_inplace_insert_wp (N + S (length items'))); [done|exact Ho|eapply wf_mono; [|exact Hwf]; lia|exact Hw|exact H3|lia]|].
  cbn beta. intros _ h' W' (F' & Ho' & HF').
  eapply wp_mono; [eapply wp_weaken_W; [eapply (IH (S N)); [by right| |]|exact HF']|].
  - apply wf_insert; [done|lia|done].
  - by replace (S N + length items') with (N + S (length items')) by lia.
  - cbn beta. intros _ h2 W2 (W3 & (F3 & H4 & H5) & _). exists F3. split; [done|]. by replace (N + S (length items')) with (S N + length items') by lia.
Qed.
End sim.
