(** * domaintree: every version is a tree in memory (no node is reachable twice),
    and which of its nodes have nil branches. *)
From Verif Require Import Prog History RbModel RbSpec RbFun RbFunIns RbFunDel RbSim RbSimIns RbSimOps RbSimDel2 RbAbs StrSpec StrAbs StrPropProofs.
From Verif Require Import DomModel DomSpec DomCodec DomNames DomPropProofs DlModel DlSpec DlAbs DlPropProofs DtModel DtSpec DtFun DtSim DtSim2 DtSim4 NumFoot Handle RbHandle.
Open Scope nat_scope.

Local Notation cmp := dl_compare.
Local Instance bytes_dec : EqDecision bytes := List.list_eq_dec Byte.byte_eq_dec.
Section own.
Context {U : Type}.
Local Notation heap := (heap U).
Local Notation value := (value U).
Local Notation dtree := (dtree value).
Local Notation bset := (path -> Prop).
Implicit Types h : heap.
Implicit Types t : dtree.
Implicit Types B : bset.
Implicit Types R : ptr -> dtree -> bset -> gset loc -> Prop.
Variable fuel : nat.

(** ** Label trees with their cells. *)
Definition dlo h (p : ptr) (l : list (bytes * value)) (F : gset loc) : Prop :=
  match p with None => l = [] /\ F = ∅ | Some b => exists F', dl_owned h b l F' /\ F = {[b]} ∪ F' end.
Lemma dlo_at h p l F : dlo h p l F -> dl_at h p l.
Proof. destruct p as [b|]; [|by intros [-> _]]. intros (F' & H & _). by eapply dl_owned_at. Qed.
Lemma dlo_of h b l : dl_at h (Some b) l -> exists F, dlo h (Some b) l F /\ F ⊆ dom h.
Proof. intros (F & H1 & H2)%dl_owned_of. exists ({[b]} ∪ F). split; [|done]. by exists F. Qed.
Lemma dlo_agree h h' p l F : dlo h p l F -> (forall x, x ∈ F -> h' !! x = h !! x) -> dlo h' p l F.
Proof.
  destruct p as [b|]; [|done]. intros (F' & H & ->) Hag. exists F'. split; [|done]. eapply dl_owned_agree; [exact H|].
  intros x Hx. apply Hag. clear -Hx. set_solver.
Qed.
(** The part of the memory that holds the cells. *)
Definition part h (F : gset loc) : heap := filter (fun x => x.1 ∈ F) h.
Lemma part_sub h F : part h F ⊆ h.
Proof. apply map_filter_subseteq. Qed.
Lemma part_in h F x : x ∈ F -> part h F !! x = h !! x.
Proof.
  intros Hx. unfold part. destruct (h !! x) as [c|] eqn:E.
  - by apply map_filter_lookup_Some.
  - apply map_filter_lookup_None. by left.
Qed.
Lemma part_dom h F x : x ∈ dom (part h F) -> x ∈ F.
Proof. intros [c Hc]%elem_of_dom. by apply map_filter_lookup_Some in Hc as [_ ?]. Qed.
Lemma dlo_insert h p l F k v : dlo h p l F -> enough fuel (length l) ->
  wp (dl_raw_insert fuel p k v) h ∅ (fun b h' _ => h ⊆ h' /\ exists F', dlo h' b (a_insert cmp l k v) F' /\ b <> None /\ F' ⊆ dom h' /\
    forall x, x ∈ F' -> x ∈ F \/ h !! x = None).
Proof.
  intros Hp Hf. apply wp_cow0.
  assert (Hp0 : dlo (part h F) p l F) by (eapply dlo_agree; [exact Hp|]; intros; by apply part_in).
  eapply wp_mono; [eapply (wp_local _ (part h F) h ∅); [by eapply dl_insert_at; [by eapply dlo_at|]|apply part_sub]|].
  cbn beta. intros b h' _ (h0' & (_ & Hat & a & -> & _) & Hs & Hd & _ & _).
  destruct (dlo_of _ _ _ Hat) as (F' & HF' & HFd). exists F'. split_and!.
  - eapply dlo_agree; [exact HF'|]. intros x Hx%HFd. apply elem_of_dom in Hx as [c Hc]. rewrite Hc. by eapply lookup_weaken.
  - done.
  - intros x Hx%HFd. apply elem_of_dom in Hx as [c Hc]. eapply elem_of_dom_2. by eapply lookup_weaken.
  - intros x Hx%HFd. apply Hd in Hx as [Hx|Hx]; [left; by eapply part_dom|by right].
Qed.
Lemma dlo_delete h p l F k : dlo h p l F -> enough fuel (length l) ->
  wp (dl_raw_delete fuel p k) h ∅ (fun r h' _ => h ⊆ h' /\ exists F', dlo h' r.1 (a_delete cmp l k) F' /\ (r.1 = None <-> p = None) /\ F' ⊆ dom h' /\
    forall x, x ∈ F' -> x ∈ F \/ h !! x = None).
Proof.
  intros Hp Hf. apply wp_cow0. destruct p as [b|].
  2: { destruct Hp as [-> ->]. cbn [dl_raw_delete wp fst]. exists ∅. split; [done|]. split; [done|]. split; [apply empty_subseteq|]. intros x Hx. clear -Hx. set_solver. }
  assert (Hp0 : dlo (part h F) (Some b) l F) by (eapply dlo_agree; [exact Hp|]; intros; by apply part_in).
  eapply wp_mono; [eapply (wp_local _ (part h F) h ∅); [by eapply dl_delete_at; [by eapply dlo_at|]|apply part_sub]|].
  cbn beta. intros r h' _ (h0' & (_ & Hat & _ & a & Er & _) & Hs & Hd & _ & _). rewrite Er in Hat |- *.
  destruct (dlo_of _ _ _ Hat) as (F' & HF' & HFd). exists F'. split_and!.
  - eapply dlo_agree; [exact HF'|]. intros x Hx%HFd. apply elem_of_dom in Hx as [c Hc]. rewrite Hc. by eapply lookup_weaken.
  - done.
  - intros x Hx%HFd. apply elem_of_dom in Hx as [c Hc]. eapply elem_of_dom_2. by eapply lookup_weaken.
  - intros x Hx%HFd. apply Hd in Hx as [Hx|Hx]; [left; by eapply part_dom|by right].
Qed.

(** ** Domain nodes with their cells. [B] is the set of the paths whose node has nil
    branches; [Fk k] are the cells of the subtree of [k]. *)
Definition okrel (R : ptr -> dtree -> bset -> gset loc -> Prop) B (Fk : bytes -> gset loc) (x : bytes * value) (y : bytes * dtree) : Prop :=
  x.1 = y.1 /\ exists q, x.2 = VDom q /\ R q y.2 (fun r => B (y.1 :: r)) (Fk y.1).
Definition obody (R : ptr -> dtree -> bset -> gset loc -> Prop) h (nn : domnode U) t B (l : list (bytes * value)) (Fb : gset loc) (Fk : bytes -> gset loc) (F : gset loc) : Prop :=
  dval nn = d_val t /\ dlo h (dn_branches nn) l Fb /\ (dn_branches nn = None <-> B []) /\ Fb ⊆ F /\
  (forall k, Fk k ⊆ F /\ Fk k ## Fb) /\ (forall k k', k <> k' -> Fk k ## Fk k') /\ F ⊆ dom h /\ Forall2 (okrel R B Fk) l (d_cs t).
Fixpoint orep (d : nat) h (p : ptr) t B (F : gset loc) : Prop :=
  match d with
  | O => False
  | S d => exists a nn l Fb Fk F0, p = Some a /\ h !! a = Some (CDom nn) /\ a ∉ F0 /\ F = {[a]} ∪ F0 /\ obody (orep d h) h nn t B l Fb Fk F0
  end.
Lemma okrel_key R B Fk x y : okrel R B Fk x y -> x.1 = y.1.
Proof. by intros [? _]. Qed.
Lemma orep_drep h : forall d p t B F, orep d h p t B F -> drep d h p t.
Proof.
  induction d as [|d IH]; intros p t B F; [done|]. intros (a & nn & l & Fb & Fk & F0 & -> & Ha & _ & _ & Hv & Hl & _ & _ & _ & _ & _ & Hc).
  exists a, nn, l. split_and!; [done|done|done|by eapply dlo_at|]. eapply Forall2_impl; [exact Hc|]. intros x y (H1 & q & H2 & H3). eauto.
Qed.
Lemma orep_dom h d p t B F : orep d h p t B F -> F ⊆ dom h.
Proof.
  destruct d as [|d]; [done|]. intros (a & nn & l & Fb & Fk & F0 & -> & Ha & _ & -> & _ & _ & _ & _ & _ & _ & HF & _).
  apply elem_of_dom_2 in Ha. clear -Ha HF. set_solver.
Qed.
Lemma orep_agree : forall d h h' p t B F, orep d h p t B F -> (forall x, x ∈ F -> h' !! x = h !! x) -> orep d h' p t B F.
Proof.
  induction d as [|d IH]; intros h h' p t B F; [done|].
  intros (a & nn & l & Fb & Fk & F0 & -> & Ha & Ha0 & -> & Hv & Hl & HB & HFb & Hk & Hkk & HF & Hc) Hag.
  exists a, nn, l, Fb, Fk, F0. split_and!; [done|rewrite Hag; [done|clear; set_solver]|done|done|]. split_and!; try done.
  - eapply dlo_agree; [exact Hl|]. intros x Hx. apply Hag. clear -Hx HFb. set_solver.
  - intros x Hx. specialize (HF x Hx). apply elem_of_dom in HF. apply elem_of_dom. rewrite Hag; [done|]. clear -Hx. set_solver.
  - eapply Forall2_impl; [exact Hc|]. intros x y (H1 & q & H2 & H3). split; [done|]. exists q. split; [done|]. eapply IH; [exact H3|].
    intros z Hz. apply Hag. destruct (Hk y.1) as [Hk1 _]. clear -Hk1 Hz. set_solver.
Qed.
Lemma orep_mono d h h' p t B F : h ⊆ h' -> orep d h p t B F -> orep d h' p t B F.
Proof.
  intros Hs Hp. eapply orep_agree; [exact Hp|]. intros x Hx. apply (orep_dom _ _ _ _ _ _ Hp) in Hx. apply elem_of_dom in Hx as [c Hc].
  rewrite Hc. by eapply lookup_weaken.
Qed.
Lemma obody_agree d h h' nn t B l Fb Fk F : obody (orep d h) h nn t B l Fb Fk F -> (forall x, x ∈ F -> h' !! x = h !! x) -> obody (orep d h') h' nn t B l Fb Fk F.
Proof.
  intros (Hv & Hl & HB & HFb & Hk & Hkk & HF & Hc) Hag. split_and!; try done.
  - eapply dlo_agree; [exact Hl|]. intros x Hx. apply Hag. clear -Hx HFb. set_solver.
  - intros x Hx. specialize (HF x Hx). apply elem_of_dom in HF. apply elem_of_dom. by rewrite Hag.
  - eapply Forall2_impl; [exact Hc|]. intros x y (H1 & q & H2 & H3). split; [done|]. exists q. split; [done|]. eapply orep_agree; [exact H3|].
    intros z Hz. apply Hag. destruct (Hk y.1) as [Hk1 _]. clear -Hk1 Hz. set_solver.
Qed.
Lemma obody_mono d h h' nn t B l Fb Fk F : h ⊆ h' -> obody (orep d h) h nn t B l Fb Fk F -> obody (orep d h') h' nn t B l Fb Fk F.
Proof.
  intros Hs Hp. assert (HF : F ⊆ dom h) by by destruct Hp as (_ & _ & _ & _ & _ & _ & ? & _).
  eapply obody_agree; [exact Hp|]. intros x Hx. apply HF, elem_of_dom in Hx as [c Hc]. rewrite Hc. by eapply lookup_weaken.
Qed.
Lemma orep_iff h : forall d p t B B' F, (forall q, B q <-> B' q) -> orep d h p t B F -> orep d h p t B' F.
Proof.
  induction d as [|d IH]; intros p t B B' F HB; [done|].
  intros (a & nn & l & Fb & Fk & F0 & -> & Ha & Ha0 & -> & Hv & Hl & HB0 & HFb & Hk & Hkk & HF & Hc).
  exists a, nn, l, Fb, Fk, F0. split_and!; [done..|]. split_and!; try done.
  - by rewrite <- HB.
  - eapply Forall2_impl; [exact Hc|]. intros x y (H1 & q & H2 & H3). split; [done|]. exists q. split; [done|]. eapply IH; [|exact H3]. intros r. apply HB.
Qed.
Lemma obody_open d h a nn t B l Fb Fk F : h !! a = Some (CDom nn) -> a ∉ F -> obody (orep d h) h nn t B l Fb Fk F -> orep (S d) h (Some a) t B ({[a]} ∪ F).
Proof. intros. exists a, nn, l, Fb, Fk, F. by split_and!. Qed.
Lemma obody_nil d h : obody (orep d h) h (DomN None false VNil) d_nil (fun q => q = []) [] ∅ (fun _ => ∅) ∅.
Proof. split_and!; try done; try (clear; set_solver); constructor. Qed.

(** ** Replacing, adding or removing one child. *)
Lemma okrel_ins R R' B B' Fk l (cs : list (bytes * dtree)) k q c F1 : Forall2 (okrel R B Fk) l cs ->
  (forall k' p t, k' <> k -> R p t (fun r => B (k' :: r)) (Fk k') -> R' p t (fun r => B' (k' :: r)) (Fk k')) ->
  R' q c (fun r => B' (k :: r)) F1 ->
  Forall2 (okrel R' B' (fset Fk k F1)) (a_insert cmp l k (VDom q)) (a_insert cmp cs k c).
Proof.
  intros H Hag Hq.
  assert (Hq' : okrel R' B' (fset Fk k F1) (k, VDom q) (k, c)). { split; [done|]. exists q. split; [done|]. cbn [fst snd]. by rewrite fset_same. }
  assert (Hoth : forall x y, okrel R B Fk x y -> x.1 <> k -> okrel R' B' (fset Fk k F1) x y).
  { intros [xk xv] [yk yc] (H1 & q' & H2 & H3) N. cbn [fst snd] in *. subst xk. split; [done|]. exists q'. split; [done|]. cbn [fst snd].
    rewrite fset_other by congruence. by apply Hag. }
  unfold a_insert. rewrite (F2_existsb _ (okrel_key R B Fk) l cs k H).
  destruct (existsb _ cs).
  - induction H as [|x y l cs Hx H IH]; cbn [map]; [constructor|]. constructor; [|done].
    rewrite (okrel_key _ _ _ _ _ Hx). destruct (same_key cmp k y.1) eqn:E.
    + unfold same_key in E. apply Z.eqb_eq, dl_compare_eq in E. destruct y as [yk yc]. cbn [fst snd] in *. by subst yk.
    + apply Hoth; [done|]. rewrite (okrel_key _ _ _ _ _ Hx). intros Hy. unfold same_key in E. rewrite Hy in E. apply Z.eqb_neq in E. apply E. by apply dl_compare_eq.
  - apply Forall2_app; [|constructor; [done|]].
    + induction H as [|x y l cs Hx H IH]; cbn [List.filter]; [constructor|]. rewrite (okrel_key _ _ _ _ _ Hx).
      destruct (cmp y.1 k <? 0)%Z eqn:E; [|done]. constructor; [|done]. apply Hoth; [done|]. rewrite (okrel_key _ _ _ _ _ Hx). intros Hy. rewrite Hy in E.
      assert (cmp k k = 0%Z) as E0 by by apply dl_compare_eq. rewrite E0 in E. done.
    + induction H as [|x y l cs Hx H IH]; cbn [List.filter]; [constructor|]. rewrite (okrel_key _ _ _ _ _ Hx).
      destruct (0 <? cmp y.1 k)%Z eqn:E; [|done]. constructor; [|done]. apply Hoth; [done|]. rewrite (okrel_key _ _ _ _ _ Hx). intros Hy. rewrite Hy in E.
      assert (cmp k k = 0%Z) as E0 by by apply dl_compare_eq. rewrite E0 in E. done.
Qed.
Lemma okrel_del R R' B B' Fk l (cs : list (bytes * dtree)) k : Forall2 (okrel R B Fk) l cs ->
  (forall k' p t, k' <> k -> R p t (fun r => B (k' :: r)) (Fk k') -> R' p t (fun r => B' (k' :: r)) (Fk k')) ->
  Forall2 (okrel R' B' (fset Fk k ∅)) (a_delete cmp l k) (a_delete cmp cs k).
Proof.
  intros H Hag. unfold a_delete. induction H as [|[xk xv] [yk yc] l cs (H1 & q & H2 & H3) H IH]; cbn [List.filter]; [constructor|]. cbn [fst snd] in *. subst xk xv.
  destruct (same_key cmp k yk) eqn:E; cbn [negb]; [done|]. constructor; [|done]. split; [done|]. exists q. cbn [fst snd]. split; [done|].
  assert (N : k <> yk). { intros ->. unfold same_key in E. apply Z.eqb_neq in E. apply E. by apply dl_compare_eq. }
  rewrite fset_other by done. by apply Hag.
Qed.
Lemma assemble_ins d h h' a nn nn' t B B' l Fb Fk F k m c F1 Fb' :
  obody (orep d h) h nn t B l Fb Fk F -> (forall x, x ∈ F -> x ∉ Fk k -> x ∉ Fb -> h' !! x = h !! x) ->
  h' !! a = Some (CDom nn') -> dval nn' = d_val t -> dlo h' (dn_branches nn') (a_insert cmp l k (VDom m)) Fb' -> Fb' ⊆ dom h' ->
  (dn_branches nn' = None <-> B' []) -> (forall k' r, k' <> k -> B' (k' :: r) <-> B (k' :: r)) -> orep d h' m c (fun r => B' (k :: r)) F1 ->
  a ∉ F -> a ∉ Fb' -> a ∉ F1 -> F1 ## Fb' -> (forall x, x ∈ Fb' -> x ∈ Fb \/ x ∉ F) -> (forall x, x ∈ F1 -> x ∈ Fk k \/ x ∉ F) ->
  exists F', orep (S d) h' (Some a) (DT (d_val t) (a_insert cmp (d_cs t) k c)) B' F' /\ forall x, x ∈ F' -> x = a \/ x ∈ Fb' \/ x ∈ F1 \/ x ∈ F.
Proof.
  intros (Hv & Hl & HB & HFb & Hk & Hkk & HF & Hc) Hag Ha Hv' Hl' HFb'd HB0 HBk Hm N1 N2 N3 Hd Hfb' Hf1.
  set (G := F ∖ (Fk k ∪ Fb)).
  assert (HkG : forall k', k' <> k -> Fk k' ⊆ G).
  { intros k' N x Hx. destruct (Hk k') as [Hk1 Hk2]. specialize (Hkk k' k N). unfold G. clear -Hx Hk1 Hk2 Hkk. set_solver. }
  exists ({[a]} ∪ (Fb' ∪ F1 ∪ G)). split; [|intros x Hx; unfold G in Hx; clear -Hx; set_solver].
  assert (HGF : forall x, x ∈ G -> x ∈ F /\ x ∉ Fk k /\ x ∉ Fb) by (intros x Hx; unfold G in Hx; clear -Hx; set_solver).
  eapply (obody_open d h' a nn' _ _ _ Fb' (fset Fk k F1)); [done|intros Hx; apply elem_of_union in Hx as [Hx|[Hx _]%HGF]; [clear -Hx N2 N3; set_solver|done]|].
  split_and!; [done|done|exact HB0|clear; set_solver|..].
  - intros k'. destruct (decide (k = k')) as [<-|N]; [rewrite fset_same|rewrite fset_other by done].
    + split; [clear; set_solver|done].
    + specialize (HkG k' ltac:(congruence)). split; [clear -HkG; set_solver|]. intros x Hx Hx2. apply HkG, HGF in Hx as (? & ? & ?). apply Hfb' in Hx2 as [?|?]; done.
  - intros k1 k2 N12. destruct (decide (k = k1)) as [<-|E1], (decide (k = k2)) as [<-|E2]; rewrite ?fset_same, ?fset_other by done; [done|..].
    + intros x Hx Hx2. apply HkG in Hx2; [|congruence]. apply HGF in Hx2 as (? & ? & ?). apply Hf1 in Hx as [?|?]; done.
    + intros x Hx2 Hx. apply HkG in Hx2; [|congruence]. apply HGF in Hx2 as (? & ? & ?). apply Hf1 in Hx as [?|?]; done.
    + by apply Hkk.
  - pose proof (orep_dom _ _ _ _ _ _ Hm) as Hmd. intros x Hx. apply elem_of_union in Hx as [Hx|Hx]; [clear -Hx Hmd HFb'd; set_solver|].
    apply HGF in Hx as (X1 & X2 & X3). apply elem_of_dom. rewrite Hag by done. apply elem_of_dom. by apply HF.
  - cbn [d_cs]. eapply okrel_ins; [exact Hc| |done]. intros k' p t' N Hp. eapply orep_iff; [intros r; symmetry; by apply HBk|].
    eapply orep_agree; [exact Hp|]. intros x Hx. apply (HkG k' N) in Hx. apply HGF in Hx as (? & ? & ?). by apply Hag.
Qed.
Lemma assemble_del d h h' a nn nn' t B B' l Fb Fk F k Fb' :
  obody (orep d h) h nn t B l Fb Fk F -> (forall x, x ∈ F -> h' !! x = h !! x) ->
  h' !! a = Some (CDom nn') -> dval nn' = d_val t -> dlo h' (dn_branches nn') (a_delete cmp l k) Fb' -> Fb' ⊆ dom h' ->
  (dn_branches nn' = None <-> B' []) -> (forall k' r, k' <> k -> B' (k' :: r) <-> B (k' :: r)) ->
  a ∉ F -> a ∉ Fb' -> (forall x, x ∈ Fb' -> x ∈ Fb \/ x ∉ F) ->
  exists F', orep (S d) h' (Some a) (DT (d_val t) (a_delete cmp (d_cs t) k)) B' F' /\ forall x, x ∈ F' -> x = a \/ x ∈ Fb' \/ x ∈ F.
Proof.
  intros (Hv & Hl & HB & HFb & Hk & Hkk & HF & Hc) Hag Ha Hv' Hl' HFb'd HB0 HBk N1 N2 Hfb'.
  set (G := F ∖ Fb).
  assert (HkG : forall k', Fk k' ⊆ G).
  { intros k' x Hx. destruct (Hk k') as [Hk1 Hk2]. unfold G. clear -Hx Hk1 Hk2. set_solver. }
  exists ({[a]} ∪ (Fb' ∪ G)). split; [|intros x Hx; unfold G in Hx; clear -Hx; set_solver].
  assert (HGF : forall x, x ∈ G -> x ∈ F /\ x ∉ Fb) by (intros x Hx; unfold G in Hx; clear -Hx; set_solver).
  eapply (obody_open d h' a nn' _ _ _ Fb' (fset Fk k ∅)); [done|intros Hx; apply elem_of_union in Hx as [Hx|[Hx _]%HGF]; done|].
  split_and!; [done|done|exact HB0|clear; set_solver|..].
  - intros k'. destruct (decide (k = k')) as [<-|N]; [rewrite fset_same|rewrite fset_other by done].
    + clear; set_solver.
    + specialize (HkG k'). split; [clear -HkG; set_solver|]. intros x Hx Hx2. apply HkG, HGF in Hx as (? & ?). apply Hfb' in Hx2 as [?|?]; done.
  - intros k1 k2 N12. destruct (decide (k = k1)) as [<-|E1], (decide (k = k2)) as [<-|E2]; rewrite ?fset_same, ?fset_other by done; [done|..].
    + clear; set_solver.
    + clear; set_solver.
    + by apply Hkk.
  - intros x Hx. apply elem_of_union in Hx as [Hx|Hx]; [by apply HFb'd|].
    apply HGF in Hx as (X1 & X2). apply elem_of_dom. rewrite Hag by done. apply elem_of_dom. by apply HF.
  - cbn [d_cs]. eapply okrel_del; [exact Hc|]. intros k' p t' N Hp. eapply orep_iff; [intros r; symmetry; by apply HBk|].
    eapply orep_agree; [exact Hp|]. intros x Hx. apply (HkG k') in Hx. apply HGF in Hx as (? & ?). by apply Hag.
Qed.

(** ** Insert. *)
Definition bex B t : Prop := forall q, B q -> d_find t q <> None.
Definition b_ins B t (ls q : path) : Prop := (q = ls /\ (B q \/ d_find t ls = None)) \/ (under q ls = false /\ B q).
Lemma under_nil ls : under [] ls = true.
Proof. done. Qed.
Lemma under_cons k k' q ls : under (k' :: q) (k :: ls) = if bytes_eqb k' k then under q ls else false.
Proof. unfold under. cbn [strip]. by destruct (bytes_eqb k' k). Qed.
Lemma bytes_eqb_refl k : bytes_eqb k k = true.
Proof. by apply bytes_eqb_true. Qed.
Lemma b_ins_root B t k ls : ~ b_ins B t (k :: ls) [].
Proof. intros [[? _]|[? _]]; done. Qed.
Lemma b_ins_other B t k ls k' r : k' <> k -> b_ins B t (k :: ls) (k' :: r) <-> B (k' :: r).
Proof.
  intros N. unfold b_ins. rewrite under_cons. destruct (bytes_eqb k' k) eqn:E; [by apply bytes_eqb_true in E|].
  split; [intros [[[= -> _] _]|[_ ?]]; done|]. intros H. by right.
Qed.
Lemma b_ins_child B t k ls c r : a_get cmp (d_cs t) k = Some c -> b_ins B t (k :: ls) (k :: r) <-> b_ins (fun r => B (k :: r)) c ls r.
Proof. intros E. unfold b_ins. rewrite under_cons, bytes_eqb_refl. cbn [d_find]. rewrite E. naive_solver. Qed.
Lemma b_ins_new B t k ls r : bex B t -> a_get cmp (d_cs t) k = None -> b_ins B t (k :: ls) (k :: r) <-> b_ins (fun r => r = []) d_nil ls r.
Proof.
  intros HB E. unfold b_ins. rewrite under_cons, bytes_eqb_refl. cbn [d_find]. rewrite E.
  assert (Hn : ~ B (k :: r)). { intros H. apply HB in H. cbn [d_find] in H. by rewrite E in H. }
  split.
  - intros [[[= ->] _]|[_ ?]]; [|done]. left. split; [done|]. destruct ls as [|b ls]; [by left|by right].
  - intros [[-> _]|[Hu ->]]; [|done]. left. split; [done|by right].
Qed.
Lemma bex_child B t k c : bex B t -> a_get cmp (d_cs t) k = Some c -> bex (fun r => B (k :: r)) c.
Proof. intros HB E q Hq. apply HB in Hq. cbn [d_find] in Hq. by rewrite E in Hq. Qed.
Lemma bex_nil : bex (fun q => q = []) d_nil.
Proof. by intros q ->. Qed.

Lemma oinsert_loop N v : enough fuel N -> forall ls d h a nn t B l Fb Fk F, h !! a = Some (CDom nn) -> a ∉ F ->
  obody (orep d h) h nn t B l Fb Fk F -> bex B t -> wf N (S d) t -> length ls <= d ->
  wp (x <- visit (dt_insert_step fuel) ls (Some a) ;; set_has x.1 true ;;; set_dval x.1 v) h {[a]}
     (fun _ h' _ => exists F', orep (S d) h' (Some a) (d_insert t ls v) (b_ins B t ls) F' /\ forall x, x ∈ F' -> x = a \/ x ∈ F \/ h !! x = None).
Proof.
  intros Hf. induction ls as [|k ls IH]; intros d h a nn t B l Fb Fk F Ha HaF Hbo HB Hwf Hd.
  - cbn [visit]. cbn [bind fst snd]. eapply wp_set_dom; [exact Ha|clear; set_solver|].
    assert (Hbo' : obody (orep d (<[a:=CDom (DomN (dn_branches nn) true v)]> h)) (<[a:=CDom (DomN (dn_branches nn) true v)]> h) nn t B l Fb Fk F).
    { eapply obody_agree; [exact Hbo|]. intros x Hx. rewrite lookup_insert_ne; [done|]. by intros <-. }
    destruct Hbo' as (Hv & Hl & HB0 & HFb & Hk & Hkk & HF & Hc).
    exists ({[a]} ∪ F). split; [|intros x Hx; clear -Hx; set_solver].
    eapply orep_iff; [|eapply (obody_open d _ a _ (DT (Some v) (d_cs t)) B l Fb Fk F); [by rewrite lookup_insert|done|by split_and!]].
    intros q. unfold b_ins. destruct q as [|b q]; cbn [d_find].
    + split; [intros H; left; split; [done|by left]|intros [[_ [?|?]]|[? _]]; done].
    + split; [intros H; right; split; [done|done]|intros [[? _]|[_ ?]]; done].
  - cbn [length] in Hd. destruct d as [|d]; [lia|]. assert (Hbo' := Hbo). destruct Hbo' as (Hv & Hl & HB0 & HFb & Hk & Hkk & HF & Hc).
    assert (HN : length l <= N). { destruct Hwf as (_ & H & _). by rewrite (Forall2_length _ _ _ Hc). }
    pose proof (wf_child N (S d) t k Hwf ltac:(lia)) as Hwc.
    cbn [visit]. apply bind_assoc. unfold dt_insert_step at 1. apply bind_assoc, wp_bind. eapply wp_ld_dom; [exact Ha|].
    apply bind_assoc, wp_bind. eapply wp_mono; [apply (wp_cow _ _ _ (fun x h' => h' = h /\ x = match a_get cmp l k with Some v => (v, true) | None => (VNil, false) end));
      eapply wp_mono; [eapply dl_get_at; [by eapply dlo_at|by eapply enough_get]|cbn beta; tauto]|].
    cbn beta. intros x h1 W1 ([-> ->] & _ & HW1 & _).
    apply bind_assoc, wp_bind.
    (* the child: a fresh node *)
    assert (Hnext : wp (if (match a_get cmp l k with Some v => (v, true) | None => (VNil, false) end).2
        then p <- as_node (match a_get cmp l k with Some v => (v, true) | None => (VNil, false) end).1 ;; dt_copy p else dt_new) h W1
      (fun q h' W' => exists b nn' B1 l' Fb' Fk' F', q = Some b /\ h !! b = None /\ h' = <[b := CDom nn']> h /\ W' = {[b]} ∪ W1 /\
        obody (orep d h) h nn' (child t k) B1 l' Fb' Fk' F' /\ F' ⊆ Fk k /\ bex B1 (child t k) /\
        forall r, b_ins B t (k :: ls) (k :: r) <-> b_ins B1 (child t k) ls r)).
    { pose proof (F2_get _ (okrel_key (orep (S d) h) B Fk) l (d_cs t) k Hc) as Hg. unfold child.
      destruct (a_get cmp l k) as [q|], (a_get cmp (d_cs t) k) as [c|] eqn:Ec; try done; cbn [fst snd default].
      - destruct Hg as (_ & q' & Eq & b & nn' & l' & Fb' & Fk' & F0' & -> & Hb & HbF & HF0 & Hbo'). cbn [fst snd] in *. subst q. cbn [as_node bind dt_copy].
        apply wp_bind. eapply wp_ld_dom; [exact Hb|]. apply wp_bind, wp_alloc. intros b' Hb'. cbn [wp].
        exists b', nn', (fun r => B (k :: r)), l', Fb', Fk', F0'. split_and!; try done; [rewrite HF0; clear; set_solver|by eapply bex_child|].
        intros r. by apply b_ins_child.
      - unfold dt_new. apply wp_bind, wp_alloc. intros b' Hb'. cbn [wp]. exists b', (DomN None false VNil), (fun q => q = []), [], ∅, (fun _ => ∅), ∅.
        split; [done|]. split; [done|]. split; [done|]. split; [done|]. split; [apply obody_nil|]. split; [apply empty_subseteq|]. split; [apply bex_nil|]. intros r. by apply b_ins_new. }
    eapply wp_mono; [exact Hnext|]. cbn beta. clear Hnext. intros q h1 W2 (b & nn' & B1 & l' & Fb' & Fk' & F' & -> & Hb & -> & -> & Hbo1 & HF' & HB1 & HBk).
    assert (Nba : b <> a) by congruence.
    apply bind_assoc, wp_bind. eapply wp_ld_dom; [by rewrite lookup_insert_ne|].
    apply bind_assoc, wp_bind.
    set (h1 := <[b := CDom nn']> h). assert (Hs1 : h ⊆ h1) by by apply insert_subseteq.
    assert (Hl1 : dlo h1 (dn_branches nn) l Fb).
    { destruct (obody_mono _ _ _ _ _ _ _ _ _ _ Hs1 Hbo) as (_ & ? & _). done. }
    eapply wp_mono; [apply (wp_cow _ _ _ (fun p h' => h1 ⊆ h' /\ exists F', dlo h' p (a_insert cmp l k (VDom (Some b))) F' /\ p <> None /\ F' ⊆ dom h' /\ forall x, x ∈ F' -> x ∈ Fb \/ h1 !! x = None));
      eapply dlo_insert; [exact Hl1|by eapply enough_le]|].
    cbn beta. intros b2 h2 W2 ((Hs2 & Fb2 & Hl2 & Hb2 & HFb2d & HFb2) & _ & HW2 & _).
    assert (Ha1 : h1 !! a = Some (CDom nn)) by (unfold h1; by rewrite lookup_insert_ne).
    assert (Hb1 : h1 !! b = Some (CDom nn')) by (unfold h1; by rewrite lookup_insert).
    assert (Ha2 : h2 !! a = Some (CDom nn)) by by eapply lookup_weaken.
    assert (Hb2' : h2 !! b = Some (CDom nn')) by by eapply lookup_weaken.
    apply bind_assoc, wp_bind. eapply wp_set_branches; [exact Ha2|clear -HW1 HW2; set_solver|]. cbn [bind fst snd].
    set (h3 := <[a := _]> h2).
    assert (HbF : b ∉ F). { intros Hx. apply HF, elem_of_dom in Hx as [? ?]. congruence. }
    assert (HaFb2 : a ∉ Fb2). { intros Hx. apply HFb2 in Hx as [Hx|Hx]; [by apply HaF, HFb|congruence]. }
    assert (HbFb2 : b ∉ Fb2). { intros Hx. apply HFb2 in Hx as [Hx|Hx]; [by apply HbF, HFb|congruence]. }
    assert (Hag3 : forall x, x ∈ F -> h3 !! x = h !! x).
    { intros x Hx. unfold h3. rewrite lookup_insert_ne by (by intros <-). apply HF, elem_of_dom in Hx as [c Hc']. rewrite Hc'.
      eapply lookup_weaken; [|exact Hs2]. by eapply lookup_weaken. }
    assert (HF'F : F' ⊆ F). { etrans; [exact HF'|apply (Hk k)]. }
    eapply wp_mono.
    { eapply (wp_call _ _ {[b]}); [|clear -HW2; set_solver].
      eapply (IH d h3 b nn' (child t k) B1 l' Fb' Fk' F'); [unfold h3; by rewrite lookup_insert_ne|by intros Hx; apply HbF, HF'F| |done|done|lia].
      eapply obody_agree; [exact Hbo1|]. intros x Hx. apply Hag3. by apply HF'F. }
    cbn beta. intros _ h4 W4 [(W3 & (F1 & Hq4 & HF1) & _ & _) [Hu _]].
    assert (Hag4 : forall x c, h3 !! x = Some c -> x <> b -> h4 !! x = Some c). { intros x c Hx Nx. apply Hu; [done|]. clear -Nx. set_solver. }
    assert (Hd3 : forall x, h3 !! x = None -> h !! x = None).
    { intros x Hx. destruct (h !! x) as [c|] eqn:E; [|done]. exfalso. unfold h3 in Hx. destruct (decide (x = a)) as [->|Nx]; [by rewrite lookup_insert in Hx|].
      rewrite lookup_insert_ne in Hx by done. eapply (lookup_weaken _ h1) in E; [|done]. eapply lookup_weaken in E; [|exact Hs2]. congruence. }
    destruct (assemble_ins (S d) h h4 a nn (DomN b2 (dn_has nn) (dn_val nn)) t B (b_ins B t (k :: ls)) l Fb Fk F k (Some b) (d_insert (child t k) ls v) F1 Fb2) as (Fr & Hr & HFr); try done.
    + intros x Hx _ _. assert (x <> b) by (by intros ->). assert (Hx' := HF x Hx). apply elem_of_dom in Hx' as [c Hc']. rewrite Hc'.
      apply Hag4; [|done]. by rewrite Hag3.
    + apply Hag4; [|done]. unfold h3. by rewrite lookup_insert.
    + cbn [dn_branches]. eapply dlo_agree; [exact Hl2|]. intros x Hx. assert (Hx' := HFb2d x Hx). apply elem_of_dom in Hx' as [c Hc']. rewrite Hc'.
      apply Hag4; [|by intros ->]. unfold h3. rewrite lookup_insert_ne; [done|]. by intros <-.
    + intros x Hx. assert (Hx' := HFb2d x Hx). apply elem_of_dom in Hx' as [c Hc']. eapply elem_of_dom_2, Hag4; [|by intros ->].
      unfold h3. rewrite lookup_insert_ne; [exact Hc'|]. by intros <-.
    + cbn [dn_branches]. split; [done|]. intros H. by apply b_ins_root in H.
    + intros k' r Nk. by apply b_ins_other.
    + eapply orep_iff; [|exact Hq4]. intros r. by rewrite HBk.
    + intros Hx. apply HF1 in Hx as [Hx|[Hx|Hx]]; [congruence|by apply HaF, HF'F|]. apply Hd3 in Hx. congruence.
    + intros x Hx Hx2. assert (Hd2 := HFb2d x Hx2). apply elem_of_dom in Hd2 as [c Hc'].
      apply HF1 in Hx as [->|[Hx|Hx]]; [done| |].
      * apply HFb2 in Hx2 as [Hx2|Hx2].
        -- destruct (Hk k) as [_ Hk2]. apply HF' in Hx. by apply (Hk2 x).
        -- apply HF'F, HF, elem_of_dom in Hx as [c2 Hc2]. eapply (lookup_weaken _ h1) in Hc2; [|done]. congruence.
      * unfold h3 in Hx. rewrite lookup_insert_ne in Hx by (by intros <-). congruence.
    + intros x Hx. apply HFb2 in Hx as [Hx|Hx]; [by left|]. right. intros HxF. apply HF, elem_of_dom in HxF as [c Hc2]. eapply (lookup_weaken _ h1) in Hc2; [|done]. congruence.
    + intros x Hx. apply HF1 in Hx as [->|[Hx|Hx]]; [by right|left; by apply HF'|]. right. intros HxF. apply Hd3 in Hx. apply HF, elem_of_dom in HxF as [c Hc2]. congruence.
    + exists Fr. split; [exact Hr|]. intros x Hx. apply HFr in Hx as [?|[Hx|[Hx|?]]]; [by left| | |by right; left].
      * apply HFb2 in Hx as [Hx|Hx]; [right; left; by apply HFb|]. right; right. destruct (h !! x) as [c|] eqn:E; [|done]. eapply (lookup_weaken _ h1) in E; [|done]. congruence.
      * apply HF1 in Hx as [->|[Hx|Hx]]; [by right; right|right; left; by apply HF'F|right; right; by apply Hd3].
Qed.
(** A version: nil or a node; nil branches of the root are not recorded. *)
Definition oroot d h (p : ptr) t B : Prop :=
  (p = None /\ t = d_nil) \/ exists B0 F, orep d h p t B0 F /\ forall q, q <> [] -> B0 q <-> B q.
Definition bexr B t : Prop := forall q, q <> [] -> B q -> d_find t q <> None.
Lemma oroot_mono d h h' p t B : h ⊆ h' -> oroot d h p t B -> oroot d h' p t B.
Proof. intros Hs [H|(B0 & F & H & HB)]; [by left|right]. exists B0, F. split; [by eapply orep_mono|done]. Qed.
Lemma oroot_droot d h p t B : oroot d h p t B -> droot d h p t.
Proof. intros [H|(B0 & F & H & HB)]; [by left|right; by eapply orep_drep]. Qed.
Lemma oroot_iff d h p t B B' : (forall q, q <> [] -> B q <-> B' q) -> oroot d h p t B -> oroot d h p t B'.
Proof. intros HB [H|(B0 & F & H & HB0)]; [by left|right]. exists B0, F. split; [done|]. intros q Hq. rewrite HB0 by done. by apply HB. Qed.
Lemma bexr_bex B B0 t : (forall q, q <> [] -> B0 q <-> B q) -> bexr B t -> bex B0 t.
Proof. intros H1 H2 q Hq. destruct q as [|b q]; [done|]. apply H2; [done|]. by apply H1. Qed.
Lemma b_ins_iff B B0 t ls q : (forall q, q <> [] -> B0 q <-> B q) -> q <> [] -> b_ins B0 t ls q <-> b_ins B t ls q.
Proof. intros H Hq. unfold b_ins. by rewrite H. Qed.
Lemma dt_insert_own N d h p t B nm ls v : enough fuel N -> oroot (S d) h p t B -> bexr B t -> wf N (S d) t -> nm_c nm = wire ls -> Forall good_label ls -> length ls <= d ->
  wp (dt_insert fuel p nm v) h ∅ (fun r h' _ => h ⊆ h' /\ r <> None /\ oroot (S d) h' r (d_insert t ls v) (b_ins B t ls)).
Proof.
  intros Hf Hp HB Hwf Hnm Hg Hd. unfold dt_insert. apply wp_cow0. apply wp_bind.
  assert (Hcopy : wp (dt_copy p) h ∅ (fun r h' W' => exists a nn B0 l Fb Fk F, r = Some a /\ h !! a = None /\ h' = <[a := CDom nn]> h /\ W' = {[a]} ∪ ∅ /\
      obody (orep d h) h nn t B0 l Fb Fk F /\ forall q, q <> [] -> B0 q <-> B q)).
  { destruct Hp as [[-> ->]|(B0 & F & (b & nn & l & Fb & Fk & F0 & -> & Hb & _ & _ & Hbo) & HB0)]; unfold dt_copy.
    - unfold dt_new. apply wp_bind, wp_alloc. intros a Ha. cbn [wp]. exists a, (DomN None false VNil), (fun q => q = []), [], ∅, (fun _ => ∅), ∅.
      split; [done|]. split; [done|]. split; [done|]. split; [done|]. split; [apply obody_nil|]. intros q Hq. split; [done|]. intros H. apply HB in H; [|done]. by destruct q.
    - apply wp_bind. eapply wp_ld_dom; [exact Hb|]. apply wp_bind, wp_alloc. intros a Ha. cbn [wp]. exists a, nn, B0, l, Fb, Fk, F0. by split_and!. }
  eapply wp_mono; [exact Hcopy|]. cbn beta. intros r h1 W1 (a & nn & B0 & l & Fb & Fk & F & -> & Ha & -> & -> & Hbo & HB0).
  assert (HaF : a ∉ F). { destruct Hbo as (_ & _ & _ & _ & _ & _ & HF & _). intros Hx. apply HF, elem_of_dom in Hx as [? ?]. congruence. }
  assert (Hw : wp (x <- visit (dt_insert_step fuel) ls (Some a) ;; set_has x.1 true ;;; set_dval x.1 v) (<[a:=CDom nn]> h) {[a]}
     (fun _ h' _ => oroot (S d) h' (Some a) (d_insert t ls v) (b_ins B t ls))).
  { eapply wp_mono; [eapply (oinsert_loop N v Hf ls d _ a nn t B0 l Fb Fk F); [by rewrite lookup_insert|done| |by eapply bexr_bex|done|done]|].
    - eapply obody_mono; [|exact Hbo]. by apply insert_subseteq.
    - cbn beta. intros _ h' _ (F' & HF' & _). right. exists (b_ins B0 t ls), F'. split; [done|]. intros q Hq. by apply b_ins_iff. }
  apply wp_bind_inv in Hw.
  apply wp_bind. eapply wp_get_labels; [exact Hnm|exact Hg|]. eapply wp_mono.
  { eapply wp_weaken_W; [exact Hw|]. clear; set_solver. }
  cbn beta. intros x h2 W2 (W3 & Hx & HW & _). apply wp_bind_inv in Hx. apply wp_bind. eapply wp_mono; [eapply wp_weaken_W; [exact Hx|exact HW]|].
  cbn beta. intros _ h3 W4 (W5 & Hx2 & HW2 & _). apply wp_bind. eapply wp_mono; [eapply wp_weaken_W; [exact Hx2|exact HW2]|].
  cbn beta. intros _ h4 W6 (W7 & Hd4 & _). cbn [wp]. done.
Qed.

(** ** The deletions. The frames above the node at [pi], which has the cells [Fc]. *)
Notation frame := (bytes * ptr * dtree)%type.
Fixpoint oframes h (N d : nat) (pi : path) (Fc : gset loc) (fr : list frame) (D : nat) B (F : gset loc) : Prop :=
  match fr with
  | [] => d = D /\ pi = [] /\ Fc = F
  | f :: fr => exists a nn l Fb Fk F0 pi', f_ptr f = Some a /\ h !! a = Some (CDom nn) /\ a ∉ F0 /\
      obody (orep d h) h nn (f_tree f) (fun r => B (pi' ++ r)) l Fb Fk F0 /\ dn_branches nn <> None /\ Fk (f_lab f) = Fc /\ wf N (S d) (f_tree f) /\
      pi = pi' ++ [f_lab f] /\ oframes h N (S d) pi' ({[a]} ∪ F0) fr D B F
  end.
Lemma oframes_mono h h' N B F fr : h ⊆ h' -> forall d pi Fc D, oframes h N d pi Fc fr D B F -> oframes h' N d pi Fc fr D B F.
Proof.
  intros Hs. induction fr as [|f fr IH]; intros d pi Fc D; cbn [oframes]; [done|].
  intros (a & nn & l & Fb & Fk & F0 & pi' & ? & ? & ? & ? & ? & ? & ? & ? & ?). exists a, nn, l, Fb, Fk, F0, pi'.
  split_and!; try done; [by eapply lookup_weaken|by eapply obody_mono|by apply IH].
Qed.
Lemma oframes_sub h N B F fr : forall d pi Fc D, oframes h N d pi Fc fr D B F -> Fc ⊆ F.
Proof.
  induction fr as [|f fr IH]; intros d pi Fc D; cbn [oframes]; [by intros (_ & _ & ->)|].
  intros (a & nn & l & Fb & Fk & F0 & pi' & _ & _ & _ & (_ & _ & _ & _ & Hk & _) & _ & <- & _ & _ & H). apply IH in H.
  destruct (Hk (f_lab f)) as [Hk1 _]. clear -Hk1 H. set_solver.
Qed.
(** The node at [pi] is replaced. *)
Definition b_upd B (pi : path) Bm (q : path) : Prop := match strip pi q with Some r => Bm r | None => B q end.
Lemma strip_app pi k q : strip (pi ++ [k]) q = match strip pi q with Some r => strip [k] r | None => None end.
Proof.
  revert q. induction pi as [|b pi IH]; intros q; [done|]. destruct q as [|c q]; [done|]. cbn [app strip]. destruct (bytes_eqb b c); [apply IH|done].
Qed.
Lemma strip_self pi r : strip pi (pi ++ r) = Some r.
Proof. by apply strip_spec. Qed.
Lemma b_upd_app B pi k Bm q : b_upd B (pi ++ [k]) Bm q <-> b_upd B pi (b_upd (fun r => B (pi ++ r)) [k] Bm) q.
Proof.
  unfold b_upd. rewrite strip_app. destruct (strip pi q) as [r|] eqn:E; [|done]. apply strip_spec in E as ->. done.
Qed.
Lemma b_upd_hit B k Bm r : b_upd B [k] Bm (k :: r) <-> Bm r.
Proof. unfold b_upd. cbn [strip]. by rewrite bytes_eqb_refl. Qed.
Lemma b_upd_miss B k Bm k' r : k' <> k -> b_upd B [k] Bm (k' :: r) <-> B (k' :: r).
Proof. intros N. unfold b_upd. cbn [strip]. destruct (bytes_eqb k k') eqn:E; [|done]. apply bytes_eqb_true in E. congruence. Qed.

(** Writing the branches of a fresh copy [a] of the node. *)
Lemma oput_del N d h0 h a nn t B l Fb Fk F k Bm W : h0 ⊆ h -> F ⊆ dom h0 -> h !! a = Some (CDom nn) -> h0 !! a = None -> a ∈ W ->
  obody (orep d h) h nn t B l Fb Fk F -> dn_branches nn <> None -> length l <= N -> enough fuel N ->
  wp (x <- dl_raw_delete fuel (dn_branches nn) k ;; set_branches (Some a) x.1) h W (fun _ h' W' =>
    h0 ⊆ h' /\ W ⊆ W' /\ exists F', orep (S d) h' (Some a) (DT (d_val t) (a_delete cmp (d_cs t) k)) (b_upd B [k] Bm) F' /\
    forall x, x ∈ F' -> x ∈ F \/ h0 !! x = None).
Proof.
  intros Hs HFd Ha Ha0 HW Hbo Hbr HN Hf. assert (Hbo' := Hbo). destruct Hbo' as (Hv & Hl & HB0 & HFb & Hk & Hkk & HF & Hc).
  apply wp_bind. eapply wp_mono; [apply (wp_cow _ _ W (fun r h' => h ⊆ h' /\ exists F', dlo h' r.1 (a_delete cmp l k) F' /\ (r.1 = None <-> dn_branches nn = None) /\ F' ⊆ dom h' /\
    forall x, x ∈ F' -> x ∈ Fb \/ h !! x = None)); eapply dlo_delete; [exact Hl|by eapply enough_le]|].
  cbn beta. intros x h1 W1 ((Hs1 & Fb' & Hl1 & Hn1 & HFb1d & HFb1) & _ & HW1 & _).
  assert (Ha1 : h1 !! a = Some (CDom nn)) by by eapply lookup_weaken.
  assert (HaF : a ∉ F). { intros Hx. apply HFd, elem_of_dom in Hx as [? ?]. congruence. }
  assert (HaFb : a ∉ Fb'). { intros Hx. apply HFb1 in Hx as [Hx|Hx]; [by apply HaF, HFb|congruence]. }
  eapply wp_set_branches; [exact Ha1|by apply HW1|]. set (h2 := <[a := _]> h1).
  assert (Hs2 : h0 ⊆ h2) by (apply sub_fresh; [by etrans|done]).
  assert (Hnone : forall x, h !! x = None -> h0 !! x = None). { intros z Hz. by eapply lookup_weaken_None. }
  split; [done|]. split; [done|].
  destruct (assemble_del d h h2 a nn (DomN x.1 (dn_has nn) (dn_val nn)) t B (b_upd B [k] Bm) l Fb Fk F k Fb') as (F' & HF' & HFF); try done.
  - intros z Hz. unfold h2. rewrite lookup_insert_ne by (by intros <-). apply HF, elem_of_dom in Hz as [c Hc']. rewrite Hc'. by eapply lookup_weaken.
  - unfold h2. by rewrite lookup_insert.
  - cbn [dn_branches]. eapply dlo_agree; [exact Hl1|]. intros z Hz. unfold h2. rewrite lookup_insert_ne; [done|]. by intros <-.
  - intros z Hz. apply elem_of_dom. unfold h2. rewrite lookup_insert_ne by (by intros <-). by apply elem_of_dom, HFb1d.
  - cbn [dn_branches]. rewrite Hn1. unfold b_upd. cbn [strip]. exact HB0.
  - intros k' r Nk. by apply b_upd_miss.
  - intros z Hz. apply HFb1 in Hz as [Hz|Hz]; [by left|]. right. intros HzF. apply HF, elem_of_dom in HzF as [? ?]. congruence.
  - exists F'. split; [done|]. intros z Hz. apply HFF in Hz as [->|[Hz|Hz]]; [by right| |by left].
    apply HFb1 in Hz as [Hz|Hz]; [left; by apply HFb|right; by apply Hnone].
Qed.
Lemma oput_ins N d h0 h a nn t B l Fb Fk F k m c Bm Fm W : h0 ⊆ h -> F ⊆ dom h0 -> h !! a = Some (CDom nn) -> h0 !! a = None -> a ∈ W ->
  obody (orep d h) h nn t B l Fb Fk F -> dn_branches nn <> None -> length l <= N -> enough fuel N ->
  orep d h m c Bm Fm -> a ∉ Fm -> (forall x, x ∈ Fm -> x ∈ Fk k \/ h0 !! x = None) -> 
  wp (b <- dl_raw_insert fuel (dn_branches nn) k (VDom m) ;; set_branches (Some a) b) h W (fun _ h' W' =>
    h0 ⊆ h' /\ W ⊆ W' /\ exists F', orep (S d) h' (Some a) (DT (d_val t) (a_insert cmp (d_cs t) k c)) (b_upd B [k] Bm) F' /\
    forall x, x ∈ F' -> x ∈ F \/ h0 !! x = None).
Proof.
  intros Hs HFd Ha Ha0 HW Hbo Hbr HN Hf Hm Ham HFm. assert (Hbo' := Hbo). destruct Hbo' as (Hv & Hl & HB0 & HFb & Hk & Hkk & HF & Hc).
  apply wp_bind. eapply wp_mono; [apply (wp_cow _ _ W (fun b h' => h ⊆ h' /\ exists F', dlo h' b (a_insert cmp l k (VDom m)) F' /\ b <> None /\ F' ⊆ dom h' /\
    forall x, x ∈ F' -> x ∈ Fb \/ h !! x = None)); eapply dlo_insert; [exact Hl|by eapply enough_le]|].
  cbn beta. intros x h1 W1 ((Hs1 & Fb' & Hl1 & Hn1 & HFb1d & HFb1) & _ & HW1 & _).
  assert (Ha1 : h1 !! a = Some (CDom nn)) by by eapply lookup_weaken.
  assert (HaF : a ∉ F). { intros Hx. apply HFd, elem_of_dom in Hx as [? ?]. congruence. }
  assert (HaFb : a ∉ Fb'). { intros Hx. apply HFb1 in Hx as [Hx|Hx]; [by apply HaF, HFb|congruence]. }
  eapply wp_set_branches; [exact Ha1|by apply HW1|]. set (h2 := <[a := _]> h1).
  assert (Hs2 : h0 ⊆ h2) by (apply sub_fresh; [by etrans|done]).
  assert (Hnone : forall x, h !! x = None -> h0 !! x = None). { intros z Hz. by eapply lookup_weaken_None. }
  pose proof (orep_dom _ _ _ _ _ _ Hm) as Hmd.
  split; [done|]. split; [done|].
  destruct (assemble_ins d h h2 a nn (DomN x (dn_has nn) (dn_val nn)) t B (b_upd B [k] Bm) l Fb Fk F k m c Fm Fb') as (F' & HF' & HFF); try done.
  - intros z Hz _ _. unfold h2. rewrite lookup_insert_ne by (by intros <-). apply HF, elem_of_dom in Hz as [c' Hc']. rewrite Hc'. by eapply lookup_weaken.
  - unfold h2. by rewrite lookup_insert.
  - cbn [dn_branches]. eapply dlo_agree; [exact Hl1|]. intros z Hz. unfold h2. rewrite lookup_insert_ne; [done|]. by intros <-.
  - intros z Hz. apply elem_of_dom. unfold h2. rewrite lookup_insert_ne by (by intros <-). by apply elem_of_dom, HFb1d.
  - cbn [dn_branches]. unfold b_upd. cbn [strip]. rewrite <- HB0. done.
  - intros k' r Nk. by apply b_upd_miss.
  - eapply orep_iff; [intros r; symmetry; apply b_upd_hit|]. eapply orep_agree; [exact Hm|]. intros z Hz. unfold h2.
    rewrite lookup_insert_ne by (by intros <-). apply Hmd, elem_of_dom in Hz as [c' Hc']. rewrite Hc'. by eapply lookup_weaken.
  - intros z Hz Hz2. assert (Hz' := Hmd z Hz). apply elem_of_dom in Hz' as [c' Hc']. apply HFb1 in Hz2 as [Hz2|Hz2]; [|congruence].
    apply HFm in Hz as [Hz|Hz]; [destruct (Hk k) as [_ Hk2]; by apply (Hk2 z)|]. apply HFb, HFd, elem_of_dom in Hz2 as [? ?]. congruence.
  - intros z Hz. apply HFb1 in Hz as [Hz|Hz]; [by left|]. right. intros HzF. apply HF, elem_of_dom in HzF as [? ?]. congruence.
  - intros z Hz. apply HFm in Hz as [Hz|Hz]; [by left|]. right. intros HzF. apply HFd, elem_of_dom in HzF as [? ?]. congruence.
  - exists F'. split; [done|]. intros z Hz. apply HFF in Hz as [->|[Hz|[Hz|Hz]]]; [by right| | |by left].
    + apply HFb1 in Hz as [Hz|Hz]; [left; by apply HFb|right; by apply Hnone].
    + apply HFm in Hz as [Hz|Hz]; [left; by apply (Hk k)|by right].
Qed.
Lemma owf_len N d t R B Fk l : wf N (S d) t -> Forall2 (okrel R B Fk) l (d_cs t) -> length l <= N.
Proof. intros (_ & H & _) Hc. by rewrite (Forall2_length _ _ _ Hc). Qed.
Lemma ocopy_branch N D h0 B F : enough fuel N -> forall fr d h pi Fc m tm Bm Fm, h0 ⊆ h -> oframes h0 N d pi Fc fr D B F -> orep d h m tm Bm Fm ->
  (forall x, x ∈ Fm -> x ∈ Fc \/ h0 !! x = None) ->
  wp (dt_copy_branch fuel m (map f_lab fr) (map f_ptr fr)) h ∅ (fun r h' _ => h0 ⊆ h' /\ exists F', orep D h' r (refold fr tm) (b_upd B pi Bm) F').
Proof.
  intros Hf. induction fr as [|[[k p] t] fr IH]; intros d h pi Fc m tm Bm Fm Hs Hfr Hm HFm.
  { cbn in Hfr. destruct Hfr as (-> & -> & ->). cbn [map dt_copy_branch wp]. split; [done|]. exists Fm. done. }
  destruct Hfr as (a & nn & l & Fb & Fk & F0 & pi' & Ea & Ha & HaF & Hbo & Hbr & HFk & Hwf & -> & Hfr).
  cbn [f_ptr f_tree f_lab fst snd] in *. subst p. cbn [map dt_copy_branch f_ptr f_lab fst snd].
  assert (HF0 : F0 ⊆ dom h0) by by destruct Hbo as (_ & _ & _ & _ & _ & _ & ? & _).
  assert (HN : length l <= N). { destruct Hbo as (_ & _ & _ & _ & _ & _ & _ & Hc). by eapply owf_len. }
  unfold dt_copy. apply bind_assoc, wp_bind. eapply wp_ld_dom; [by eapply lookup_weaken|]. cbn [bind].
  apply bind_assoc, wp_bind, wp_alloc. intros b Hb. cbn [bind].
  set (h1 := <[b := CDom nn]> h). assert (Hs1 : h ⊆ h1) by by apply insert_subseteq.
  assert (Hm1 := orep_mono _ _ _ _ _ _ _ Hs1 Hm).
  assert (Hdead := dead_wp _ d m tm (orep_drep _ _ _ _ _ _ Hm1) ({[b]} ∪ ∅)). apply wp_bind_inv in Hdead.
  apply wp_bind. eapply wp_mono; [exact Hdead|]. cbn beta. intros mn h2 W2 Hd2. apply wp_bind. eapply wp_mono; [exact Hd2|].
  cbn beta. clear mn h2 W2 Hd2. intros dd h2 W2 (-> & -> & HW2).
  apply wp_bind. eapply wp_ld_dom; [unfold h1; by rewrite lookup_insert|].
  assert (Hb0 : h0 !! b = None) by by eapply lookup_weaken_None.
  assert (HbW : b ∈ W2) by (clear -HW2; set_solver).
  assert (Hbo1 : obody (orep d h1) h1 nn t (fun r => B (pi' ++ r)) l Fb Fk F0) by (eapply (obody_mono d h0); [by etrans|done]).
  apply wp_bind.
  assert (Hput : wp (if dead tm then x <- dl_raw_delete fuel (dn_branches nn) k ;; set_branches (Some b) x.1
            else b0 <- dl_raw_insert fuel (dn_branches nn) k (VDom m) ;; set_branches (Some b) b0) h1 W2
     (fun _ h' W' => h0 ⊆ h' /\ W2 ⊆ W' /\ exists F', orep (S d) h' (Some b) (put t k tm) (b_upd (fun r => B (pi' ++ r)) [k] Bm) F' /\ forall x, x ∈ F' -> x ∈ F0 \/ h0 !! x = None)).
  { unfold put. destruct (dead tm).
    - apply (oput_del N d h0 h1 b nn t _ l Fb Fk F0 k Bm); try done; [by etrans|unfold h1; by rewrite lookup_insert].
    - apply (oput_ins N d h0 h1 b nn t _ l Fb Fk F0 k m tm Bm Fm); try done; [by etrans|unfold h1; by rewrite lookup_insert| |].
      + intros Hx. apply (orep_dom _ _ _ _ _ _ Hm), elem_of_dom in Hx as [? ?]. congruence.
      + by rewrite HFk. }
  eapply wp_mono; [exact Hput|]. cbn beta. intros _ h3 W3 (Hs3 & _ & F3 & Hd3 & HF3).
  eapply wp_mono; [eapply wp_weaken_W; [eapply (IH (S d) h3 pi' _ (Some b)); [exact Hs3|exact Hfr|exact Hd3|]|apply empty_subseteq]|].
  { intros x Hx. apply HF3 in Hx as [Hx|Hx]; [left; clear -Hx; set_solver|by right]. }
  cbn beta. intros r h4 W4 (_ & [Hs4 (F' & Hr)] & _). split; [done|]. exists F'. eapply orep_iff; [|exact Hr]. intros q. symmetry. apply b_upd_app.
Qed.

Definition obranch_post h N D B F t ls fr0 (pi0 : path) (A : nat) (r : dt_branch * bool) h' : Prop :=
  h' = h /\
  match d_find t ls with
  | None => r.2 = false /\ exists n i labs nods, r.1 = (n, i, labs, nods) /\ length labs = S A + length fr0 /\ length nods = S A + length fr0
  | Some x => r.2 = true /\ exists q fr y (LA : list bytes) (As : list ptr) d' Fq, r.1 = (q, Z.of_nat (A - length ls), LA ++ y :: map f_lab fr, As ++ q :: map f_ptr fr) /\
      length LA = A - length ls /\ length As = A - length ls /\ oframes h N d' (pi0 ++ ls) Fq fr D B F /\ orep d' h q x (fun r => B ((pi0 ++ ls) ++ r)) Fq /\ wf N d' x /\
      length fr = length fr0 + length ls /\ (forall m, refold fr m = refold fr0 (d_upd t ls m))
  end.
Lemma obranch N D h B F : enough fuel N -> forall ls d p t fr0 pi0 Fc (LA : list bytes) (As : list ptr) y,
  orep d h p t (fun r => B (pi0 ++ r)) Fc -> wf N d t -> oframes h N d pi0 Fc fr0 D B F -> length LA = length As -> length ls <= S (length As) ->
  (S (length As) =? length ls) && (match d_find t ls with Some _ => true | None => false end) = false ->
  wp (visit (dt_branch_step fuel) ls (p, Z.of_nat (length As), LA ++ y :: map f_lab fr0, As ++ p :: map f_ptr fr0)) h ∅
     (fun r h' _ => obranch_post h N D B F t ls fr0 pi0 (length As) r h').
Proof.
  intros Hf. induction ls as [|a ls IH]; intros d p t fr0 pi0 Fc LA As y Hp Hwf Hfr HL Hls Hcond.
  { cbn [visit wp]. split; [done|]. cbn [d_find fst snd]. split; [done|].
    exists p, fr0, y, LA, As, d, Fc. cbn [length]. rewrite Nat.sub_0_r, app_nil_r. split_and!; try done; lia. }
  destruct d as [|d]; [done|]. destruct Hp as (n & nn & l & Fb & Fk & F0 & -> & Hn & HnF & -> & Hbo). assert (Hbo' := Hbo). destruct Hbo' as (Hv & Hl & HB0 & HFb & Hk & Hkk & HF & Hc).
  pose proof (F2_get _ (okrel_key _ _ _) l (d_cs t) a Hc) as Hg.
  assert (Hget : wp (dl_raw_get fuel (dn_branches nn) a) h ∅ (fun x h' W' => h' = h /\ x = match a_get cmp l a with Some v => (v, true) | None => (VNil, false) end)).
  { eapply dl_get_at; [by eapply dlo_at|eapply enough_get; [exact Hf|by eapply owf_len]]. }
  cbn [length] in Hls.
  destruct (a_get cmp (d_cs t) a) as [c|] eqn:Ec.
  2: { (* not found *)
    destruct (a_get cmp l a) as [q|]; [done|]. cbn [visit]. apply wp_bind. unfold dt_branch_step at 1.
    rewrite <- HL, arr_set_mid. cbn [bind]. apply wp_bind. eapply wp_ld_dom; [exact Hn|]. apply wp_bind. eapply wp_mono; [exact Hget|].
    cbn beta. intros x h' W' [-> ->]. cbn [wp fst snd]. split; [done|]. cbn [d_find]. rewrite Ec. split; [done|].
    eexists _, _, _, _. split_and!; [done|..]; rewrite !app_length; cbn [length]; rewrite map_length; lia. }
  destruct (a_get cmp l a) as [q|] eqn:El; [|done]. destruct Hg as (_ & q' & Eq & Hq). cbn [fst snd] in Eq, Hq. subst q.
  assert (Hbr : dn_branches nn <> None). { intros E. rewrite E in Hl. destruct Hl as [-> _]. done. }
  assert (Hwc : wf N d c). { apply ag_in in Ec. destruct Hwf as (_ & _ & H3). rewrite Forall_forall in H3. by apply H3 in Ec as (_ & ? & _). }
  destruct (decide (As = [])) as [->|HA].
  { (* no room: excluded *)
    cbn [length] in *. assert (ls = []) as -> by (apply nil_length_inv; lia). cbn [d_find length Nat.eqb andb] in Hcond. by rewrite Ec in Hcond. }
  destruct (exists_last HA) as (As' & z & ->). assert (HLA : LA <> []) by (intros ->; rewrite app_length in HL; simpl in HL; lia).
  destruct (exists_last HLA) as (LA' & y' & ->). rewrite !app_length in *. cbn [length] in *.
  assert (Hq' : orep d h q' c (fun r => B ((pi0 ++ [a]) ++ r)) (Fk a)). { eapply orep_iff; [|exact Hq]. intros r. by rewrite <- app_assoc. }
  assert (Hfr' : oframes h N d (pi0 ++ [a]) (Fk a) ((a, Some n, t) :: fr0) D B F). { exists n, nn, l, Fb, Fk, F0, pi0. by split_and!. }
  pose proof (IH d q' c ((a, Some n, t) :: fr0) (pi0 ++ [a]) (Fk a) LA' As' y' Hq' Hwc Hfr' ltac:(lia) ltac:(lia)) as IH'.
  assert (Hstep : wp (dt_branch_step fuel (Some n, Z.of_nat (length As' + 1), (LA' ++ [y']) ++ y :: map f_lab fr0, (As' ++ [z]) ++ Some n :: map f_ptr fr0) a) h ∅
    (fun r h' W' => h' = h /\ r = ((q', Z.of_nat (length As'), LA' ++ y' :: map f_lab ((a, Some n, t) :: fr0), As' ++ q' :: map f_ptr ((a, Some n, t) :: fr0)), true))).
  { unfold dt_branch_step. replace (Z.of_nat (length As' + 1)) with (Z.of_nat (length (LA' ++ [y']))) by (rewrite app_length; simpl; lia).
    rewrite arr_set_mid. cbn [bind]. apply wp_bind. eapply wp_ld_dom; [exact Hn|]. apply wp_bind. eapply wp_mono; [exact Hget|].
    cbn beta. intros x h' W' [-> ->]. cbn [fst snd as_node bind].
    replace (Z.of_nat (length (LA' ++ [y'])) - 1)%Z with (Z.of_nat (length As')) by (rewrite app_length; simpl; lia).
    rewrite <- app_assoc. cbn [app]. rewrite arr_set_mid. cbn [bind wp]. split; [done|]. by rewrite <- app_assoc. }
  cbn [d_find] in Hcond. rewrite Ec in Hcond. cbn [visit].
  replace (S (length As' + 1) =? S (length ls)) with (S (length As') =? length ls) in Hcond by (cbn [Nat.eqb]; by rewrite Nat.add_1_r).
  specialize (IH' Hcond).
  apply wp_bind. eapply wp_mono; [exact Hstep|]. cbn beta. intros x h' W' [-> ->]. cbn [fst snd].
  eapply wp_mono; [eapply wp_weaken_W; [exact IH'|apply empty_subseteq]|]. cbn beta. intros r h' W'' (_ & [-> Hr] & _).
  split; [done|]. cbn [d_find]. rewrite Ec. destruct (d_find c ls) as [x|].
  - destruct Hr as (Hr & q & fr & y0 & LA0 & As0 & d' & Fq & E & H1 & H2 & H3 & H4 & H5 & H6 & H7). split; [done|].
    exists q, fr, y0, LA0, As0, d', Fq. cbn [length] in *. rewrite <- (app_assoc pi0) in H3, H4. cbn [app] in H3, H4.
    replace (length As' + 1 - S (length ls)) with (length As' - length ls) by lia. split_and!; try done; try lia.
    intros m. rewrite H7. cbn [refold fold_left d_upd]. unfold f_tree, f_lab. simpl. unfold child. by rewrite Ec.
  - destruct Hr as (Hr & n0 & i0 & l0 & m0 & E & H1 & H2). split; [done|]. exists n0, i0, l0, m0. cbn [length] in *. split_and!; [done|lia..].
Qed.
Lemma oget_branch N d h p t nm ls B F : enough fuel N -> orep d h p t B F -> wf N d t -> nm_c nm = wire ls -> Forall good_label ls -> length ls <= 126 \/ d_find t ls = None -> length ls <= 127 ->
  wp (dt_get_branch fuel p nm no_labels no_nodes) h ∅ (fun r h' _ => h' = h /\
    match d_find t ls with
    | None => r.1.1 = 127%Z /\ length r.2 = 127
    | Some x => exists q fr y (LA : list bytes) (As : list ptr) d' Fq, r = (Z.of_nat (length As), LA ++ y :: map f_lab fr, As ++ q :: map f_ptr fr) /\
        length LA = length As /\ length As + length ls = 126 /\ oframes h N d' ls Fq fr d B F /\ orep d' h q x (fun r => B (ls ++ r)) Fq /\ wf N d' x /\
        length fr = length ls /\ (forall m, refold fr m = d_upd t ls m)
    end).
Proof.
  intros Hf Hp Hwf Hnm Hg Hls Hls2. unfold dt_get_branch. rewrite no_nodes_eq, no_labels_eq.
  assert (El : @length bytes (repeat [] 126 ++ [[]]) = 127) by done. rewrite El.
  replace (Z.of_nat 127 - 1)%Z with (Z.of_nat (length (repeat (@None loc) 126))) by done. rewrite arr_set_mid. cbn [bind].
  pose proof (obranch N d h B F Hf ls d p t [] [] F (repeat [] 126) (repeat None 126) [] Hp Hwf ltac:(by split_and!) eq_refl) as H.
  rewrite repeat_length in H. specialize (H ltac:(lia)).
  assert (Ec : (127 =? length ls) && (match d_find t ls with Some _ => true | None => false end) = false).
  { destruct Hls as [?|Hn]; [|by rewrite Hn, andb_false_r]. destruct (Nat.eqb_spec 127 (length ls)); [lia|done]. }
  specialize (H Ec).
  apply wp_bind. eapply wp_get_labels; [exact Hnm|exact Hg|]. rewrite repeat_length. cbn [map] in H. eapply wp_mono; [exact H|].
  cbn beta. intros [st b] h' W' [-> Hr]. cbn [fst snd] in *. destruct (d_find t ls) as [x|].
  - destruct Hr as (-> & q & fr & y & LA & As & d' & Fq & -> & H1 & H2 & H3 & H4 & H5 & H6 & H7). cbn [wp]. split; [done|].
    exists q, fr, y, LA, As, d', Fq. cbn [length app] in *.
    assert (length ls <= 126). { destruct Hls as [?|?]; [done|done]. }
    split_and!; try done; try lia. do 2 f_equal. lia.
  - destruct Hr as (-> & n & i & labs & nods & -> & H1 & H2). cbn [wp fst snd]. cbn [length] in *. split_and!; [done| |lia]. rewrite H1. done.
Qed.
Definition b_del B (ls q : path) : Prop := q <> ls /\ B q.
Definition b_delsub B (ls q : path) : Prop := under ls q = false /\ B q.
Definition odel_post d h p (o : option dtree) t B B' (r : ptr * bool) h' : Prop :=
  match o with
  | Some t' => r.2 = true /\ r.1 <> None /\ oroot d h' r.1 t' B'
  | None => r = (p, false) /\ oroot d h' p t B
  end.
Lemma b_upd_del B ls q : b_upd B ls (fun r => r <> [] /\ B (ls ++ r)) q <-> b_del B ls q.
Proof.
  unfold b_upd, b_del. destruct (strip ls q) as [r|] eqn:E.
  - apply strip_spec in E as ->. split; intros [H1 H2]; (split; [|done]).
    + intros E. apply H1. rewrite <- (app_nil_r ls) in E at 2. by eapply app_inv_head.
    + intros ->. apply H1. by rewrite app_nil_r.
  - split; [intros H; split; [|done]|by intros [_ ?]]. intros ->. pose proof (strip_self ls []) as E'. rewrite app_nil_r in E'. congruence.
Qed.
Lemma b_upd_delsub B ls q : b_upd B ls (fun _ => False) q <-> b_delsub B ls q.
Proof. unfold b_upd, b_delsub, under. destruct (strip ls q); [|tauto]. split; [done|]. by intros [? _]. Qed.

Lemma dt_delete_own N d h p t B nm ls : enough fuel N -> oroot (S d) h p t B -> bexr B t -> wf N (S d) t -> nm_c nm = wire ls -> Forall good_label ls -> length ls <= 126 \/ d_find t ls = None -> length ls <= 127 ->
  wp (dt_delete fuel p nm) h ∅ (fun r h' _ => h ⊆ h' /\ odel_post (S d) h p (d_deleted t ls) t B (b_del B ls) r h').
Proof.
  intros Hf Hp HB Hwf Hnm Hg Hls Hls2. apply wp_cow0. assert (Hp0 := Hp). destruct Hp as [[-> ->]|(B0 & F & Hp & HB0)].
  { cbn [dt_delete wp]. unfold d_deleted. assert (match d_find (@d_nil value) ls with Some (DT (Some _) _) => false | _ => true end = true) as Hx by by destruct ls.
    destruct (d_find d_nil ls) as [[[v|] cs]|]; [done|..]; simpl; (split; [done|by left]). }
  assert (Hp1 := Hp). destruct Hp as (a & nn & l & Fb & Fk & F0 & -> & Ha & _). cbn [dt_delete].
  apply wp_bind. eapply wp_mono; [by eapply oget_branch|]. cbn beta. intros [[i labs] nods] h' W' [-> Hr]. unfold d_deleted.
  destruct (d_find t ls) as [x|] eqn:Ex.
  2: { destruct Hr as [E1 E2]. cbn [fst snd] in *. rewrite E2, E1. cbn [Z.leb]. change (Z.of_nat 127 <=? 127)%Z with true. cbn [bind wp]. split; [done|exact Hp0]. }
  destruct Hr as (q & fr & y & LA & As & d' & Fq & [= -> -> ->] & H1 & H2 & H3 & H4 & H5 & H6 & H7).
  assert (Elen : length (As ++ q :: map f_ptr fr) = 127). { rewrite app_length. cbn [length]. rewrite map_length. lia. } rewrite Elen.
  destruct (Z.leb_spec (Z.of_nat 127) (Z.of_nat (length As))); [lia|].
  rewrite arr_get_mid. cbn [bind]. destruct d' as [|d']; [done|]. destruct H4 as (b & bn & lb & Fbb & Fbk & Fb0 & -> & Hb & HbF & -> & Hbb). assert (Hbb' := Hbb).
  destruct Hbb' as (Hbv & Hbl & HbB & HbFb & HbFk & HbFkk & HbFd & Hbc).
  apply bind_assoc, wp_bind. eapply wp_ld_dom; [exact Hb|]. cbn [bind]. destruct x as [w cs]. cbn [d_val d_cs] in *. unfold dval in Hbv.
  destruct (dn_has bn) eqn:Ehas; cbn [negb]; subst w; [|cbn [wp]; split; [done|exact Hp0]].
  cbn [bind]. apply wp_bind. eapply wp_ld_dom; [exact Hb|].
  apply wp_bind. eapply wp_mono; [apply (wp_cow _ _ _ (fun x h' => x = is_nil lb /\ h' = h)); apply (dl_is_empty_at h _ lb); by eapply dlo_at|].
  cbn beta. intros e h1 W1 ([-> ->] & _ & _ & _).
  assert (Ene : is_nil lb = is_nil cs) by (by inversion Hbc). rewrite Ene.
  (* the node without its value, in a heap with one more cell *)
  assert (Hnode : is_nil cs = false -> forall m hm, h ⊆ hm -> h !! m = None -> hm !! m = Some (CDom (DomN (dn_branches bn) false VNil)) ->
     orep (S d') hm (Some m) (DT None cs) (fun r => r <> [] /\ B0 (ls ++ r)) ({[m]} ∪ Fb0)).
  { intros Ecs m hm Hsm Hm Hmm. eapply (obody_open d' hm m (DomN (dn_branches bn) false VNil) (DT None cs) _ lb Fbb Fbk Fb0); [done| |].
    { intros Hx. apply HbFd, elem_of_dom in Hx as [? ?]. congruence. }
    destruct (obody_mono _ _ _ _ _ _ _ _ _ _ Hsm Hbb) as (_ & Hl' & _ & _ & _ & _ & HF' & Hc').
    split_and!; try done.
    - cbn [dn_branches]. split; [|by intros [? _]]. intros E. rewrite E in Hbl. destruct Hbl as [-> _]. cbn in Ene. by rewrite <- Ene in Ecs.
    - eapply Forall2_impl; [exact Hc'|]. intros x0 y0 (E1 & q0 & E2 & Hq0). split; [done|]. exists q0. split; [done|]. eapply orep_iff; [|exact Hq0]. intros r. split; [done|]. by intros [_ ?]. }
  assert (Hmix : forall q, q <> [] -> b_del B0 ls q <-> b_del B ls q). { intros q0 Hq0. unfold b_del. by rewrite HB0. }
  destruct fr as [|[[k pp] tp] fr].
  { (* the root *)
    cbn [length map] in *. destruct ls as [|]; [|done]. simpl in Ex. injection Ex as ->.
    destruct (Z.leb_spec (Z.of_nat 127) (Z.of_nat (length As) + 1)); [|lia]. cbn [oframes] in H3. destruct H3 as ([= <-] & _ & _). destruct (is_nil cs) eqn:Ecs.
    - unfold dt_new. apply wp_bind, wp_bind, wp_alloc. intros a' Ha'. cbn [wp fst snd odel_post d_upd]. split; [done|]. split; [done|]. destruct cs; [|done]. right.
      eexists (fun q => q = []), _. split; [eapply obody_open; [by rewrite lookup_insert| |apply obody_nil]; apply not_elem_of_empty|]. intros q Hq. split; [done|].
      intros [_ Hx]. apply HB in Hx; [|done]. by destruct q.
    - unfold dt_node. apply wp_bind, wp_bind, wp_alloc. intros a' Ha'. cbn [wp fst snd odel_post d_upd]. split; [done|]. split; [done|]. right.
      eexists _, _. split; [eapply Hnode; [done|by apply insert_subseteq|done|by rewrite lookup_insert]|]. intros q Hq. cbn [app]. rewrite HB0 by done. unfold b_del. done. }
  cbn [length] in H6. destruct (Z.leb_spec (Z.of_nat 127) (Z.of_nat (length As) + 1)); [lia|].
  cbn [oframes] in H3. destruct H3 as (pa & pn & pl & Pb & Pk & P0 & pi' & Epp & Hpa & HpaF & Hpo & Hpbr & HPk & Hwp & Eli & Hfr). cbn [f_ptr f_tree f_lab fst snd] in *. subst pp.
  assert (HP0 : P0 ⊆ dom h) by by destruct Hpo as (_ & _ & _ & _ & _ & _ & ? & _).
  assert (HN : length pl <= N). { destruct Hpo as (_ & _ & _ & _ & _ & _ & _ & Hc). eapply owf_len; [exact Hwp|exact Hc]. }
  cbn [map]. rewrite arr_get_mid2 by done. cbn [bind f_ptr f_lab fst snd]. unfold dt_copy. apply bind_assoc, wp_bind. eapply wp_ld_dom; [exact Hpa|]. cbn [bind].
  apply bind_assoc, wp_bind, wp_alloc. intros n Hn. cbn [bind].
  rewrite arr_get_mid2 by lia. cbn [bind]. apply wp_bind. eapply wp_ld_dom; [by rewrite lookup_insert|].
  apply wp_bind.
  set (Bm := fun r => r <> [] /\ B0 (ls ++ r)).
  assert (Hput : wp (if is_nil cs then x <- dl_raw_delete fuel (dn_branches pn) k ;; set_branches (Some n) x.1
      else m <- dt_node (dn_branches bn) ;; b0 <- dl_raw_insert fuel (dn_branches pn) k (VDom m) ;; set_branches (Some n) b0)
      (<[n:=CDom pn]> h) ({[n]} ∪ W1) (fun _ h' W' => h ⊆ h' /\ exists F', orep (S (S d')) h' (Some n) (put tp k (DT None cs)) (b_upd (fun r => B0 (pi' ++ r)) [k] Bm) F' /\
         forall x, x ∈ F' -> x ∈ P0 \/ h !! x = None)).
  { unfold put. destruct (is_nil cs) eqn:Ecs.
    - destruct cs; [|done]. cbn [dead]. eapply wp_mono; [apply (oput_del N (S d') h (<[n:=CDom pn]> h) n pn tp (fun r => B0 (pi' ++ r)) pl Pb Pk P0 k Bm); try done; [by apply insert_subseteq|by rewrite lookup_insert|clear; set_solver|eapply obody_mono; [by apply insert_subseteq|exact Hpo]]|cbn beta; tauto].
    - assert (dead (DT None cs) = false) as -> by by destruct cs. unfold dt_node. apply bind_assoc, wp_bind, wp_alloc. intros m Hm. cbn [bind].
      assert (Nmn : m <> n) by (intros ->; by rewrite lookup_insert in Hm).
      assert (Hmh : h !! m = None) by by rewrite lookup_insert_ne in Hm.
      assert (Hs2 : h ⊆ <[m:=CDom (DomN (dn_branches bn) false VNil)]> (<[n:=CDom pn]> h)) by (apply sub_fresh; [by apply insert_subseteq|done]).
      eapply wp_mono; [apply (oput_ins N (S d') h (<[m:=CDom (DomN (dn_branches bn) false VNil)]> (<[n:=CDom pn]> h)) n pn tp (fun r => B0 (pi' ++ r)) pl Pb Pk P0 k (Some m) (DT None cs) Bm ({[m]} ∪ Fb0)); try done|cbn beta].
      + rewrite lookup_insert_ne by done. by rewrite lookup_insert.
      + clear; set_solver.
      + eapply obody_mono; [exact Hs2|done].
      + apply Hnode; [done..|by rewrite lookup_insert].
      + intros Hx. apply elem_of_union in Hx as [Hx|Hx]; [apply elem_of_singleton in Hx; done|]. apply HbFd, elem_of_dom in Hx as [? ?]. congruence.
      + intros x Hx. apply elem_of_union in Hx as [Hx|Hx]; [apply elem_of_singleton in Hx; subst; by right|]. left. rewrite HPk. clear -Hx. set_solver.
      + intros _ h' W9 (Hs' & _ & Hd'). done. }
  eapply wp_mono; [exact Hput|]. cbn beta. intros _ h3 W3 [Hs3 (F3 & Hd3 & HF3)].
  rewrite !drop_mid2 by lia.
  apply wp_bind. eapply wp_mono; [eapply wp_weaken_W; [eapply (ocopy_branch N (S d) h B0 F Hf fr (S (S d')) h3 pi' _ (Some n)); [exact Hs3|exact Hfr|exact Hd3|]|apply empty_subseteq]|].
  { intros x Hx. apply HF3 in Hx as [Hx|Hx]; [left; clear -Hx; set_solver|by right]. }
  cbn beta. intros r h4 W4 (_ & [Hs4 (F' & Hr)] & _). cbn [wp fst snd odel_post]. split; [done|].
  split. { intros ->. by destruct Hr as (? & ? & ? & ? & ? & ? & ? & _). }
  right. exists (b_del B0 ls), F'. split; [|done]. rewrite <- H7. eapply orep_iff; [|exact Hr]. intros q. rewrite <- b_upd_app, <- Eli. apply b_upd_del.
Qed.

Lemma dt_delete_sub_own N d h p t B nm ls : enough fuel N -> oroot (S d) h p t B -> bexr B t -> wf N (S d) t -> nm_c nm = wire ls -> Forall good_label ls -> length ls <= 126 \/ d_find t ls = None -> length ls <= 127 ->
  wp (dt_delete_subdomains fuel p nm) h ∅ (fun r h' _ => h ⊆ h' /\ odel_post (S d) h p (d_deleted_sub t ls) t B (b_delsub B ls) r h').
Proof.
  intros Hf Hp HB Hwf Hnm Hg Hls Hls2. apply wp_cow0. assert (Hp0 := Hp). destruct Hp as [[-> ->]|(B0 & F & Hp & HB0)].
  { cbn [dt_delete_subdomains wp]. unfold d_deleted_sub. destruct ls; simpl; (split; [done|by left]). }
  assert (Hp1 := Hp). destruct Hp as (a & nn & l & Fb & Fk & F0 & -> & Ha & HaF & _ & _ & Hal & _ & _ & _ & _ & _ & Hac). cbn [dt_delete_subdomains].
  apply wp_bind. eapply wp_mono; [by eapply oget_branch|]. cbn beta. intros [[i labs] nods] h' W' [-> Hr]. unfold d_deleted_sub.
  destruct (d_find t ls) as [x|] eqn:Ex.
  2: { destruct Hr as [E1 E2]. cbn [fst snd] in *. rewrite E2, E1. change (Z.of_nat 127 <=? 127)%Z with true. cbn [bind wp]. split; [done|exact Hp0]. }
  destruct Hr as (q & fr & y & LA & As & d' & Fq & [= -> -> ->] & H1 & H2 & H3 & H4 & H5 & H6 & H7).
  assert (Elen : length (As ++ q :: map f_ptr fr) = 127). { rewrite app_length. cbn [length]. rewrite map_length. lia. } rewrite Elen.
  destruct (Z.leb_spec (Z.of_nat 127) (Z.of_nat (length As))); [lia|].
  rewrite arr_get_mid. cbn [bind]. destruct d' as [|d']; [done|]. destruct H4 as (b & bn & lb & Fbb & Fbk & Fb0 & -> & Hb & HbF & -> & Hbb). assert (Hbb' := Hbb).
  destruct Hbb' as (Hbv & Hbl & HbB & HbFb & HbFk & HbFkk & HbFd & Hbc).
  apply wp_bind.
  assert (Hstop : wp (nin <- ld_dom (Some b) ;; if dn_has nin then Ret false else nn <- ld_dom (Some a) ;; dl_is_empty (dn_branches nn)) h W'
     (fun r h' _ => h' = h /\ r = match ls with [] => dead x | _ => false end)).
  { apply wp_bind. eapply wp_ld_dom; [exact Hb|]. unfold dval in Hbv. destruct x as [w cs]. cbn [d_val] in Hbv. destruct (dn_has bn); subst w.
    { cbn [wp]. split; [done|]. by destruct ls. }
    apply wp_bind. eapply wp_ld_dom; [exact Ha|].
    eapply wp_mono; [apply (wp_cow _ _ _ (fun x h' => x = is_nil l /\ h' = h)); apply (dl_is_empty_at h _ l); by eapply dlo_at|].
    cbn beta. intros e h1 W1 ([-> ->] & _ & _ & _). split; [done|]. destruct ls as [|k ls]; simpl in Ex.
    - injection Ex as ->. simpl in Hac. by inversion Hac.
    - destruct (d_cs t); [done|]. by inversion Hac. }
  eapply wp_mono; [exact Hstop|]. cbn beta. intros e h1 W1 [-> ->].
  destruct fr as [|[[k pp] tp] fr].
  { (* the root *)
    cbn [length map] in *. destruct ls as [|]; [|done]. simpl in Ex. injection Ex as ->. cbn [oframes] in H3. destruct H3 as ([= <-] & _ & _).
    destruct (dead x); [cbn [wp]; split; [done|exact Hp0]|].
    destruct (Z.leb_spec (Z.of_nat 127) (Z.of_nat (length As) + 1)); [|lia].
    unfold dt_new. apply wp_bind, wp_bind, wp_alloc. intros a' Ha'. cbn [wp fst snd odel_post d_upd]. split; [done|]. split; [done|]. right.
    eexists (fun q => q = []), _. split; [eapply obody_open; [by rewrite lookup_insert| |apply obody_nil]; apply not_elem_of_empty|]. intros q Hq. split; [done|].
    by intros [? _]. }
  cbn [length] in H6. destruct ls as [|k0 ls]; [done|]. cbn [length] in *. destruct (Z.leb_spec (Z.of_nat 127) (Z.of_nat (length As) + 1)); [lia|].
  cbn [oframes] in H3. destruct H3 as (pa & pn & pl & Pb & Pk & P0 & pi' & Epp & Hpa & HpaF & Hpo & Hpbr & HPk & Hwp & Eli & Hfr). cbn [f_ptr f_tree f_lab fst snd] in *. subst pp.
  assert (HP0 : P0 ⊆ dom h) by by destruct Hpo as (_ & _ & _ & _ & _ & _ & ? & _).
  assert (HN : length pl <= N). { destruct Hpo as (_ & _ & _ & _ & _ & _ & _ & Hc). eapply owf_len; [exact Hwp|exact Hc]. }
  cbn [map]. rewrite arr_get_mid2 by done. cbn [bind f_ptr f_lab fst snd]. unfold dt_copy. apply bind_assoc, wp_bind. eapply wp_ld_dom; [exact Hpa|]. cbn [bind].
  apply bind_assoc, wp_bind, wp_alloc. intros n Hn. cbn [bind].
  apply wp_bind. eapply wp_ld_dom; [by rewrite lookup_insert|]. rewrite arr_get_mid2 by lia. cbn [bind].
  assert (Hput : wp (x <- dl_raw_delete fuel (dn_branches pn) k ;; set_branches (Some n) x.1)
      (<[n:=CDom pn]> h) ({[n]} ∪ W1) (fun _ h' W' => h ⊆ h' /\ W' = W' /\ exists F', orep (S (S d')) h' (Some n) (put tp k d_nil) (b_upd (fun r => B0 (pi' ++ r)) [k] (fun _ => False)) F' /\
         forall x, x ∈ F' -> x ∈ P0 \/ h !! x = None)).
  { eapply wp_mono; [apply (oput_del N (S d') h (<[n:=CDom pn]> h) n pn tp (fun r => B0 (pi' ++ r)) pl Pb Pk P0 k (fun _ => False)); try done; [by apply insert_subseteq|by rewrite lookup_insert|clear; set_solver|eapply obody_mono; [by apply insert_subseteq|exact Hpo]]|cbn beta; tauto]. }
  apply wp_bind_inv in Hput. apply wp_bind. eapply wp_mono; [exact Hput|]. cbn beta. intros y0 h2 W3 Hy0. apply wp_bind. eapply wp_mono; [exact Hy0|].
  cbn beta. intros _ h3 W4 (Hs3 & _ & F3 & Hd3 & HF3).
  rewrite !drop_mid2 by lia.
  apply wp_bind. eapply wp_mono; [eapply wp_weaken_W; [eapply (ocopy_branch N (S d) h B0 F Hf fr (S (S d')) h3 pi' _ (Some n)); [exact Hs3|exact Hfr|exact Hd3|]|apply empty_subseteq]|].
  { intros x0 Hx. apply HF3 in Hx as [Hx|Hx]; [left; clear -Hx; set_solver|by right]. }
  cbn beta. intros r h4 W5 (_ & [Hs4 (F' & Hr)] & _). cbn [wp fst snd odel_post]. split; [done|].
  split. { intros ->. by destruct Hr as (? & ? & ? & ? & ? & ? & ? & _). }
  right. exists (b_delsub B0 (k0 :: ls)), F'. split.
  - rewrite <- H7. eapply orep_iff; [|exact Hr]. intros q. rewrite <- b_upd_app, <- Eli. apply b_upd_delsub.
  - intros q Hq. unfold b_delsub. by rewrite HB0.
Qed.

(** ** InplaceInsert. *)
Lemma dlo_dom h p l F : dlo h p l F -> F ⊆ dom h.
Proof.
  destruct p as [b|]; [|intros [_ ->]; apply empty_subseteq]. intros (F' & (r & t & Hb & Ho & _) & ->) x Hx. apply elem_of_union in Hx as [->%elem_of_singleton|Hx]; [by eapply elem_of_dom_2|].
  eapply mrep_dom in Ho as [Ho _]; [|exact Hx]. by apply elem_of_dom.
Qed.
Lemma dlo_inplace h b l F k v : dlo h (Some b) l F -> enough fuel (length l) ->
  wp (dl_raw_inplace_insert fuel (Some b) k v) h F (fun _ h' W' => exists F', dlo h' (Some b) (a_insert cmp l k v) F' /\ F' ⊆ W').
Proof.
  intros (F' & H & ->) Hf. eapply wp_mono; [by eapply (dl_inplace_at fuel h b l F' ({[b]} ∪ F') k)|]. cbn beta. intros _ h' W' (F2 & H1 & H2).
  exists ({[b]} ∪ F2). split; [by exists F2|done].
Qed.
Lemma oinplace_loop N v : enough fuel N -> forall ls d h a nn t B l Fb Fk F, h !! a = Some (CDom nn) -> a ∉ F ->
  obody (orep d h) h nn t B l Fb Fk F -> bex B t -> wf N (S d) t -> length ls <= d -> (forall q r, ls = q ++ r -> r <> [] -> ~ B q) ->
  wp (x <- visit (dt_inplace_step fuel) ls (Some a) ;; set_has x.1 true ;;; set_dval x.1 v) h ({[a]} ∪ F)
     (fun _ h' W' => exists F', orep (S d) h' (Some a) (d_insert t ls v) B F' /\ F' ⊆ W').
Proof.
  intros Hf. induction ls as [|k ls IH]; intros d h a nn t B l Fb Fk F Ha HaF Hbo HB Hwf Hd Hpre.
  - cbn [visit]. cbn [bind fst snd]. eapply wp_set_dom; [exact Ha|clear; set_solver|].
    assert (Hbo' : obody (orep d (<[a:=CDom (DomN (dn_branches nn) true v)]> h)) (<[a:=CDom (DomN (dn_branches nn) true v)]> h) nn t B l Fb Fk F).
    { eapply obody_agree; [exact Hbo|]. intros x Hx. rewrite lookup_insert_ne; [done|]. by intros <-. }
    destruct Hbo' as (Hv & Hl & HB0 & HFb & Hk & Hkk & HF & Hc).
    exists ({[a]} ∪ F). split; [|done].
    eapply (obody_open d _ a _ (DT (Some v) (d_cs t)) B l Fb Fk F); [by rewrite lookup_insert|done|by split_and!].
  - cbn [length] in Hd. destruct d as [|d]; [lia|]. assert (Hbo' := Hbo). destruct Hbo' as (Hv & Hl & HB0 & HFb & Hk & Hkk & HF & Hc).
    assert (HN : length l <= N) by by eapply owf_len.
    pose proof (wf_child N (S d) t k Hwf ltac:(lia)) as Hwc.
    assert (Hbr : dn_branches nn <> None). { intros E. apply HB0 in E. by eapply (Hpre [] (k :: ls)). }
    assert (Hord : ordered cmp l). { destruct (dn_branches nn) as [b|]; [|done]. destruct Hl as (F' & (r & ? & _ & _ & _ & _ & _ & ?) & _). done. }
    assert (HFd : forall x, x ∈ F -> is_Some (h !! x)). { intros x Hx. by apply elem_of_dom, HF. }
    cbn [visit]. apply bind_assoc. unfold dt_inplace_step at 1. apply bind_assoc, wp_bind. eapply wp_ld_dom; [exact Ha|].
    apply bind_assoc, wp_bind. eapply wp_mono; [apply (wp_cow _ _ _ (fun x h' => h' = h /\ x = match a_get cmp l k with Some v => (v, true) | None => (VNil, false) end));
      eapply wp_mono; [eapply dl_get_at; [by eapply dlo_at|by eapply enough_get]|cbn beta; tauto]|].
    cbn beta. intros x h1 W1 ([-> ->] & _ & HW1 & _).
    pose proof (F2_get _ (okrel_key (orep (S d) h) B Fk) l (d_cs t) k Hc) as Hg.
    destruct (a_get cmp l k) as [q|] eqn:El, (a_get cmp (d_cs t) k) as [c|] eqn:Ec; try done; cbn [fst snd].
    + (* the child exists *)
      destruct Hg as (_ & q' & Eq & m & nm & lm & Fbm & Fkm & Fm & -> & Hm & HmF & HFk & Hbm). cbn [fst snd] in *. subst q. cbn [as_node bind fst snd].
      assert (Ech : child t k = c) by (unfold child; by rewrite Ec). rewrite Ech in Hwc.
      assert (HFkF : Fk k ⊆ F) by apply (Hk k).
      eapply wp_mono.
      { eapply (wp_call _ _ (Fk k)); [rewrite HFk; apply (IH d h m nm c (fun r => B (k :: r)) lm Fbm Fkm Fm Hm HmF Hbm)|clear -HFkF HW1; set_solver].
        - by eapply bex_child.
        - done.
        - lia.
        - intros q r -> Hr. by apply (Hpre (k :: q) r). }
      cbn beta. intros _ h2 W2 [(W3 & (F1 & Hq2 & HF1) & HW3 & (_ & Hdm & HG3)) [Hun (HG2 & _ & _)]].
      assert (Hfr : forall x, x ∈ F1 -> x ∈ Fk k \/ h !! x = None). { intros x Hx. by apply HF1, HG3 in Hx. }
      assert (HfrF : forall x, x ∈ F1 -> x ∈ Fk k \/ x ∉ F).
      { intros x Hx. apply Hfr in Hx as [?|Hx]; [by left|]. right. intros HxF. destruct (HFd x HxF). congruence. }
      assert (Hag : forall x, x ∈ F -> x ∉ Fk k -> h2 !! x = h !! x). { intros x Hx Hnx. destruct (HFd x Hx) as [y Hy]. rewrite Hy. by apply Hun. }
      assert (HFbk : forall x, x ∈ Fb -> x ∉ Fk k). { intros x Hx Hx2. destruct (Hk k) as [_ Hk2]. by apply (Hk2 x). }
      destruct (assemble_ins (S d) h h2 a nn nn t B B l Fb Fk F k (Some m) (d_insert c ls v) F1 Fb) as (F' & HF' & HFF); try done.
      * intros x H1 H2 _. by apply Hag.
      * apply Hun; [done|]. intros Hx. by apply HaF, HFkF.
      * rewrite (a_insert_same l k (VDom (Some m)) Hord El). eapply dlo_agree; [exact Hl|]. intros x Hx. apply Hag; [by apply HFb|by apply HFbk].
      * etrans; [eapply dlo_dom, Hl|exact Hdm].
      * intros Hx. by apply HaF, HFb.
      * intros Hx. apply Hfr in Hx as [Hx|Hx]; [by apply HaF, HFkF|congruence].
      * intros x Hx Hx2. apply HfrF in Hx as [Hx|Hx]; [by apply (HFbk x)|by apply Hx, HFb].
      * intros x Hx. by left.
      * exists F'. split; [cbn [d_insert]; rewrite Ech; exact HF'|]. intros x Hx. apply HFF in Hx as [->|[Hx|[Hx|Hx]]].
        -- clear -HG2 HW1. set_solver.
        -- clear -HG2 HW1 Hx HFb. set_solver.
        -- apply HW3, HF1, Hx.
        -- clear -HG2 HW1 Hx. set_solver.
    + (* a new child *)
      clear Hg. assert (Ech : child t k = d_nil) by (unfold child; by rewrite Ec). rewrite Ech in Hwc.
      assert (HBk : forall r, ~ B (k :: r)). { intros r Hr. apply HB in Hr. cbn [d_find] in Hr. by rewrite Ec in Hr. }
      unfold dl_new. apply bind_assoc, wp_bind, wp_bind, wp_alloc. intros b' Hb'. cbn [bind wp]. unfold dt_node. apply bind_assoc, wp_bind, wp_bind, wp_alloc. intros m Hm. cbn [bind wp].
      assert (Nmb' : m <> b') by (intros ->; by rewrite lookup_insert in Hm).
      assert (Hmh : h !! m = None) by by rewrite lookup_insert_ne in Hm.
      set (h2 := <[m := _]> _). assert (Hs2 : h ⊆ h2). { unfold h2. etrans; [by apply (insert_subseteq _ b')|by apply insert_subseteq]. }
      assert (Hm2 : h2 !! m = Some (CDom (DomN (Some b') false VNil))) by by (unfold h2; rewrite lookup_insert).
      assert (Hb2 : h2 !! b' = Some (CDl None)) by by (unfold h2; rewrite lookup_insert_ne, lookup_insert by done).
      apply bind_assoc, wp_bind. eapply wp_ld_dom; [by eapply lookup_weaken|].
      destruct (dn_branches nn) as [b|] eqn:Enb; [|done].
      assert (Hl2 : dlo h2 (Some b) l Fb). { eapply dlo_agree; [exact Hl|]. intros x Hx. destruct (HFd x (HFb x Hx)) as [y Hy]. rewrite Hy. by eapply lookup_weaken. }
      apply bind_assoc, wp_bind.
      eapply wp_mono. { eapply (wp_call _ _ Fb); [eapply (dlo_inplace h2 b l Fb k); [exact Hl2|by eapply enough_le]|]. clear -HFb HW1. set_solver. }
      cbn beta. intros _ h3 W2 [(W3 & (Fb' & Hl3 & HFb') & HW3 & (_ & Hdm3 & HG3)) [Hun3 (HG2 & _ & _)]]. cbn [bind fst snd].
      assert (HmF : m ∉ F) by (intros HmF; destruct (HFd m HmF); congruence).
      assert (Hb'F : b' ∉ F) by (intros HmF'; destruct (HFd b' HmF'); congruence).
      assert (HmFb : m ∉ Fb) by (intros Hx; by apply HmF, HFb).
      assert (HbFb : b' ∉ Fb) by (intros Hx; by apply Hb'F, HFb).
      assert (Hm3 : h3 !! m = Some (CDom (DomN (Some b') false VNil))) by by apply Hun3.
      assert (Hb3 : h3 !! b' = Some (CDl None)) by by apply Hun3.
      assert (Hbo3 : obody (orep d h3) h3 (DomN (Some b') false VNil) d_nil (fun r => B (k :: r)) [] {[b']} (fun _ => ∅) {[b']}).
      { split; [done|]. split.
        { exists ∅. split; [|by rewrite union_empty_r_L]. exists None, E. split_and!; [done|done|clear; set_solver|apply rbt_E|done|constructor]. }
        split; [split; [done|]; intros Hx; by apply HBk in Hx|]. split; [done|]. split; [intros k'; split; clear; set_solver|]. split; [intros k1 k2 _; clear; set_solver|].
        split; [|constructor]. intros x ->%elem_of_singleton. by eapply elem_of_dom_2. }
      assert (Hbm : m ∉ ({[b']} : gset loc)) by (clear -Nmb'; set_solver).
      eapply wp_mono.
      { eapply (wp_call _ _ ({[m]} ∪ {[b']})); [apply (IH d h3 m _ d_nil (fun r => B (k :: r)) [] {[b']} (fun _ => ∅) {[b']} Hm3 Hbm Hbo3)|clear -HG2; set_solver].
        - intros r Hr. by apply HBk in Hr.
        - done.
        - lia.
        - intros q r _ _. apply HBk. }
      cbn beta. intros _ h4 W4 [(W5 & (F1 & Hq4 & HF1) & HW5 & (_ & Hdm4 & HG5)) [Hun4 (HG4 & _ & _)]].
      assert (Hfr : forall x, x ∈ F1 -> x = m \/ x = b' \/ h3 !! x = None).
      { intros x Hx. apply HF1, HG5 in Hx as [Hx|Hx]; [|by right; right]. clear -Hx. set_solver. }
      assert (Hfr3 : forall x, x ∈ Fb' -> x ∈ Fb \/ h2 !! x = None). { intros x Hx. by apply HFb', HG3 in Hx. }
      assert (HFd3 : forall x c, h !! x = Some c -> is_Some (h3 !! x)). { intros x y Hy. apply elem_of_dom, Hdm3. eapply elem_of_dom_2. by eapply lookup_weaken. }
      assert (HFb'd : Fb' ⊆ dom h3) by by eapply dlo_dom.
      assert (HFb'm : forall x, x ∈ Fb' -> x <> m /\ x <> b').
      { intros x Hx. apply Hfr3 in Hx as [Hx|Hx]; split; intros ->; congruence. }
      assert (HF1F : forall x, x ∈ F1 -> x ∉ F).
      { intros x Hx HxF. apply Hfr in Hx as [->|[->|Hx]]; [done..|]. destruct (HFd x HxF) as [y Hy]. destruct (HFd3 x y Hy). congruence. }
      assert (Nam : a <> m) by congruence. assert (Nab : a <> b') by congruence.
      destruct (assemble_ins (S d) h h4 a nn nn t B B l Fb Fk F k (Some m) (d_insert d_nil ls v) F1 Fb') as (F' & HF' & HFF); try done.
      * intros x Hx _ Hnx. destruct (HFd x Hx) as [y Hy]. rewrite Hy. apply Hun4; [|clear -Hx HmF Hb'F; set_solver]. apply Hun3; [by eapply lookup_weaken|done].
      * apply Hun4; [|clear -Nam Nab; set_solver]. apply Hun3; [by eapply lookup_weaken|]. intros Hx. by apply HaF, HFb.
      * rewrite Enb. eapply dlo_agree; [exact Hl3|]. intros x Hx. destruct (HFb'm x Hx) as [N1 N2]. apply HFb'd, elem_of_dom in Hx as [y Hy]. rewrite Hy. apply Hun4; [done|]. clear -N1 N2. set_solver.
      * etrans; [exact HFb'd|exact Hdm4].
      * rewrite Enb. done.
      * intros Hx. apply Hfr3 in Hx as [Hx|Hx]; [by apply HaF, HFb|]. apply (lookup_weaken _ _ _ _ Ha) in Hs2. congruence.
      * intros Hx. apply Hfr in Hx as [?|[?|Hx]]; [done..|]. destruct (HFd3 _ _ Ha). congruence.
      * intros x Hx Hx2. destruct (HFb'm x Hx2) as [N1 N2]. apply HFb'd, elem_of_dom in Hx2 as [y Hy]. apply Hfr in Hx as [?|[?|?]]; congruence.
      * intros x Hx. apply Hfr3 in Hx as [Hx|Hx]; [by left|]. right. intros HxF. destruct (HFd x HxF) as [y Hy]. apply (lookup_weaken _ _ _ _ Hy) in Hs2. congruence.
      * intros x Hx. right. by apply HF1F.
      * exists F'. split; [cbn [d_insert]; rewrite Ech; exact HF'|]. intros x Hx. apply HFF in Hx as [->|[Hx|[Hx|Hx]]].
        -- clear -HG2 HW1 HG4. set_solver.
        -- apply HG4, HW3, HFb', Hx.
        -- apply HW5, HF1, Hx.
        -- clear -HG2 HW1 HG4 Hx. set_solver.
Qed.
Lemma oinplace_fails N : enough fuel N -> forall ls d h a nn t B l Fb Fk F, h !! a = Some (CDom nn) ->
  obody (orep d h) h nn t B l Fb Fk F -> bex B t -> wf N (S d) t -> (exists q r, ls = q ++ r /\ r <> [] /\ B q) ->
  fails (visit (dt_inplace_step fuel) ls (Some a)) h ENil.
Proof.
  intros Hf. induction ls as [|k ls IH]; intros d h a nn t B l Fb Fk F Ha Hbo HB Hwf (q & r & E & Hr & Hq); [destruct q, r; done|].
  assert (Hbo' := Hbo). destruct Hbo' as (Hv & Hl & HB0 & HFb & Hk & Hkk & HF & Hc).
  assert (HN : length l <= N) by by eapply owf_len.
  assert (Hget : wp (dl_raw_get fuel (dn_branches nn) k) h ∅ (fun x h' W' => h' = h /\ x = match a_get cmp l k with Some v => (v, true) | None => (VNil, false) end)).
  { eapply dl_get_at; [by eapply dlo_at|by eapply enough_get]. }
  cbn [visit].
  destruct q as [|k' q].
  - apply HB0 in Hq. assert (l = []) as -> by (rewrite Hq in Hl; by destruct Hl). apply fails_bind_l. unfold dt_inplace_step.
    eapply (fails_bind_r _ _ _ ∅ _ (fun x h' _ => x = nn /\ h' = h)); [by eapply wp_ld_dom|]. intros x h' _ [-> ->].
    eapply fails_bind_r; [exact Hget|]. cbn beta. intros x h' W' [-> ->]. cbn [a_get fst snd].
    eapply (fails_bind_r _ _ _ ∅ _ (fun b h' _ => h ⊆ h')).
    { unfold dl_new. apply wp_bind, wp_alloc. intros b Hb. cbn [wp]. by apply insert_subseteq. }
    cbn beta. intros b h' _ Hs. eapply (fails_bind_r _ _ _ ∅ _ (fun b h'' _ => h ⊆ h'')).
    { unfold dt_node. apply wp_bind, wp_alloc. intros m Hm. cbn [wp]. etrans; [exact Hs|]. by apply insert_subseteq. }
    cbn beta. intros m h'' _ Hs2. eapply (fails_bind_r _ _ _ ∅ _ (fun x h3 _ => x = nn /\ h3 = h'')); [eapply wp_ld_dom; [by eapply lookup_weaken|done]|].
    intros x h3 _ [-> ->]. rewrite Hq. apply fails_bind_l. done.
  - injection E as <- ->. assert (HBk := HB _ Hq). cbn [d_find] in HBk. destruct (a_get cmp (d_cs t) k) as [c|] eqn:Ec; [|done].
    pose proof (F2_get _ (okrel_key (orep d h) B Fk) l (d_cs t) k Hc) as Hg. rewrite Ec in Hg. destruct (a_get cmp l k) as [qv|] eqn:El; [|done].
    destruct d as [|d]; [by destruct Hg as (_ & ? & _ & ?)|].
    destruct Hg as (_ & q' & Eq & m & nm & lm & Fbm & Fkm & Fm & -> & Hm & HmF & HFk & Hbm). cbn [fst snd] in *. subst qv.
    eapply (fails_bind_r _ _ _ ∅ _ (fun x h' _ => x = (Some m, true) /\ h' = h)).
    { unfold dt_inplace_step. apply wp_bind. eapply wp_ld_dom; [exact Ha|]. apply wp_bind. eapply wp_mono; [exact Hget|]. cbn beta. intros x h' W' [-> ->]. done. }
    cbn beta. intros x h' _ [-> ->]. cbn [fst snd].
    assert (Hwc : wf N (S d) c). { apply ag_in in Ec. destruct Hwf as (_ & _ & H3). rewrite Forall_forall in H3. by apply H3 in Ec as (_ & ? & _). }
    apply (IH d h m nm c (fun r => B (k :: r)) lm Fbm Fkm Fm Hm Hbm); [by eapply bex_child|done|]. by exists q, r.
Qed.
(** A path of which a strict prefix, other than the root, is in [B]. *)
Definition stuck B (ls : path) : Prop := exists q r, ls = q ++ r /\ q <> [] /\ r <> [] /\ B q.
Lemma dt_inplace_own N d h p t B nm ls v : enough fuel N -> oroot (S d) h p t B -> p <> None -> bexr B t -> wf N (S d) t -> nm_c nm = wire ls -> Forall good_label ls -> length ls <= d ->
  ~ stuck B ls -> wp (dt_inplace_insert fuel p nm v) h (dom h) (fun _ h' _ => oroot (S d) h' p (d_insert t ls v) B).
Proof.
  intros Hf [[-> _]|(B0 & F' & Hp & HB0)] Hp0 HB Hwf Hnm Hg Hd Hst; [done|]. clear Hp0.
  destruct Hp as (a & nn & l & Fb & Fk & F & -> & Ha & HaF & -> & Hbo).
  assert (Hgo : forall h nn B0 l Fb Fk F W, h !! a = Some (CDom nn) -> a ∉ F -> obody (orep d h) h nn t B0 l Fb Fk F -> dn_branches nn <> None -> (forall q, q <> [] -> B0 q <-> B q) -> {[a]} ∪ F ⊆ W ->
     wp (x <- get_labels (dt_inplace_step fuel) nm (Some a) ;; set_has x.1 true ;;; set_dval x.1 v) h W (fun _ h' _ => oroot (S d) h' (Some a) (d_insert t ls v) B)).
  { clear h nn B0 l Fb Fk F HB0 Ha HaF Hbo. intros h nn B0 l Fb Fk F W Ha HaF Hbo Hbr HB0 HW.
    assert (Hw : wp (x <- visit (dt_inplace_step fuel) ls (Some a) ;; set_has x.1 true ;;; set_dval x.1 v) h ({[a]} ∪ F) (fun _ h' _ => oroot (S d) h' (Some a) (d_insert t ls v) B)).
    { eapply wp_mono; [eapply (oinplace_loop N v Hf ls d h a nn t B0 l Fb Fk F); try done; [by eapply bexr_bex|]|].
      - intros q r -> Hr HBq. destruct q as [|k q]; [destruct Hbo as (_ & _ & H0 & _); by apply H0 in HBq|]. apply Hst. exists (k :: q), r. split_and!; try done. by apply HB0.
      - cbn beta. intros _ h' W' (F1 & H1 & _). right. by exists B0, F1. }
    eapply wp_weaken_W in Hw; [|exact HW]. apply wp_bind_inv in Hw.
    apply wp_bind. eapply wp_get_labels; [exact Hnm|exact Hg|]. eapply wp_mono; [exact Hw|]. cbn beta. intros x h' W' Hx.
    eapply wp_mono; [exact Hx|]. cbn beta. intros _ h2 W2 (W3 & H1 & _). done. }
  assert (HFd : F ⊆ dom h) by by destruct Hbo as (_ & _ & _ & _ & _ & _ & ? & _).
  assert (Had := elem_of_dom_2 _ _ _ Ha).
  unfold dt_inplace_insert. apply wp_bind. eapply wp_ld_dom; [exact Ha|]. destruct (dn_branches nn) as [b|] eqn:Eb.
  - cbn [bind]. eapply (Hgo h nn B0 l Fb Fk F); try done; [by rewrite Eb|]. clear -HFd Had. set_solver.
  - unfold dl_new. apply wp_bind, wp_bind, wp_bind, wp_alloc. intros b Hb. cbn [wp].
    assert (Nab : b <> a) by congruence.
    eapply wp_set_branches; [by rewrite lookup_insert_ne|clear -Had; set_solver|]. set (h2 := <[a := _]> _).
    assert (Hbo' := Hbo). destruct Hbo' as (Hv & Hl & HBn & HFb & Hk & Hkk & HF & Hc). rewrite Eb in Hl. destruct Hl as [-> ->].
    assert (HbF : b ∉ F) by (intros Hx%HFd; apply elem_of_dom in Hx as [? ?]; congruence).
    eapply (Hgo h2 (DomN (Some b) (dn_has nn) (dn_val nn)) (fun q => q <> [] /\ B0 q) [] {[b]} (fun _ => ∅) {[b]}); [unfold h2; by rewrite lookup_insert|clear -Nab; set_solver| |done| |clear -Had; set_solver].
    + split; [done|]. split.
      { exists ∅. split; [|by rewrite union_empty_r_L]. exists None, E. split_and!; [unfold h2; by rewrite lookup_insert_ne, lookup_insert|done|clear; set_solver|apply rbt_E|done|constructor]. }
      split; [split; [done|]; by intros [? _]|]. split; [done|]. split; [intros k'; split; clear; set_solver|]. split; [intros k1 k2 _; clear; set_solver|].
      split; [|inversion Hc; constructor]. intros x ->%elem_of_singleton. unfold h2. apply elem_of_dom. rewrite lookup_insert_ne, lookup_insert; eauto.
    + intros q Hq. rewrite <- HB0 by done. split; [by intros [_ ?]|done].
Qed.
Lemma dt_inplace_stuck N d h p t B nm ls v : enough fuel N -> oroot (S d) h p t B -> bexr B t -> wf N (S d) t -> nm_c nm = wire ls -> Forall good_label ls ->
  stuck B ls -> fails (dt_inplace_insert fuel p nm v) h ENil.
Proof.
  intros Hf [[-> _]|(B0 & F' & Hp & HB0)] HB Hwf Hnm Hg (q & r & E & Hq & Hr & HBq); [done|].
  destruct Hp as (a & nn & l & Fb & Fk & F & -> & Ha & HaF & -> & Hbo).
  assert (Hbr : dn_branches nn <> None).
  { intros E'. destruct Hbo as (_ & Hl & _ & _ & _ & _ & _ & Hc). rewrite E' in Hl. destruct Hl as [-> _]. apply HB in HBq; [|done]. destruct q as [|k q]; [done|]. cbn [d_find] in HBq. assert (E2 : d_cs t = []) by (by inversion Hc). by rewrite E2 in HBq. }
  unfold dt_inplace_insert. eapply (fails_bind_r _ _ _ ∅ _ (fun x h' _ => x = nn /\ h' = h)); [by eapply wp_ld_dom|]. intros x h' _ [-> ->].
  destruct (dn_branches nn); [|done]. cbn [bind]. apply fails_bind_l. eapply fails_get_labels; [exact Hnm|exact Hg|].
  eapply (oinplace_fails N Hf ls d h a nn t B0); [done|exact Hbo|by eapply bexr_bex|done|]. exists q, r. split_and!; try done. by apply HB0.
Qed.
Lemma dt_fill_own d items items' : Forall2 (fun x y : _ * value => name_is x.1 y.1 /\ x.2 = y.2) items items' -> 127 <= d -> forall N h p t, enough fuel (N + length items) -> p <> None ->
  oroot (S d) h p t (fun _ => False) -> wf N (S d) t -> wp (dt_fill fuel p items) h (dom h) (fun _ h' _ => oroot (S d) h' p (d_fill items' t) (fun _ => False)).
Proof.
  intros Hi Hd. induction Hi as [|[nm v] [q v'] items items' [[Hw (P1 & P2 & P3)] Ev] Hi IH]; intros N h p t Hf Hp0 Hp Hwf; [done|]. cbn [fst snd] in *. subst v'. cbn [dt_fill d_fill].
  cbn [length] in Hf. apply wp_bind. eapply wp_mono.
  { eapply wp_frame, wp_new, (dt_inplace_own N d); [eapply enough_le; [exact Hf|lia]|exact Hp|done|by intros ?|exact Hwf|exact Hw|exact P3|lia|]. intros (? & ? & _ & _ & _ & []). }
  cbn beta. intros _ h1 W1 [[HR1 Hnew] [_ (HW & _)]].
  eapply wp_mono; [eapply (wp_weaken_W _ _ (dom h1)); [apply (IH (S N) h1 p (d_insert t q v)); [eapply enough_le; [exact Hf|lia]|done|done|apply wf_insert; [done|lia|done]]|]|].
  { intros x Hx. destruct (Hnew _ Hx); [by apply HW|done]. }
  cbn beta. intros _ h2 W2 (W3 & H & _). done.
Qed.
End own.
