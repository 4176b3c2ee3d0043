(** * iptree on memory: UpdateDescendants. *)
From Verif Require Import Prog NumModel NumBits NumFun NumSim NumOrder NumSpec NumAbs NumFoot NumLoc IpModel IpSpec IpUpdSpec IpBits IpAbs IpAbs2 IpAbs3 IpEnum IpUpd IpUpd2.
From Coq Require Import ZifyBool ZifyNat ZifyN.
Open Scope N_scope.

Section upd.
Context {U St : Type}.
Local Notation heap := (heap U).
Local Notation value := (value U).
Local Notation numnode := (numnode U).
Local Notation prog := (prog U).
Local Notation pair_ := (pair_ (U := U)).
Local Notation item := (loc * numnode)%type.
Implicit Types h : heap.
Variable cb : St -> pair_ -> prog (St * option value).
(** [call e s x r]: what may be said about a call while the tree enumerates as [e]. *)
Variable call : list pair_ -> St -> pair_ -> St * option value -> Prop.
(** What the callback needs of its own memory and state. *)
Variable I : heap -> St -> Prop.
(** The memory in which the tree was found, and its networks. *)
Variable h0 : heap.
Variable X : list (loc * pair_).

Definition setv h (l : loc) (v : value) : heap := match h !! l with Some (CNum n) => <[l := CNum (set_val n v)]> h | _ => h end.
(** The callback leaves the memory of the tree alone. *)
Record acts : Prop := {
  act_call : forall h (W : gset loc) s x, plain x.2 -> vrel h0 h -> dom h ⊆ W -> I h s ->
    wp (cb s x) h W (fun r h' _ => call (map snd (map (reloadp h) X)) s x r /\ I h' r.1 /\ (forall l, l ∈ dom h0 -> h' !! l = h !! l) /\ forall v, r.2 = Some v -> plain v);
  act_keep : forall h s l v, vrel h0 h -> l ∈ dom h0 -> I h s -> I (setv h l v) s }.
Inductive rseg : St -> heap -> list (loc * pair_) -> St -> heap -> Prop :=
| rs_nil s h : rseg s h [] s h
| rs_cons s h (x : loc * pair_) seg s1 (r : option value) h1 s' h' : call (map snd (map (reloadp h) X)) s (x.2.1, val_at h x.1) (s1, r) ->
    (forall l, l ∈ dom h0 -> h1 !! l = h !! l) -> (forall v, r = Some v -> plain v) ->
    rseg s1 (match r with Some v => setv h1 x.1 v | None => h1 end) seg s' h' -> rseg s h (x :: seg) s' h'.
Lemma rseg_app seg1 : forall s h seg2 s1 h1 s' h', rseg s h seg1 s1 h1 -> rseg s1 h1 seg2 s' h' -> rseg s h (seg1 ++ seg2) s' h'.
Proof. intros s h seg2 s1 h1 s' h' H H2. induction H as [s h|s h x seg s1 r h1 s2 h2 H1 H3 H4 H5 IH]; [done|]. eapply rs_cons; [done|done|done|by apply IH]. Qed.
Lemma wp_dom {A} (m : prog A) : forall h (W : gset loc) Q, dom h ⊆ W -> wp m h W Q -> wp m h W (fun a h' W' => Q a h' W' /\ dom h' ⊆ W').
Proof.
  induction m as [a|e|c k IH|l k IH|l c k IH]; intros h W Q HW; cbn [wp]; [done|done|..].
  - intros H l Hl. apply IH; [|by apply H]. rewrite dom_insert_L. set_solver.
  - intros (c & E & H). exists c. split; [done|]. by apply IH.
  - intros (A1 & A2 & H). split_and!; [done|done|]. apply IH; [|done]. rewrite dom_insert_L. set_solver.
Qed.
Lemma vrel_same h h1 : vrel h0 h -> (forall l, l ∈ dom h0 -> h1 !! l = h !! l) -> vrel h0 h1.
Proof.
  intros H E l. specialize (H l). destruct (h0 !! l) as [c|] eqn:El; [|done]. rewrite E by (by eapply elem_of_dom_2). exact H.
Qed.

Lemma val_at_cell h l n : h !! l = Some (CNum n) -> val_at h l = nn_val n.
Proof. intros H. unfold val_at. by rewrite H. Qed.
Lemma vrel_setv h l n v : h !! l = Some (CNum n) -> setv h l v = <[l := CNum (set_val n v)]> h.
Proof. intros H. unfold setv. by rewrite H. Qed.
(** ** The walk as seen by Enumerate. *)
Lemma map_id_on {A} (g : A -> A) (l : list A) : (forall x, x ∈ l -> g x = x) -> map g l = l.
Proof. induction l as [|x l IH]; intros H; [done|]. cbn [map]. rewrite H by (by left). f_equal. apply IH. intros y Hy. apply H. by right. Qed.
Definition inside (p : net) (x : loc * pair_) : Prop := exists q, canonical x.2.1.1 x.2.1.2 q /\ ncovers p q /\ p <> q.
Definition outside (p : net) (x : loc * pair_) : Prop := exists q, canonical x.2.1.1 x.2.1.2 q /\ ~ (ncovers p q /\ p <> q).
Lemma setv_ne h l l' v : l <> l' -> val_at (setv h l v) l' = val_at h l'.
Proof. intros H. unfold val_at, setv. destruct (h !! l) as [[]|]; try done. by rewrite lookup_insert_ne. Qed.
Lemma setv_eq h l n v : h !! l = Some (CNum n) -> val_at (setv h l v) l = v.
Proof. intros H. unfold val_at, setv. by rewrite H, lookup_insert. Qed.
Lemma uwalk_out p R : Forall (outside p) R -> forall d s, uwalk_by call p d s (map snd R) s (d ++ map snd R).
Proof.
  induction 1 as [|[l [[ip m] v]] R (q & H1 & H2) HR IH]; intros d s; cbn [map snd fst] in *; [rewrite app_nil_r; constructor|].
  eapply ub_out; [done|done|]. pose proof (IH (d ++ [(ip, m, v)]) s) as H. rewrite <- app_assoc in H. exact H.
Qed.
Lemma uwalk_pre p L : Forall (outside p) L -> forall d s e s' e', uwalk_by call p (d ++ map snd L) s e s' e' -> uwalk_by call p d s (map snd L ++ e) s' e'.
Proof.
  induction 1 as [|[l [[ip m] v]] R (q & H1 & H2) HR IH]; intros d s e s' e' H; cbn [map snd fst Datatypes.app] in *; [by rewrite app_nil_r in H|].
  eapply ub_out; [done|done|]. apply IH. by rewrite <- app_assoc.
Qed.
Lemma outside_reload p h R : Forall (outside p) R -> Forall (outside p) (map (reloadp h) R).
Proof. induction 1 as [|x R H HR IH]; cbn [map]; constructor; [|done]. exact H. Qed.
Lemma reload_upd h h1 (r : option value) l (Y : list (loc * pair_)) : l ∉ map fst Y -> (forall x, x ∈ Y -> h1 !! x.1 = h !! x.1) -> map (reloadp (match r with Some v => setv h1 l v | None => h1 end)) Y = map (reloadp h) Y.
Proof.
  intros Hl Hs. apply map_ext_in. intros y Hy. apply elem_of_list_In in Hy. unfold reloadp. assert (Ey : val_at h1 y.1 = val_at h y.1) by (unfold val_at; by rewrite Hs).
  destruct r; [|by rewrite Ey]. rewrite setv_ne; [by rewrite Ey|]. intros ->. apply Hl. by apply elem_of_list_fmap_1.
Qed.
Lemma uwalk_seg p R : Forall (outside p) R -> forall seg s h s' h', rseg s h seg s' h' -> forall A, X = A ++ seg ++ R -> vrel h0 h -> NoDup (map fst X) ->
  (forall x, x ∈ X -> exists n, h0 !! x.1 = Some (CNum n) /\ nn_leaf n = true /\ plain (nn_val n)) -> Forall (inside p) seg ->
  uwalk_by call p (map snd (map (reloadp h) A)) s (map snd (map (reloadp h) (seg ++ R))) s' (map snd (map (reloadp h') X)).
Proof.
  intros HR seg s h s' h' H. induction H as [s h|s h x seg s1 r h1 s' h' Hcall Hsame Hpl Hr IH]; intros A EX Hv Hn Hc Hin.
  { rewrite EX. cbn [Datatypes.app]. rewrite map_app, map_app. apply uwalk_out. by apply outside_reload. }
  inversion Hin as [|? ? (q & Q1 & Q2 & Q3) Hin']; subst x0 l.
  set (h2 := match r with Some v => setv h1 x.1 v | None => h1 end) in *.
  assert (Hdom : forall y, y ∈ X -> y.1 ∈ dom h0) by (intros y Hy; destruct (Hc y Hy) as (n & E & _); by eapply elem_of_dom_2).
  assert (HxX : x ∈ X) by (rewrite EX; clear; set_solver).
  assert (HnA : x.1 ∉ map fst A) by (rewrite EX, map_app in Hn; apply NoDup_app in Hn as (_ & N2 & _); intros H; apply (N2 _ H); by left).
  assert (HnR : x.1 ∉ map fst (seg ++ R)) by (rewrite EX, map_app in Hn; apply NoDup_app in Hn as (_ & _ & N3); by inversion N3).
  destruct (Hc x HxX) as (n & Hn0 & Hlf & Hp). pose proof (vrel_same _ _ Hv Hsame) as Hv1. destruct (vrel_plain _ _ _ _ Hv1 Hn0 Hp) as (v & Hnh & Hpv).
  assert (Hv2 : vrel h0 h2).
  { unfold h2. destruct r as [w|]; [|done]. rewrite (vrel_setv _ _ _ _ Hnh). eapply vrel_trans; [exact Hv1|]. apply vrel_store; [done|done|done|]. by apply Hpl. }
  assert (Eapp : X = (A ++ [x]) ++ seg ++ R) by (by rewrite <- app_assoc).
  specialize (IH (A ++ [x]) Eapp Hv2 Hn Hc Hin').
  rewrite (map_app (reloadp h2) A [x]) in IH. cbn [map] in IH.
  assert (EA : map (reloadp h2) A = map (reloadp h) A) by (apply reload_upd; [done|]; intros y Hy; apply Hsame, Hdom; rewrite EX; clear -Hy; set_solver).
  assert (ER : map (reloadp h2) (seg ++ R) = map (reloadp h) (seg ++ R)) by (apply reload_upd; [done|]; intros y Hy; apply Hsame, Hdom; rewrite EX; clear -Hy; set_solver).
  rewrite EA, ER in IH.
  assert (Ev : val_at h1 x.1 = val_at h x.1) by (unfold val_at; by rewrite Hsame by (by apply Hdom)).
  assert (Ex : snd (reloadp h2 x) = (x.2.1, default (val_at h x.1) r)).
  { unfold reloadp. cbn [snd]. f_equal. unfold h2. destruct r as [w|]; [|done]. cbn [default]. by eapply setv_eq. }
  rewrite map_app in IH. cbn [map] in IH. rewrite Ex in IH. cbn [map Datatypes.app].
  replace (snd (reloadp h x)) with (x.2.1.1, x.2.1.2, val_at h x.1) by (unfold reloadp; cbn [snd]; by destruct (x.2.1)).
  replace (x.2.1, default (val_at h x.1) r) with (x.2.1.1, x.2.1.2, default (val_at h x.1) r) in IH by (by destruct (x.2.1)).
  eapply ub_in; [exact Q1|exact Q2|exact Q3| |exact IH].
  replace (x.2.1, val_at h x.1) with (x.2.1.1, x.2.1.2, val_at h x.1) in Hcall by (by destruct (x.2.1)). rewrite EX in Hcall.
  rewrite map_app, map_app in Hcall. cbn [map Datatypes.app] in Hcall.
  replace (snd (reloadp h x)) with (x.2.1.1, x.2.1.2, val_at h x.1) in Hcall by (unfold reloadp; cbn [snd]; by destruct (x.2.1)). exact Hcall.
Qed.
Lemma uwalk_le p L seg R s s' h' : X = L ++ seg ++ R -> NoDup (map fst X) ->
  (forall x, x ∈ X -> exists n, h0 !! x.1 = Some (CNum n) /\ nn_leaf n = true /\ plain (nn_val n)) ->
  (forall x, x ∈ X -> val_at h0 x.1 = x.2.2) ->
  Forall (inside p) seg -> Forall (outside p) (L ++ R) -> rseg s h0 seg s' h' ->
  uwalk_by call p [] s (map snd X) s' (map snd (map (reloadp h') X)).
Proof.
  intros EX Hn Hc Hval Hin Hout E. apply Forall_app in Hout as [HL HR].
  assert (Hid : forall Y, (forall x, x ∈ Y -> x ∈ X) -> map (reloadp h0) Y = Y).
  { intros Y HY. apply map_id_on. intros x Hx. unfold reloadp. rewrite Hval by (by apply HY). by destruct x as [? []]. }
  assert (EM : map snd X = map snd L ++ map snd (seg ++ R)) by (rewrite EX; apply map_app). rewrite EM. apply uwalk_pre; [done|]. cbn [Datatypes.app].
  pose proof (uwalk_seg p R HR seg s h0 s' h' E L EX (vrel_refl h0) Hn Hc Hin) as H. rewrite (Hid L), (Hid (seg ++ R)) in H; [exact H|..]; intros x Hx; rewrite EX; clear -Hx; set_solver.
Qed.
(** A callback that does not look at the tree. *)
Lemma uwalk_const (g : St -> pair_ -> St * option value) p : (forall e s x r, call e s x r -> r = g s x) ->
  forall d s e s' e', uwalk_by call p d s e s' e' -> exists e2, e' = d ++ e2 /\ uwalk g p s e s' e2.
Proof.
  intros Hg d s e s' e' H. induction H as [d s|d s ip m q v s1 r e s2 e' H1 H2 H3 H4 H5 (e2 & -> & IH)|d s ip m q v e s2 e' H1 H2 H3 (e2 & -> & IH)].
  - exists []. split; [by rewrite app_nil_r|constructor].
  - exists ((ip, m, default v r) :: e2). split; [by rewrite <- app_assoc|]. eapply uw_in; [done|done|done| |done]. symmetry. by apply Hg in H4.
  - exists ((ip, m, v) :: e2). split; [by rewrite <- app_assoc|]. by eapply uw_out.
Qed.

End upd.
Global Arguments rseg {U St} call h0 X s h seg s' h'.

(** ** The program. *)
Section gen.
Context {U St : Type}.
Local Notation heap := (heap U).
Local Notation value := (value U).
Local Notation numnode := (numnode U).
Local Notation prog := (prog U).
Local Notation pair_ := (pair_ (U := U)).
Local Notation item := (loc * numnode)%type.
Implicit Types h : heap.
Variable cb : St -> pair_ -> prog (St * option value).
(** [D s h seg s' h']: what may be said after the callback was called for [seg]. *)
Variable D : St -> heap -> list (loc * pair_) -> St -> heap -> Prop.
Variable I : heap -> St -> Prop.
Variable h0 : heap.
Variable X : list (loc * pair_).
Definition done_by (s : St) h (seg : list (loc * pair_)) (s' : St) h' (W : gset loc) : Prop := D s h seg s' h' /\ vrel h0 h' /\ dom h' ⊆ W /\ I h' s'.
(** The callback changes no more than values of plain nodes. *)
Record steps : Prop := {
  st_nil : forall s h, D s h [] s h;
  st_app : forall seg1 s h seg2 s1 h1 s' h', D s h seg1 s1 h1 -> D s1 h1 seg2 s' h' -> D s h (seg1 ++ seg2) s' h';
  st_node : forall (x : loc * pair_) (mk : numnode -> pair_) n s h (WS : gset loc), x ∈ X -> h0 !! x.1 = Some (CNum n) -> nn_leaf n = true -> plain (nn_val n) -> (forall v, mk (set_val n v) = (x.2.1, v)) ->
    dom h ⊆ WS -> I h s -> vrel h0 h -> wp (upd_node cb mk s x.1) h WS (fun s' h' WS' => done_by s h [x] s' h' WS') }.
Hypothesis Hact : steps.
Lemma upd_list_spec (mk : numnode -> pair_) : forall seg s h (WS : gset loc), dom h ⊆ WS -> I h s ->
  (forall x, x ∈ seg -> x ∈ X /\ exists n, h0 !! x.1 = Some (CNum n) /\ nn_leaf n = true /\ plain (nn_val n) /\ forall v, mk (set_val n v) = (x.2.1, v)) -> vrel h0 h ->
  wp (upd_list cb mk s (map fst seg)) h WS (fun s' h' WS' => done_by s h seg s' h' WS').
Proof using Hact.
  induction seg as [|x seg IH]; intros s h WS HW HI Hseg Hv; cbn [map upd_list].
  - cbn [wp]. split; [apply (st_nil Hact)|done].
  - destruct (Hseg x ltac:(by left)) as (HX & n & Hn & Hlf & Hp & Hmk). apply wp_bind. eapply wp_mono; [by apply (st_node Hact x mk n s h WS)|]. cbn beta. intros s1 h1 WS1 (D1 & D2 & D3 & D4).
    eapply wp_mono; [apply (IH s1 h1 WS1 D3 D4); [|done]|].
    + intros y Hy. apply Hseg. by right.
    + cbn beta. intros s' h' WS' (E1 & E2). split; [|done]. exact (st_app Hact [x] _ _ _ _ _ _ _ D1 E1).
Qed.
Section view.
Variables (a : loc) (xs : list item) (yz : list (item * list item)).
Hypothesis Hi : itl h0 a xs yz.
Hypothesis HX : X = le xs yz.
Lemma in_le4 x : x ∈ xs -> lp4 x ∈ X.
Proof using HX. intros Hx. rewrite HX. unfold le. apply elem_of_app. left. by apply elem_of_list_fmap_1. Qed.
Lemma in_le6 y x : y ∈ yz -> x ∈ lp6 y -> x ∈ X.
Proof using HX. intros Hy Hx. rewrite HX. unfold le. apply elem_of_app. right. apply elem_of_concat. exists (lp6 y). split; [by apply elem_of_list_fmap_1|done]. Qed.

Lemma upd4_spec seg s h (WS : gset loc) : dom h ⊆ WS -> I h s -> (forall x, x ∈ seg -> x ∈ xs) -> vrel h0 h ->
  wp (upd_list cb pair4 s (map fst seg)) h WS (fun s' h' WS' => done_by s h (map lp4 seg) s' h' WS').
Proof using Hi HX Hact.
  intros HW HI Hs Hv. replace (map fst seg) with (map fst (map lp4 seg)) by (by rewrite map_map). apply upd_list_spec; [done|done| |done].
  intros x Hx. apply elem_of_list_fmap in Hx as (y & -> & Hy). specialize (Hs y Hy). destruct (il_cell4 _ _ _ _ Hi y Hs) as [C1 C2]. split; [by apply in_le4|]. exists y.2. split_and!; [done|done|by apply (il_plain4 _ _ _ _ Hi)|]. done.
Qed.
Lemma upd6s_spec y z seg s h (WS : gset loc) : dom h ⊆ WS -> I h s -> (y, z) ∈ yz -> (exists p, nn_val y.2 = VSub p) -> (forall x, x ∈ seg -> x ∈ z) -> vrel h0 h ->
  wp (upd_list cb (pair6s (msip y.2)) s (map fst seg)) h WS (fun s' h' WS' => done_by s h (map (lp6s y) seg) s' h' WS').
Proof using Hi HX Hact.
  intros HW HI Hy [p Es] Hs Hv. replace (map fst seg) with (map fst (map (lp6s y) seg)) by (by rewrite map_map). apply upd_list_spec; [done|done| |done].
  intros x Hx. apply elem_of_list_fmap in Hx as (x' & -> & Hx). specialize (Hs x' Hx). destruct (il_cell6s _ _ _ _ Hi y z x' Hy Hs) as [C1 C2]. split; [apply (in_le6 (y, z)); [done|]; unfold lp6; cbn [fst snd]; rewrite Es; by apply elem_of_list_fmap_1|]. exists x'.2. split_and!; [done|done|by eapply (il_plain6 _ _ _ _ Hi)|]. done.
Qed.
Lemma upd_top_spec : forall (l : list (item * list item)) s h (WS : gset loc), dom h ⊆ WS -> I h s -> (forall y, y ∈ l -> y ∈ yz) -> vrel h0 h ->
  wp (upd_top cb s (map fst (map fst l))) h WS (fun s' h' WS' => done_by s h (concat (map lp6 l)) s' h' WS').
Proof using Hi HX Hact.
  destruct (il_trees _ _ _ _ Hi) as (r4 & r6 & F4 & F0 & Fs & Ha & T4 & T6 & Ts & Hd).
  induction l as [|[y z] l IH]; intros s h WS HW HI Hl Hv; cbn [map upd_top concat]; [split; [apply (st_nil Hact)|done]|]. cbn [fst].
  assert (Hy : (y, z) ∈ yz) by (apply Hl; by left). destruct (il_cell6 _ _ _ _ Hi y z Hy) as [C1 C2].
  assert (Hrest : forall (pr : prog St), wp pr h WS (fun s' h' WS' => done_by s h (lp6 (y, z)) s' h' WS') ->
    wp (s1 <- pr ;; upd_top cb s1 (map fst (map fst l))) h WS (fun s' h' WS' => done_by s h (lp6 (y, z) ++ concat (map lp6 l)) s' h' WS')).
  { intros pr Hpr. apply wp_bind. eapply wp_mono; [exact Hpr|]. cbn beta. intros s1 h1 WS' (D1 & D2 & D3 & D4).
    eapply wp_mono; [apply IH; [done|done|intros y' Hy'; apply Hl; by right|done]|]. cbn beta. intros s' h' W' (E1 & E2). split; [|done]. by eapply (st_app Hact). }
  destruct (vsub_dec (nn_val y.2)) as [Hp|[p Es]].
  - destruct (vrel_plain _ _ _ _ Hv C1 Hp) as (v & Hn' & Hp'). apply wp_bind. eapply wp_ld_num; [exact Hn'|]. rewrite set_val_val.
    assert (Elp : lp6 (y, z) = [(y.1, pair6 y.2)]) by (unfold lp6; cbn [fst snd]; by destruct (nn_val y.2)).
    assert (Hone : wp (upd_node cb pair6 s y.1) h WS (fun s' h' WS' => done_by s h (lp6 (y, z)) s' h' WS')).
    { rewrite Elp. pose proof (upd_list_spec pair6 [(y.1, pair6 y.2)] s h WS HW HI) as H. cbn [map fst upd_list] in H. 
      assert (H' := fun A B => wp_bind_inv _ _ _ _ _ (H A B)). clear H. eapply wp_mono; [apply H'; [|done]|].
      - intros x Hx. apply elem_of_list_singleton in Hx as ->. split; [apply (in_le6 (y, z)); [done|]; rewrite Elp; by left|]. by exists y.2.
      - cbn beta. intros s' h' WS' H. cbn [wp] in H. done. }
    destruct v; try done; by apply Hrest.
  - pose proof (vrel_sub _ _ _ _ _ Hv C1 Es) as C1'. apply wp_bind. eapply wp_ld_num; [exact C1'|]. rewrite Es. apply Hrest.
    apply wp_bind. pose proof (tr_vrel _ _ _ _ _ _ Hv (Ts y z p Hy Es)) as Tz. eapply wp_mono; [apply (tr_enumerate c64 c64_ok _ _ _ _ _ Tz)|]. cbn beta. intros r h' WS' (-> & -> & Hsub).
    assert (El : lp6 (y, z) = map (lp6s y) z) by (unfold lp6; cbn [fst snd]; by rewrite Es). rewrite El.
    replace (map fst (map (reload h) z)) with (map fst z) by (rewrite map_map; apply map_ext; intros; symmetry; apply reload_fst).
    apply (upd6s_spec y z z s h WS'); [by etrans|done|done|by exists p|done|done].
Qed.
End view.
End gen.

(** Callbacks that leave the memory of the tree alone. *)
Lemma acts_steps {U St} (cb : St -> pair_ (U := U) -> prog U (St * option (value U))) call I h0 X : acts cb call I h0 X -> steps cb (rseg call h0 X) I h0 X.
Proof.
  intros Hact. split; [constructor|apply rseg_app|]. intros [l [pm v0]] mk n s h WS _ Hn Hlf Hp Hmk HW HI Hv. cbn [fst snd] in *. destruct (vrel_plain _ _ _ _ Hv Hn Hp) as (v & Hn' & Hp').
  assert (Hval : val_at h l = v) by exact (val_at_cell _ _ _ Hn'). assert (Hl0 : l ∈ dom h0) by (by eapply elem_of_dom_2).
  unfold upd_node. apply wp_bind. eapply wp_ld_num; [exact Hn'|]. rewrite Hmk.
  apply wp_bind. eapply wp_mono; [apply (wp_dom I); [exact HW|apply (act_call _ _ _ _ _ Hact h WS s (pm, v) Hp' Hv HW HI)]|]. cbn beta. intros [s1 r] h1 WS1 [(Hc & HI1 & Hsame & Hpl) HW1]. cbn [fst snd] in *.
  pose proof (vrel_same _ _ _ Hv Hsame) as Hv1. assert (Hn1 : h1 !! l = Some (CNum (set_val n v))) by (by rewrite Hsame).
  assert (Hcons : rseg call h0 X s h [(l, (pm, v0))] s1 (match r with Some w => setv h1 l w | None => h1 end)).
  { eapply rs_cons; [|exact Hsame|done|constructor]. cbn [fst snd]. rewrite Hval. exact Hc. }
  destruct r as [w|].
  + apply wp_bind. eapply wp_st_num.
    * apply HW1. by eapply elem_of_dom_2.
    * rewrite Hn1. by eexists.
    * cbn [wp]. match goal with |- done_by _ _ _ _ _ _ _ ?H _ => replace H with (setv h1 l w) by (by rewrite (vrel_setv _ _ _ _ Hn1)) end. split; [exact Hcons|]. split_and!.
      -- rewrite (vrel_setv _ _ _ _ Hn1). eapply vrel_trans; [exact Hv1|]. apply vrel_store; [done|done|done|]. by apply Hpl.
      -- rewrite (vrel_setv _ _ _ _ Hn1), dom_insert_L. apply elem_of_dom_2 in Hn1. clear -Hn1 HW1. set_solver.
      -- by apply (act_keep _ _ _ _ _ Hact).
  + cbn [wp]. split; [exact Hcons|done].
Qed.
