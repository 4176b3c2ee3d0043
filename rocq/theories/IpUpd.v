(** * iptree on memory: the located view of a tree and replacing values in place. *)
From Verif Require Import Prog NumModel NumBits NumFun NumSim NumOrder NumSpec NumAbs NumFoot NumLoc IpModel IpSpec IpBits IpAbs IpAbs2 IpAbs3 IpEnum.
From Coq Require Import ZifyBool ZifyNat ZifyN.
Open Scope N_scope.

Section upd.
Context {U : Type}.
Local Notation heap := (heap U).
Local Notation value := (value U).
Local Notation numnode := (numnode U).
Local Notation nmap := (@gmap pfx (@prod_eq_dec N N_eq_dec N N_eq_dec) (@prod_countable N N_eq_dec N_countable N N_eq_dec N_countable) (prod N value)).
Local Notation prog := (prog U).
Local Notation pair_ := (pair_ (U := U)).
Local Notation item := (loc * numnode)%type.
Implicit Types h : heap.

(** ** Memories that differ in the plain values of leaves, and in new cells. *)
Definition vrel h h' : Prop := forall l,
  match h !! l with
  | Some (CNum n) => exists v, (v = nn_val n \/ (nn_leaf n = true /\ plain (nn_val n) /\ plain v)) /\ h' !! l = Some (CNum (set_val n v))
  | Some c => h' !! l = Some c
  | None => True
  end.
Lemma set_val_same (n : numnode) : set_val n (nn_val n) = n.
Proof. by destruct n. Qed.
Lemma set_val_set (n : numnode) v w : set_val (set_val n v) w = set_val n w.
Proof. by destruct n. Qed.
Lemma set_val_val (n : numnode) v : nn_val (set_val n v) = v.
Proof. done. Qed.
Lemma vrel_refl h : vrel h h.
Proof. intros l. destruct (h !! l) as [[]|] eqn:E; try done. exists (nn_val n). split; [by left|]. by rewrite set_val_same. Qed.
Lemma vrel_trans h1 h2 h3 : vrel h1 h2 -> vrel h2 h3 -> vrel h1 h3.
Proof.
  intros H1 H2 l. specialize (H1 l). specialize (H2 l). destruct (h1 !! l) as [[]|] eqn:E; try (rewrite H1 in H2; exact H2); [|done].
  destruct H1 as (v & Hv & E2). rewrite E2 in H2. destruct H2 as (w & Hw & E3). rewrite set_val_set, set_val_val in *. cbn [set_val nn_leaf] in Hw.
  exists w. split; [|done]. destruct Hw as [->|(L1 & L2 & L3)]; [done|]. right. split_and!; [done| |done].
  destruct Hv as [->|(_ & ? & _)]; done.
Qed.
Lemma vrel_store h l n v : h !! l = Some (CNum n) -> nn_leaf n = true -> plain (nn_val n) -> plain v -> vrel h (<[l := CNum (set_val n v)]> h).
Proof.
  intros Hl Hlf Hp Hv l'. destruct (decide (l = l')) as [<-|Hn].
  - rewrite Hl, lookup_insert. exists v. split; [by right|done].
  - rewrite lookup_insert_ne by done. apply vrel_refl.
Qed.
Lemma vrel_dom h h' : vrel h h' -> dom h ⊆ dom h'.
Proof.
  intros H l. rewrite !elem_of_dom. intros [c E]. specialize (H l). rewrite E in H. destruct c; try (rewrite H; by eauto). destruct H as (v & _ & ->). by eauto.
Qed.
Lemma vrel_cell h h' l n : vrel h h' -> h !! l = Some (CNum n) -> exists v, h' !! l = Some (CNum (set_val n v)) /\ (v = nn_val n \/ (nn_leaf n = true /\ plain (nn_val n) /\ plain v)).
Proof. intros H E. specialize (H l). rewrite E in H. destruct H as (v & ? & ?). by exists v. Qed.
Lemma vrel_sub h h' l n s : vrel h h' -> h !! l = Some (CNum n) -> nn_val n = VSub s -> h' !! l = Some (CNum n).
Proof.
  intros H E Hs. destruct (vrel_cell _ _ _ _ H E) as (v & E' & [->|(_ & Hp & _)]); [by rewrite set_val_same in E'|]. by rewrite Hs in Hp.
Qed.
Lemma vrel_plain h h' l n : vrel h h' -> h !! l = Some (CNum n) -> plain (nn_val n) -> exists v, h' !! l = Some (CNum (set_val n v)) /\ plain v.
Proof. intros H E Hs. destruct (vrel_cell _ _ _ _ H E) as (v & E' & [->|(_ & _ & Hp)]); by exists (v) || by eexists. Qed.

Definition reload h (x : item) : item := match h !! x.1 with Some (CNum n) => (x.1, n) | _ => x end.
Lemma reload_fst h x : (reload h x).1 = x.1.
Proof. unfold reload. by destruct (h !! x.1) as [[]|]. Qed.
Lemma reload_cell h h' x : vrel h h' -> h !! x.1 = Some (CNum x.2) -> exists v, reload h' x = (x.1, set_val x.2 v) /\ (v = nn_val x.2 \/ (nn_leaf x.2 = true /\ plain (nn_val x.2) /\ plain v)).
Proof. intros H E. destruct (vrel_cell _ _ _ _ H E) as (v & E' & Hv). exists v. unfold reload. by rewrite E'. Qed.
Lemma reload_same h x : h !! x.1 = Some (CNum x.2) -> reload h x = x.
Proof. intros E. unfold reload. rewrite E. by destruct x. Qed.

Lemma lrep_vrel h h' : vrel h h' -> forall t p xs, lrep h p t xs -> exists t', same_shape t t' /\ lrep h' p t' (map (reload h') xs).
Proof.
  intros Hv. induction t as [|k b lf w l IHl r IHr]; intros p xs H.
  - destruct H as [-> ->]. by exists NE.
  - destruct H as (a & c0 & c1 & xs0 & xs1 & -> & Ha & H0 & H1 & ->). destruct (IHl _ _ H0) as (l' & Sl & Ll), (IHr _ _ H1) as (r' & Sr & Lr).
    destruct (vrel_cell _ _ _ _ Hv Ha) as (v & Ha' & Hv'). cbn [nn_val nn_leaf] in Hv'.
    exists (NT k b lf v l' r'). split.
    + split_and!; try done. intros ->. destruct Hv' as [->|[? _]]; done.
    + exists a, c0, c1, (map (reload h') xs0), (map (reload h') xs1). split_and!; [done|exact Ha'|done|done|].
      rewrite !map_app. f_equal. destruct lf; [|done]. cbn [map]. unfold reload at 1. cbn [fst]. by rewrite Ha'.
Qed.
Lemma tr_vrel c h h' F p xs : vrel h h' -> tr c h F p xs -> tr c h' F p (map (reload h') xs).
Proof.
  intros Hv (h0 & t & Hs & Hd & Hw & Hl).
  set (h0' := filter (fun x : loc * cell U => x.1 ∈ F) h').
  assert (Hlk : forall l, l ∈ F -> h0' !! l = h' !! l).
  { intros l Hin. unfold h0'. destruct (h' !! l) as [x|] eqn:E; [by apply map_filter_lookup_Some|]. apply map_filter_lookup_None. by left. }
  assert (Hv0 : vrel h0 h0').
  { intros l. specialize (Hv l). destruct (decide (l ∈ F)) as [Hin|Hin].
    - rewrite Hlk by done. assert (Hin' := Hin). rewrite <- Hd in Hin'. apply elem_of_dom in Hin' as [x Hx]. rewrite Hx. by rewrite (lookup_weaken _ _ _ _ Hx Hs) in Hv.
    - by rewrite (proj1 (not_elem_of_dom h0 l)) by (by rewrite Hd). }
  destruct (lrep_vrel h0 h0' Hv0 _ _ _ Hl) as (t' & St & Lt). exists h0', t'. split_and!.
  - apply map_filter_subseteq.
  - apply set_eq. intros l. split.
    + intros [x Hx]%elem_of_dom. unfold h0' in Hx. by apply map_filter_lookup_Some in Hx as [_ Hx].
    + intros Hin. apply (vrel_dom _ _ Hv0). by rewrite Hd.
  - by eapply same_shape_wf.
  - replace (map (reload h') xs) with (map (reload h0') xs); [done|]. apply lrep_cells in Hl. apply map_ext_Forall. eapply Forall_impl; [exact Hl|].
    intros x [Hx _]. unfold reload. rewrite Hlk; [done|]. rewrite <- Hd. by eapply elem_of_dom_2.
Qed.

(** ** The located view. *)
Record itl h (a : loc) (xs : list item) (yz : list (item * list item)) : Prop := {
  il_trees : exists r4 r6 F4 F0 (Fs : N -> gset loc), h !! a = Some (CIp r4 r6) /\ tr c32 h F4 r4 xs /\ tr c64 h F0 r6 (map fst yz) /\
    (forall y z s, (y, z) ∈ yz -> nn_val y.2 = VSub s -> tr c64 h (Fs (nn_key y.2)) s z) /\
    F4 ## F0 /\ (forall k, F4 ## Fs k) /\ (forall k, F0 ## Fs k) /\ (forall k k', k <> k' -> Fs k ## Fs k') /\ a ∉ F4 /\ a ∉ F0 /\ (forall k, a ∉ Fs k);
  il_sub : forall y z s, (y, z) ∈ yz -> nn_val y.2 = VSub s -> nn_bits y.2 = 64 /\ z <> [];
  il_low : forall y z, (y, z) ∈ yz -> plain (nn_val y.2) -> nn_bits y.2 < 64 /\ z = [];
  il_plain4 : forall x, x ∈ xs -> plain (nn_val x.2);
  il_plain6 : forall y z x, (y, z) ∈ yz -> x ∈ z -> plain (nn_val x.2) }.

(** Networks with the nodes that hold their values. *)
Definition lp4 (x : item) : loc * pair_ := (x.1, pair4 x.2).
Definition lp6s (y x : item) : loc * pair_ := (x.1, pair6s (msip y.2) x.2).
Definition lp6 (yz : item * list item) : list (loc * pair_) :=
  match nn_val yz.1.2 with VSub _ => map (lp6s yz.1) yz.2 | _ => [(yz.1.1, pair6 yz.1.2)] end.
Definition le xs yz : list (loc * pair_) := map lp4 xs ++ concat (map lp6 yz).

Definition val_at h (l : loc) : value := match h !! l with Some (CNum n) => nn_val n | _ => VNil end.
Definition reloadp h (x : loc * pair_) : loc * pair_ := (x.1, (x.2.1, val_at h x.1)).
Definition reload6 h (yz : item * list item) : item * list item := (reload h yz.1, map (reload h) yz.2).

Lemma vsub_dec (v : value) : plain v \/ exists s, v = VSub s.
Proof. destruct v; (by left) || (right; by eexists). Qed.

Section view.
Variables (h : heap) (a : loc) (xs : list item) (yz : list (item * list item)).
Hypothesis Hi : itl h a xs yz.

Lemma il_cell4 x : x ∈ xs -> h !! x.1 = Some (CNum x.2) /\ nn_leaf x.2 = true.
Proof. destruct (il_trees _ _ _ _ Hi) as (r4 & r6 & F4 & F0 & Fs & _ & T4 & _). intros Hx. destruct (tr_cells _ _ _ _ _ T4 x Hx) as (? & ? & _). done. Qed.
Lemma il_cell6 y z : (y, z) ∈ yz -> h !! y.1 = Some (CNum y.2) /\ nn_leaf y.2 = true.
Proof.
  destruct (il_trees _ _ _ _ Hi) as (r4 & r6 & F4 & F0 & Fs & _ & _ & T6 & _). intros Hx. destruct (tr_cells _ _ _ _ _ T6 y) as (? & ? & _); [|done].
  by apply (elem_of_list_fmap_1 fst) in Hx.
Qed.
Lemma il_cell6s y z x : (y, z) ∈ yz -> x ∈ z -> h !! x.1 = Some (CNum x.2) /\ nn_leaf x.2 = true.
Proof.
  destruct (il_trees _ _ _ _ Hi) as (r4 & r6 & F4 & F0 & Fs & _ & _ & _ & T & _). intros Hy Hx.
  destruct (vsub_dec (nn_val y.2)) as [Hp|[s Es]].
  - destruct (il_low _ _ _ _ Hi _ _ Hy Hp) as [_ ->]. by apply elem_of_nil in Hx.
  - destruct (tr_cells _ _ _ _ _ (T _ _ _ Hy Es) x Hx) as (? & ? & _). done.
Qed.
Lemma lp4_reload h' x : vrel h h' -> x ∈ xs -> lp4 (reload h' x) = reloadp h' (lp4 x).
Proof using Hi.
  intros Hv Hx. destruct (il_cell4 x Hx) as [C1 C2]. destruct (reload_cell _ _ _ Hv C1) as (v & E & _). destruct (vrel_cell _ _ _ _ Hv C1) as (v' & E' & _).
  unfold reload in E. rewrite E' in E. injection E as E. assert (v' = v) as -> by (by rewrite <- (set_val_val x.2 v'), E).
  unfold reload, reloadp, lp4, val_at. cbn [fst snd]. rewrite E'. done.
Qed.
Lemma lp6_reload h' y : vrel h h' -> y ∈ yz -> lp6 (reload6 h' y) = map (reloadp h') (lp6 y).
Proof using Hi.
  intros Hv Hy. destruct y as [y z]. destruct (il_cell6 y z Hy) as [C1 C2]. unfold lp6, reload6. cbn [fst snd].
  destruct (vsub_dec (nn_val y.2)) as [Hp|[s Es]].
  - destruct (vrel_plain _ _ _ _ Hv C1 Hp) as (v & E & Hp'). unfold reload. rewrite E. cbn [fst snd]. rewrite set_val_val.
    assert (E2 : [(y.1, pair6 (set_val y.2 v))] = map (reloadp h') [(y.1, pair6 y.2)]).
    { cbn [map]. unfold reloadp, val_at. cbn [fst snd]. rewrite E. done. }
    destruct v; try done; destruct (nn_val y.2); done.
  - pose proof (vrel_sub _ _ _ _ _ Hv C1 Es) as E. rewrite (reload_same h' y E), Es. rewrite !map_map. apply map_ext_in. intros x Hx. apply elem_of_list_In in Hx.
    destruct (il_cell6s y z x Hy Hx) as [D1 D2]. destruct (vrel_cell _ _ _ _ Hv D1) as (v' & E' & _). unfold reload, lp6s, reloadp, val_at. cbn [fst snd]. rewrite E'. done.
Qed.
Lemma le_reload h' : vrel h h' -> le (map (reload h') xs) (map (reload6 h') yz) = map (reloadp h') (le xs yz).
Proof using Hi.
  intros Hv. unfold le. rewrite map_app. f_equal.
  - rewrite !map_map. apply map_ext_in. intros x Hx. apply elem_of_list_In in Hx. by apply lp4_reload.
  - rewrite concat_map, !map_map. f_equal. apply map_ext_in. intros x Hx. apply elem_of_list_In in Hx. by apply lp6_reload.
Qed.
Lemma itl_vrel h' : vrel h h' -> itl h' a (map (reload h') xs) (map (reload6 h') yz).
Proof using Hi.
  intros Hv. destruct (il_trees _ _ _ _ Hi) as (r4 & r6 & F4 & F0 & Fs & Ha & T4 & T6 & Ts & Hd). split.
  - exists r4, r6, F4, F0, Fs. split_and!; try apply Hd.
    + specialize (Hv a). by rewrite Ha in Hv.
    + by eapply tr_vrel.
    + replace (map fst (map (reload6 h') yz)) with (map (reload h') (map fst yz)) by (by rewrite !map_map). by eapply tr_vrel.
    + intros y z s Hy Es. apply elem_of_list_fmap in Hy as ([y0 z0] & [= -> ->] & Hy). destruct (il_cell6 _ _ Hy) as [C1 C2]. cbn [fst snd] in *.
      destruct (reload_cell _ _ _ Hv C1) as (v & E & Hv'). rewrite E in *. cbn [snd set_val nn_val nn_key] in *. subst v.
      eapply tr_vrel; [done|]. apply (Ts _ _ _ Hy). destruct Hv' as [->|(_ & _ & [])]. done.
  - intros y z s Hy Es. apply elem_of_list_fmap in Hy as ([y0 z0] & [= -> ->] & Hy). destruct (il_cell6 _ _ Hy) as [C1 C2]. cbn [fst snd] in *.
    destruct (reload_cell _ _ _ Hv C1) as (v & E & Hv'). rewrite E in *. cbn [snd set_val nn_val nn_bits] in *. subst v.
    destruct Hv' as [Hv'|(_ & _ & [])]. destruct (il_sub _ _ _ _ Hi _ _ _ Hy (eq_sym Hv')) as [H1 H2]. split; [done|]. by destruct z0.
  - intros y z Hy Hp. apply elem_of_list_fmap in Hy as ([y0 z0] & [= -> ->] & Hy). destruct (il_cell6 _ _ Hy) as [C1 C2]. cbn [fst snd] in *.
    destruct (reload_cell _ _ _ Hv C1) as (v & E & Hv'). rewrite E in *. cbn [snd set_val nn_val nn_bits] in *.
    destruct (il_low _ _ _ _ Hi _ _ Hy) as [H1 ->]; [|done]. destruct Hv' as [<-|(_ & ? & _)]; done.
  - intros x Hx. apply elem_of_list_fmap in Hx as (x0 & -> & Hx). destruct (il_cell4 _ Hx) as [C1 C2].
    destruct (reload_cell _ _ _ Hv C1) as (v & -> & Hv'). cbn [snd set_val nn_val]. destruct Hv' as [->|(_ & _ & ?)]; [|done]. by apply (il_plain4 _ _ _ _ Hi).
  - intros y z x Hy Hx. apply elem_of_list_fmap in Hy as ([y0 z0] & [= -> ->] & Hy). cbn [fst snd] in *. apply elem_of_list_fmap in Hx as (x0 & -> & Hx). destruct (il_cell6s _ _ _ Hy Hx) as [C1 C2].
    destruct (reload_cell _ _ _ Hv C1) as (v & -> & Hv'). cbn [snd set_val nn_val]. destruct Hv' as [->|(_ & _ & ?)]; [|done]. by apply (il_plain6 _ _ _ _ Hi _ _ _ Hy).
Qed.

(** Enumerate. *)
Lemma mapM_lp6 : forall (l : list (item * list item)) WS, (forall y, y ∈ l -> y ∈ yz) ->
  wp (mapM (fun y : item => enum6 y.2) (map fst l)) h WS (fun zs h' _ => h' = h /\ zs = map (fun y => map snd (lp6 y)) l).
Proof using Hi.
  destruct (il_trees _ _ _ _ Hi) as (r4 & r6 & F4 & F0 & Fs & Ha & T4 & T6 & Ts & Hd).
  induction l as [|[y z] l IH]; intros WS Hl; cbn [mapM map].
  - cbn [wp]. done.
  - apply wp_bind. eapply (wp_mono _ _ _ (fun z' h' WS' => h' = h /\ z' = map snd (lp6 (y, z)))).
    + unfold enum6, lp6. cbn [fst snd]. destruct (vsub_dec (nn_val y.2)) as [Hp|[s Es]].
      * destruct (nn_val y.2); try done.
      * rewrite Es. apply wp_bind. eapply wp_mono; [apply (tr_enumerate c64 c64_ok h (Fs (nn_key y.2)) s z); apply (Ts y z s); [|done]; apply Hl; by left|].
        cbn beta. intros r h' WS' (-> & -> & _). cbn [wp]. split; [done|]. by rewrite map_map.
    + cbn beta. intros z' ? WS1 [-> ->]. apply wp_bind. eapply wp_mono; [apply IH; intros y' Hy'; apply Hl; by right|]. cbn beta.
      intros zs ? WS2 [-> ->]. cbn [wp]. done.
Qed.
Lemma ip_enumerate_loc WS : wp (ip_enumerate (Some a)) h WS (fun e h' _ => h' = h /\ e = map snd (le xs yz)).
Proof using Hi.
  destruct (il_trees _ _ _ _ Hi) as (r4 & r6 & F4 & F0 & Fs & Ha & T4 & T6 & Ts & Hd).
  unfold ip_enumerate. apply wp_bind. eapply wp_ld_ip; [exact Ha|]. cbn [fst snd].
  apply wp_bind. eapply wp_mono; [apply (tr_enumerate c32 c32_ok _ _ _ _ _ T4)|]. cbn beta. intros ? ? WS1 (-> & -> & _).
  apply wp_bind. eapply wp_mono; [apply (tr_enumerate c64 c64_ok _ _ _ _ _ T6)|]. cbn beta. intros ? ? WS2 (-> & -> & _).
  apply wp_bind. eapply wp_mono; [apply (mapM_lp6 yz); done|]. cbn beta. intros ? ? WS3 [-> ->]. cbn [wp]. split; [done|].
  unfold le. rewrite map_app, concat_map, !map_map. done.
Qed.

(** The nodes are different. *)
Lemma le_nodup : NoDup (map fst (le xs yz)).
Proof using Hi.
  destruct (il_trees _ _ _ _ Hi) as (r4 & r6 & F4 & F0 & Fs & Ha & T4 & T6 & Ts & D1 & D2 & D3 & D4 & _).
  unfold le. rewrite map_app, map_map. apply NoDup_app. 
  assert (Hin6 : forall l, l ∈ map fst (concat (map lp6 yz)) -> exists y z, (y, z) ∈ yz /\ ((l = y.1 /\ plain (nn_val y.2)) \/ exists x, x ∈ z /\ l = x.1)).
  { intros l Hl. apply elem_of_list_fmap in Hl as ([l' p'] & -> & Hl). apply elem_of_concat in Hl as (w & Hw & Hl). apply elem_of_list_fmap in Hw as ([y z] & -> & Hy).
    exists y, z. split; [done|]. unfold lp6 in Hl. cbn [fst snd] in *. destruct (vsub_dec (nn_val y.2)) as [Hp|[s Es]].
    - left. split; [|done]. assert (Hl' : (l', p') ∈ [(y.1, pair6 y.2)]) by (by destruct (nn_val y.2)). apply elem_of_list_singleton in Hl'. by injection Hl'.
    - rewrite Es in Hl. apply elem_of_list_fmap in Hl as (x & [= -> ->] & Hx). right. by exists x. }
  split_and!.
  - pose proof (tr_nodup c32 c32_ok _ _ _ _ T4) as H. exact H.
  - intros l Hl4 Hl6. apply elem_of_list_fmap in Hl4 as (x & -> & Hx). cbn [lp4 fst] in Hl6. destruct (tr_cells _ _ _ _ _ T4 x Hx) as (_ & _ & HF4).
    destruct (Hin6 _ Hl6) as (y & z & Hy & [[E _]|(x' & Hx' & E)]).
    + destruct (tr_cells _ _ _ _ _ T6 y) as (_ & _ & HF0); [by apply (elem_of_list_fmap_1 fst) in Hy|]. rewrite <- E in HF0. by eapply D1.
    + destruct (vsub_dec (nn_val y.2)) as [Hp|[s Es]].
      { destruct (il_low _ _ _ _ Hi _ _ Hy Hp) as [_ ->]. by apply elem_of_nil in Hx'. }
      destruct (tr_cells _ _ _ _ _ (Ts _ _ _ Hy Es) x' Hx') as (_ & _ & HF). rewrite <- E in HF. by eapply D2.
  - clear Hin6. pose proof (tr_sorted c64 c64_ok _ _ _ _ T6) as Hs6. pose proof (tr_nodup c64 c64_ok _ _ _ _ T6) as Hn6.
    pose proof (fun y z H => proj2 (proj2 (tr_cells _ _ _ _ _ T6 y (elem_of_list_fmap_1 fst yz (y, z) H)))) as Hf6.
    pose proof (fun y z H => proj2 (tr_valid c64 c64_ok _ _ _ _ y T6 (elem_of_list_fmap_1 fst yz (y, z) H))) as Hb6.
    assert (Hsub := il_sub _ _ _ _ Hi). assert (Hlow := il_low _ _ _ _ Hi). clear Hi T4 T6 D1 D2.
    induction yz as [|[y z] l IH]; cbn [map concat]; [constructor|]. rewrite map_app. cbn [map fst] in Hs6, Hn6. inversion Hs6 as [|? ? Hs6' Hf]; subst. inversion Hn6 as [|? ? Hni Hn6']; subst.
    apply NoDup_app. split_and!.
    + unfold lp6. cbn [fst snd]. destruct (vsub_dec (nn_val y.2)) as [Hp|[s Es]].
      * assert (NoDup (map fst [(y.1, pair6 y.2)])) as E by (apply NoDup_singleton). by destruct (nn_val y.2).
      * rewrite Es, map_map. exact (tr_nodup c64 c64_ok _ _ _ _ (Ts y z s ltac:(by left) Es)).
    + intros l' Hl1 Hl2. apply elem_of_list_fmap in Hl2 as ([l2 p2] & -> & Hl2). apply elem_of_concat in Hl2 as (w & Hw & Hl2). apply elem_of_list_fmap in Hw as ([y2 z2] & -> & Hy2).
      cbn [fst] in Hl1. apply elem_of_list_fmap in Hl1 as ([l1 p1] & E1 & Hl1). cbn [fst] in E1. subst l1.
      unfold lp6 in Hl1, Hl2. cbn [fst snd] in *.
      assert (P1 : (l2 = y.1 /\ plain (nn_val y.2)) \/ (l2 ∈ Fs (nn_key y.2) /\ exists s, nn_val y.2 = VSub s)).
      { destruct (vsub_dec (nn_val y.2)) as [Hp|[s Es]].
        - left. split; [|done]. assert (Hl' : (l2, p1) ∈ [(y.1, pair6 y.2)]) by (by destruct (nn_val y.2)). apply elem_of_list_singleton in Hl'. by injection Hl'.
        - right. split; [|by exists s]. rewrite Es in Hl1. apply elem_of_list_fmap in Hl1 as (x & [= -> ->] & Hx). by apply (tr_cells _ _ _ _ _ (Ts y z s ltac:(by left) Es) x Hx). }
      assert (P2 : (l2 = y2.1 /\ plain (nn_val y2.2)) \/ (l2 ∈ Fs (nn_key y2.2) /\ exists s, nn_val y2.2 = VSub s)).
      { destruct (vsub_dec (nn_val y2.2)) as [Hp|[s Es]].
        - left. split; [|done]. assert (Hl' : (l2, p2) ∈ [(y2.1, pair6 y2.2)]) by (by destruct (nn_val y2.2)). apply elem_of_list_singleton in Hl'. by injection Hl'.
        - right. split; [|by exists s]. rewrite Es in Hl2. apply elem_of_list_fmap in Hl2 as (x & [= -> ->] & Hx). by apply (tr_cells _ _ _ _ _ (Ts y2 z2 s ltac:(by right) Es) x Hx). }
      destruct P1 as [[E1 _]|[E1 [s1 S1]]], P2 as [[E2 _]|[E2 [s2 S2]]].
      * apply Hni. rewrite <- E1, E2. apply (elem_of_list_fmap_1 fst) in Hy2. by apply (elem_of_list_fmap_1 fst) in Hy2.
      * apply (D3 (nn_key y2.2) l2); [|done]. rewrite E1. apply (Hf6 y z). by left.
      * apply (D3 (nn_key y.2) l2); [|done]. rewrite E2. apply (Hf6 y2 z2). by right.
      * destruct (decide (nn_key y.2 = nn_key y2.2)) as [Ek|Ek]; [|by eapply (D4 _ _ Ek)].
        rewrite Forall_forall in Hf. assert (Hlt : nentry_lt 64 (as_entry y) (as_entry y2)).
        { apply Hf. apply (elem_of_list_fmap_1 fst) in Hy2. by apply (elem_of_list_fmap_1 as_entry) in Hy2. }
        destruct (Hsub y z s1 ltac:(by left) S1) as [B1 _]. destruct (Hsub y2 z2 s2 ltac:(by right) S2) as [B2 _].
        unfold nentry_lt, as_entry in Hlt. cbn [fst snd] in Hlt. rewrite Ek, B1, B2 in Hlt. lia.
    + apply IH; try done; intros; (eapply Ts || eapply Hf6 || eapply Hb6 || eapply Hsub || eapply Hlow); try done; by right.
Qed.
End view.
End upd.
