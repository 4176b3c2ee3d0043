(** * Proofs for Properties_ip_versions.v *)
From Verif Require Import Prog History NumModel NumSpec NumAbs NumFoot IpModel IpSpec IpBits IpAbs IpAbs2 IpAbs3 IpAbs4 IpEnum IpHist NumShare IpUpd3 WorkProofs ShareSpec Opaque ShareProofs MixProofs.
From Verif Require Import IpKinds IpKinds2 IpKinds3 IpVersSpec.
Open Scope nat_scope.

(** The client: it does not call InplaceInsert on nil. *)
Definition w_exec {U} (vs : list ptr) (o : wop (value U)) : prog U (list ptr * iout (value U)) :=
  match o with
  | WCall o => ip_exec vs o
  | WInplace i k v => match nth i vs None with None => Ret (vs, IONone) | Some a => ip_inplace_key (Some a) k v ;;; Ret (vs, IONone) end
  end.

(** ** Any values. *)
Section any.
Context {U : Type}.
Local Notation heap := (heap U).
Local Notation value := (value U).
Local Notation kinds := (kd -> gset loc).
Implicit Types (h : heap) (K : kinds) (vs : list ptr) (gs : list (ilog value)).
Definition kR h K (t : ptr) (l : ilog value) : Prop := kitree h K t (ilog_get l).
Definition fresh_at h (t : ptr) : Prop := exists a, t = Some a /\ a ∉ dom h.
Definition made h vs (ro : iop (option net) value) (x : iout value) (vs' : list ptr) : Prop :=
  match ro with
  | IBuild _ => exists t, vs' = vs ++ [t] /\ fresh_at h t
  | IInsert i k _ => exists t, vs' = vs ++ [t] /\ if k then fresh_at h t else t = nth i vs None
  | IDelete i _ => exists t, vs' = vs ++ [t] /\ match x with IOBool true => fresh_at h t | _ => t = nth i vs None end
  | IGet _ _ | IEnumerate _ => vs' = vs
  end.
Lemma kR_nth h K vs gs i : Forall2 (kR h K) vs gs -> kR h K (nth i vs None) (nth i gs []).
Proof. intros H. revert i. induction H; intros [|i]; cbn [nth]; done. Qed.
Lemma kR_post h K vs gs t l h' : Forall2 (kR h K) vs gs -> kpost h K t (ilog_get l) h' ->
  h ⊆ h' /\ exists K', kle K K' /\ kgood h' K' /\ Forall2 (kR h' K') (vs ++ [t]) (gs ++ [l]).
Proof.
  intros HR (K' & H1 & H2 & H3 & H4). split; [done|]. exists K'. split_and!; [done|done|]. apply Forall2_app; [|by constructor]. eapply Forall2_impl; [exact HR|]. intros. by eapply kitree_mono.
Qed.
Lemma kpost_ext h K t G G' h' : (forall q, G q = G' q) -> kpost h K t G h' -> kpost h K t G' h'.
Proof. intros E (K' & H1 & H2 & H3 & H4). exists K'. split_and!; try done. by eapply kitree_ext. Qed.
Lemma k_exec h K WS vs gs o ro : kgood h K -> Forall2 (kR h K) vs gs -> iop_ok o -> iresolves o ro ->
  wp (ip_exec vs o) h WS (fun r h' _ => (h ⊆ h' /\ exists K', kle K K' /\ kgood h' K' /\ Forall2 (kR h' K') r.1 (ilog_step gs ro)) /\ ianswer gs ro r.2 /\ made h vs ro r.2 r.1).
Proof.
  intros HG HR Hok Hro. destruct Hro as [items items' H|i k q v H|i k q H|i k q H|i]; unfold ip_exec; cbn [iop_ok] in Hok.
  - pose proof (ip_build_wp (∅ : heap) items items' H Hok) as Hw.
    apply (wp_part _ ∅ h ∅ WS _ (map_empty_subseteq h) (empty_subseteq WS)) in Hw. apply wp_bind_inv in Hw. apply wp_bind. eapply wp_mono; [exact Hw|]. cbn beta. intros t h1 W1 Hw1.
    apply wp_bind_inv in Hw1. apply wp_bind. eapply wp_mono; [exact Hw1|]. cbn beta. intros _ h2 W2 Hw2. cbn [wp fst snd] in *. destruct Hw2 as (hp & W3 & Hs & (F & Ho & _) & Hrest).
    assert (Hd : forall l, l ∈ dom h -> l ∉ dom hp /\ h2 !! l = h !! l). { intros l Hl. apply Hrest; [done|]. rewrite dom_empty_L. apply not_elem_of_empty. }
    split; [|split; [done|]].
    + apply kR_post; [done|]. eapply (kitree_new h h2 hp); [done|by eapply iown_itree|done| |].
      * apply map_subseteq_spec. intros l x Hl. destruct (Hd l) as [_ ->]; [by eapply elem_of_dom_2|done].
      * intros l L1 L2. by apply (Hd l).
    + exists t. split; [done|]. destruct Ho as (a & r4 & r6 & F4 & F6 & -> & Ha & _). exists a. split; [done|]. intros H1. apply Hd in H1 as [H1 _]. apply H1. by eapply elem_of_dom_2.
  - apply wp_bind. rewrite insert_key_eq. eapply wp_mono; [apply (k_insert h K WS _ (ilog_get (nth i gs [])) _ q v); [done|by apply kR_nth|done|by apply key_isnet]|].
    cbn beta. intros t h1 W1 (H1 & H2 & H3). cbn [wp fst snd]. split; [|split; [done|]].
    + apply kR_post; [done|]. eapply kpost_ext; [|exact H1]. intros p. apply ins_log_upd.
    + exists t. split; [done|]. destruct q as [q|]; [by apply H3|by apply H2].
  - apply wp_bind. rewrite delete_key_eq. eapply wp_mono; [apply (k_delete h K WS _ (ilog_get (nth i gs [])) _ q); [done|by apply kR_nth|by apply key_isnet]|].
    cbn beta. intros [t b] h1 W1 (H1 & H2 & H3). cbn [wp fst snd] in *. split; [|split; [by exists b|]].
    + apply kR_post; [done|]. eapply kpost_ext; [|exact H1]. intros p. apply del_log_upd.
    + exists t. split; [done|]. by destruct b.
  - apply wp_bind. rewrite get_key_eq. eapply wp_mono; [apply (ip_get_at h WS _ (ilog_get (nth i gs [])) _ q); [eapply kitree_itree; [done|by apply kR_nth]|by apply key_isnet]|].
    cbn beta. intros x h1 W1 (-> & res & -> & Hres). cbn [wp fst snd]. split; [split; [done|]; by exists K; split; [apply kle_refl|]|split; [|done]]. exists res. split; [by rewrite ival_ret|]. exact Hres.
  - apply wp_bind. eapply wp_mono; [apply (ip_enumerate_at h WS _ (ilog_get (nth i gs []))); eapply kitree_itree; [done|by apply kR_nth]|].
    cbn beta. intros e h1 W1 [-> He]. cbn [wp fst snd]. split; [split; [done|]; by exists K; split; [apply kle_refl|]|split; [|done]]. exists e. split; [done|]. by apply enum_of_log.
Qed.
End any.

(** ** Values that carry the call that stored them. *)
Section tagged.
Context {U : Type}.
Local Notation tag := (net * nat)%type.
Local Notation U' := (value U * tag)%type.
Local Notation erv := (erv (untag (U := U))).
Local Notation slog := (ilog (nat * value U)).
Local Notation kinds := (kd -> gset loc).
Definition tg (q : net) (x : nat * value U) : value U' := tagv q x.1 x.2.
Definition tl (l : slog) : ilog (value U') := map (fun e => match e with ILIns p x => ILIns p (tg p x) | ILDel p => ILDel p end) l.
Lemma tl_get l q : ilog_get (tl l) q = tg q <$> ilog_get l q.
Proof. induction l as [|[p v|p] l IH]; cbn [tl map ilog_get]; [done|..]; destruct (decide _) as [->|] || destruct (decide _); done. Qed.
Lemma tg_inj q x y : tg q x = tg q y -> x = y.
Proof. destruct x, y. unfold tg, tagv. cbn [fst snd]. by intros [= -> ->]. Qed.
Lemma tl_eq l1 l2 q : ilog_get (tl l1) q = ilog_get (tl l2) q -> ilog_get l1 q = ilog_get l2 q.
Proof. rewrite !tl_get. destruct (ilog_get l1 q), (ilog_get l2 q); cbn; try done. intros [= E]. f_equal. destruct p, p0. cbn [fst snd] in *. congruence. Qed.
Lemma tl_ins k c v l : tl (ins_log k (c, v) l) = ins_log k (tagv (default tag0 k) c v) (tl l).
Proof. by destruct k. Qed.
Lemma tl_del k l : tl (del_log k l) = del_log k (tl l).
Proof. by destruct k. Qed.
Lemma tl_build c items : forall l, tl (build_log (map (fun x : option net * value U => (x.1, (c, x.2))) items) l) = build_log (map (fun x => (x.1, tagv (default tag0 x.1) c x.2)) items) (tl l).
Proof. induction items as [|[k v] items IH]; intros l; cbn [map build_log fst snd]; [done|]. by rewrite IH, tl_ins. Qed.
Lemma tl_nth gs i : nth i (map tl gs) [] = tl (nth i gs []).
Proof. revert i. induction gs; intros [|i]; cbn [map nth]; auto. Qed.
Lemma tl_step c ro gs : map tl (ilog_step gs (stamped c ro)) = ilog_step (map tl gs) (tago c ro).
Proof.
  destruct ro as [items|j k v|j k|j k|j]; cbn [tago stamped ilog_step]; try done; rewrite map_app; cbn [map]; f_equal; f_equal.
  - apply tl_build.
  - by rewrite tl_ins, tl_nth.
  - by rewrite tl_del, tl_nth.
Qed.
Definition lplain (l : slog) : Prop := forall p x, ILIns p x ∈ l -> plain x.2.
Lemma tl_erl l : lplain l -> erl (tl l) = unstamp l.
Proof.
  unfold lplain. induction l as [|e l IH]; intros H; [done|]. cbn [tl map erl unstamp]. f_equal; [|apply IH; intros p x Hx; apply (H p); by right].
  destruct e as [p x|p]; cbn [ere]; [|done]. f_equal. apply erv_tag. apply (H p). by left.
Qed.
Lemma lplain_nth gs i : Forall lplain gs -> lplain (nth i gs []).
Proof. intros H. revert i. induction H; intros [|i]; cbn [nth]; try done; intros p x Hx; by apply elem_of_nil in Hx. Qed.
Lemma lplain_ins k c v l : plain v -> lplain l -> lplain (ins_log k (c, v) l).
Proof. intros Hv H. destruct k as [q|]; [|done]. intros p x Hx. apply elem_of_cons in Hx as [Hx|Hx]; [injection Hx as -> ->; done|by apply (H p)]. Qed.
Lemma lplain_step c (o : iop ikey (value U)) ro gs : iresolves o ro -> iop_ok o -> Forall lplain gs -> Forall lplain (ilog_step gs (stamped c ro)).
Proof.
  intros Hr Ho H. destruct Hr as [items items' Hi|j k q v Hk|j k q Hk|j k q Hk|j]; cbn [stamped ilog_step]; try done; (apply Forall_app; split; [done|]; constructor; [|constructor]).
  - cbn [iop_ok] in Ho. assert (Hl : lplain []) by (intros p x Hx; by apply elem_of_nil in Hx). revert Hl. generalize (@nil (ilop (nat * value U))). induction Hi as [|[k v] [q w] items items' [H1 H2] Hi IH]; intros l Hl; cbn [map build_log fst snd]; [done|].
    inversion Ho as [|? ? Hv Ho']; subst. cbn [fst snd] in *. subst w. apply IH; [done|]. by apply lplain_ins.
  - apply lplain_ins; [done|]. by apply lplain_nth.
  - pose proof (lplain_nth gs j H) as Hl. destruct q as [q|]; [|done]. intros p x Hx. apply elem_of_cons in Hx as [Hx|Hx]; [done|by apply (Hl p)].
Qed.
Lemma erl_tl_map gs : Forall lplain gs -> map erl (map tl gs) = map unstamp gs.
Proof. induction 1; cbn [map]; [done|]. f_equal; [by apply tl_erl|done]. Qed.
(** *** Objects. *)
Definition idok (f : nat -> option loc) (t : ptr) (id : option nat) : Prop := match id with None => t = None | Some n => t <> None /\ t = f n end.
Definition fok (f : nat -> option loc) (c : nat) (h : heap U') : Prop :=
  (forall n l, f n = Some l -> n < c /\ l ∈ dom h) /\ forall n n' l, f n = Some l -> f n' = Some l -> n = n'.
Lemma idok_nth f vs ids i : Forall2 (idok f) vs ids -> idok f (nth i vs None) (nth i ids None).
Proof. intros H. revert i. induction H; intros [|i]; cbn [nth]; done. Qed.
Lemma fok_new f c h (h' : heap U') : fok f c h -> dom h ⊆ dom h' -> fok f (S c) h'.
Proof. intros [H1 H2] Hd. split; [|done]. intros n l E. destruct (H1 n l E). split; [lia|by apply Hd]. Qed.
Lemma fok_add f c h (h' : heap U') a vs ids : fok f c h -> dom h ⊆ dom h' -> a ∉ dom h -> a ∈ dom h' -> Forall2 (idok f) vs ids -> Forall (fun i => forall n, i = Some n -> n < c) ids ->
  exists f', fok f' (S c) h' /\ Forall2 (idok f') (vs ++ [Some a]) (ids ++ [Some c]).
Proof.
  intros [H1 H2] Hd Ha Ha' HR Hlt. exists (fun n => if decide (n = c) then Some a else f n). split; [split|].
  - intros n l. destruct (decide (n = c)) as [->|]; [intros [= <-]; split; [lia|done]|]. intros E. destruct (H1 n l E). split; [lia|by apply Hd].
  - intros n n' l. destruct (decide (n = c)) as [->|], (decide (n' = c)) as [->|]; try done.
    + intros [= <-] E. by destruct (H1 _ _ E).
    + intros E [= <-]. by destruct (H1 _ _ E).
    + apply H2.
  - apply Forall2_app.
    + clear -HR Hlt. induction HR as [|t id vs ids Ht HR IH]; [constructor|]. inversion Hlt as [|? ? X1 X2]; subst. constructor; [|by apply IH]. destruct id as [n|]; [|done]. cbn [idok] in *. destruct Ht as [Ht1 Ht2]. split; [done|]. specialize (X1 n eq_refl). destruct (decide (n = c)); [lia|done].
    + constructor; [|constructor]. cbn [idok]. by rewrite decide_True.
Qed.
Lemma ids_lt f c h vs ids : fok f c h -> Forall2 (idok f) vs ids -> Forall (fun i => forall n, i = Some n -> n < c) ids.
Proof.
  intros [H1 _] H. induction H as [|t id vs ids Ht H IH]; [constructor|]. constructor; [|done]. intros n ->. destruct Ht as [A B]. destruct t as [l|]; [|done]. by destruct (H1 n l).
Qed.
Lemma made_ids f c (h h' : heap U') (K' : kinds) vs vs' ids (gs' : list (ilog (value U'))) ro x x' : fok f c h -> dom h ⊆ dom h' -> Forall2 (idok f) vs ids -> made h vs (tago c ro) x' vs' -> out_sim untag x' x ->
  kgood h' K' -> Forall2 (kR h' K') vs' gs' -> exists f', fok f' (S c) h' /\ Forall2 (idok f') vs' (objects c ids ro x).
Proof.
  intros Hf Hd HR Hm Hx HG Hk.
  assert (Hnew : forall t, vs' = vs ++ [t] -> fresh_at h t -> exists f', fok f' (S c) h' /\ Forall2 (idok f') vs' (ids ++ [Some c])).
  { intros t -> (a & -> & Ha). eapply fok_add; [done|done|done| |done|by eapply ids_lt]. destruct HG as [G1 _]. apply (G1 KRoot). apply Forall2_app_inv_l in Hk as (l1 & l2 & _ & Hk & _). inversion Hk as [|? ? ? ? Ht]; subst. by destruct Ht. }
  assert (Hold : forall t i, vs' = vs ++ [t] -> t = nth i vs None -> exists f', fok f' (S c) h' /\ Forall2 (idok f') vs' (ids ++ [nth i ids None])).
  { intros t i -> ->. exists f. split; [by eapply fok_new|]. apply Forall2_app; [done|]. constructor; [|constructor]. by apply idok_nth. }
  destruct ro as [items|j k v|j k|j k|j]; cbn [tago made objects] in *.
  - destruct Hm as (t & E & H). by eapply Hnew.
  - destruct Hm as (t & E & H). destruct k; [by eapply Hnew|by eapply Hold].
  - destruct Hm as (t & E & H). destruct x' as [|b'| |], x as [|b| |]; try done; cbn [out_sim] in Hx; try (by eapply Hold). subst b'. destruct b; [by eapply Hnew|by eapply Hold].
  - subst vs'. exists f. split; [by eapply fok_new|done].
  - subst vs'. exists f. split; [by eapply fok_new|done].
Qed.
(** *** One call. *)
Definition wop_sim (c : nat) (o' : wop (value U')) (o : wop (value U)) : Prop :=
  match o with
  | WCall o => exists o2 ro, o' = WCall o2 /\ iresolves o ro /\ iop_ok o /\ iresolves o2 (tago c ro) /\ iop_ok o2 /\ op_sim untag o2 o
  | WInplace i k v => exists q, o' = WInplace i k (tagv (default tag0 q) c v) /\ ikey_is k q /\ plain v
  end.
Fixpoint wops_sim (c : nat) (ops' : list (wop (value U'))) (ops : list (wop (value U))) : Prop :=
  match ops', ops with
  | [], [] => True
  | o' :: ops', o :: ops => wop_sim c o' o /\ wops_sim (S c) ops' ops
  | _, _ => False
  end.
Lemma wops_total ops : Forall wop_ok ops -> forall c, exists ops', wops_sim c ops' ops.
Proof.
  induction 1 as [|o ops Ho H IH]; intros c; [by exists []|]. destruct (IH (S c)) as [ops' H']. destruct o as [o|i k v].
  - destruct (iresolves_total o) as [ro Hr]. destruct (tag_op c o ro Hr Ho) as (o' & A1 & A2 & A3). exists (WCall o' :: ops'). split; [|done]. exists o', ro. done.
  - destruct (ikey_total k) as [q Hq]. exists (WInplace i k (tagv (default tag0 q) c v) :: ops'). split; [|done]. exists q. done.
Qed.
Lemma ps_wexec c o' o vs : wop_sim c o' o -> psim untag (fun r' r => r'.1 = r.1 /\ out_sim untag r'.2 r.2) (w_exec vs o') (w_exec vs o).
Proof.
  destruct o as [o|i k v]; cbn [wop_sim].
  - intros (o2 & ro & -> & _ & _ & _ & _ & Hs). cbn [w_exec]. apply (ps_exec untag untag_plain vs o2 o Hs).
  - intros (q & -> & _ & Hv). cbn [w_exec]. destruct (nth i vs None) as [a|]; [|by constructor]. rewrite !inplace_key_eq. eapply psim_bind; [apply (ps_inplace_net untag untag_plain)|intros _ _ _; by constructor].
    symmetry. by apply erv_tag.
Qed.
Lemma ps_whist ops' : forall c ops vs, wops_sim c ops' ops -> psim untag (fun r' r => r'.1 = r.1 /\ Forall2 (out_sim untag) r'.2 r.2) (run_hist w_exec ops' vs) (run_hist w_exec ops vs).
Proof.
  induction ops' as [|o' ops' IH]; intros c [|o ops] vs; cbn [wops_sim]; try done; cbn [run_hist].
  - intros _. apply ps_ret. split; [done|constructor].
  - intros [Ho H]. eapply psim_bind; [by apply (ps_wexec c)|]. intros [vs1 x'] [vs2 x] [E Hx]. cbn [fst snd] in *. subst vs2.
    eapply psim_bind; [by apply (IH (S c))|]. intros [ws1 y'] [ws2 y] [E2 Hy]. cbn [fst snd] in *. subst. constructor. split; [done|]. by constructor.
Qed.
Record wR (c : nat) (h : heap U') (vs : list ptr) (ids : list (option nat)) (gs : list slog) : Prop := {
  wr_k : exists K : kinds, kgood h K /\ Forall2 (kR h K) vs (map tl gs);
  wr_id : exists f, fok f c h /\ Forall2 (idok f) vs ids;
  wr_plain : Forall lplain gs }.
Lemma alike_related (l1 l2 : slog) q : ialike (ilog_get (tl l1)) (ilog_get (tl l2)) q -> related l1 l2 q.
Proof.
  intros (P & A1 & (r & A2 & A3) & A4). exists P. split_and!; [done| |].
  - exists r. split; [done|]. rewrite tl_get in A3. by apply fmap_is_Some in A3.
  - intros r' Hr. apply tl_eq. by apply A4.
Qed.
Lemma w_step c (o' : wop (value U')) o (h : heap U') (W : gset loc) vs ids gs : dom h ⊆ W -> wR c h vs ids gs -> wop_sim c o' o ->
  wp (w_exec vs o') h W (fun r h' W' => dom h' ⊆ W' /\ forall x, out_sim untag r.2 x -> exists ids' gs', wR (S c) h' r.1 ids' gs' /\ wstep c ids gs o ids' gs' x).
Proof.
  intros HW [(K & HG & HR) (f & Hf & Hid) Hpl] Hs.
  assert (Hplain : wp (w_exec vs o') h W (fun r h' W' => forall x, out_sim untag r.2 x -> exists ids' gs', wR (S c) h' r.1 ids' gs' /\ wstep c ids gs o ids' gs' x)).
  2: { eapply wp_mono; [apply (wp_dom (St := unit) (fun _ _ => True)); [exact HW|exact Hplain]|]. cbn beta. intros r h' W' [H1 H2]. done. }
  destruct o as [o|i k v]; cbn [wop_sim] in Hs.
  - destruct Hs as (o2 & ro & -> & R1 & O1 & R2 & O2 & Hsim). cbn [w_exec].
    eapply wp_mono; [by apply (k_exec h K W vs (map tl gs) o2 (tago c ro))|]. cbn beta. intros r h' W' ((Hh & K' & HK & HG' & HR') & Ha & Hm) x Hx.
    destruct (made_ids f c h h' K' vs r.1 ids _ ro x r.2 Hf (subseteq_dom _ _ Hh) Hid Hm Hx HG' HR') as (f' & Hf' & Hid').
    exists (objects c ids ro x), (ilog_step gs (stamped c ro)). split.
    + split; [exists K'; split; [done|by rewrite tl_step]|by exists f'|by eapply lplain_step].
    + constructor; [done|]. rewrite <- erl_tl_map by done. by eapply erl_answer.
  - destruct Hs as (q & -> & Hq & Hv). cbn [w_exec]. pose proof (idok_nth f vs ids i Hid) as Hi. destruct (nth i vs None) as [a|] eqn:Ea.
    2: { cbn [wp fst snd]. intros x Hx. destruct x; try done. exists ids, gs. split; [|apply ws_nil].
      - split; [by exists K| |done]. exists f. split; [by eapply fok_new|done].
      - destruct (nth i ids None) as [n|]; [|done]. by destruct Hi. }
    destruct (nth i ids None) as [n|] eqn:Eid; cbn [idok] in Hi; [|done]. destruct Hi as [_ Hi].
    pose proof (kR_nth h K vs (map tl gs) i HR) as Ht. rewrite Ea, tl_nth in Ht.
    apply wp_bind. rewrite inplace_key_eq. eapply wp_mono; [apply wp_frame, (k_inplace h K W a (ilog_get (tl (nth i gs []))) _ q (tagv (default tag0 q) c v)); [done|done|exact Ht|done|by apply key_isnet]|].
    cbn beta. intros _ h' W' [(K' & HK & HG' & Ht' & Ho) (_ & _ & Hdd & _)]. cbn [wp fst snd]. intros x Hx. destruct x; try done.
    (* all versions *)
    assert (Hgs : exists gs', Forall2 (kR h' K') vs (map tl gs') /\ Forall lplain gs' /\ length gs' = length gs /\ forall j, (nth j vs None = Some a -> j < length gs -> nth j gs' [] = ins_log q (c, v) (nth j gs [])) /\
      (nth j vs None <> Some a -> nth j gs' [] = nth j gs [] \/ nth j gs' [] = ins_log q (c, v) (nth j gs []) /\ exists p, q = Some p /\ related (nth i gs []) (nth j gs []) p)).
    { clear Hid Ea Eid. generalize dependent (nth i gs []). intros li Ht Ht' Ho. clear i. revert gs HR Hpl. induction vs as [|t vs IH]; intros [|l gs] HR Hpl; cbn [map] in HR; inversion HR as [|? ? ? ? Hl HR']; subst.
      - exists []. split_and!; [constructor|done|done|]. intros [|j]; cbn [nth]; (split; [done|by left]).
      - inversion Hpl as [|? ? Hp Hpl']; subst. destruct (IH gs HR' Hpl') as (gs' & A1 & A2 & A3 & A4).
        assert (Hl' : exists l', kR h' K' t (tl l') /\ lplain l' /\ (t = Some a -> l' = ins_log q (c, v) l) /\ (t <> Some a -> l' = l \/ l' = ins_log q (c, v) l /\ exists p, q = Some p /\ related li l p)).
        { destruct (decide (t = Some a)) as [->|Hne].
          - exists (ins_log q (c, v) l). split_and!; [|by apply lplain_ins|done|done]. eapply kitree_ext; [|exact Ht']. intros p. rewrite tl_ins, <- ins_log_upd. pose proof (kitree_det _ _ _ _ _ Ht Hl) as E. unfold g_upd, g_ins. destruct q as [q|]; [|apply E]. by rewrite !E.
          - destruct (Ho t _ Hl Hne) as (G2 & B1 & [B2|[B2 (q0 & -> & B3)]]).
            + exists l. split_and!; [|done|done|by left]. by eapply kitree_ext.
            + exists (ins_log (Some q0) (c, v) l). split_and!; [|by apply lplain_ins|done|].
              * eapply kitree_ext; [|exact B1]. intros p. rewrite B2, tl_ins. apply ins_log_upd.
              * intros _. right. split; [done|]. exists q0. split; [done|]. by apply alike_related. }
        destruct Hl' as (l' & C1 & C2 & C3 & C4). exists (l' :: gs'). cbn [map length]. split_and!; [by constructor|by constructor|by f_equal|].
        intros [|j]; cbn [nth]; [split; [by intros H _; apply C3|done]|]. destruct (A4 j) as [A5 A6]. split; [intros H1 H2; apply A5; [done|lia]|done]. }
    destruct Hgs as (gs' & A1 & A2 & A3 & A4). exists ids, gs'. split.
    + split; [by exists K'| |done]. exists f. split; [|done]. by eapply fok_new.
    + assert (Hsame : forall j, nth j vs None = Some a <-> nth j ids None = Some n).
      { intros j. pose proof (idok_nth f vs ids j Hid) as Hj. destruct (nth j ids None) as [n'|]; cbn [idok] in Hj.
        - destruct Hj as [Hj1 Hj2]. split; [|intros [= ->]; congruence]. intros E. f_equal. destruct Hf as [_ Hf]. eapply (Hf n' n a); congruence.
        - rewrite Hj. done. }
      assert (Hlt : forall j, nth j vs None = Some a -> j < length gs).
      { intros j Hj. rewrite <- (map_length tl gs), <- (Forall2_length _ _ _ HR). destruct (decide (j < length vs)); [done|]. rewrite nth_overflow in Hj by lia. done. }
      eapply ws_inplace; [done|done|done| | |].
      * intros j Hj. apply Hsame in Hj. apply A4; [done|by apply Hlt].
      * intros j Hj. apply A4. by rewrite Hsame.
      * intros j j' m r Hj Hj'. apply tl_eq. pose proof (idok_nth f vs ids j Hid) as I1. pose proof (idok_nth f vs ids j' Hid) as I2. rewrite Hj in I1. rewrite Hj' in I2. destruct I1 as [I0 I1], I2 as [_ I2].
        pose proof (kR_nth h' K' vs (map tl gs') j A1) as K1. pose proof (kR_nth h' K' vs (map tl gs') j' A1) as K2. rewrite tl_nth in K1, K2. rewrite I2, <- I1 in K2. destruct (nth j vs None) as [b|]; [|done]. exact (kitree_det _ _ _ _ _ K1 K2 r).
Qed.
Lemma w_hist ops' : forall c ops (h : heap U') (W : gset loc) vs ids gs, dom h ⊆ W -> wR c h vs ids gs -> wops_sim c ops' ops ->
  wp (run_hist w_exec ops' vs) h W (fun r _ _ => forall outs, Forall2 (out_sim untag) r.2 outs -> exists ids' gs', wspec c ids gs ops outs ids' gs').
Proof.
  induction ops' as [|o' ops' IH]; intros c [|o ops] h W vs ids gs HW HR; cbn [wops_sim]; try done; cbn [run_hist].
  - intros _. cbn [wp snd]. intros outs Ho. inversion Ho; subst. by exists ids, gs.
  - intros [Ho H]. apply wp_bind. eapply wp_mono; [by apply (w_step c o' o h W vs ids gs)|]. cbn beta. intros r h1 W1 (HW1 & A).
    (* which state follows depends on the answer, of which there is one *)
    assert (Hx : exists x, out_sim untag r.2 x). { destruct r as [? [|b|r|e]]; cbn [snd]; [by exists IONone|by exists (IOBool b)|by exists (IOVal (erv <$> r))|by exists (IOList (map (erp untag) e))]. }
    destruct Hx as [x Hx]. destruct (A x Hx) as (ids1 & gs1 & A1 & A2).
    apply wp_bind. eapply wp_mono; [by apply (IH (S c) ops h1 W1 r.1 ids1 gs1)|]. cbn beta. intros r2 h2 W2 B. cbn [wp snd]. intros outs Hout. inversion Hout as [|? y ? outs2 X1 X2]; subst.
    assert (y = x) as ->. { destruct r as [? [|b|r|e]], x, y; cbn [snd out_sim] in *; try done; congruence. }
    destruct (B outs2 X2) as (ids' & gs' & B2). exists ids', gs'. cbn [wspec]. exists ids1, gs1. done.
Qed.
Lemma pf_ip_versions (h : heap U) (ops : list (wop (value U))) : Forall wop_ok ops ->
  wp (run_hist w_exec ops []) h ∅ (fun r h' _ => h ⊆ h' /\ exists ids gs, wspec 0 [] [] ops r.2 ids gs).
Proof.
  intros Hok. destruct (wops_total ops Hok 0) as [ops' Hs].
  assert (H0 : wR 0 ∅ [] [] []).
  { split; [exists (fun _ => ∅); split; [split|constructor]|exists (fun _ => None); split; [done|constructor]|constructor]; intros; set_solver. }
  assert (Hw := w_hist ops' 0 ops ∅ ∅ [] [] [] ltac:(by rewrite dom_empty_L) H0 Hs).
  apply (psim_wp untag _ _ _ (ps_whist ops' 0 ops [] Hs)) in Hw. assert (E : erh (untag (U := U)) ∅ = ∅) by (unfold erh; apply fmap_empty). rewrite E in Hw.
  eapply wp_mono; [apply (wp_part _ ∅ h ∅ ∅ _ (map_empty_subseteq h) (reflexivity _) Hw)|]. cbn beta. intros r h' _ (hp & W1 & _ & (r' & hp' & [_ H1] & _ & H2) & H3). split.
  - apply map_subseteq_spec. intros l x Hl. destruct (H3 l) as [_ E2]; [by eapply elem_of_dom_2|by rewrite dom_empty_L; apply not_elem_of_empty|]. by rewrite E2.
  - by apply (H2 r.2).
Qed.
End tagged.

(** ** What [wstep] says about versions that have nothing in common. *)
Section spec.
Context {V : Type}.
Implicit Types (gs : list (ilog (nat * V))).
Lemma pf_unrelated c ids gs i k v ids' gs' x j : wstep c ids gs (WInplace i k v) ids' gs' x -> nth j ids None <> nth i ids None ->
  (forall q y, ilog_get (nth i gs []) q = Some y -> ilog_get (nth j gs []) q <> Some y) -> nth j gs' [] = nth j gs [].
Proof.
  intros Hs Hne Hno. inversion Hs as [|? ? ? Hi|? ? ? q n ? Hk Hi Hl Hsame Hoth _]; subst; [done|]. destruct (Hoth j) as [E|[_ (p & _ & P & _ & (r & R1 & [y R2]) & R3)]]; [congruence|done|].
  exfalso. apply (Hno r y R2). by rewrite <- R3.
Qed.
Lemma pf_elsewhere c ids gs i k v ids' gs' x j p : wstep c ids gs (WInplace i k v) ids' gs' x -> (forall q, ikey_is k (Some q) -> q <> p) -> ilog_get (nth j gs' []) p = ilog_get (nth j gs []) p.
Proof.
  assert (Hins : forall q (y : nat * V) (l : ilog (nat * V)), ikey_is k q -> (forall q', ikey_is k (Some q') -> q' <> p) -> ilog_get (ins_log q y l) p = ilog_get l p).
  { intros [q|] y l Hk Hp; [|done]. cbn [ins_log ilog_get]. rewrite decide_False; [done|]. by apply Hp. }
  intros Hs Hp. inversion Hs as [|? ? ? Hi|? ? ? q n ? Hk Hi Hl Hsame Hoth _]; subst; [done|]. destruct (decide (nth j ids' None = Some n)) as [E|E].
  - transitivity (ilog_get (ins_log q (c, v) (nth j gs [])) p); [f_equal; exact (Hsame j E)|by apply Hins].
  - destruct (Hoth j E) as [E2|[E2 _]]; [by f_equal|]. transitivity (ilog_get (ins_log q (c, v) (nth j gs [])) p); [f_equal; exact E2|by apply Hins].
Qed.
End spec.
