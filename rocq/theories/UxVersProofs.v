(** * Proofs for Properties_ux_versions.v *)
From Verif Require Import Prog History NumModel NumSpec NumAbs NumFoot IpModel IpSpec IpBits IpAbs IpAbs2 IpAbs3 IpAbs4 IpEnum IpHist NumShare IpUpd3 WorkProofs ShareSpec Opaque ShareProofs MixProofs.
From Verif Require Import IpKinds IpKinds2 IpKinds3 IpVersSpec IpVersProofs UxModel UxSpec UxAbs UxAbs2 UxAbs3 UxEnum UxHist UxKinds UxKinds2 UxKinds3 UxOpaque UxVersSpec.
Open Scope nat_scope.

(** The client: it does not call InplaceInsert on nil. *)
Definition x_exec {U} (vs : list ptr) (o : wop (value U)) : prog U (list ptr * iout (value U)) :=
  match o with
  | WCall o => ux_exec vs o
  | WInplace i k v => match nth i vs None with None => Ret (vs, IONone) | Some a => ux_inplace_key (Some a) k v ;;; Ret (vs, IONone) end
  end.

(** ** Any values. *)
Section any.
Context {U : Type}.
Local Notation heap := (heap U).
Local Notation value := (value U).
Local Notation kinds := (kd -> gset loc).
Implicit Types (h : heap) (K : kinds) (vs : list ptr) (gs : list (ilog value)).
Definition ukR h K (t : ptr) (l : ilog value) : Prop := ukitree h K t (ilog_get l).
Lemma ukR_nth h K vs gs i : Forall2 (ukR h K) vs gs -> ukR h K (nth i vs None) (nth i gs []).
Proof. intros H. revert i. induction H; intros [|i]; cbn [nth]; done. Qed.
Lemma ukR_post h K vs gs t l h' : Forall2 (ukR h K) vs gs -> ukpost h K t (ilog_get l) h' ->
  h ⊆ h' /\ exists K', kle K K' /\ kgood h' K' /\ Forall2 (ukR h' K') (vs ++ [t]) (gs ++ [l]).
Proof.
  intros HR (K' & H1 & H2 & H3 & H4). split; [done|]. exists K'. split_and!; [done|done|]. apply Forall2_app; [|by constructor]. eapply Forall2_impl; [exact HR|]. intros. by eapply ukitree_mono.
Qed.
Lemma ukpost_ext h K t G G' h' : (forall q, G q = G' q) -> ukpost h K t G h' -> ukpost h K t G' h'.
Proof. intros E (K' & H1 & H2 & H3 & H4). exists K'. split_and!; try done. by eapply ukitree_ext. Qed.
Lemma uk_exec h K WS vs gs o ro : kgood h K -> Forall2 (ukR h K) vs gs -> iop_ok o -> iresolves o ro ->
  wp (ux_exec vs o) h WS (fun r h' _ => (h ⊆ h' /\ exists K', kle K K' /\ kgood h' K' /\ Forall2 (ukR h' K') r.1 (ulog_step gs ro)) /\ uanswer gs ro r.2 /\ made h vs ro r.2 r.1).
Proof.
  intros HG HR Hok Hro. destruct Hro as [items items' H|i k q v H|i k q H|i k q H|i]; unfold ux_exec; cbn [iop_ok] in Hok.
  - pose proof (ux_build_wp (∅ : heap) items items' H Hok) as Hw.
    apply (wp_part _ ∅ h ∅ WS _ (map_empty_subseteq h) (empty_subseteq WS)) in Hw. apply wp_bind_inv in Hw. apply wp_bind. eapply wp_mono; [exact Hw|]. cbn beta. intros t h1 W1 Hw1.
    apply wp_bind_inv in Hw1. apply wp_bind. eapply wp_mono; [exact Hw1|]. cbn beta. intros _ h2 W2 Hw2. cbn [wp fst snd] in *. destruct Hw2 as (hp & W3 & Hs & (F & Ho & _) & Hrest).
    assert (Hd : forall l, l ∈ dom h -> l ∉ dom hp /\ h2 !! l = h !! l). { intros l Hl. apply Hrest; [done|]. rewrite dom_empty_L. apply not_elem_of_empty. }
    split; [|split; [done|]].
    + apply ukR_post; [done|]. eapply (ukitree_new h h2 hp); [done|by eapply uown_utree|done| |].
      * apply map_subseteq_spec. intros l x Hl. destruct (Hd l) as [_ ->]; [by eapply elem_of_dom_2|done].
      * intros l L1 L2. by apply (Hd l).
    + exists t. split; [done|]. destruct Ho as (a & r4 & r6 & F4 & F6 & -> & Ha & _). exists a. split; [done|]. intros H1. apply Hd in H1 as [H1 _]. apply H1. by eapply elem_of_dom_2.
  - apply wp_bind. rewrite ux_insert_key_eq. eapply wp_mono; [apply (uk_insert h K WS _ (ilog_get (nth i gs [])) _ q v); [done|by apply ukR_nth|done|by apply key_isnet]|].
    cbn beta. intros t h1 W1 (H1 & H2 & H3). cbn [wp fst snd]. split; [|split; [done|]].
    + apply ukR_post; [done|]. eapply ukpost_ext; [|exact H1]. intros p. apply ins_log_upd.
    + exists t. split; [done|]. destruct q as [q|]; [by apply H3|by apply H2].
  - apply wp_bind. rewrite ux_delete_key_eq. eapply wp_mono; [apply (uk_delete h K WS _ (ilog_get (nth i gs [])) _ q); [done|by apply ukR_nth|by apply key_isnet]|].
    cbn beta. intros [t b] h1 W1 (H1 & H2 & H3). cbn [wp fst snd] in *. split; [|split; [exists b; split; [done|]|]].
    + apply ukR_post; [done|]. eapply ukpost_ext; [|exact H1]. intros p. apply udel_log_upd.
    + rewrite H2. split.
      * intros (Hsk & p & q' & v & -> & Hc & Hq). exists p, q', v. split_and!; try done. intros Hp.
        assert (skip (ilog_get (nth i gs [])) (Some p) = true) as X; [apply skip_passed; by exists p|]. by rewrite X in Hsk.
      * intros (p & q' & v & -> & Hnp & Hc & Hq). split; [|by exists p, q', v]. destruct (skip _ _) eqn:E; [|done]. apply skip_passed in E as (p' & [= <-] & ?). done.
    + exists t. split; [done|]. by destruct b.
  - apply wp_bind. rewrite ux_get_key_eq. eapply wp_mono; [apply (ux_get_at h WS _ (ilog_get (nth i gs [])) _ q); [eapply ukitree_utree; [done|by apply ukR_nth]|by apply key_isnet]|].
    cbn beta. intros x h1 W1 (-> & res & -> & Hres). cbn [wp fst snd]. split; [split; [done|]; by exists K; split; [apply kle_refl|]|split; [|done]]. exists res. split; [by rewrite ival_ret|]. exact Hres.
  - apply wp_bind. eapply wp_mono; [apply (ux_enumerate_at h WS _ (ilog_get (nth i gs []))); eapply ukitree_utree; [done|by apply ukR_nth]|].
    cbn beta. intros e h1 W1 [-> He]. cbn [wp fst snd]. split; [split; [done|]; by exists K; split; [apply kle_refl|]|split; [|done]]. exists e. split; [done|]. by apply enum_of_log.
Qed.
End any.

(** ** Values that carry the call that stored them. *)
Section tagged.
Context {U : Type}.
Local Notation tag := (net * nat)%type.
Local Notation U' := (value U * tag)%type.
Local Notation erv := (erv (untag (U := U))).
Local Notation slog := (ilog (nat * value U)).
Local Notation kinds := (kd -> gset loc).
Lemma tl_passed (l : slog) p : passed (tl l) p <-> passed l p.
Proof. unfold passed. rewrite tl_get. destruct (ilog_get l p); cbn [fmap option_fmap option_map]; split; by intros [? ?]. Qed.
Lemma tl_udel k (l : slog) : tl (udel_log k l) = udel_log k (tl l).
Proof. destruct k as [p|]; cbn [udel_log]; [|done]. destruct (decide (passed l p)) as [H|H], (decide (passed (tl l) p)) as [H'|H']; rewrite tl_passed in H'; done. Qed.
Lemma tl_ustep c (ro : iop (option net) (value U)) (gs : list slog) : map tl (ulog_step gs (stamped c ro)) = ulog_step (map tl gs) (tago c ro).
Proof.
  destruct ro as [items|j k v|j k|j k|j]; cbn [tago stamped ulog_step]; try done; rewrite map_app; cbn [map]; f_equal; f_equal.
  - apply (tl_build c items []).
  - by rewrite tl_ins, tl_nth.
  - by rewrite tl_udel, tl_nth.
Qed.
Lemma lplain_ustep c (o : iop ikey (value U)) ro (gs : list slog) : iresolves o ro -> iop_ok o -> Forall lplain gs -> Forall lplain (ulog_step gs (stamped c ro)).
Proof.
  intros Hr Ho H. pose proof (lplain_step c o ro gs Hr Ho H) as Hl. destruct Hr as [items items' Hi|j k q v Hk|j k q Hk|j k q Hk|j]; cbn [stamped ilog_step ulog_step] in *; try done.
  apply Forall_app in Hl as [_ Hl]. apply Forall_app; split; [done|]. destruct q as [p|]; cbn [udel_log del_log] in *; [|done]. destruct (decide _); [|done]. constructor; [by apply lplain_nth|constructor].
Qed.
Lemma erl_passed (l : ilog (value U')) p : passed (erl l) p <-> passed l p.
Proof. unfold passed. rewrite erl_get. destruct (ilog_get l p); cbn [fmap option_fmap option_map]; split; by intros [? ?]. Qed.
Lemma erl_uanswer (o : iop ikey (value U)) ro c gs x' x : iresolves o ro -> uanswer gs (tago c ro) x' -> out_sim untag x' x -> uanswer (map erl gs) ro x.
Proof.
  intros Hr. destruct Hr as [items items' H|j k q v H|j k q H|j k q H|j]; cbn [tago uanswer].
  - intros ->. by destruct x.
  - intros ->. by destruct x.
  - intros (b & -> & Hb). destruct x as [|b'| |]; cbn [out_sim]; try done. intros <-. exists b. split; [done|]. rewrite Hb, erl_nth. split; intros (p & q' & v & E & Hnp & Hc & Hg); exists p, q'.
    + exists (erv v). rewrite erl_get, Hg, erl_passed. done.
    + rewrite erl_get in Hg. apply fmap_Some in Hg as (v' & Hg & _). exists v'. rewrite erl_passed in Hnp. done.
  - intros (r & -> & Hres). destruct x as [| |r'|]; cbn [out_sim]; try done. intros ->. eexists. split; [done|]. rewrite erl_nth. destruct q; [by apply erl_longest|by subst r].
  - intros (e & -> & He). destruct x as [| | |e']; cbn [out_sim]; try done. intros ->. eexists. split; [done|]. rewrite erl_nth. by apply erl_enum.
Qed.
Lemma umade_ids f c (h h' : heap U') (K' : kinds) vs vs' ids (gs' : list (ilog (value U'))) ro x x' : fok f c h -> dom h ⊆ dom h' -> Forall2 (idok f) vs ids -> made h vs (tago c ro) x' vs' -> out_sim untag x' x ->
  kgood h' K' -> Forall2 (ukR h' K') vs' gs' -> exists f', fok f' (S c) h' /\ Forall2 (idok f') vs' (objects c ids ro x).
Proof.
  intros Hf Hd HR Hm Hx HG Hk.
  assert (Hnew : forall t, vs' = vs ++ [t] -> fresh_at h t -> exists f', fok f' (S c) h' /\ Forall2 (idok f') vs' (ids ++ [Some c])).
  { intros t -> (a & -> & Ha). eapply fok_add; [done|done|done| |done|by eapply ids_lt]. destruct HG as [G1 _]. apply (G1 KRoot). apply Forall2_app_inv_l in Hk as (l1 & l2 & _ & Hk & _). inversion Hk as [|? ? ? ? Ht]; subst. by destruct Ht. }
  assert (Hold : forall t i, vs' = vs ++ [t] -> t = nth i vs None -> exists f', fok f' (S c) h' /\ Forall2 (idok f') vs' (ids ++ [nth i ids None])).
  { intros t i -> ->. exists f. split; [by eapply fok_new|]. apply Forall2_app; [done|]. constructor; [|constructor]. by apply idok_nth. }
  destruct ro as [items|j k v|j k|j k|j]; cbn [tago made objects] in *.
  - destruct Hm as (t & E & H). by eapply Hnew.
  - destruct Hm as (t & E & H). destruct k; [by eapply Hnew|by eapply Hold].
  - destruct Hm as (t & E & H). destruct x' as [|b'| |], x as [|b| |]; try done; cbn [out_sim] in Hx; try (by eapply Hold). subst b'. destruct b; [by eapply Hnew|by eapply Hold].
  - subst vs'. exists f. split; [by eapply fok_new|done].
  - subst vs'. exists f. split; [by eapply fok_new|done].
Qed.
(** *** One call. *)
Lemma ps_xexec c (o' : wop (value U')) (o : wop (value U)) vs : wop_sim c o' o -> psim untag (fun r' r => r'.1 = r.1 /\ out_sim untag r'.2 r.2) (x_exec vs o') (x_exec vs o).
Proof.
  destruct o as [o|i k v]; cbn [wop_sim].
  - intros (o2 & ro & -> & _ & _ & _ & _ & Hs). cbn [x_exec]. apply (ps_ux_exec untag untag_plain vs o2 o Hs).
  - intros (q & -> & _ & Hv). cbn [x_exec]. destruct (nth i vs None) as [a|]; [|by constructor]. rewrite !ux_inplace_key_eq. eapply psim_bind; [apply (ps_ux_inplace untag untag_plain)|intros _ _ _; by constructor].
    symmetry. by apply erv_tag.
Qed.
Lemma ps_xhist (ops' : list (wop (value U'))) : forall c (ops : list (wop (value U))) vs, wops_sim c ops' ops -> psim untag (fun r' r => r'.1 = r.1 /\ Forall2 (out_sim untag) r'.2 r.2) (run_hist x_exec ops' vs) (run_hist x_exec ops vs).
Proof.
  induction ops' as [|o' ops' IH]; intros c [|o ops] vs; cbn [wops_sim]; try done; cbn [run_hist].
  - intros _. apply ps_ret. split; [done|constructor].
  - intros [Ho H]. eapply psim_bind; [by apply (ps_xexec c)|]. intros [vs1 x'] [vs2 x] [E Hx]. cbn [fst snd] in *. subst vs2.
    eapply psim_bind; [by apply (IH (S c))|]. intros [ws1 y'] [ws2 y] [E2 Hy]. cbn [fst snd] in *. subst. constructor. split; [done|]. by constructor.
Qed.
Record xR (c : nat) (h : heap U') (vs : list ptr) (ids : list (option nat)) (gs : list slog) : Prop := {
  xr_k : exists K : kinds, kgood h K /\ Forall2 (ukR h K) vs (map tl gs);
  xr_id : exists f, fok f c h /\ Forall2 (idok f) vs ids;
  xr_plain : Forall lplain gs }.
Lemma ualike_related (l1 l2 : slog) q : ualike (ilog_get (tl l1)) (ilog_get (tl l2)) q -> urelated l1 l2 q.
Proof.
  intros [H|(H1 & H2 & H3)]; [left; by apply alike_related|]. right. split; [done|]. apply tl_eq in H3. rewrite tl_get in H2. destruct (ilog_get l1 q) as [x|]; [|by destruct H2]. by exists x.
Qed.
Lemma x_step c (o' : wop (value U')) o (h : heap U') (W : gset loc) vs ids gs : dom h ⊆ W -> xR c h vs ids gs -> wop_sim c o' o ->
  wp (x_exec vs o') h W (fun r h' W' => dom h' ⊆ W' /\ forall x, out_sim untag r.2 x -> exists ids' gs', xR (S c) h' r.1 ids' gs' /\ xstep c ids gs o ids' gs' x).
Proof.
  intros HW [(K & HG & HR) (f & Hf & Hid) Hpl] Hs.
  assert (Hplain : wp (x_exec vs o') h W (fun r h' W' => forall x, out_sim untag r.2 x -> exists ids' gs', xR (S c) h' r.1 ids' gs' /\ xstep c ids gs o ids' gs' x)).
  2: { eapply wp_mono; [apply (wp_dom (St := unit) (fun _ _ => True)); [exact HW|exact Hplain]|]. cbn beta. intros r h' W' [H1 H2]. done. }
  destruct o as [o|i k v]; cbn [wop_sim] in Hs.
  - destruct Hs as (o2 & ro & -> & R1 & O1 & R2 & O2 & Hsim). cbn [x_exec].
    eapply wp_mono; [by apply (uk_exec h K W vs (map tl gs) o2 (tago c ro))|]. cbn beta. intros r h' W' ((Hh & K' & HK & HG' & HR') & Ha & Hm) x Hx.
    destruct (umade_ids f c h h' K' vs r.1 ids _ ro x r.2 Hf (subseteq_dom _ _ Hh) Hid Hm Hx HG' HR') as (f' & Hf' & Hid').
    exists (objects c ids ro x), (ulog_step gs (stamped c ro)). split.
    + split; [exists K'; split; [done|by rewrite tl_ustep]|by exists f'|by eapply lplain_ustep].
    + constructor; [done|]. rewrite <- erl_tl_map by done. by eapply erl_uanswer.
  - destruct Hs as (q & -> & Hq & Hv). cbn [x_exec]. pose proof (idok_nth f vs ids i Hid) as Hi. destruct (nth i vs None) as [a|] eqn:Ea.
    2: { cbn [wp fst snd]. intros x Hx. destruct x; try done. exists ids, gs. split; [|apply xs_nil].
      - split; [by exists K| |done]. exists f. split; [by eapply fok_new|done].
      - destruct (nth i ids None) as [n|]; [|done]. by destruct Hi. }
    destruct (nth i ids None) as [n|] eqn:Eid; cbn [idok] in Hi; [|done]. destruct Hi as [_ Hi].
    pose proof (ukR_nth h K vs (map tl gs) i HR) as Ht. rewrite Ea, tl_nth in Ht.
    apply wp_bind. rewrite ux_inplace_key_eq. eapply wp_mono; [apply wp_frame, (uk_inplace h K W a (ilog_get (tl (nth i gs []))) _ q (tagv (default tag0 q) c v)); [done|done|exact Ht|done|by apply key_isnet]|].
    cbn beta. intros _ h' W' [(K' & HK & HG' & Ht' & Ho) (_ & _ & Hdd & _)]. cbn [wp fst snd]. intros x Hx. destruct x; try done.
    (* all versions *)
    assert (Hgs : exists gs', Forall2 (ukR h' K') vs (map tl gs') /\ Forall lplain gs' /\ length gs' = length gs /\ forall j, (nth j vs None = Some a -> j < length gs -> nth j gs' [] = ins_log q (c, v) (nth j gs [])) /\
      (nth j vs None <> Some a -> nth j gs' [] = nth j gs [] \/ nth j gs' [] = ins_log q (c, v) (nth j gs []) /\ exists p, q = Some p /\ urelated (nth i gs []) (nth j gs []) p)).
    { clear Hid Ea Eid. generalize dependent (nth i gs []). intros li Ht Ht' Ho. clear i. revert gs HR Hpl. induction vs as [|t vs IH]; intros [|l gs] HR Hpl; cbn [map] in HR; inversion HR as [|? ? ? ? Hl HR']; subst.
      - exists []. split_and!; [constructor|done|done|]. intros [|j]; cbn [nth]; (split; [done|by left]).
      - inversion Hpl as [|? ? Hp Hpl']; subst. destruct (IH gs HR' Hpl') as (gs' & A1 & A2 & A3 & A4).
        assert (Hl' : exists l', ukR h' K' t (tl l') /\ lplain l' /\ (t = Some a -> l' = ins_log q (c, v) l) /\ (t <> Some a -> l' = l \/ l' = ins_log q (c, v) l /\ exists p, q = Some p /\ urelated li l p)).
        { destruct (decide (t = Some a)) as [->|Hne].
          - exists (ins_log q (c, v) l). split_and!; [|by apply lplain_ins|done|done]. eapply ukitree_ext; [|exact Ht']. intros p. rewrite tl_ins, <- ins_log_upd. pose proof (ukitree_det _ _ _ _ _ Ht Hl) as E. unfold g_upd, g_ins. destruct q as [q|]; [|apply E]. by rewrite !E.
          - destruct (Ho t _ Hl Hne) as (G2 & B1 & [B2|[B2 (q0 & -> & B3)]]).
            + exists l. split_and!; [|done|done|by left]. by eapply ukitree_ext.
            + exists (ins_log (Some q0) (c, v) l). split_and!; [|by apply lplain_ins|done|].
              * eapply ukitree_ext; [|exact B1]. intros p. rewrite B2, tl_ins. apply ins_log_upd.
              * intros _. right. split; [done|]. exists q0. split; [done|]. by apply ualike_related. }
        destruct Hl' as (l' & C1 & C2 & C3 & C4). exists (l' :: gs'). cbn [map length]. split_and!; [by constructor|by constructor|by f_equal|].
        intros [|j]; cbn [nth]; [split; [by intros H _; apply C3|done]|]. destruct (A4 j) as [A5 A6]. split; [intros H1 H2; apply A5; [done|lia]|done]. }
    destruct Hgs as (gs' & A1 & A2 & A3 & A4). exists ids, gs'. split.
    + split; [by exists K'| |done]. exists f. split; [|done]. by eapply fok_new.
    + assert (Hsame : forall j, nth j vs None = Some a <-> nth j ids None = Some n).
      { intros j. pose proof (idok_nth f vs ids j Hid) as Hj. destruct (nth j ids None) as [n'|]; cbn [idok] in Hj.
        - destruct Hj as [Hj1 Hj2]. split; [|intros [= ->]; congruence]. intros E. f_equal. destruct Hf as [_ Hf]. eapply (Hf n' n a); congruence.
        - rewrite Hj. done. }
      assert (Hlt : forall j, nth j vs None = Some a -> j < length gs).
      { intros j Hj. rewrite <- (map_length tl gs), <- (Forall2_length _ _ _ HR). destruct (decide (j < length vs)); [done|]. rewrite nth_overflow in Hj by lia. done. }
      eapply xs_inplace; [done|done|done| | |].
      * intros j Hj. apply Hsame in Hj. apply A4; [done|by apply Hlt].
      * intros j Hj. apply A4. by rewrite Hsame.
      * intros j j' m r Hj Hj'. apply tl_eq. pose proof (idok_nth f vs ids j Hid) as I1. pose proof (idok_nth f vs ids j' Hid) as I2. rewrite Hj in I1. rewrite Hj' in I2. destruct I1 as [I0 I1], I2 as [_ I2].
        pose proof (ukR_nth h' K' vs (map tl gs') j A1) as K1. pose proof (ukR_nth h' K' vs (map tl gs') j' A1) as K2. rewrite tl_nth in K1, K2. rewrite I2, <- I1 in K2. destruct (nth j vs None) as [b|]; [|done]. exact (ukitree_det _ _ _ _ _ K1 K2 r).
Qed.
Lemma x_hist ops' : forall c ops (h : heap U') (W : gset loc) vs ids gs, dom h ⊆ W -> xR c h vs ids gs -> wops_sim c ops' ops ->
  wp (run_hist x_exec ops' vs) h W (fun r _ _ => forall outs, Forall2 (out_sim untag) r.2 outs -> exists ids' gs', xspec c ids gs ops outs ids' gs').
Proof.
  induction ops' as [|o' ops' IH]; intros c [|o ops] h W vs ids gs HW HR; cbn [wops_sim]; try done; cbn [run_hist].
  - intros _. cbn [wp snd]. intros outs Ho. inversion Ho; subst. by exists ids, gs.
  - intros [Ho H]. apply wp_bind. eapply wp_mono; [by apply (x_step c o' o h W vs ids gs)|]. cbn beta. intros r h1 W1 (HW1 & A).
    (* which state follows depends on the answer, of which there is one *)
    assert (Hx : exists x, out_sim untag r.2 x). { destruct r as [? [|b|r|e]]; cbn [snd]; [by exists IONone|by exists (IOBool b)|by exists (IOVal (erv <$> r))|by exists (IOList (map (erp untag) e))]. }
    destruct Hx as [x Hx]. destruct (A x Hx) as (ids1 & gs1 & A1 & A2).
    apply wp_bind. eapply wp_mono; [by apply (IH (S c) ops h1 W1 r.1 ids1 gs1)|]. cbn beta. intros r2 h2 W2 B. cbn [wp snd]. intros outs Hout. inversion Hout as [|? y ? outs2 X1 X2]; subst.
    assert (y = x) as ->. { destruct r as [? [|b|r|e]], x, y; cbn [snd out_sim] in *; try done; congruence. }
    destruct (B outs2 X2) as (ids' & gs' & B2). exists ids', gs'. cbn [xspec]. exists ids1, gs1. done.
Qed.
Lemma pf_ux_versions (h : heap U) (ops : list (wop (value U))) : Forall wop_ok ops ->
  wp (run_hist x_exec ops []) h ∅ (fun r h' _ => h ⊆ h' /\ exists ids gs, xspec 0 [] [] ops r.2 ids gs).
Proof.
  intros Hok. destruct (wops_total ops Hok 0) as [ops' Hs].
  assert (H0 : xR 0 ∅ [] [] []).
  { split; [exists (fun _ => ∅); split; [split|constructor]|exists (fun _ => None); split; [done|constructor]|constructor]; intros; set_solver. }
  assert (Hw := x_hist ops' 0 ops ∅ ∅ [] [] [] ltac:(by rewrite dom_empty_L) H0 Hs).
  apply (psim_wp untag _ _ _ (ps_xhist ops' 0 ops [] Hs)) in Hw. assert (E : erh (untag (U := U)) ∅ = ∅) by (unfold erh; apply fmap_empty). rewrite E in Hw.
  eapply wp_mono; [apply (wp_part _ ∅ h ∅ ∅ _ (map_empty_subseteq h) (reflexivity _) Hw)|]. cbn beta. intros r h' _ (hp & W1 & _ & (r' & hp' & [_ H1] & _ & H2) & H3). split.
  - apply map_subseteq_spec. intros l x Hl. destruct (H3 l) as [_ E2]; [by eapply elem_of_dom_2|by rewrite dom_empty_L; apply not_elem_of_empty|]. by rewrite E2.
  - by apply (H2 r.2).
Qed.
End tagged.

(** ** What [xstep] says about versions that have nothing in common. *)
Section spec.
Context {V : Type}.
Implicit Types (gs : list (ilog (nat * V))).
Lemma pf_ux_unrelated c ids gs i k v ids' gs' x j : xstep c ids gs (WInplace i k v) ids' gs' x -> nth j ids None <> nth i ids None ->
  (forall q y, ilog_get (nth i gs []) q = Some y -> ilog_get (nth j gs []) q <> Some y) -> nth j gs' [] = nth j gs [].
Proof.
  intros Hs Hne Hno. inversion Hs as [|? ? ? Hi|? ? ? q n ? Hk Hi Hl Hsame Hoth _]; subst; [done|]. destruct (Hoth j) as [E|[_ (p & _ & [(P & _ & (r & R1 & [y R2]) & R3)|(_ & y & Y1 & Y2)])]]; [congruence|done|..].
  - exfalso. apply (Hno r y R2). by rewrite <- R3.
  - exfalso. by apply (Hno p y Y1).
Qed.
Lemma pf_ux_elsewhere c ids gs i k v ids' gs' x j p : xstep c ids gs (WInplace i k v) ids' gs' x -> (forall q, ikey_is k (Some q) -> q <> p) -> ilog_get (nth j gs' []) p = ilog_get (nth j gs []) p.
Proof.
  assert (Hins : forall q (y : nat * V) (l : ilog (nat * V)), ikey_is k q -> (forall q', ikey_is k (Some q') -> q' <> p) -> ilog_get (ins_log q y l) p = ilog_get l p).
  { intros [q|] y l Hk Hp; [|done]. cbn [ins_log ilog_get]. rewrite decide_False; [done|]. by apply Hp. }
  intros Hs Hp. inversion Hs as [|? ? ? Hi|? ? ? q n ? Hk Hi Hl Hsame Hoth _]; subst; [done|]. destruct (decide (nth j ids' None = Some n)) as [E|E].
  - transitivity (ilog_get (ins_log q (c, v) (nth j gs [])) p); [f_equal; exact (Hsame j E)|by apply Hins].
  - destruct (Hoth j E) as [E2|[E2 _]]; [by f_equal|]. transitivity (ilog_get (ins_log q (c, v) (nth j gs [])) p); [f_equal; exact E2|by apply Hins].
Qed.
End spec.
