(** * uintX iptree on memory: Delete and Get. *)
From Verif Require Import Prog NumModel NumBits NumFun NumSim NumSpec NumAbs NumFoot IpModel IpSpec IpBits IpAbs IpAbs3 IpAbs4 UxModel UxAbs.
From Coq Require Import ZifyBool ZifyNat ZifyN.
Open Scope N_scope.

Lemma cov_up_low q x : q.1 < 64 -> covers q x <-> covers q (up x).
Proof.
  intros Hq. destruct (N.lt_ge_cases x.1 64) as [Hx|Hx].
  - by rewrite (proj1 (up_low x Hx)).
  - rewrite (proj1 (up_high x Hx)). apply cov_low; [lia|done].
Qed.
Lemma cov_up_high q x : 64 <= q.1 -> covers q x <-> up q = up x /\ covers (dn q) (dn x).
Proof.
  intros Hq. destruct (N.lt_ge_cases x.1 64) as [Hx|Hx].
  - split; [intros [H _]; lia|]. intros [E _]. pose proof (up_len x) as L. rewrite <- E in L. apply (proj2 L) in Hx. apply (proj1 (up_len q)) in Hx. lia.
  - rewrite (proj1 (up_high q Hq)), (proj2 (up_high q Hq)), (proj1 (up_high x Hx)), (proj2 (up_high x Hx)). by apply cov_high.
Qed.
Lemma cov00 l : l.2 < 2 ^ l.1 -> covers (0, 0) l.
Proof. intros H. split; cbn [fst snd]; [lia|]. rewrite N.sub_0_r. by apply N.div_small. Qed.

Section ux.
Context {U : Type}.
Local Notation heap := (heap U).
Local Notation value := (value U).
Local Notation nmap := (@gmap pfx (@prod_eq_dec N N_eq_dec N N_eq_dec) (@prod_countable N N_eq_dec N_countable N N_eq_dec N_countable) (prod N value)).
Local Notation prog := (prog U).

(** The networks Delete passes over although others may be inside. *)
Definition skip (G : net -> option value) (r : option net) : bool :=
  match r with
  | Some (true, p) => (p.1 <? 64) && (match G (true, p) with Some _ => false | None => true end)
  | _ => false
  end.

Lemma us_low_at (h : heap) (m : nmap) ss F0 Fs (x : pfx) kv : usubs h m ss F0 Fs -> x.1 < 64 -> m !! x = Some kv -> exists k v, ss x !! (0, 0) = Some (k, v).
Proof.
  intros I2 Hx Hm. destruct (us_at _ _ _ _ _ I2 x) as (s & Hs & H). rewrite Hm in H. destruct H as [_ H].
  apply some_of_nonempty in H as (l & k & v & H). pose proof (us_low _ _ _ _ _ I2 _ _ _ Hx H) as E. exists k, v. by rewrite <- E.
Qed.
Lemma us_low_iff (h : heap) (m : nmap) ss F0 Fs (q : pfx) : usubs h m ss F0 Fs -> q.1 < 64 -> us ss q = None <-> m !! q = None.
Proof.
  intros I2 Hq. unfold us. rewrite (proj1 (up_low q Hq)), (proj2 (up_low q Hq)). destruct (m !! q) as [kv|] eqn:E.
  - destruct (us_low_at _ _ _ _ _ _ _ I2 Hq E) as (k & v & H). rewrite (proj2 (vals_some _ _ _) (ex_intro _ k H)). done.
  - destruct (us_at _ _ _ _ _ I2 q) as (s & _ & H). rewrite E in H. destruct H as (_ & -> & _). done.
Qed.
Lemma us_present (h : heap) (m : nmap) ss F0 Fs (q : pfx) v : usubs h m ss F0 Fs -> us ss q = Some v -> exists kv, m !! up q = Some kv.
Proof.
  intros I2 H. destruct (us_at _ _ _ _ _ I2 (up q)) as (s & _ & Hm). destruct (m !! up q) as [kv|]; [by exists kv|].
  destruct Hm as (_ & E & _). unfold us in H. by rewrite E in H.
Qed.
Lemma us_join (h : heap) (m : nmap) ss F0 Fs (p : pfx) l k v : usubs h m ss F0 Fs -> p.1 = 64 -> ss p !! l = Some (k, v) ->
  up (join p.2 l) = p /\ dn (join p.2 l) = l /\ us ss (join p.2 l) = Some v.
Proof.
  intros I2 Hp Hl. destruct (us_at _ _ _ _ _ I2 p) as (s & Hs & _). apply ntree_in_at in Hs.
  destruct (top_le _ _ _ _ _ _ Hs Hl) as [V1 V2]. destruct p as [p1 x]. cbn [fst snd] in *. subst p1.
  assert (Hj : 64 <= (join x l).1) by (unfold join; cbn [fst]; lia). destruct (up_high _ Hj) as [E1 E2].
  unfold us. rewrite E1, E2. rewrite hi_join, lo_join by done. split_and!; [done|done|]. apply vals_some. by exists k.
Qed.
(** The flag of the inner deletion. *)
Lemma us_flag (h : heap) (m : nmap) ss F0 Fs k b (q : pfx) kv f : usubs h m ss F0 Fs -> norm 64 k b = dn q -> m !! up q = Some kv ->
  s_deleted 64 (ss (up q)) k b f -> f = true <-> below_ q (us ss).
Proof.
  intros I2 Hn Hm Hd. unfold s_deleted in Hd. rewrite Hd, Hn. destruct (N.lt_ge_cases q.1 64) as [Hq|Hq].
  - rewrite (proj1 (up_low q Hq)) in *. destruct (us_low_at _ _ _ _ _ _ _ I2 Hq Hm) as (k' & v & Hv).
    rewrite (proj2 (up_low q Hq)). split; intros _.
    + exists q, v. split; [apply covers_refl|]. unfold us. rewrite (proj1 (up_low q Hq)), (proj2 (up_low q Hq)). apply vals_some. by exists k'.
    + exists (0, 0). split; [by eexists|apply covers_refl].
  - split.
    + intros (l & [[k' v] Hl] & Hc). assert (Hup : (up q).1 = 64) by (by rewrite (proj1 (up_high q Hq))).
      destruct (us_join _ _ _ _ _ _ _ _ _ I2 Hup Hl) as (J1 & J2 & J3). exists (join (up q).2 l), v. split; [|done].
      apply cov_up_high; [done|]. by rewrite J1, J2.
    + intros (x & v & Hc & Hx). apply cov_up_high in Hc as [E Hc]; [|done]. unfold us in Hx. rewrite <- E in Hx. apply vals_some in Hx as [k' Hx].
      exists (dn x). split; [by eexists|done].
Qed.
(** The inner tree stays inhabited. *)
Lemma us_del_part (ss : pfx -> nmap) q k b x : norm 64 k b = dn q -> 64 <= q.1 ->
  us (put ss (up q) (s_delete 64 (ss (up q)) k b)) x = g_del q (us ss) x.
Proof.
  intros Hn Hq. unfold us, g_del, put. cbn beta. destruct (decide (up x = up q)) as [E|E].
  - rewrite vals_del, Hn, E. apply decide_ext. rewrite (cov_up_high q x) by done. split; [intros H; split; [by rewrite E|exact H]|by intros [_ ?]].
  - destruct (decide (covers q x)) as [Hc|Hc]; [|done]. apply cov_up_high in Hc as [Hc _]; [|done]. by rewrite Hc in E.
Qed.
(** It becomes empty: the outer entry goes too, and with it everything inside. *)
Definition ucut (q : pfx) {A} (d : A) (f : pfx -> A) (y : pfx) : A := if decide (covers q y) then d else f y.
Lemma us_del_all (h : heap) m ss F0 Fs q k b x : usubs h m ss F0 Fs -> norm 64 k b = dn q -> s_delete 64 (ss (up q)) k b = ∅ ->
  us (ucut (up q) ∅ ss) x = g_del q (us ss) x.
Proof.
  intros I2 Hn He. unfold us, g_del, ucut. cbn beta. destruct (N.lt_ge_cases q.1 64) as [Hq|Hq].
  - rewrite (proj1 (up_low q Hq)). rewrite (decide_ext (covers q (up x)) (covers q x)) by (symmetry; by apply cov_up_low). by destruct (decide _).
  - assert (Hup : (up q).1 = 64) by (by rewrite (proj1 (up_high q Hq))).
    destruct (decide (covers (up q) (up x))) as [Hc|Hc].
    + assert (E : up q = up x). { eapply covers_same_len; [exact Hc|apply covers_refl|]. destruct Hc as [Hc _]. pose proof (up_le x). lia. }
      assert (Hz : vals (∅ : nmap) (dn x) = None) by done. rewrite Hz. destruct (decide (covers q x)) as [Hcx|Hcx]; [done|].
      destruct (vals (ss (up x)) (dn x)) as [v|] eqn:Ev; [|done]. exfalso. apply Hcx. apply cov_up_high; [done|]. split; [done|].
      assert (Hd : s_delete 64 (ss (up q)) k b !! dn x = None) by (by rewrite He). rewrite lookup_del, Hn in Hd. destruct (decide _) as [H|H]; [done|].
      unfold vals in Ev. by rewrite <- E, Hd in Ev.
    + destruct (decide (covers q x)) as [Hcx|]; [|done]. apply cov_up_high in Hcx as [Hcx _]; [|done]. destruct Hc. rewrite Hcx. apply covers_refl.
Qed.

Lemma nothing_utree (h : heap) t G q0 : utree h t G -> ~ below_ q0.2 (fun q => G (q0.1, q)) -> utree h t (g_upd (Some q0) g_del G).
Proof.
  intros Ht Hn. eapply utree_ext; [|exact Ht]. intros [f q]. unfold g_upd. cbn [fst snd].
  destruct (Bool.eqb q0.1 f) eqn:E; [|done]. apply Bool.eqb_prop in E. subst f. symmetry. exact (g_del_none _ (fun x => G (q0.1, x)) Hn q).
Qed.
Lemma below_us (g : pfx -> option value) ss q0 : (forall q, g q = us ss q) -> below_ q0 g <-> below_ q0 (us ss).
Proof. intros H. unfold below_. split; intros (q & v & Hc & Hq); exists q, v; rewrite H in *; done. Qed.

Definition dres (G : net -> option value) (r : option net) (x : ptr * bool) (h' : heap) : Prop :=
  utree h' x.1 (if skip G r then G else g_upd r g_del G) /\
  (x.2 = true <-> skip G r = false /\ exists p q v, r = Some p /\ ncovers p q /\ G q = Some v).

Lemma ux_delete_at (h : heap) t G n r : utree h t G -> isnet n r ->
  wp (ux_delete_net t n) h ∅ (fun x h' _ => dres G r x h').
Proof.
  intros Ht Hr.
  assert (Hnone : forall WS, r = None -> wp (Ret (t, false)) h WS (fun x h' _ => dres G r x h')).
  { intros WS ->. cbn [wp]. unfold dres. cbn [fst snd skip]. split; [done|]. split; [done|]. by intros (_ & p & q & v & ? & _). }
  destruct t as [a|].
  2: { cbn [ux_delete_net wp]. unfold dres. cbn [fst snd]. split; [|split; [done|]; intros (_ & p & q & v & _ & _ & H); by rewrite Ht in H].
       destruct (skip G r); [done|].
       intros q. destruct r as [p|]; cbn [g_upd]; [|apply Ht]. destruct (Bool.eqb p.1 q.1); [|apply Ht]. unfold g_del. destruct (decide _); [done|apply Ht]. }
  destruct n as [n|]; [|destruct r as [q|]; [by inversion Hr|by apply Hnone]]. unfold ux_delete_net.
  pose proof Ht as (r4 & r6 & F4 & F6 & Ha & H4 & H6 & Hd & A4 & A6).
  apply wp_bind. eapply wp_ld_ip; [exact Ha|]. cbn [fst snd].
  assert (Hnot : forall q0, r = Some q0 -> ~ below_ q0.2 (fun q => G (q0.1, q)) -> forall h' WS, h ⊆ h' -> wp (Ret (Some a, false)) h' WS (fun x h' _ => dres G r x h')).
  { intros q0 -> Hb h' WS Hs. cbn [wp]. unfold dres. cbn [fst snd]. split; [|split; [done|]; rewrite <- below_net; by intros [_ ?]].
    apply (utree_mono _ _ _ _ Hs). destruct (skip G (Some q0)); [done|]. by apply nothing_utree. }
  pose proof (tree4_dom _ _ _ _ H4) as D4. pose proof (utree6_dom _ _ _ _ H6) as D6.
  pose proof (ip4_key_spec n) as K4. destruct (ip4_key n) as [[k b]|].
  { destruct K4 as (Hn & Hk & Hb). assert (r = Some (false, norm 32 k b)) as ->.
    { destruct r as [q|]; [|by apply Hr in Hn]. f_equal. by eapply net_is_fun. }
    pose proof H4 as (m & M1 & M2 & M3). apply wp_bind. eapply wp_mono; [apply (n_delete_in _ c32_ok h ∅ F4 r4 m k (Z.of_N b)); done|]. cbn beta.
    intros [x f] h' WS' ((F' & Hx & Hf) & Hdel & Hs & _). cbn [fst snd] in *. change (cW c32) with 32 in *. rewrite adj_of in Hx, Hdel by done.
    pose proof (deleted_below 32 m k b f _ M3 Hdel) as Hfl. destruct f.
    - apply wp_bind, wp_alloc. intros a' Ha'. cbn [bind wp]. unfold dres. cbn [fst snd skip]. apply not_elem_of_dom in Ha'.
      assert (Hs' : h' ⊆ <[a' := CIp x r6]> h') by (apply insert_subseteq; by apply not_elem_of_dom).
      split; [|rewrite <- below_net; cbn [fst snd]; split; [intros _; split; [done|by apply Hfl]|done]].
      pose proof (ntree_in_dom _ _ _ _ _ Hx) as Dx. pose proof (subseteq_dom _ _ Hs) as Dh.
      exists x, r6, F', F6. split_and!.
      + by rewrite lookup_insert.
      + eexists. split_and!; [eapply ntree_in_mono; [exact Hs'|exact Hx]|by apply plain_del|]. intros q. cbn [g_upd fst snd Bool.eqb]. rewrite vals_del. unfold g_del. by rewrite M3.
      + eapply utree6_mono; [exact Hs'|]. by eapply utree6_mono.
      + intros l Hl Hl6. destruct (Hf l Hl) as [H|H]; [by eapply Hd|]. apply D6 in Hl6. by apply not_elem_of_dom in H.
      + clear -Ha' Dx. set_solver.
      + clear -Ha' D6 Dh. set_solver.
    - eapply Hnot; [done| |done]. cbn [fst snd]. intros H. by apply Hfl in H. }
  pose proof (ux_key_spec n) as K6. destruct (ip6_key n) as [[[[hk hb] lk] lb]|].
  2: { apply Hnone. destruct r as [[[] q]|]; [by apply K6 in Hr|by apply K4 in Hr|done]. }
  clear Hnone. destruct K6 as (q & Hn & Hvq & Hhk & Hhb & Hlk & Hlb & Eup & Edn & _). assert (r = Some (true, q)) as ->.
  { destruct r as [q'|]; [|by apply Hr in Hn]. f_equal. by eapply net_is_fun. }
  pose proof H6 as (m & ss & F0 & Fs & I1 & I2 & I3 & I4 & I5 & I6).
  assert (D0 : F0 ⊆ dom h) by (by eapply ntree_in_dom).
  assert (Ds : forall y, Fs y ⊆ dom h) by (intros y; by etrans; [apply I4|]).
  pose proof (below_us (fun q => G (true, q)) ss q I6) as Hbs.
  apply wp_bind. eapply wp_mono; [apply (n_exact_in _ c64_ok h ∅ r6 m hk (Z.of_N hb)); [done|by eapply ntree_in_at]|]. cbn beta.
  intros e h1 WS1 (He & -> & _). change (cW c64) with 64 in He. rewrite adj_of in He by done.
  rewrite (exact_up _ _ _ _ Eup) in He.
  destruct (us_at _ _ _ _ _ I2 (up q)) as (s & Hs & Hm).
  destruct (m !! up q) as [[k' v']|] eqn:Em.
  2: { subst e. cbn [fst snd]. cbn [wp]. destruct (N.lt_ge_cases q.1 64) as [Hq|Hq].
       - assert (Hsk : skip G (Some (true, q)) = true).
         { cbn [skip]. destruct (N.ltb_spec q.1 64); [|lia]. rewrite (I6 q). rewrite (proj1 (up_low q Hq)) in Em.
           apply (us_low_iff _ _ _ _ _ _ I2 Hq) in Em. by rewrite Em. }
         unfold dres. rewrite Hsk. cbn [fst snd]. split; [done|]. split; [done|]. by intros [? _].
       - apply (Hnot (true, q) eq_refl) with (WS := WS1); [|done]. cbn [fst snd]. intros H. apply Hbs in H. destruct H as (x & v & Hc & Hx).
         apply cov_up_high in Hc as [E _]; [|done]. unfold us in Hx. rewrite <- E in Hx. destruct Hm as (_ & Em' & _). by rewrite Em' in Hx. }
  destruct Hm as [Hm Hne]. cbn [snd] in Hm. subst v'. subst e. cbn [fst snd sub_of].
  apply wp_bind. eapply wp_mono; [apply (n_delete_in _ c64_ok h _ (Fs (up q)) s (ss (up q)) lk (Z.of_N lb)); done|]. cbn beta.
  intros [s' f] h1 WS2 ((Fx & Hx & Hfx) & Hdel & Hs1 & _). cbn [fst snd] in *. change (cW c64) with 64 in *. rewrite adj_of in Hx, Hdel by done.
  pose proof (us_flag _ _ _ _ _ _ _ _ _ _ I2 Edn Em Hdel) as Hfl.
  destruct f.
  2: { eapply (Hnot (true, q)); [done| |done]. cbn [fst snd]. intros H. apply Hbs in H. by apply Hfl in H. }
  assert (Hsk : skip G (Some (true, q)) = false).
  { cbn [skip]. destruct (N.ltb_spec q.1 64) as [Hq|Hq]; [|done]. cbn [andb]. rewrite (I6 q). destruct (us ss q) eqn:E; [done|].
    apply (us_low_iff _ _ _ _ _ _ I2 Hq) in E. rewrite (proj1 (up_low q Hq)) in Em. by rewrite Em in E. }
  assert (Hend : forall h2 WS x' F6', h ⊆ h2 -> utree6 h2 F6' x' (g_del q (fun q => G (true, q))) -> F4 ## F6' ->
    wp (l <- alloc (CIp r4 x') ;; Ret (Some l, true)) h2 WS (fun x h' _ => dres G (Some (true, q)) x h')).
  { intros h2 WS x' F6' Hs2 H6' Hd'. apply wp_bind, wp_alloc. intros a' Ha'. cbn [wp]. unfold dres. rewrite Hsk. cbn [fst snd].
    assert (Hs' : h2 ⊆ <[a' := CIp r4 x']> h2) by (by apply insert_subseteq). apply not_elem_of_dom in Ha'.
    pose proof (subseteq_dom _ _ Hs2) as Dh. pose proof (utree6_dom _ _ _ _ H6') as X5. split.
    - exists r4, x', F4, F6'. split_and!; [by rewrite lookup_insert| | |done|clear -Ha' D4 Dh; set_solver|clear -Ha' X5; set_solver].
      + eapply tree4_mono; [exact Hs'|]. by eapply tree4_mono.
      + eapply utree6_mono; [exact Hs'|]. exact H6'.
    - split; [|done]. intros _. split; [done|]. apply below_net. apply Hbs. by apply Hfl. }
  destruct s' as [s'|].
  - (* the inner tree is still inhabited *)
    assert (Hq : 64 <= q.1).
    { destruct (N.lt_ge_cases q.1 64) as [Hq|]; [|done]. exfalso.
      assert (s_delete 64 (ss (up q)) lk lb = ∅) as E; [|apply (ntree_at_none _ _ _ _ (ntree_in_at _ _ _ _ _ Hx)) in E; done].
      apply map_eq. intros l. rewrite lookup_empty, lookup_del, Edn, (proj2 (up_low q Hq)). destruct (decide _) as [|Hc]; [done|].
      destruct (ss (up q) !! l) as [kv|] eqn:El; [|done]. destruct Hc. assert (l = (0, 0)) as ->; [|apply covers_refl].
      eapply (us_low _ _ _ _ _ I2); [|exact El]. by apply up_len. }
    apply wp_bind. eapply wp_mono; [eapply (utree6_put h _ F4 F6 r6 m ss F0 Fs q hk hb h1 (Some s') _ Fx (fun q' => g_del q (fun x => G (true, x)) q')); try eassumption|].
    + intros E. apply (ntree_at_none _ _ _ _ (ntree_in_at _ _ _ _ _ Hx)) in E. done.
    + apply plain_del. apply I2.
    + intros l kv Hl. exfalso. apply (proj1 (up_len q)) in Hl. lia.
    + intros q'. rewrite us_del_part by done. unfold g_del. by rewrite I6.
    + cbn beta. intros x' h2 WS5 (F6' & H6' & Hs2 & Hd'). by eapply Hend.
  - (* nothing is left below this key *)
    apply bind_assoc. cbn [bind].
    apply wp_bind. eapply wp_mono; [apply (n_delete_in _ c64_ok h1 _ F0 r6 m hk (Z.of_N hb)); [done|by eapply ntree_in_mono]|]. cbn beta.
    intros [x' f'] h2 WS4 ((F0' & Hx' & Hf0) & _ & Hs2 & _). cbn [bind fst snd] in *. change (cW c64) with 64 in *. rewrite adj_of in Hx' by done.
    assert (Hh2 : h ⊆ h2) by (by etrans). assert (D1 : dom h ⊆ dom h1) by (by apply subseteq_dom).
    assert (Hf0' : forall F, F ⊆ dom h1 -> F ## F0 -> F ## F0').
    { intros F HF HF0 l Hl Hl0. destruct (Hf0 l Hl0) as [H|H]; [by eapply HF0|]. apply HF in Hl. by apply not_elem_of_dom in H. }
    assert (Emx : s_delete 64 (ss (up q)) lk lb = ∅) by (by apply (ntree_at_none _ _ _ _ (ntree_in_at _ _ _ _ _ Hx))).
    assert (Hsub : usubs h2 (s_delete 64 m hk hb) (ucut (up q) ∅ ss) F0' (ucut (up q) ∅ Fs)).
    { pose proof I2 as [S1 S2 S3 S4 S5]. unfold ucut. split.
      - intros y. rewrite lookup_del, Eup. destruct (decide (covers (up q) y)) as [Hc|Hc].
        + exists None. split; [apply ntree_in_nil|done].
        + destruct (S1 y) as (sy & Hsy & Hmy). exists sy. split; [by eapply ntree_in_mono|done].
      - intros y l kv Hy. destruct (decide _); [by rewrite lookup_empty|by apply S2].
      - intros y. destruct (decide _); [by intros ???|apply S3].
      - intros y. destruct (decide _); [clear; set_solver|]. apply Hf0'; [|apply S4]. by etrans; [apply Ds|].
      - intros y z Hyz. destruct (decide _), (decide _); try (clear; set_solver). by apply S5. }
    eapply (Hend h2 _ x' (F0' ∪ F6)); [done| |].
    + exists (s_delete 64 m hk hb), (ucut (up q) ∅ ss), F0', (ucut (up q) ∅ Fs). split_and!; [done|done|clear; set_solver| | |].
      * intros y. unfold ucut. specialize (I4 y). destruct (decide _); clear -I4; set_solver.
      * apply union_least; [by eapply ntree_in_dom|]. apply subseteq_dom in Hh2; by etrans.
      * intros x. rewrite (us_del_all _ _ _ _ _ _ _ _ _ I2 Edn Emx). unfold g_del. by rewrite I6.
    + assert (F4 ## F0') by (apply Hf0'; [by etrans|]; clear -Hd I3; set_solver). clear -H Hd. set_solver.
Qed.

(** ** Get. *)
Lemma pl_sub_low (h : heap) (m : nmap) ss F0 Fs (x : pfx) kv (l : pfx) : usubs h m ss F0 Fs -> x.1 < 64 -> m !! x = Some kv -> l.2 < 2 ^ l.1 ->
  exists v, us ss x = Some v /\ forall r, s_longest (ss x) l r -> r = (v, true).
Proof.
  intros I2 Hx Hm Hl. destruct (us_low_at _ _ _ _ _ _ _ I2 Hx Hm) as (k & v & Hv). exists v. split.
  - unfold us. rewrite (proj1 (up_low x Hx)), (proj2 (up_low x Hx)). apply vals_some. by exists k.
  - intros r [(p & k' & v' & H1 & H2 & -> & H3)|[-> H]].
    + pose proof (us_low _ _ _ _ _ I2 _ _ _ Hx H1) as ->. pose proof (eq_trans (eq_sym Hv) H1) as [= -> ->]. done.
    + exfalso. eapply H; [exact Hv|]. by apply cov00.
Qed.
Lemma ux_get_at (h : heap) WS t G n r : utree h t G -> isnet n r ->
  wp (ux_get_net t n) h WS (fun x h' WS' => h' = h /\ exists res, x = ret_of res /\ match r with Some q => gl G q res | None => res = None end).
Proof.
  intros Ht Hr.
  assert (Hnone : r = None -> wp (Ret (VNil, false)) h WS (fun x h' WS' => h' = h /\ exists res, x = ret_of res /\ match r with Some q => gl G q res | None => res = None end)).
  { intros ->. cbn [wp]. split; [done|]. by exists None. }
  destruct t as [a|].
  2: { cbn [ux_get_net wp]. split; [done|]. exists None. split; [done|]. destruct r as [q|]; [|done]. intros p v H. by rewrite Ht in H. }
  destruct n as [n|]; [|destruct r as [q|]; [by inversion Hr|by apply Hnone]]. unfold ux_get_net.
  pose proof Ht as (r4 & r6 & F4 & F6 & Ha & H4 & H6 & Hd & A4 & A6).
  apply wp_bind. eapply wp_ld_ip; [exact Ha|]. cbn [fst snd].
  pose proof (ip4_key_spec n) as K4. destruct (ip4_key n) as [[k b]|].
  { destruct K4 as (Hn & Hk & Hb). assert (r = Some (false, norm 32 k b)) as ->.
    { destruct r as [q|]; [|by apply Hr in Hn]. f_equal. by eapply net_is_fun. }
    destruct H4 as (m & M1 & M2 & M3). eapply wp_mono; [apply (n_match_in _ c32_ok h WS r4 m k (Z.of_N b)); [done|by eapply ntree_in_at]|]. cbn beta.
    intros x h' WS' (Hx & -> & _). change (cW c32) with 32 in *. rewrite adj_of in Hx by done. split; [done|].
    apply s_longest_split in Hx as (res & -> & Hp). exists res. split; [done|]. apply gl_pl. eapply pl_ext; [|exact Hp]. done. }
  pose proof (ux_key_spec n) as K6. destruct (ip6_key n) as [[[[hk hb] lk] lb]|].
  2: { apply Hnone. destruct r as [[[] q]|]; [by apply K6 in Hr|by apply K4 in Hr|done]. }
  clear Hnone. destruct K6 as (q & Hn & Hvq & Hhk & Hhb & Hlk & Hlb & Eup & Edn & Hb64 & Ehk). assert (r = Some (true, q)) as ->.
  { destruct r as [q'|]; [|by apply Hr in Hn]. f_equal. by eapply net_is_fun. }
  destruct H6 as (m & ss & F0 & Fs & I1 & I2 & I3 & I4 & I5 & I6). pose proof (ntree_in_at _ _ _ _ _ I1) as I1'.
  assert (Hgoal : forall res, pl (us ss) q res -> exists res', ret_of res = ret_of res' /\ gl G (true, q) res').
  { intros res H. exists res. split; [done|]. apply gl_pl. eapply pl_ext; [|exact H]. done. }
  assert (Hvdn : (dn q).2 < 2 ^ (dn q).1).
  { pose proof (norm_valid 64 lk lb Hlk Hlb) as Hv. rewrite Edn in Hv. apply Hv. }
  (* a key below 64 bits whose inner tree is asked *)
  assert (Hmatch : forall WS x kv, m !! x = Some kv -> exists s, kv.2 = VSub s /\ wp (n_match c64 s lk (Z.of_N lb)) h WS (fun v h' WS' => s_longest (ss x) (dn q) v /\ h' = h /\ WS ⊆ WS')).
  { intros WS0 x kv Hx. destruct (us_at _ _ _ _ _ I2 x) as (s & Hs & Hm). rewrite Hx in Hm. destruct Hm as [Hm _]. exists s. split; [done|].
    eapply wp_mono; [apply (n_match_in _ c64_ok h WS0 s (ss x) lk (Z.of_N lb)); [done|by eapply ntree_in_at]|]. cbn beta. intros v h' WS' (Hv & -> & ?).
    change (cW c64) with 64 in *. rewrite adj_of in Hv by done. by rewrite Edn in Hv. }
  assert (Habove : 64 <= q.1 -> (forall p v, us ss p = Some v -> covers p q -> p.1 < 64) -> forall y, s_longest m (norm 64 hk 63) y ->
    match y with (w, true) => exists x kv, m !! x = Some kv /\ kv.2 = w /\ x.1 < 64 /\ forall v, us ss x = Some v -> pl (us ss) q (Some v) | (_, false) => y = (VNil, false) /\ pl (us ss) q None end).
  { intros Hq Hno y Hy. rewrite (proj1 (up_high q Hq)) in Eup. assert (hb = 64) as -> by lia.
    assert (Hc63 : forall p, p.1 < 64 -> covers p (norm 64 hk 63) <-> covers p q).
    { intros p Hp. rewrite cov63 by done. rewrite Eup. symmetry. apply cov_low; [lia|done]. }
    destruct Hy as [(p & k & v & H1 & H2 & -> & H3)|[-> H]].
    - assert (Hp : p.1 < 64) by (destruct H2 as [H2 _]; unfold norm in H2; cbn [fst] in H2; lia).
      exists p, (k, v). split_and!; [done|done|done|]. intros v0 Hv0. exists p. split_and!; [done|by apply Hc63|].
      intros p' v' Hp' Hc. pose proof (Hno _ _ Hp' Hc) as Hl. destruct (us_present _ _ _ _ _ _ _ I2 Hp') as [[k1 v1] Hm].
      rewrite (proj1 (up_low p' Hl)) in Hm. eapply H3; [exact Hm|]. by apply Hc63.
    - split; [done|]. intros p v Hp Hc. pose proof (Hno _ _ Hp Hc) as Hl. destruct (us_present _ _ _ _ _ _ _ I2 Hp) as [[k1 v1] Hm].
      rewrite (proj1 (up_low p Hl)) in Hm. eapply H; [exact Hm|]. by apply Hc63. }
  apply wp_bind. eapply wp_mono; [apply (n_match_in _ c64_ok h WS r6 m hk (Z.of_N hb)); [done|done]|]. cbn beta.
  intros y h' WS' (Hy & -> & _). change (cW c64) with 64 in *. rewrite adj_of in Hy by done. rewrite Eup in Hy.
  destruct Hy as [(x & k & w & H1 & H2 & -> & H3)|[-> Hno]]; cbn [negb fst snd].
  2: { cbn [wp]. split; [done|]. apply (Hgoal None). intros p v Hp Hc. destruct (us_present _ _ _ _ _ _ _ I2 Hp) as [[k1 v1] Hm].
       eapply Hno; [exact Hm|]. destruct (N.lt_ge_cases p.1 64) as [Hl|Hl].
       - rewrite (proj1 (up_low p Hl)). exact (proj1 (cov_up_low p q Hl) Hc).
       - apply cov_up_high in Hc as [-> _]; [|done]. apply covers_refl. }
  destruct (Hmatch WS' _ _ H1) as (s & E & Hw). cbn [snd] in E. subst w. cbn [sub_of].
  apply wp_bind. eapply wp_mono; [exact Hw|]. cbn beta. intros v h' WS2 (Hv & -> & _). clear Hw.
  assert (Hmax : forall p' v', us ss p' = Some v' -> covers p' q -> (up p').1 <= x.1).
  { intros p' v' Hp' Hc. destruct (us_present _ _ _ _ _ _ _ I2 Hp') as [[k1 v1] Hm]. eapply H3; [exact Hm|].
    destruct (N.lt_ge_cases p'.1 64) as [Hl|Hl].
    - rewrite (proj1 (up_low p' Hl)). exact (proj1 (cov_up_low p' q Hl) Hc).
    - apply cov_up_high in Hc as [-> _]; [|done]. apply covers_refl. }
  destruct (N.lt_ge_cases x.1 64) as [Hx|Hx].
  { (* the longest outer key is a network above the boundary *)
    destruct (pl_sub_low _ _ _ _ _ _ _ _ I2 Hx H1 Hvdn) as (v0 & Hv0 & Hr0). rewrite (Hr0 _ Hv). cbn [snd orb wp]. split; [done|].
    apply (Hgoal (Some v0)). exists x. split_and!; [done|exact (proj2 (cov_up_low x q Hx) H2)|]. intros p' v' Hp' Hc. pose proof (Hmax _ _ Hp' Hc) as Hle.
    assert (p'.1 < 64) as Hl by (apply up_len; lia). by rewrite (proj1 (up_low p' Hl)) in Hle. }
  assert (Hq : 64 <= q.1).
  { destruct (N.lt_ge_cases q.1 64) as [Hq|]; [|done]. rewrite (proj1 (up_low q Hq)) in H2. destruct H2 as [H2 _]. lia. }
  assert (Ex : x = up q).
  { eapply covers_same_len; [exact H2|apply covers_refl|]. destruct H2 as [H2 _]. rewrite (proj1 (up_high q Hq)) in *. unfold hi in *. cbn [fst] in *. lia. }
  subst x. destruct Hv as [(l & k1 & v1 & L1 & L2 & -> & L3)|[-> Hn']]; cbn [fst snd orb].
  { cbn [wp]. split; [done|]. apply (Hgoal (Some v1)). assert (Hup : (up q).1 = 64) by (by rewrite (proj1 (up_high q Hq))).
    destruct (us_join _ _ _ _ _ _ _ _ _ I2 Hup L1) as (J1 & J2 & J3). assert (J : (join (up q).2 l).1 = l.1 + 64) by done.
    exists (join (up q).2 l). split_and!; [done|apply cov_up_high; [lia|]; by rewrite J1, J2|].
    intros p' v' Hp' Hc. destruct (N.lt_ge_cases p'.1 64) as [|Hp]; [lia|]. apply cov_up_high in Hc as [Eh Hc]; [|done].
    unfold us in Hp'. rewrite Eh in Hp'. apply vals_some in Hp' as [k2 Hp']. assert (L3' : (dn p').1 <= l.1) by (eapply L3; [exact Hp'|exact Hc]). rewrite J.
    rewrite (proj2 (up_high p' Hp)) in L3'. unfold lo in L3'. cbn [fst] in L3'. lia. }
  (* the /64 has networks, but none of them contains q *)
  destruct (N.ltb_spec hb 64) as [Hhb'|Hhb']; [lia|]. assert (hb = 64) as -> by lia.
  assert (Hno : forall p v, us ss p = Some v -> covers p q -> p.1 < 64).
  { intros p v Hp Hc. destruct (N.lt_ge_cases p.1 64) as [|Hl]; [done|]. exfalso. apply cov_up_high in Hc as [Eh Hc]; [|done].
    unfold us in Hp. rewrite Eh in Hp. apply vals_some in Hp as [k2 Hp]. by eapply Hn'. }
  change (Z.of_N 64 - 1)%Z with 63%Z.
  apply wp_bind. eapply wp_mono; [apply (n_match_in _ c64_ok h WS2 r6 m hk 63); [done|done]|]. cbn beta.
  intros y h' WS3 (Hy & -> & _). change (cW c64) with 64 in *. change (adj 64 63) with 63 in Hy. specialize (Habove Hq Hno y Hy).
  destruct y as [w []].
  - destruct Habove as (x & kv & Hx1 & Ekv & Hx2 & Hx3). cbn [negb fst snd]. destruct (Hmatch WS3 _ _ Hx1) as (s' & E & Hw). subst w.
    rewrite E. cbn [sub_of]. eapply wp_mono; [exact Hw|]. cbn beta. intros v h' WS4 (Hv & -> & _). split; [done|].
    destruct (pl_sub_low _ _ _ _ _ _ _ _ I2 Hx2 Hx1 Hvdn) as (v0 & Hv0 & Hr0). rewrite (Hr0 _ Hv). apply (Hgoal (Some v0)). by apply Hx3.
  - destruct Habove as [-> Hpl]. cbn [negb fst snd wp]. split; [done|]. by apply (Hgoal None).
Qed.
End ux.
