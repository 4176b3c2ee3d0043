(** * uintX iptree on memory, by kinds: Delete. *)
From Verif Require Import Prog NumModel NumBits NumFun NumSim NumSpec NumAbs NumFoot IpModel IpSpec IpBits IpAbs IpAbs2 IpAbs3 NumShare IpKinds UxModel UxAbs UxAbs2 UxAbs3 UxKinds.
From Coq Require Import ZifyBool ZifyNat ZifyN.
Open Scope N_scope.

Section kinds.
Context {U : Type}.
Local Notation heap := (heap U).
Local Notation value := (value U).
Local Notation nmap := (@gmap pfx (@prod_eq_dec N N_eq_dec N N_eq_dec) (@prod_countable N N_eq_dec N_countable N N_eq_dec N_countable) (prod N value)).
Local Notation kinds := (kd -> gset loc).
Local Notation KS x := (KSub (en x)).
Implicit Types (h : heap) (K : kinds).

Lemma uknothing h K t G q0 : ukitree h K t G -> ~ below_ q0.2 (fun q => G (q0.1, q)) -> ukitree h K t (g_upd (Some q0) g_del G).
Proof.
  intros Ht Hn. eapply ukitree_ext; [|exact Ht]. intros [f q]. unfold g_upd. cbn [fst snd].
  destruct (Bool.eqb q0.1 f) eqn:E; [|done]. apply Bool.eqb_prop in E. subst f. symmetry. by apply (g_del_none q0.2 (fun q => G (q0.1, q))).
Qed.
Definition ukdel h K (t : ptr) (G : net -> option value) (r : option net) (x : ptr * bool) h' : Prop :=
  ukpost h K x.1 (if skip G r then G else g_upd r g_del G) h' /\ (x.2 = true <-> skip G r = false /\ exists p q v, r = Some p /\ ncovers p q /\ G q = Some v) /\
  if x.2 then exists a, x.1 = Some a /\ a ∉ dom h else x.1 = t.
Lemma ukdel_false h K t G r h' : kgood h K -> h ⊆ h' -> ukitree h K t G -> (forall q0, r = Some q0 -> skip G r = false -> ~ below_ q0.2 (fun q => G (q0.1, q))) -> ukdel h K t G r (t, false) h'.
Proof.
  intros HG Hs Ht Hb. split_and!; cbn [fst snd]; [|split; [done|]|done].
  - apply ukpost_same; [done|done|]. destruct (skip G r) eqn:Es; [done|]. destruct r as [q0|]; [by apply uknothing; [|apply Hb]|done].
  - intros (Es & p & q & v & -> & H1 & H2). exfalso. apply (Hb p eq_refl Es). apply below_net. by exists p, q, v.
Qed.
Lemma uk_delete h K WS t G n r : kgood h K -> ukitree h K t G -> isnet n r ->
  wp (ux_delete_net t n) h WS (fun x h' _ => ukdel h K t G r x h').
Proof.
  intros HG Ht Hr. pose proof HG as [GG1 GG2].
  assert (Hnone : r = None -> wp (Ret (t, false)) h WS (fun x h' _ => ukdel h K t G r x h')).
  { intros ->. cbn [wp]. by apply ukdel_false. }
  destruct t as [a|].
  2: { cbn [ux_delete_net wp]. apply ukdel_false; [done..|]. intros q0 _ _ (q & v & _ & H). by rewrite Ht in H. }
  destruct n as [n|]; [|destruct r as [q|]; [by inversion Hr|by apply Hnone]]. unfold ux_delete_net.
  pose proof Ht as (Hroot & r4 & r6 & Ha & H4 & H6).
  apply wp_bind. eapply wp_ld_ip; [exact Ha|]. cbn [fst snd].
  assert (Hnot : forall q0 h' WS', r = Some q0 -> h ⊆ h' -> (skip G r = false -> ~ below_ q0.2 (fun q => G (q0.1, q))) -> wp (Ret (Some a, false)) h' WS' (fun x h' _ => ukdel h K (Some a) G r x h')).
  { intros q0 h' WS' -> Hs Hb. cbn [wp]. apply ukdel_false; [done..|]. by intros ? [= <-]. }
  assert (Hend : forall h1 K1 WS1 x4 x6 q0, r = Some q0 -> skip G r = false -> kle K K1 -> h ⊆ h1 -> kgood h1 K1 ->
     ktree4 h1 K1 x4 (fun q => g_upd r g_del G (false, q)) -> uktree6 h1 K1 x6 (fun q => g_upd r g_del G (true, q)) -> below_ q0.2 (fun q => G (q0.1, q)) ->
    wp (l <- alloc (CIp x4 x6) ;; Ret (Some l, true)) h1 WS1 (fun x h' _ => ukdel h K (Some a) G r x h')).
  { intros h1 K1 WS1 x4 x6 q0 -> Hsk HK Hs HG1 X4 X6 Hb. apply wp_bind, wp_alloc. intros l Hl. cbn [wp]. split_and!; cbn [fst snd].
    - rewrite Hsk. by eapply ukpost_alloc.
    - split; [|done]. intros _. split; [done|]. by apply below_net.
    - exists l. split; [done|]. apply subseteq_dom in Hs. apply not_elem_of_dom in Hl. auto. }
  pose proof (ip4_key_spec n) as E4. destruct (ip4_key n) as [[k b]|].
  { destruct E4 as (Hn & Hk & Hb). assert (r = Some (false, norm 32 k b)) as ->.
    { destruct r as [q|]; [|by apply Hr in Hn]. f_equal. by eapply net_is_fun. }
    pose proof H4 as (m & M1 & M2 & M3). apply wp_bind. eapply wp_mono; [by apply (n_delete_in _ c32_ok h WS (K K4) r4 m k (Z.of_N b))|]. cbn beta.
    intros [x f] h' WS' ((F' & Hx & Hf) & Hdel & Hs & _). cbn [fst snd] in *. change (cW c32) with 32 in *. rewrite adj_of in Hx, Hdel by done.
    pose proof (deleted_below 32 m k b f _ M3 Hdel) as Hfl. pose proof (subseteq_dom _ _ Hs) as Dh. destruct f.
    - assert (HG' : kgood h' (kup K K4 F')) by (eapply kup_good; [exact HG|done|by eapply ntree_in_dom|done]).
      eapply (Hend h' (kup K K4 F')); [done|done|apply kup_le|done|done| | |cbn [fst snd]; by apply Hfl].
      + eexists. split_and!; [apply in_kup; [by etrans; [apply GG1|]|exact Hx]|by apply plain_del|]. intros q. cbn [g_upd fst snd Bool.eqb]. rewrite vals_del. unfold g_del. by rewrite M3.
      + eapply uktree6_mono; [exact Hs|apply kup_le|done|exact H6].
    - eapply Hnot; [done|done|]. cbn [fst snd]. intros _ H. by apply Hfl in H. }
  pose proof (ux_key_spec n) as E6. destruct (ip6_key n) as [[[[hk hb] lk] lb]|].
  2: { apply Hnone. destruct r as [[[] q]|]; [by apply E6 in Hr|by apply E4 in Hr|done]. }
  clear Hnone E4. destruct E6 as (q & Hn & Hvq & Hhk & Hhb & Hlk & Hlb & Eup & Edn & _). assert (r = Some (true, q)) as ->.
  { destruct r as [q'|]; [|by apply Hr in Hn]. f_equal. by eapply net_is_fun. }
  pose proof H6 as (m & ss & I1 & I2 & I6). pose proof (uksubs_usubs _ _ _ _ HG I2) as I2'.
  pose proof (below_us (fun q => G (true, q)) ss q I6) as Hbs.
  apply wp_bind. eapply wp_mono; [apply (n_exact_in _ c64_ok h WS r6 m hk (Z.of_N hb)); [done|by eapply ntree_in_at]|]. cbn beta.
  intros e h1 WS1 (He & -> & _). change (cW c64) with 64 in He. rewrite adj_of in He by done.
  rewrite (exact_up _ _ _ _ Eup) in He.
  destruct (uk_at _ _ _ _ I2 (up q)) as (s & Hs & Hm).
  destruct (m !! up q) as [[k' v']|] eqn:Em.
  2: { subst e. cbn [fst snd]. destruct (N.lt_ge_cases q.1 64) as [Hq|Hq].
       - assert (Hsk : skip G (Some (true, q)) = true).
         { cbn [skip]. destruct (N.ltb_spec q.1 64); [|lia]. rewrite (I6 q). rewrite (proj1 (up_low q Hq)) in Em.
           apply (us_low_iff _ _ _ _ _ _ I2' Hq) in Em. by rewrite Em. }
         eapply (Hnot (true, q)); [done|done|]. by rewrite Hsk.
       - eapply (Hnot (true, q)); [done|done|]. cbn [fst snd]. intros _ H. apply Hbs in H. destruct H as (x & v & Hc & Hx).
         apply cov_up_high in Hc as [E _]; [|done]. unfold us in Hx. rewrite <- E in Hx. destruct Hm as (_ & Em'). by rewrite Em' in Hx. }
  destruct Hm as [Hm Hne]. cbn [snd] in Hm. subst v'. subst e. cbn [fst snd sub_of].
  apply wp_bind. eapply wp_mono; [by apply (n_delete_in _ c64_ok h WS1 (K (KS (up q))) s (ss (up q)) lk (Z.of_N lb))|]. cbn beta.
  intros [s' f] h1 WS2 ((Fx & Hx & Hfx) & Hdel & Hs1 & _). cbn [fst snd] in *. change (cW c64) with 64 in *. rewrite adj_of in Hx, Hdel by done.
  pose proof (us_flag _ _ _ _ _ _ _ _ _ _ I2' Edn Em Hdel) as Hfl.
  destruct f.
  2: { eapply (Hnot (true, q)); [done|done|]. cbn [fst snd]. intros _ H. apply Hbs in H. by apply Hfl in H. }
  assert (Hsk : skip G (Some (true, q)) = false).
  { cbn [skip]. destruct (N.ltb_spec q.1 64) as [Hq|Hq]; [|done]. cbn [andb]. rewrite (I6 q). destruct (us ss q) eqn:E; [done|].
    apply (us_low_iff _ _ _ _ _ _ I2' Hq) in E. rewrite (proj1 (up_low q Hq)) in Em. by rewrite Em in E. }
  pose proof (subseteq_dom _ _ Hs1) as D1. assert (HG1 : kgood h1 (kup K (KS (up q)) Fx)) by (eapply kup_good; [exact HG|done|by eapply ntree_in_dom|done]). set (K1 := kup K (KS (up q)) Fx) in *.
  assert (HK1 : kle K K1) by apply kup_le.
  assert (I1' : ntree_in c64 h1 (K1 KTop) r6 m) by (eapply in_grow; [exact Hs1|apply HK1|apply HG1|exact I1]).
  destruct s' as [s'|].
  - (* the inner tree is still inhabited *)
    assert (Hq : 64 <= q.1).
    { destruct (N.lt_ge_cases q.1 64) as [Hq|]; [|done]. exfalso.
      assert (s_delete 64 (ss (up q)) lk lb = ∅) as E; [|apply (ntree_at_none _ _ _ _ (ntree_in_at _ _ _ _ _ Hx)) in E; done].
      apply map_eq. intros l. rewrite lookup_empty, lookup_del, Edn, (proj2 (up_low q Hq)). destruct (decide _) as [|Hc]; [done|].
      destruct (ss (up q) !! l) as [kv|] eqn:El; [|done]. destruct Hc. assert (l = (0, 0)) as ->; [|apply covers_refl].
      eapply (uk_low _ _ _ _ I2); [|exact El]. by apply up_len. }
    apply wp_bind. eapply wp_mono; [by apply (n_insert_in _ c64_ok h1 WS2 (K1 KTop) r6 m hk (Z.of_N hb) (VSub (Some s')))|]. cbn beta.
    intros x' h2 WS4 ((F0' & Hx' & Hf0) & Hs2 & _). change (cW c64) with 64 in *. rewrite adj_of in Hx' by done. unfold s_insert in Hx'. rewrite Eup in Hx'.
    assert (Hh2 : h ⊆ h2) by (by etrans).
    pose proof (subseteq_dom _ _ Hs2) as D2. assert (HG2 : kgood h2 (kup K1 KTop F0')) by (eapply kup_good; [exact HG1|done|by eapply ntree_in_dom|done]). set (K2 := kup K1 KTop F0') in *.
    assert (HK2 : kle K1 K2) by apply kup_le. assert (HK : kle K K2) by (by eapply kle_trans).
    eapply (Hend h2 K2); [done|done|done|done|done| | |cbn [fst snd]; by apply Hbs, Hfl].
    + by eapply ktree4_mono.
    + eexists _, _. split_and!; [apply in_kup; [by etrans; [apply HG1|]|exact Hx']| |].
      * eapply uksubs_set; [exact I2| | | | |].
        -- intros y sy _ Hy. eapply in_grow; [exact Hh2|apply HK|apply HG2|exact Hy].
        -- eapply in_grow; [exact Hs2|apply HK2|apply HG2|]. apply in_kup; [by etrans; [apply GG1|]|exact Hx].
        -- intros E. apply (ntree_at_none _ _ _ _ (ntree_in_at _ _ _ _ _ Hx)) in E. done.
        -- apply plain_del. apply I2.
        -- intros l kv Hl. exfalso. apply (proj1 (up_len q)) in Hl. lia.
      * intros q'. cbn [g_upd fst snd Bool.eqb]. rewrite us_del_part by done. unfold g_del. by rewrite I6.
  - (* nothing is left below this key *)
    apply bind_assoc. cbn [bind].
    apply wp_bind. eapply wp_mono; [by apply (n_delete_in _ c64_ok h1 WS2 (K1 KTop) r6 m hk (Z.of_N hb))|]. cbn beta.
    intros [x' f'] h2 WS4 ((F0' & Hx' & Hf0) & _ & Hs2 & _). cbn [bind fst snd] in *. change (cW c64) with 64 in *. rewrite adj_of in Hx' by done.
    assert (Hh2 : h ⊆ h2) by (by etrans).
    pose proof (subseteq_dom _ _ Hs2) as D2. assert (HG2 : kgood h2 (kup K1 KTop F0')) by (eapply kup_good; [exact HG1|done|by eapply ntree_in_dom|done]). set (K2 := kup K1 KTop F0') in *.
    assert (HK2 : kle K1 K2) by apply kup_le. assert (HK : kle K K2) by (by eapply kle_trans).
    assert (Emx : s_delete 64 (ss (up q)) lk lb = ∅) by (by apply (ntree_at_none _ _ _ _ (ntree_in_at _ _ _ _ _ Hx))).
    eapply (Hend h2 K2); [done|done|done|done|done| | |cbn [fst snd]; by apply Hbs, Hfl].
    + by eapply ktree4_mono.
    + exists (s_delete 64 m hk hb), (ucut (up q) ∅ ss). split_and!; [apply in_kup; [by etrans; [apply HG1|]|exact Hx']| |].
      * destruct I2 as [S1 S2 S3]. unfold ucut. split.
        -- intros y. rewrite lookup_del, Eup. destruct (decide (covers (up q) y)) as [Hc|Hc].
           ++ exists None. split; [by apply in_nil|done].
           ++ destruct (S1 y) as (sy & Hsy & Hmy). exists sy. split; [eapply in_grow; [exact Hh2|apply HK|apply HG2|exact Hsy]|done].
        -- intros y l kv Hy. destruct (decide _); [by rewrite lookup_empty|by apply S2].
        -- intros y. destruct (decide _); [by intros ???|apply S3].
      * intros x. cbn [g_upd fst snd Bool.eqb]. rewrite (us_del_all _ _ _ _ _ _ _ _ _ I2' Edn Emx). unfold g_del. by rewrite I6.
Qed.
End kinds.
