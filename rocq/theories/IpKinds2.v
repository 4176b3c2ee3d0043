(** * iptree on memory, by kinds: Delete. *)
From Verif Require Import Prog NumModel NumBits NumFun NumSim NumSpec NumAbs NumFoot IpModel IpSpec IpBits IpAbs IpAbs2 IpAbs3 NumShare IpKinds.
From Coq Require Import ZifyBool ZifyNat ZifyN.
Open Scope N_scope.

Section kinds.
Context {U : Type}.
Local Notation heap := (heap U).
Local Notation value := (value U).
Local Notation nmap := (@gmap pfx (@prod_eq_dec N N_eq_dec N N_eq_dec) (@prod_countable N N_eq_dec N_countable N N_eq_dec N_countable) (prod N value)).
Local Notation kinds := (kd -> gset loc).
Implicit Types (h : heap) (K : kinds).

Lemma ksubs_subs h K (m : nmap) ss : kgood h K -> ksubs h K m ss -> subs h m ss (K KTop) (fun x => if m !! (64, x) then K (KSub x) else ∅).
Proof.
  intros [G1 G2] [S1 S2 S3]. split; [|done|done| |].
  - intros x. destruct (S1 x) as (s & X1 & X2). exists s. destruct (m !! (64, x)) as [kv|]; [done|]. destruct X2 as (-> & X2). rewrite X2. split; [apply ntree_in_nil|done].
  - intros x. destruct (m !! (64, x)); [by apply G2|]. clear. set_solver.
  - intros x y Hxy. destruct (m !! (64, x)); [|clear; set_solver]. destruct (m !! (64, y)); [|clear; set_solver]. apply G2. congruence.
Qed.
Lemma knothing h K t G q0 : kitree h K t G -> ~ below_ q0.2 (fun q => G (q0.1, q)) -> kitree h K t (g_upd (Some q0) g_del G).
Proof.
  intros Ht Hn. eapply kitree_ext; [|exact Ht]. intros [f q]. unfold g_upd. cbn [fst snd].
  destruct (Bool.eqb q0.1 f) eqn:E; [|done]. apply Bool.eqb_prop in E. subst f. symmetry. by apply (g_del_none q0.2 (fun q => G (q0.1, q))).
Qed.
Definition kdel h K (t : ptr) (G : net -> option value) (r : option net) (x : ptr * bool) h' : Prop :=
  kpost h K x.1 (g_upd r g_del G) h' /\ (x.2 = true <-> exists p q v, r = Some p /\ ncovers p q /\ G q = Some v) /\
  if x.2 then exists a, x.1 = Some a /\ a ∉ dom h else x.1 = t.
Lemma kdel_false h K t G r h' : kgood h K -> h ⊆ h' -> kitree h K t G -> (forall q0, r = Some q0 -> ~ below_ q0.2 (fun q => G (q0.1, q))) -> kdel h K t G r (t, false) h'.
Proof.
  intros HG Hs Ht Hb. split_and!; cbn [fst snd]; [|split; [done|]|done].
  - apply kpost_same; [done|done|]. destruct r as [q0|]; [by apply knothing; [|apply Hb]|done].
  - intros (p & q & v & -> & H1 & H2). exfalso. apply (Hb p eq_refl). apply below_net. by exists p, q, v.
Qed.

Lemma k_delete h K WS t G n r : kgood h K -> kitree h K t G -> isnet n r ->
  wp (ip_delete_net t n) h WS (fun x h' _ => kdel h K t G r x h').
Proof.
  intros HG Ht Hr. pose proof HG as [GG1 GG2].
  assert (Hnone : r = None -> wp (Ret (t, false)) h WS (fun x h' _ => kdel h K t G r x h')).
  { intros ->. cbn [wp]. by apply kdel_false. }
  destruct t as [a|].
  2: { cbn [ip_delete_net wp]. apply kdel_false; [done..|]. intros q0 _ (q & v & _ & H). by rewrite Ht in H. }
  destruct n as [n|]; [|destruct r as [q|]; [by inversion Hr|by apply Hnone]]. unfold ip_delete_net.
  pose proof Ht as (Hroot & r4 & r6 & Ha & H4 & H6).
  apply wp_bind. eapply wp_ld_ip; [exact Ha|]. cbn [fst snd].
  assert (Hnot : forall q0 h' WS', r = Some q0 -> h ⊆ h' -> ~ below_ q0.2 (fun q => G (q0.1, q)) -> wp (Ret (Some a, false)) h' WS' (fun x h' _ => kdel h K (Some a) G r x h')).
  { intros q0 h' WS' -> Hs Hb. cbn [wp]. apply kdel_false; [done..|]. by intros ? [= <-]. }
  assert (Hend : forall h1 K1 WS1 x4 x6 q0, r = Some q0 -> kle K K1 -> h ⊆ h1 -> kgood h1 K1 ->
     ktree4 h1 K1 x4 (fun q => g_upd r g_del G (false, q)) -> ktree6 h1 K1 x6 (fun q => g_upd r g_del G (true, q)) -> below_ q0.2 (fun q => G (q0.1, q)) ->
    wp (l <- alloc (CIp x4 x6) ;; Ret (Some l, true)) h1 WS1 (fun x h' _ => kdel h K (Some a) G r x h')).
  { intros h1 K1 WS1 x4 x6 q0 -> HK Hs HG1 X4 X6 Hb. apply wp_bind, wp_alloc. intros l Hl. cbn [wp]. split_and!; cbn [fst snd].
    - by eapply kpost_alloc.
    - split; [|done]. intros _. by apply below_net.
    - exists l. split; [done|]. apply subseteq_dom in Hs. apply not_elem_of_dom in Hl. auto. }
  pose proof (ip4_key_spec n) as E4. destruct (ip4_key n) as [[k b]|].
  { destruct E4 as (Hn & Hk & Hb). assert (r = Some (false, norm 32 k b)) as ->.
    { destruct r as [q|]; [|by apply Hr in Hn]. f_equal. by eapply net_is_fun. }
    pose proof H4 as (m & M1 & M2 & M3). apply wp_bind. eapply wp_mono; [by apply (n_delete_in _ c32_ok h WS (K K4) r4 m k (Z.of_N b))|]. cbn beta.
    intros [x f] h' WS' ((F' & Hx & Hf) & Hdel & Hs & _). cbn [fst snd] in *. change (cW c32) with 32 in *. rewrite adj_of in Hx, Hdel by done.
    pose proof (deleted_below 32 m k b f _ M3 Hdel) as Hfl. pose proof (subseteq_dom _ _ Hs) as Dh. destruct f.
    - assert (HG' : kgood h' (kup K K4 F')) by (eapply kup_good; [exact HG|done|by eapply ntree_in_dom|done]).
      eapply (Hend h' (kup K K4 F')); [done|apply kup_le|done|done| | |cbn [fst snd]; by apply Hfl].
      + eexists. split_and!; [apply in_kup; [by etrans; [apply GG1|]|exact Hx]|by apply plain_del|]. intros q. cbn [g_upd fst snd Bool.eqb]. rewrite vals_del. unfold g_del. by rewrite M3.
      + eapply ktree6_mono; [exact Hs|apply kup_le|done|exact H6].
    - eapply Hnot; [done|done|]. cbn [fst snd]. intros H. by apply Hfl in H. }
  pose proof (ip6_key_spec n) as E6. destruct (ip6_key n) as [[[[hk hb] lk] lb]|].
  2: { apply Hnone. destruct r as [[[] q]|]; [by apply E6 in Hr|by apply E4 in Hr|done]. }
  clear Hnone E4. destruct E6 as (q & Hn & Hhk & Hlk & Hvq & Klow & Khigh). assert (r = Some (true, q)) as ->.
  { destruct r as [q'|]; [|by apply Hr in Hn]. f_equal. by eapply net_is_fun. }
  pose proof H6 as (m & ss & I1 & I2 & I6). pose proof (ksubs_subs _ _ _ _ HG I2) as I2'.
  pose proof (below_six (fun q => G (true, q)) m ss q I6) as Hbs.
  destruct (N.ltb_spec hb 64) as [Hhb|Hhb].
  - assert (Hq : q.1 < 64). { destruct (N.lt_ge_cases q.1 64) as [|Hge]; [done|]. destruct (Khigh Hge) as [-> _]. lia. }
    destruct (Klow Hq) as [-> Hnorm]. apply wp_bind.
    eapply wp_mono; [by apply (n_delete_in _ c64_ok h WS (K KTop) r6 m hk (Z.of_N q.1))|]. cbn beta.
    intros [x f] h' WS' ((F0' & Hx & Hf) & Hdel & Hs & _). cbn [fst snd] in *. change (cW c64) with 64 in *. rewrite adj_of in Hx, Hdel by lia.
    pose proof (flag_low _ _ _ _ _ _ _ _ _ _ I2' (ntree_in_at _ _ _ _ _ I1) Hnorm Hq Hdel) as Hfl. pose proof (subseteq_dom _ _ Hs) as Dh.
    destruct f; [|eapply Hnot; [done|done|]; cbn [fst snd]; intros H; apply Hbs in H; by apply Hfl in H].
    assert (HG' : kgood h' (kup K KTop F0')) by (eapply kup_good; [exact HG|done|by eapply ntree_in_dom|done]).
    eapply (Hend h' (kup K KTop F0')); [done|apply kup_le|done|done| | |cbn [fst snd]; by apply Hbs, Hfl].
    + eapply ktree4_mono; [exact Hs|apply kup_le|done|exact H4].
    + exists (s_delete 64 m hk q.1), (cut q ∅ ss). split_and!; [apply in_kup; [by etrans; [apply GG1|]|exact Hx]| |].
      * destruct I2 as [S1 S2 S3]. unfold cut. split.
        -- intros y. destruct (S1 y) as (s & Hy & Hm). rewrite lookup_del, Hnorm. destruct (decide (covers q (64, y))) as [Hc|Hc].
           ++ exists None. split; [by apply in_nil|done].
           ++ exists s. split; [eapply in_grow; [exact Hs|apply (kup_le K KTop F0')|apply HG'|exact Hy]|done].
        -- intros q' k' v'. rewrite lookup_del. destruct (decide _); [done|]. apply S2.
        -- intros y. destruct (decide _); [by intros ???|apply S3].
      * intros q'. cbn [g_upd fst snd Bool.eqb]. rewrite six_del_low by done. unfold g_del. by rewrite I6.
  - assert (Hq : 64 <= q.1). { destruct (N.lt_ge_cases q.1 64) as [Hlt|]; [|done]. destruct (Klow Hlt) as [-> _]. lia. }
    destruct (Khigh Hq) as (-> & Hlb & Hnhi & Hnlo & Hhk2).
    assert (Enorm : norm 64 hk 64 = (64, (hi q).2)) by (rewrite Hnhi; done). clear Klow Khigh.
    apply wp_bind. eapply wp_mono; [apply (n_exact_in _ c64_ok h WS r6 m hk (Z.of_N 64)); [done|by eapply ntree_in_at]|]. cbn beta.
    intros e h1 WS1 (He & -> & _). change (cW c64) with 64 in He. change (adj 64 (Z.of_N 64)) with 64 in He.
    rewrite (exact64 _ _ _ Enorm) in He.
    destruct (ksub_at _ _ _ _ I2 (hi q).2) as (s & Hs & Hm).
    destruct (m !! (64, (hi q).2)) as [[k' v']|] eqn:Em.
    2: { subst e. cbn [fst snd]. eapply (Hnot (true, q)); [done|done|]. cbn [fst snd]. intros H. apply Hbs in H. destruct H as (q' & v & Hc & Hq').
         assert (64 <= q'.1) by (destruct Hc; lia). apply six_high in Hq' as [k' Hq']; [|done]. apply cov_high in Hc as [Hh _]; [|done..].
         rewrite <- Hh in Hq'. destruct Hm as (_ & E). rewrite E in Hq'. by rewrite lookup_empty in Hq'. }
    destruct Hm as [Hm Hne]. cbn [snd] in Hm. subst v'. subst e. cbn [fst snd as_sub bind].
    apply wp_bind. eapply wp_mono; [by apply (n_delete_in _ c64_ok h WS1 (K (KSub (hi q).2)) s (ss (hi q).2) lk (Z.of_N lb))|]. cbn beta.
    intros [s' f] h1 WS2 ((Fx & Hx & Hfx) & Hdel & Hs1 & _). cbn [fst snd] in *. change (cW c64) with 64 in *. rewrite adj_of in Hx, Hdel by done.
    pose proof (flag_high _ _ _ _ _ _ _ _ _ I2' Hnlo Hq Hdel) as Hfl.
    destruct f; [|eapply Hnot; [done|done|]; cbn [fst snd]; intros H; apply Hbs in H; by apply Hfl in H].
    pose proof (subseteq_dom _ _ Hs1) as D1. assert (HG1 : kgood h1 (kup K (KSub (hi q).2) Fx)) by (eapply kup_good; [exact HG|done|by eapply ntree_in_dom|done]). set (K1 := kup K (KSub (hi q).2) Fx) in *.
    assert (HK1 : kle K K1) by apply kup_le.
    assert (I1' : ntree_in c64 h1 (K1 KTop) r6 m) by (eapply in_grow; [exact Hs1|apply HK1|apply HG1|exact I1]).
    destruct s' as [s'|].
    + (* the subtree is still inhabited *)
      apply wp_bind. eapply wp_mono; [by apply (n_insert_in _ c64_ok h1 WS2 (K1 KTop) r6 m hk (Z.of_N 64) (VSub (Some s')))|]. cbn beta.
      intros x' h2 WS4 ((F0' & Hx' & Hf0) & Hs2 & _). change (cW c64) with 64 in *. change (adj 64 (Z.of_N 64)) with 64 in Hx'.
      rewrite (ins64 _ _ _ _ Enorm) in Hx'. assert (Hh2 : h ⊆ h2) by (by etrans).
      pose proof (subseteq_dom _ _ Hs2) as D2. assert (HG2 : kgood h2 (kup K1 KTop F0')) by (eapply kup_good; [exact HG1|done|by eapply ntree_in_dom|done]). set (K2 := kup K1 KTop F0') in *.
      assert (HK2 : kle K1 K2) by apply kup_le. assert (HK : kle K K2) by (by eapply kle_trans).
      eapply (Hend h2 K2); [done|done|done|done| | |cbn [fst snd]; by apply Hbs, Hfl].
      * by eapply ktree4_mono.
      * eexists _, _. split_and!; [apply in_kup; [by etrans; [apply HG1|]|exact Hx']| |].
        -- eapply ksubs_set; [exact I2| | | |].
           ++ intros y sy _ Hy. eapply in_grow; [exact Hh2|apply HK|apply HG2|exact Hy].
           ++ eapply in_grow; [exact Hs2|apply HK2|apply HG2|]. apply in_kup; [by etrans; [apply GG1|]|exact Hx].
           ++ intros E. apply (ntree_at_none _ _ _ _ (ntree_in_at _ _ _ _ _ Hx)) in E. done.
           ++ apply plain_del. apply I2.
        -- intros q'. cbn [g_upd fst snd Bool.eqb]. rewrite (six_del_high m); [unfold g_del; by rewrite I6|done|done|]. intros q1 Hq1. apply lookup_insert_ne. intros <-. cbn [fst] in Hq1. lia.
    + (* the last network below this /64 is gone *)
      apply bind_assoc. cbn [bind].
      apply wp_bind. eapply wp_mono; [by apply (n_delete_in _ c64_ok h1 WS2 (K1 KTop) r6 m hk (Z.of_N 64))|]. cbn beta.
      intros [x' f'] h2 WS4 ((F0' & Hx' & Hf0) & _ & Hs2 & _). cbn [bind fst snd] in *. change (cW c64) with 64 in *. change (adj 64 (Z.of_N 64)) with 64 in Hx'.
      assert (Hh2 : h ⊆ h2) by (by etrans).
      pose proof (subseteq_dom _ _ Hs2) as D2. assert (HG2 : kgood h2 (kup K1 KTop F0')) by (eapply kup_good; [exact HG1|done|by eapply ntree_in_dom|done]). set (K2 := kup K1 KTop F0') in *.
      assert (HK2 : kle K1 K2) by apply kup_le. assert (HK : kle K K2) by (by eapply kle_trans).
      assert (Emx : s_delete 64 (ss (hi q).2) lk lb = ∅) by (by apply (ntree_at_none _ _ _ _ (ntree_in_at _ _ _ _ _ Hx))).
      assert (Hcov : forall q', covers (64, (hi q).2) q' -> is_Some (m !! q') -> q' = (64, (hi q).2)).
      { intros q' Hc [[k1 v1] Hm']. pose proof (top_le _ _ _ _ _ _ (ntree_in_at _ _ _ _ _ I1) Hm') as [Hle _].
        assert (q'.1 = 64) by (destruct Hc as [Hc _]; cbn [fst] in Hc; lia). symmetry. eapply covers_same_len; [exact Hc|apply covers_refl|done]. }
      assert (Hlk' : forall q', q' <> (64, (hi q).2) -> s_delete 64 m hk 64 !! q' = m !! q').
      { intros q' Hne'. rewrite lookup_del, Enorm. destruct (decide _) as [Hc|]; [|done]. destruct (m !! q') as [y|] eqn:E'; [|done].
        exfalso. apply Hne'. apply Hcov; [done|by eexists]. }
      eapply (Hend h2 K2); [done|done|done|done| | |cbn [fst snd]; by apply Hbs, Hfl].
      * by eapply ktree4_mono.
      * exists (s_delete 64 m hk 64), (fun y => if y =? (hi q).2 then s_delete 64 (ss (hi q).2) lk lb else ss y). split_and!; [apply in_kup; [by etrans; [apply HG1|]|exact Hx']| |].
        -- destruct I2 as [S1 S2 S3]. split.
           ++ intros y. destruct (N.eqb_spec y (hi q).2) as [->|Hy].
              ** exists None. rewrite lookup_del, Enorm. rewrite decide_True by apply covers_refl. rewrite Emx. split; [by apply in_nil|done].
              ** destruct (S1 y) as (sy & Hsy & Hmy). exists sy. rewrite Hlk' by congruence. split; [eapply in_grow; [exact Hh2|apply HK|apply HG2|exact Hsy]|done].
           ++ intros q' k1 v1. rewrite lookup_del. destruct (decide _); [done|]. apply S2.
           ++ intros y. destruct (y =? (hi q).2); [|apply S3]. rewrite Emx. by intros ???.
        -- intros q'. cbn [g_upd fst snd Bool.eqb]. rewrite (six_del_high m); [unfold g_del; by rewrite I6|done|done|]. intros q1 Hq1. apply Hlk'. intros ->. cbn [fst] in Hq1. lia.
Qed.
End kinds.
