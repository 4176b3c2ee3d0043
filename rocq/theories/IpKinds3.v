(** * iptree on memory, by kinds: InplaceInsert, and what other trees see of it. *)
From Verif Require Import Prog NumModel NumBits NumFun NumSim NumSpec NumAbs NumFoot IpModel IpSpec IpBits IpAbs IpAbs2 IpAbs3 NumShare IpUpd3 IpKinds IpKinds2.
From Coq Require Import ZifyBool ZifyNat ZifyN.
Open Scope N_scope.

Section kinds.
Context {U : Type}.
Local Notation heap := (heap U).
Local Notation value := (value U).
Local Notation nmap := (@gmap pfx (@prod_eq_dec N N_eq_dec N N_eq_dec) (@prod_countable N N_eq_dec N_countable N N_eq_dec N_countable) (prod N value)).
Local Notation kinds := (kd -> gset loc).
Implicit Types (h : heap) (K : kinds).

(** ** Changes to nodes of one kind. *)
Record kkeep (j : kd) h K h' K' : Prop := {
  kk_le : kle K K'; kk_good : kgood h' K'; kk_dom : dom h ⊆ dom h';
  kk_in : forall i c p (m : nmap), i <> j -> ntree_in c h (K i) p m -> ntree_in c h' (K' i) p m;
  kk_at : forall i l, i <> j -> l ∈ K i -> h' !! l = h !! l }.
Lemma kkeep4 j h K h' K' p g : j <> K4 -> kkeep j h K h' K' -> ktree4 h K p g -> ktree4 h' K' p g.
Proof. intros Hj H (m & A & B). exists m. split; [|done]. eapply kk_in; [exact H|congruence|exact A]. Qed.
Lemma kkeeps j h K h' K' m ss : (forall x, j <> KSub x) -> kkeep j h K h' K' -> ksubs h K m ss -> ksubs h' K' m ss.
Proof. intros Hj H [S1 S2 S3]. split; try done. intros x. destruct (S1 x) as (s & A & B). exists s. split; [|done]. eapply kk_in; [exact H|specialize (Hj x); congruence|exact A]. Qed.
Lemma kkeep6 j h K h' K' p g : j <> KTop -> (forall x, j <> KSub x) -> kkeep j h K h' K' -> ktree6 h K p g -> ktree6 h' K' p g.
Proof. intros Hj Hj' H (m & ss & A & B & C). exists m, ss. split_and!; [|by eapply kkeeps|done]. eapply kk_in; [exact H|congruence|exact A]. Qed.
Lemma kk_root j h K h' K' l c : j <> KRoot -> kkeep j h K h' K' -> l ∈ K KRoot -> h !! l = Some c -> h' !! l = Some c.
Proof. intros Hj H Hl E. rewrite (kk_at _ _ _ _ _ H KRoot l); [done|congruence|done]. Qed.
Lemma kkeep_store h K a c : kgood h K -> a ∈ K KRoot -> kkeep KRoot h K (<[a := c]> h) K.
Proof.
  intros [G1 G2] Ha. split.
  - apply kle_refl.
  - split; [|done]. intros i. rewrite dom_insert. etrans; [apply G1|]. clear. set_solver.
  - rewrite dom_insert. clear. set_solver.
  - intros i c' p m Hi Hm. eapply ntree_in_untouched; [apply untouched_store| |exact Hm]. intros l L1 L2. apply elem_of_singleton in L2 as ->. by apply (G2 i KRoot Hi a).
  - intros i l Hi Hl. apply lookup_insert_ne. intros <-. by apply (G2 i KRoot Hi a).
Qed.
Lemma k_inpl c (Hc : cfg_ok c) j h K WS p (m : nmap) k bits v : kgood h K -> dom h ⊆ WS -> k < 2 ^ cW c -> ntree_in c h (K j) p m ->
  wp (n_inplace_insert c p k bits v) h WS (fun r h' WS' => exists K', kkeep j h K h' K' /\ dom h' ⊆ WS' /\ ntree_in c h' (K' j) r (s_insert (cW c) m k (adj (cW c) bits) v) /\
    forall p2 m2, ntree_in c h (K j) p2 m2 -> exists m', ntree_in c h' (K' j) p2 m' /\ same_or_ins c m m2 m' k (adj (cW c) bits) v).
Proof.
  intros HG HW Hk Hm. pose proof HG as [G1 G2]. eapply wp_mono; [apply (wp_dom (St := unit) (fun _ _ => True)); [exact HW|]; eapply (n_inplace_all c Hc h WS (K j) p m k bits v Hk HW Hm)|].
  cbn beta. intros r h' WS' [(_ & Hd & (F' & A1 & A2 & _) & x & B1 & B2 & B3) HW']. assert (Hf : fresh_or h (K j) (F' ∪ news h h')).
  { intros l Hl. apply elem_of_union in Hl as [Hl|Hl]; [by apply A2|]. unfold news in Hl. apply elem_of_difference in Hl as [_ Hl]. right. by apply not_elem_of_dom. }
  assert (Hd' : F' ∪ news h h' ⊆ dom h'). { apply union_least; [by eapply ntree_in_dom|]. unfold news. clear. set_solver. }
  assert (HG' : kgood h' (kup K j (F' ∪ news h h'))) by (by eapply kup_good). exists (kup K j (F' ∪ news h h')).
  assert (Hgrow : forall F p2 (m2 : nmap), F ⊆ K j ∪ (F' ∪ news h h') -> ntree_in c h' F p2 m2 -> ntree_in c h' (kup K j (F' ∪ news h h') j) p2 m2).
  { intros F p2 m2 HF H. eapply in_grow; [done| |apply HG'|exact H]. by rewrite kup_same. }
  assert (Hx : forall i l, i <> j -> l ∈ K i -> l <> x). { intros i l Hi Hl ->. destruct B1 as [B1|B1]; [by apply (G2 i j Hi x)|]. apply B1. by apply (G1 i). }
  split_and!; [split|done| |].
  - apply kup_le.
  - done.
  - done.
  - intros i c' p2 m2 Hi H. rewrite kup_other by done. eapply (ntree_in_untouched _ _ _ {[x]}); [| |exact H].
    + intros l e Hl Hn. rewrite B2; [done|by eapply elem_of_dom_2|]. intros ->. apply Hn. by apply elem_of_singleton.
    + intros l L1 L2. apply elem_of_singleton in L2. by apply (Hx i l).
  - intros i l Hi Hl. apply B2; [by apply (G1 i)|by apply (Hx i)].
  - eapply Hgrow; [|exact A1]. clear. set_solver.
  - intros p2 m2 H. specialize (B3 _ _ _ H). destruct (decide (x ∈ K j)).
    + destruct B3 as (m' & C1 & C2). exists m'. split; [|done]. eapply Hgrow; [|exact C1]. clear. set_solver.
    + exists m2. split; [|by left]. eapply Hgrow; [|exact B3]. clear. set_solver.
Qed.

(** ** Alike trees. *)
Definition galike (g1 g2 : pfx -> option value) (q : pfx) : Prop :=
  exists P, covers P q /\ (exists r v, covers P r /\ g1 r = Some v) /\ forall r, covers P r -> g1 r = g2 r.
Lemma subs_det h K (m m2 : nmap) ss ss2 y : ksubs h K m ss -> ksubs h K m2 ss2 -> m !! (64, y) = m2 !! (64, y) -> ss y = ss2 y.
Proof.
  intros [S1 _ _] [T1 _ _] E. destruct (S1 y) as (s & A1 & A2), (T1 y) as (s2 & B1 & B2). rewrite <- E in B2.
  destruct (m !! (64, y)) as [kv|].
  - destruct A2 as [A2 _], B2 as [B2 _]. rewrite A2 in B2. injection B2 as <-. eapply ntree_at_fun; eapply ntree_in_at; done.
  - destruct A2 as [_ ->], B2 as [_ ->]. done.
Qed.
Lemma kitree_det h K a G G2 : kitree h K (Some a) G -> kitree h K (Some a) G2 -> forall q, G q = G2 q.
Proof.
  intros (_ & r4 & r6 & Ha & (m4 & A1 & _ & A3) & (m & ss & B1 & B2 & B3)) (_ & x4 & x6 & Ha' & (n4 & C1 & _ & C3) & (n & tt & D1 & D2 & D3)) [[] q].
  all: assert (E : CIp (U := U) r4 r6 = CIp x4 x6) by congruence; injection E as <- <-.
  - rewrite B3, D3. assert (m = n) as <- by (eapply ntree_at_fun; eapply ntree_in_at; done). unfold six. destruct (_ <? _); [done|]. by rewrite (subs_det h K m m ss tt _ B2 D2).
  - rewrite A3, C3. assert (m4 = n4) as <- by (eapply ntree_at_fun; eapply ntree_in_at; done). done.
Qed.
Lemma top_alike h K p (m m2 : nmap) ss ss2 k b : kgood h K -> ntree_in c64 h (K KTop) p m -> ksubs h K m ss -> ksubs h K m2 ss2 -> b <= 64 ->
  coincide c64 m m2 k b -> forall q, (norm 64 k b = q \/ 64 <= q.1 /\ norm 64 k b = hi q) -> galike (six m ss) (six m2 ss2) q.
Proof.
  intros HG Hp S T Hb (P & A1 & (q' & A2 & A3) & A4) q Hq. change (cW c64) with 64 in *.
  assert (HP : P.1 <= 64). { destruct A1 as [A1 _]. unfold norm in A1. cbn [fst] in A1. lia. }
  exists P. split_and!.
  - destruct Hq as [<-|[Hq1 Hq2]]; [done|]. apply cov_low; [done|done|]. by rewrite <- Hq2.
  - destruct A3 as [[k1 v1] A3]. pose proof (top_le _ _ _ _ _ _ (ntree_in_at _ _ _ _ _ Hp) A3) as [Hle _]. destruct (N.eq_dec q'.1 64) as [Eq|Eq].
    + destruct q' as [? x]. cbn [fst] in Eq. subst. destruct (ksub_at _ _ _ _ S x) as (s & Hs & Hm).
      destruct (m !! (64, x)) as [kv|] eqn:E; [|by pose proof (eq_trans (eq_sym E) A3)]. destruct Hm as [_ Hm].
      apply some_of_nonempty in Hm as (l & k2 & v2 & Hl). destruct (six_join _ _ _ _ _ _ _ _ _ (ksubs_subs _ _ _ _ HG S) Hl) as (J1 & J2 & J3 & J4).
      exists (join x l), v2. split; [|done]. apply cov_low; [done|done|]. by rewrite J1.
    + exists q', v1. split; [done|]. unfold six. destruct (N.ltb_spec q'.1 64); [|lia]. apply vals_some. by exists k1.
  - intros r Hr. unfold six. destruct (N.ltb_spec r.1 64) as [Hr1|Hr1].
    + unfold vals. by rewrite A4.
    + apply cov_low in Hr; [|done..]. rewrite (subs_det h K m m2 ss ss2 (hi r).2 S T); [done|]. by apply A4.
Qed.
Lemma sub_alike (m m2 : nmap) ss ss2 k b q : 64 <= q.1 -> norm 64 k b = lo q -> coincide c64 (ss (hi q).2) (ss2 (hi q).2) k b ->
  (forall l kv, ss (hi q).2 !! l = Some kv -> l.2 < 2 ^ l.1) -> galike (six m ss) (six m2 ss2) q.
Proof.
  intros Hq Hn (P & A1 & (l & A2 & [[k1 v1] A3]) & A4) Hv. change (cW c64) with 64 in *. rewrite Hn in A1. set (x := (hi q).2) in *.
  assert (HP : P.2 < 2 ^ P.1).
  { destruct A1 as [B1 B2]. rewrite <- B2. apply N.div_lt_upper_bound; [apply pow2_nz|]. rewrite <- N.pow_add_r. replace ((lo q).1 - P.1 + P.1) with (lo q).1 by lia. unfold lo. cbn [fst snd]. apply N.mod_lt, pow2_nz. }
  assert (HP' : 64 <= (join x P).1) by (unfold join; cbn [fst]; lia).
  assert (Hcov : forall r, 64 <= r.1 -> covers (join x P) r <-> (hi r).2 = x /\ covers P (lo r)).
  { intros r Hr. rewrite cov_high by done. rewrite hi_join, lo_join by done. split; intros [H1 H2]; (split; [|done]); [by rewrite <- H1|]. unfold hi in *. cbn [snd] in *. by rewrite H1. }
  exists (join x P). split_and!.
  - apply Hcov; done.
  - pose proof (Hv _ _ A3) as Hl. assert (Hj : 64 <= (join x l).1) by (unfold join; cbn [fst]; lia). exists (join x l), v1. split.
    + apply Hcov; [done|]. by rewrite hi_join, lo_join.
    + unfold six. destruct (N.ltb_spec (join x l).1 64); [lia|]. rewrite hi_join, lo_join by done. cbn [snd]. apply vals_some. by exists k1.
  - intros r Hr. assert (Hr1 : 64 <= r.1) by (destruct Hr; lia). apply Hcov in Hr as [E Hr]; [|done]. unfold six. destruct (N.ltb_spec r.1 64); [lia|]. rewrite E. unfold vals. by rewrite A4.
Qed.

(** Inside some network around [q] the two trees have the same entries, at least one. *)
Definition ialike (G1 G2 : net -> option value) (q : net) : Prop :=
  exists P, ncovers P q /\ (exists r, ncovers P r /\ is_Some (G1 r)) /\ forall r, ncovers P r -> G1 r = G2 r.
Lemma galike_net (G1 G2 : net -> option value) f g1 g2 q : (forall q, G1 (f, q) = g1 q) -> (forall q, G2 (f, q) = g2 q) -> galike g1 g2 q -> ialike G1 G2 (f, q).
Proof.
  intros H1 H2 (P & A1 & (r & v & A2 & A3) & A4). exists (f, P). split_and!; [done| |].
  - exists (f, r). split; [done|]. exists v. by rewrite H1.
  - intros [f' r'] [E Hr]. cbn [fst snd] in *. subst f'. by rewrite H1, H2, A4.
Qed.
Definition iseen (G G2 : net -> option value) (r : option net) (v : value) (G2' : net -> option value) : Prop :=
  (forall q, G2' q = G2 q) \/ (forall q, G2' q = g_upd r (fun q => g_ins q v) G2 q) /\ exists q0, r = Some q0 /\ ialike G G2 q0.
Definition iothers h K a G r v h' K' : Prop :=
  forall t2 G2, kitree h K t2 G2 -> t2 <> Some a -> exists G2', kitree h' K' t2 G2' /\ iseen G G2 r v G2'.

(** The last step. *)
Lemma kstore h h1 K K1 WS a c r4 r6 G G' r v : dom h1 ⊆ WS -> kle K K1 -> kgood h1 K1 -> a ∈ K1 KRoot -> h1 !! a = Some c ->
  ktree4 h1 K1 r4 (fun q => G' (false, q)) -> ktree6 h1 K1 r6 (fun q => G' (true, q)) -> iothers h K a G r v h1 K1 ->
  wp (store (Some a) (CIp r4 r6)) h1 WS (fun _ h' _ => exists K', kle K K' /\ kgood h' K' /\ kitree h' K' (Some a) G' /\ iothers h K a G r v h' K').
Proof.
  intros HW HK HG Ha Hc H4 H6 Ho. cbn [store wp]. split_and!; [apply HW; by eapply elem_of_dom_2|by exists c|]. exists K1.
  pose proof (kkeep_store h1 K1 a (CIp r4 r6) HG Ha) as Hk. assert (H : forall r4' r6' g4 g6, ktree4 h1 K1 r4' g4 -> ktree6 h1 K1 r6' g6 -> ktree4 (<[a := CIp r4 r6]> h1) K1 r4' g4 /\ ktree6 (<[a := CIp r4 r6]> h1) K1 r6' g6).
  { intros ???? X4 X6. split; [by eapply kkeep4; [|exact Hk|]|by eapply kkeep6; [| |exact Hk|]]. }
  split_and!; [done|by apply Hk| |].
  - split; [done|]. exists r4, r6. rewrite lookup_insert. split; [done|by apply H].
  - intros t2 G2 Ht Hne. destruct (Ho t2 G2 Ht Hne) as (G2' & A & B). exists G2'. split; [|done]. destruct t2 as [b|]; [|done].
    destruct A as (Hb & x4 & x6 & A1 & A2 & A3). split; [done|]. exists x4, x6. rewrite lookup_insert_ne by congruence. split; [done|by apply H].
Qed.
Lemma k_inplace h K WS a G n r v : kgood h K -> dom h ⊆ WS -> kitree h K (Some a) G -> plain v -> isnet n r ->
  wp (ip_inplace_insert_net (Some a) n v) h WS (fun _ h' _ => exists K', kle K K' /\ kgood h' K' /\ kitree h' K' (Some a) (g_upd r (fun q => g_ins q v) G) /\ iothers h K a G r v h' K').
Proof.
  intros HG HW Ht Hv Hr. pose proof HG as [GG1 GG2].
  assert (Hnone : r = None -> wp (Ret tt) h WS (fun (_ : unit) h' _ => exists K', kle K K' /\ kgood h' K' /\ kitree h' K' (Some a) (g_upd r (fun q => g_ins q v) G) /\ iothers h K a G r v h' K')).
  { intros ->. cbn [wp]. exists K. split_and!; [apply kle_refl|done|done|]. intros t2 G2 H2 _. exists G2. split; [done|by left]. }
  destruct n as [n|]; [|destruct r as [q|]; [by inversion Hr|by apply Hnone]]. unfold ip_inplace_insert_net.
  destruct Ht as (Hroot & r4 & r6 & Ha & H4 & H6).
  pose proof (ip4_key_spec n) as E4. destruct (ip4_key n) as [[k b]|].
  { clear Hnone. destruct E4 as (Hn & Hk & Hb). assert (r = Some (false, norm 32 k b)) as ->.
    { destruct r as [q|]; [|by apply Hr in Hn]. f_equal. by eapply net_is_fun. }
    apply wp_bind. eapply wp_ld_ip; [exact Ha|]. cbn [fst snd]. destruct H4 as (m & M1 & M2 & M3).
    apply wp_bind. eapply wp_mono; [by apply (k_inpl _ c32_ok K4 h K WS r4 m k (Z.of_N b) v)|]. cbn beta.
    intros x h' WS' (K' & HK & HW' & Hx & Hall). change (cW c32) with 32 in *. rewrite adj_of in Hx by done. rewrite (adj_of 32) in Hall by done.
    eapply kstore; [done|by apply HK|by apply HK|by apply HK|eapply kk_root; [|exact HK| |exact Ha]; done| | |].
    - eexists. split_and!; [exact Hx|by apply plain_ins|]. intros q. cbn [g_upd fst snd Bool.eqb]. rewrite vals_ins. unfold g_ins. by rewrite M3.
    - by eapply kkeep6; [| |exact HK|].
    - intros t2 G2 Ht2 Hne. destruct t2 as [a2|]; [|exists G2; split; [done|by left]]. destruct Ht2 as (Hr2 & x4 & x6 & A1 & (m2 & B1 & B2 & B3) & A3).
      destruct (Hall _ _ B1) as (m' & C1 & [->|[-> C2]]).
      + exists G2. split; [|by left]. split; [by apply HK|]. exists x4, x6. split_and!; [eapply kk_root; [|exact HK| |exact A1]; done|by exists m2|by eapply kkeep6; [| |exact HK|]].
      + exists (g_upd (Some (false, norm 32 k b)) (fun q => g_ins q v) G2). split.
        * split; [by apply HK|]. exists x4, x6. split_and!; [eapply kk_root; [|exact HK| |exact A1]; done| |by eapply kkeep6; [| |exact HK|]].
          eexists. split_and!; [exact C1|by apply plain_ins|]. intros q. cbn [g_upd fst snd Bool.eqb]. rewrite vals_ins. unfold g_ins. by rewrite B3.
        * right. split; [done|]. eexists. split; [done|]. eapply galike_net; [exact M3|exact B3|]. destruct C2 as (P & P1 & (q & P2 & [[k1 v1] P3]) & P4). exists P. split_and!; [done| |].
          -- exists q, v1. split; [done|]. apply vals_some. by exists k1.
          -- intros q' Hq'. unfold vals. by rewrite P4. }
  pose proof (ip6_key_spec n) as E6. destruct (ip6_key n) as [[[[hk hb] lk] lb]|].
  2: { apply Hnone. destruct r as [[[] q]|]; [by apply E6 in Hr|by apply E4 in Hr|done]. }
  clear Hnone E4. destruct E6 as (q & Hn & Hhk & Hlk & Hvq & Klow & Khigh). assert (r = Some (true, q)) as ->.
  { destruct r as [q'|]; [|by apply Hr in Hn]. f_equal. by eapply net_is_fun. }
  apply wp_bind. eapply wp_ld_ip; [exact Ha|]. cbn [fst snd]. destruct H6 as (m & ss & I1 & I2 & I6).
  destruct (N.ltb_spec hb 64) as [Hhb|Hhb].
  - assert (Hq : q.1 < 64). { destruct (N.lt_ge_cases q.1 64) as [|Hge]; [done|]. destruct (Khigh Hge) as [-> _]. lia. }
    destruct (Klow Hq) as [-> Hnorm]. apply wp_bind.
    eapply wp_mono; [by apply (k_inpl _ c64_ok KTop h K WS r6 m hk (Z.of_N q.1) v)|]. cbn beta.
    intros x h' WS' (K' & HK & HW' & Hx & Hall). change (cW c64) with 64 in *. rewrite adj_of in Hx by lia. rewrite (adj_of 64) in Hall by lia.
    unfold s_insert in Hx. rewrite Hnorm in Hx.
    assert (Hlow : forall m2 ss2, ksubs h K m2 ss2 -> ksubs h' K' (<[q := (hk, v)]> m2) ss2).
    { intros m2 ss2 H2. eapply ksubs_low; [exact H2|done|done|]. intros y s Hy. by eapply kk_in; [exact HK|done|exact Hy]. }
    eapply kstore; [done|by apply HK|by apply HK|by apply HK|eapply kk_root; [|exact HK| |exact Ha]; done| | |].
    + by eapply kkeep4; [|exact HK|].
    + eexists _, ss. split_and!; [exact Hx|by apply Hlow|]. intros q'. cbn [g_upd fst snd Bool.eqb]. rewrite six_low by done. unfold g_ins. by rewrite I6.
    + intros t2 G2 Ht2 Hne. destruct t2 as [a2|]; [|exists G2; split; [done|by left]]. destruct Ht2 as (Hr2 & x4 & x6 & A1 & A3 & (m2 & ss2 & B1 & B2 & B3)).
      destruct (Hall _ _ B1) as (m' & C1 & [->|[-> C2]]).
      * exists G2. split; [|by left]. split; [by apply HK|]. exists x4, x6. split_and!; [eapply kk_root; [|exact HK| |exact A1]; done|by eapply kkeep4; [|exact HK|]|]. exists m2, ss2. split_and!; [done|by eapply kkeeps; [|exact HK|]|done].
      * exists (g_upd (Some (true, q)) (fun q => g_ins q v) G2). split.
        -- split; [by apply HK|]. exists x4, x6. split_and!; [eapply kk_root; [|exact HK| |exact A1]; done|by eapply kkeep4; [|exact HK|]|].
           change (cW c64) with 64 in C1. unfold s_insert in C1. rewrite Hnorm in C1. eexists _, ss2. split_and!; [exact C1|by apply Hlow|]. intros q'. cbn [g_upd fst snd Bool.eqb]. rewrite six_low by done. unfold g_ins. by rewrite B3.
        -- right. split; [done|]. eexists. split; [done|]. eapply galike_net; [exact I6|exact B3|]. eapply top_alike; [done|exact I1|done|done| |exact C2|by left]. lia.
  - assert (Hq : 64 <= q.1). { destruct (N.lt_ge_cases q.1 64) as [Hlt|]; [|done]. destruct (Klow Hlt) as [-> _]. lia. }
    destruct (Khigh Hq) as (-> & Hlb & Hnhi & Hnlo & Hhk2). set (x := (hi q).2) in *.
    assert (Enorm : norm 64 hk 64 = (64, x)) by (rewrite Hnhi; done). clear Klow Khigh.
    apply wp_bind. eapply wp_mono; [apply (n_exact_in _ c64_ok h WS r6 m hk (Z.of_N 64)); [done|by eapply ntree_in_at]|]. cbn beta.
    intros e h1 WS1 (He & -> & HWS1). change (cW c64) with 64 in He. change (adj 64 (Z.of_N 64)) with 64 in He.
    rewrite (exact64 _ _ _ Enorm) in He.
    destruct (ksub_at _ _ _ _ I2 x) as (s & Hs & Hm).
    assert (Hvs : forall l kv, ss x !! l = Some kv -> l.2 < 2 ^ l.1). { intros l [k1 v1] Hl. by apply (top_le _ _ _ _ _ _ (ntree_in_at _ _ _ _ _ Hs) Hl). }
    (* the lower tree: what all trees look like then *)
    set (P1 := fun (s' : ptr) h1 WS2 => exists K1, kkeep (KSub x) h K h1 K1 /\ dom h1 ⊆ WS2 /\ ntree_in c64 h1 (K1 (KSub x)) s' (s_insert 64 (ss x) lk lb v) /\
      forall m2 ss2, ksubs h K m2 ss2 -> exists mx, same_or_ins c64 (ss x) (ss2 x) mx lk lb v /\ ksubs h1 K1 m2 (fun y => if y =? x then mx else ss2 y)).
    assert (Hsub : forall WS, dom h ⊆ WS -> wp (n_inplace_insert c64 s lk (Z.of_N lb) v) h WS P1).
    { intros WS0 HW0. eapply wp_mono; [by apply (k_inpl _ c64_ok (KSub x) h K WS0 s (ss x) lk (Z.of_N lb) v)|]. cbn beta.
      intros s' h' WS' (K' & HK & HW' & Hx & Hall). change (cW c64) with 64 in *. rewrite adj_of in Hx by done. rewrite (adj_of 64) in Hall by done. exists K'. split_and!; try done.
      intros m2 ss2 [S1 S2 S3]. destruct (S1 x) as (s2 & X1 & X2). destruct (Hall _ _ X1) as (mx & Y1 & Y2). exists mx. split; [done|]. split; [|done|].
      - intros y. destruct (N.eqb_spec y x) as [->|Hy].
        + exists s2. split; [done|]. destruct Y2 as [->|[-> Y2]]; [done|]. destruct (m2 !! (64, x)); [split; [apply X2|apply sub_ins_ne]|]. destruct X2 as [_ E]. exfalso.
          destruct Y2 as (P & _ & (q' & Z1 & Z2) & Z3). rewrite Z3, E, lookup_empty in Z2 by done. by inversion Z2.
        + destruct (S1 y) as (sy & Z1 & Z2). exists sy. split; [|done]. eapply kk_in; [exact HK|congruence|exact Z1].
      - intros y. destruct (N.eqb_spec y x) as [->|Hy]; [|apply S3]. destruct Y2 as [->|[-> Y2]]; [apply S3|]. by apply plain_ins; [apply S3|]. }
    (* only the lower tree has changed *)
    assert (Hoth1 : forall s' h1 K1, kkeep (KSub x) h K h1 K1 -> ntree_in c64 h1 (K1 (KSub x)) s' (s_insert 64 (ss x) lk lb v) -> 
      (forall m2 ss2, ksubs h K m2 ss2 -> exists mx, same_or_ins c64 (ss x) (ss2 x) mx lk lb v /\ ksubs h1 K1 m2 (fun y => if y =? x then mx else ss2 y)) -> 
      forall m2 ss2 g x6, ksubs h K m2 ss2 -> ntree_in c64 h (K KTop) x6 m2 -> (forall q, g q = six m2 ss2 q) -> exists g' ss2', ksubs h1 K1 m2 ss2' /\ (forall y, y <> x -> ss2' y = ss2 y) /\ ktree6 h1 K1 x6 g' /\
        ((forall q, g' q = g q) \/ (forall q', g' q' = g_ins q v g q') /\ galike (six m ss) (six m2 ss2) q)).
    { intros s' h1 K1 HK Hs' Hall m2 ss2 g x6 B1 B2 B3. destruct (Hall _ _ B1) as (mx & Y1 & Y2). assert (B2' : ntree_in c64 h1 (K1 KTop) x6 m2) by (eapply kk_in; [exact HK|done|exact B2]).
      assert (Hother : forall y, y <> x -> (if y =? x then mx else ss2 y) = ss2 y) by (intros y Hy; by destruct (N.eqb_spec y x)).
      destruct Y1 as [->|[-> Y1]].
      - exists g, (fun y => if y =? x then ss2 x else ss2 y). split_and!; [done|done| |by left]. exists m2, (fun y => if y =? x then ss2 x else ss2 y). split_and!; [done|done|]. intros q'. rewrite B3. unfold six. by destruct (N.eqb_spec (hi q').2 x) as [->|].
      - exists (g_ins q v g), (fun y => if y =? x then s_insert 64 (ss2 x) lk lb v else ss2 y). split_and!; [done|done| |right; split; [done|by apply (sub_alike m m2 ss ss2 lk lb q)]].
        exists m2, (fun y => if y =? x then s_insert 64 (ss2 x) lk lb v else ss2 y). split_and!; [done|done|]. intros q'.
        destruct (ksub_at _ _ _ _ Y2 x) as (s2 & _ & X2). destruct (m2 !! (64, x)) as [[k2 v2]|] eqn:E2.
        2: { destruct X2 as [_ X2]. rewrite N.eqb_refl in X2. exfalso. by eapply sub_ins_ne. }
        destruct X2 as [X2 _]. cbn [snd] in X2. subst v2. rewrite <- (insert_id m2 (64, x) _ E2) at 1. unfold x. rewrite (set_ins _ _ q) by done. unfold g_ins. by rewrite B3. }
    (* then the upper tree *)
    assert (Hrest : forall s' h1 WS2, dom h ⊆ dom h1 -> P1 s' h1 WS2 ->
      wp (x <- n_inplace_insert c64 r6 hk (Z.of_N 64) (VSub s') ;; store (Some a) (CIp r4 x)) h1 WS2
        (fun _ h' _ => exists K', kle K K' /\ kgood h' K' /\ kitree h' K' (Some a) (g_upd (Some (true, q)) (fun q => g_ins q v) G) /\ iothers h K a G (Some (true, q)) v h' K')).
    { intros s' h1 WS2 Hdd (K1 & HK1 & HW1 & Hs' & Hall1). assert (I1' : ntree_in c64 h1 (K1 KTop) r6 m) by (eapply kk_in; [exact HK1|done|exact I1]).
      apply wp_bind. eapply wp_mono; [apply (k_inpl _ c64_ok KTop h1 K1 WS2 r6 m hk (Z.of_N 64) (VSub s')); [apply HK1|done|done|done]|]. cbn beta.
      intros x' h2 WS3 (K2 & HK2 & HW2 & Hx' & Hall2). change (cW c64) with 64 in *. change (adj 64 (Z.of_N 64)) with 64 in Hx', Hall2. rewrite (ins64 _ _ _ _ Enorm) in Hx'.
      assert (HK : kle K K2) by (eapply kle_trans; [apply HK1|apply HK2]).
      assert (Hat : forall l, l ∈ K KRoot -> h2 !! l = h !! l). { intros l Hl. rewrite (kk_at _ _ _ _ _ HK2 KRoot l); [|done|by apply HK1]. by apply (kk_at _ _ _ _ _ HK1 KRoot l). }
      assert (H4' : forall p g, ktree4 h K p g -> ktree4 h2 K2 p g). { intros p g Hg. eapply kkeep4; [|exact HK2|]; [done|]. by eapply kkeep4; [|exact HK1|]. }
      assert (Hset : forall m2 ss2, ksubs h K m2 ss2 -> ksubs h2 K2 (<[(64, x) := (hk, VSub s')]> m2) (fun y => if y =? x then s_insert 64 (ss x) lk lb v else ss2 y)).
      { intros m2 ss2 H2. eapply ksubs_set; [exact H2| | |apply sub_ins_ne|apply plain_ins; [apply I2|done]].
        - intros y sy Hy Hsy. eapply kk_in; [exact HK2|done|]. eapply kk_in; [exact HK1|congruence|exact Hsy].
        - eapply kk_in; [exact HK2|done|exact Hs']. }
      eapply kstore; [done|done|by apply HK2|by apply HK|rewrite Hat by done; exact Ha|by apply H4'| |].
      - eexists _, _. split_and!; [exact Hx'|by apply Hset|]. intros q'. cbn [g_upd fst snd Bool.eqb]. unfold x. rewrite (set_ins _ _ q) by done. unfold g_ins. by rewrite I6.
      - intros t2 G2 Ht2 Hne. destruct t2 as [a2|]; [|exists G2; split; [done|by left]]. destruct Ht2 as (Hr2 & x4 & x6 & A1 & A3 & (m2 & ss2 & B1 & B2 & B3)).
        assert (B1' : ntree_in c64 h1 (K1 KTop) x6 m2) by (eapply kk_in; [exact HK1|done|exact B1]).
        destruct (Hall2 _ _ B1') as (m' & C1 & C2). destruct C2 as [->|[-> C2]].
        + (* unchanged above *)
          destruct (Hoth1 s' h1 K1 HK1 Hs' Hall1 m2 ss2 (fun q => G2 (true, q)) x6 B2 B1 B3) as (g' & ss2' & D1 & D2 & (m3 & ss3 & D31 & D32 & D33) & D4).
          assert (m3 = m2) as -> by (eapply ntree_at_fun; eapply ntree_in_at; done).
          assert (D3' : ktree6 h2 K2 x6 g'). { exists m2, ss3. split_and!; [done| |done]. by eapply kkeeps; [|exact HK2|]. }
          destruct D4 as [D4|[D4 D5]].
          * exists G2. split; [|by left]. split; [by apply HK|]. exists x4, x6. split_and!; [by rewrite Hat|by apply H4'|]. destruct D3' as (m4 & ss4 & X1 & X2 & X3). exists m4, ss4. split_and!; [done|done|]. intros q'. by rewrite <- D4.
          * exists (g_upd (Some (true, q)) (fun q => g_ins q v) G2). split.
            -- split; [by apply HK|]. exists x4, x6. split_and!; [by rewrite Hat|by apply H4'|]. destruct D3' as (m4 & ss4 & X1 & X2 & X3). exists m4, ss4. split_and!; [done|done|]. intros q'. cbn [g_upd fst snd Bool.eqb]. by rewrite <- X3, D4.
            -- right. split; [done|]. eexists. split; [done|]. by eapply galike_net; [exact I6|exact B3|].
        + (* inserted above *)
          assert (Ess : ss x = ss2 x). { eapply subs_det; [exact I2|exact B2|]. destruct C2 as (P & Z1 & _ & Z3). apply Z3. change (cW c64) with 64 in Z1. by rewrite <- Enorm. }
          change (cW c64) with 64 in C1. rewrite (ins64 _ _ _ _ Enorm) in C1. exists (g_upd (Some (true, q)) (fun q => g_ins q v) G2). split.
          * split; [by apply HK|]. exists x4, x6. split_and!; [by rewrite Hat|by apply H4'|]. eexists _, _. split_and!; [exact C1|by apply Hset|]. intros q'. cbn [g_upd fst snd Bool.eqb]. rewrite Ess. unfold x. rewrite (set_ins _ _ q) by done. unfold g_ins. by rewrite B3.
          * right. split; [done|]. eexists. split; [done|]. eapply galike_net; [exact I6|exact B3|]. eapply top_alike; [done|exact I1|done|done| |exact C2|]; [done|]. right. split; [done|]. by rewrite Enorm. }
    destruct (m !! (64, x)) as [[k' v']|] eqn:Em.
    + destruct Hm as [Hm Hne]. cbn [snd] in *. subst v'. subst e. cbn [fst snd as_sub bind].
      apply wp_bind. eapply wp_mono; [apply Hsub; by etrans|]. cbn beta. intros s' h1 WS2 HP1. pose proof HP1 as (K1 & HK1 & HW1 & Hs' & Hall1).
      destruct (ptr_eqb_spec s' s) as [->|Hss]; [|apply Hrest; [by apply HK1|done]].
      cbn [wp]. exists K1. split_and!; [apply HK1|apply HK1| |].
      * split; [by apply HK1|]. exists r4, r6. split_and!; [eapply kk_root; [|exact HK1| |exact Ha]; done|by eapply kkeep4; [|exact HK1|]|].
        exists (<[(64, x) := (k', VSub s)]> m), (fun y => if y =? x then s_insert 64 (ss x) lk lb v else ss y). split_and!.
        -- rewrite insert_id by done. by eapply kk_in; [exact HK1| |].
        -- eapply ksubs_set; [exact I2| |exact Hs'|apply sub_ins_ne|apply plain_ins; [apply I2|done]]. intros y sy Hy Hsy. eapply kk_in; [exact HK1|congruence|exact Hsy].
        -- intros q'. cbn [g_upd fst snd Bool.eqb]. unfold x. rewrite (set_ins _ _ q) by done. unfold g_ins. by rewrite I6.
      * intros t2 G2 Ht2 Hne2. destruct t2 as [a2|]; [|exists G2; split; [done|by left]]. destruct Ht2 as (Hr2 & x4 & x6 & A1 & A3 & (m2 & ss2 & B1 & B2 & B3)).
        destruct (Hoth1 s h1 K1 HK1 Hs' Hall1 m2 ss2 (fun q => G2 (true, q)) x6 B2 B1 B3) as (g' & ss2' & D1 & D2 & (m3 & ss3 & D31 & D32 & D33) & D4).
        destruct D4 as [D4|[D4 D5]].
        -- exists G2. split; [|by left]. split; [by apply HK1|]. exists x4, x6. split_and!; [eapply kk_root; [|exact HK1| |exact A1]; done|by eapply kkeep4; [|exact HK1|]|]. exists m3, ss3. split_and!; [done|done|]. intros q'. by rewrite <- D4.
        -- exists (g_upd (Some (true, q)) (fun q => g_ins q v) G2). split.
           ++ split; [by apply HK1|]. exists x4, x6. split_and!; [eapply kk_root; [|exact HK1| |exact A1]; done|by eapply kkeep4; [|exact HK1|]|]. exists m3, ss3. split_and!; [done|done|]. intros q'. cbn [g_upd fst snd Bool.eqb]. by rewrite <- D33, D4.
           ++ right. split; [done|]. eexists. split; [done|]. by eapply galike_net; [exact I6|exact B3|].
    + destruct Hm as (-> & Ess). subst e. cbn [fst snd].
      apply wp_bind. eapply wp_mono; [apply Hsub; by etrans|]. cbn beta. intros s' h1 WS2 HP1. pose proof HP1 as (K1 & HK1 & _). apply Hrest; [by apply HK1|done].
Qed.
End kinds.
