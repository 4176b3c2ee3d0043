(** * uintX iptree on memory, by kinds: InplaceInsert, and what other trees see of it. *)
From Verif Require Import Prog NumModel NumBits NumFun NumSim NumSpec NumAbs NumFoot IpModel IpSpec IpBits IpAbs IpAbs2 IpAbs3 NumShare IpUpd3 IpKinds IpKinds2 IpKinds3 UxModel UxSpec UxAbs UxAbs2 UxAbs3 UxKinds.
From Coq Require Import ZifyBool ZifyNat ZifyN.
Open Scope N_scope.

Lemma cov_up P q : P.1 <= 64 -> covers P q <-> covers P (up q).
Proof.
  intros HP. destruct (N.lt_ge_cases q.1 64) as [Hq|Hq].
  - by rewrite (proj1 (up_low q Hq)).
  - rewrite (proj1 (up_high q Hq)). by apply cov_low.
Qed.

Section kinds.
Context {U : Type}.
Local Notation heap := (heap U).
Local Notation value := (value U).
Local Notation nmap := (@gmap pfx (@prod_eq_dec N N_eq_dec N N_eq_dec) (@prod_countable N N_eq_dec N_countable N N_eq_dec N_countable) (prod N value)).
Local Notation kinds := (kd -> gset loc).
Local Notation KS x := (KSub (en x)).
Implicit Types (h : heap) (K : kinds).

Lemma ukkeeps j h K h' K' m ss : (forall x, j <> KSub x) -> kkeep j h K h' K' -> uksubs h K m ss -> uksubs h' K' m ss.
Proof. intros Hj H [S1 S2 S3]. split; try done. intros x. destruct (S1 x) as (s & A & B). exists s. split; [|done]. eapply kk_in; [exact H|specialize (Hj (en x)); congruence|exact A]. Qed.
Lemma ukkeep6 j h K h' K' p g : j <> KTop -> (forall x, j <> KSub x) -> kkeep j h K h' K' -> uktree6 h K p g -> uktree6 h' K' p g.
Proof. intros Hj Hj' H (m & ss & A & B & C). exists m, ss. split_and!; [|by eapply ukkeeps|done]. eapply kk_in; [exact H|congruence|exact A]. Qed.

(** ** Alike trees. *)
Lemma usubs_det h K (m m2 : nmap) ss ss2 y : uksubs h K m ss -> uksubs h K m2 ss2 -> m !! y = m2 !! y -> ss y = ss2 y.
Proof.
  intros [S1 _ _] [T1 _ _] E. destruct (S1 y) as (s & A1 & A2), (T1 y) as (s2 & B1 & B2). rewrite <- E in B2.
  destruct (m !! y) as [kv|].
  - destruct A2 as [A2 _], B2 as [B2 _]. rewrite A2 in B2. injection B2 as <-. eapply ntree_at_fun; eapply ntree_in_at; done.
  - destruct A2 as [_ ->], B2 as [_ ->]. done.
Qed.
Lemma ukitree_det h K a G G2 : ukitree h K (Some a) G -> ukitree h K (Some a) G2 -> forall q, G q = G2 q.
Proof.
  intros (_ & r4 & r6 & Ha & (m4 & A1 & _ & A3) & (m & ss & B1 & B2 & B3)) (_ & x4 & x6 & Ha' & (n4 & C1 & _ & C3) & (n & tt & D1 & D2 & D3)) [[] q].
  all: assert (E : CIp (U := U) r4 r6 = CIp x4 x6) by congruence; injection E as <- <-.
  - rewrite B3, D3. assert (m = n) as <- by (eapply ntree_at_fun; eapply ntree_in_at; done). unfold us. by rewrite (usubs_det h K m m ss tt _ B2 D2).
  - rewrite A3, C3. assert (m4 = n4) as <- by (eapply ntree_at_fun; eapply ntree_in_at; done). done.
Qed.
Lemma utop_alike h K p (m m2 : nmap) ss ss2 k b : kgood h K -> ntree_in c64 h (K KTop) p m -> uksubs h K m ss -> uksubs h K m2 ss2 -> b <= 64 ->
  coincide c64 m m2 k b -> forall q, norm 64 k b = up q -> galike (us ss) (us ss2) q.
Proof.
  intros HG Hp S T Hb (P & A1 & (q' & A2 & A3) & A4) q Hq. change (cW c64) with 64 in *.
  assert (HP : P.1 <= 64). { destruct A1 as [A1 _]. unfold norm in A1. cbn [fst] in A1. lia. }
  exists P. split_and!.
  - apply cov_up; [done|]. by rewrite <- Hq.
  - destruct A3 as [[k1 v1] A3]. pose proof (top_le _ _ _ _ _ _ (ntree_in_at _ _ _ _ _ Hp) A3) as [Hle _].
    pose proof (uksubs_usubs _ _ _ _ HG S) as S'.
    assert (exists r v, up r = q' /\ us ss r = Some v) as (r & v & Hr & Hv).
    { destruct (N.lt_ge_cases q'.1 64) as [Hlt|Hge].
      - destruct (us_low_at _ _ _ _ _ _ _ S' Hlt A3) as (k2 & v2 & H2). destruct (up_low q' Hlt) as [E1 E2]. exists q', v2. split; [done|]. unfold us. rewrite E1, E2. apply vals_some. by exists k2.
      - destruct (uk_at _ _ _ _ S q') as (s & Hs & Hm). destruct (m !! q') as [kv|] eqn:E; [|done].
        destruct Hm as [_ Hm]. apply some_of_nonempty in Hm as (l & k2 & v2 & Hl). assert (q'.1 = 64) as Eq by lia.
        destruct (us_join _ _ _ _ _ _ _ _ _ S' Eq Hl) as (J1 & J2 & J3). by exists (join q'.2 l), v2. }
    exists r, v. split; [|done]. apply cov_up; [done|]. by rewrite Hr.
  - intros r Hr. apply cov_up in Hr; [|done]. unfold us. rewrite (usubs_det h K m m2 ss ss2 (up r) S T); [done|]. by apply A4.
Qed.
Lemma usub_alike ss ss2 k b q : norm 64 k b = dn q -> coincide (U := U) c64 (ss (up q)) (ss2 (up q)) k b ->
  (forall l kv, ss (up q) !! l = Some kv -> l.2 < 2 ^ l.1) -> (forall l kv, (up q).1 < 64 -> ss (up q) !! l = Some kv -> l = (0, 0)) ->
  galike (us ss) (us ss2) q \/ q.1 < 64 /\ is_Some (us ss q) /\ us ss q = us ss2 q.
Proof.
  intros Hn (P & A1 & (l & A2 & [[k1 v1] A3]) & A4) Hv Hlow. change (cW c64) with 64 in *. rewrite Hn in A1.
  destruct (N.lt_ge_cases q.1 64) as [Hq|Hq].
  - right. split; [done|]. pose proof (Hlow _ _ (proj2 (up_len q) Hq) A3) as ->. destruct (up_low q Hq) as [E1 E2]. unfold us. rewrite E2. split.
    + exists v1. apply vals_some. by exists k1.
    + unfold vals. rewrite A4; [done|]. by rewrite <- E2.
  - left. destruct (up_high q Hq) as [E1 E2]. set (x := (hi q).2). assert (Ex : up q = (64, x)) by (rewrite E1; done). rewrite E2 in A1.
    assert (HP : P.2 < 2 ^ P.1).
    { destruct A1 as [B1 B2]. rewrite <- B2. apply N.div_lt_upper_bound; [apply pow2_nz|]. rewrite <- N.pow_add_r. replace ((lo q).1 - P.1 + P.1) with (lo q).1 by lia. unfold lo. cbn [fst snd]. apply N.mod_lt, pow2_nz. }
    assert (Hupj : forall l, l.2 < 2 ^ l.1 -> 64 <= (join x l).1 /\ up (join x l) = up q /\ dn (join x l) = l).
    { intros l' Hl'. assert (Hj : 64 <= (join x l').1) by (unfold join; cbn [fst]; lia). destruct (up_high _ Hj) as [J1 J2]. rewrite J1, J2, Ex. by rewrite hi_join, lo_join. }
    destruct (Hupj P HP) as (HP' & HP1 & HP2).
    exists (join x P). split_and!.
    + apply cov_up_high; [done|]. rewrite HP1, HP2, E2. done.
    + destruct (Hupj l (Hv _ _ A3)) as (Hl' & Hl1 & Hl2). exists (join x l), v1. split.
      * apply cov_up_high; [done|]. rewrite HP1, HP2, Hl1, Hl2. done.
      * unfold us. rewrite Hl1, Hl2. apply vals_some. by exists k1.
    + intros r Hr. apply cov_up_high in Hr as [R1 R2]; [|done]. rewrite HP1 in R1. rewrite HP2 in R2. unfold us. rewrite <- R1. unfold vals. by rewrite A4.
Qed.

(** Inside some network around [q] the two trees have the same entries, at least
    one, or [q] is a short IPv6 network and both have the same entry for it. *)
Definition ualike (G1 G2 : net -> option value) (q : net) : Prop :=
  ialike G1 G2 q \/ short6 q /\ is_Some (G1 q) /\ G1 q = G2 q.
Definition useen (G G2 : net -> option value) (r : option net) (v : value) (G2' : net -> option value) : Prop :=
  (forall q, G2' q = G2 q) \/ (forall q, G2' q = g_upd r (fun q => g_ins q v) G2 q) /\ exists q0, r = Some q0 /\ ualike G G2 q0.
Definition uothers h K a G r v h' K' : Prop :=
  forall t2 G2, ukitree h K t2 G2 -> t2 <> Some a -> exists G2', ukitree h' K' t2 G2' /\ useen G G2 r v G2'.

(** The last step. *)
Lemma ukstore h h1 K K1 WS a c r4 r6 G G' r v : dom h1 ⊆ WS -> kle K K1 -> kgood h1 K1 -> a ∈ K1 KRoot -> h1 !! a = Some c ->
  ktree4 h1 K1 r4 (fun q => G' (false, q)) -> uktree6 h1 K1 r6 (fun q => G' (true, q)) -> uothers h K a G r v h1 K1 ->
  wp (store (Some a) (CIp r4 r6)) h1 WS (fun _ h' _ => exists K', kle K K' /\ kgood h' K' /\ ukitree h' K' (Some a) G' /\ uothers h K a G r v h' K').
Proof.
  intros HW HK HG Ha Hc H4 H6 Ho. cbn [store wp]. split_and!; [apply HW; by eapply elem_of_dom_2|by exists c|]. exists K1.
  pose proof (kkeep_store h1 K1 a (CIp r4 r6) HG Ha) as Hk. assert (H : forall r4' r6' g4 g6, ktree4 h1 K1 r4' g4 -> uktree6 h1 K1 r6' g6 -> ktree4 (<[a := CIp r4 r6]> h1) K1 r4' g4 /\ uktree6 (<[a := CIp r4 r6]> h1) K1 r6' g6).
  { intros ???? X4 X6. split; [by eapply kkeep4; [|exact Hk|]|by eapply ukkeep6; [| |exact Hk|]]. }
  split_and!; [done|by apply Hk| |].
  - split; [done|]. exists r4, r6. rewrite lookup_insert. split; [done|by apply H].
  - intros t2 G2 Ht Hne. destruct (Ho t2 G2 Ht Hne) as (G2' & A & B). exists G2'. split; [|done]. destruct t2 as [b|]; [|done].
    destruct A as (Hb & x4 & x6 & A1 & A2 & A3). split; [done|]. exists x4, x6. rewrite lookup_insert_ne by congruence. split; [done|by apply H].
Qed.
Lemma uk_inplace h K WS a G n r v : kgood h K -> dom h ⊆ WS -> ukitree h K (Some a) G -> plain v -> isnet n r ->
  wp (ux_inplace_insert_net (Some a) n v) h WS (fun _ h' _ => exists K', kle K K' /\ kgood h' K' /\ ukitree h' K' (Some a) (g_upd r (fun q => g_ins q v) G) /\ uothers h K a G r v h' K').
Proof.
  intros HG HW Ht Hv Hr. pose proof HG as [GG1 GG2].
  assert (Hnone : r = None -> wp (Ret tt) h WS (fun (_ : unit) h' _ => exists K', kle K K' /\ kgood h' K' /\ ukitree h' K' (Some a) (g_upd r (fun q => g_ins q v) G) /\ uothers h K a G r v h' K')).
  { intros ->. cbn [wp]. exists K. split_and!; [apply kle_refl|done|done|]. intros t2 G2 H2 _. exists G2. split; [done|by left]. }
  destruct n as [n|]; [|destruct r as [q|]; [by inversion Hr|by apply Hnone]]. unfold ux_inplace_insert_net.
  destruct Ht as (Hroot & r4 & r6 & Ha & H4 & H6).
  pose proof (ip4_key_spec n) as E4. destruct (ip4_key n) as [[k b]|].
  { clear Hnone. destruct E4 as (Hn & Hk & Hb). assert (r = Some (false, norm 32 k b)) as ->.
    { destruct r as [q|]; [|by apply Hr in Hn]. f_equal. by eapply net_is_fun. }
    apply wp_bind. eapply wp_ld_ip; [exact Ha|]. cbn [fst snd]. destruct H4 as (m & M1 & M2 & M3).
    apply wp_bind. eapply wp_mono; [by apply (k_inpl _ c32_ok K4 h K WS r4 m k (Z.of_N b) v)|]. cbn beta.
    intros x h' WS' (K' & HK & HW' & Hx & Hall). change (cW c32) with 32 in *. rewrite adj_of in Hx by done. rewrite (adj_of 32) in Hall by done.
    eapply ukstore; [done|by apply HK|by apply HK|by apply HK|eapply kk_root; [|exact HK| |exact Ha]; done| | |].
    - eexists. split_and!; [exact Hx|by apply plain_ins|]. intros q. cbn [g_upd fst snd Bool.eqb]. rewrite vals_ins. unfold g_ins. by rewrite M3.
    - by eapply ukkeep6; [| |exact HK|].
    - intros t2 G2 Ht2 Hne. destruct t2 as [a2|]; [|exists G2; split; [done|by left]]. destruct Ht2 as (Hr2 & x4 & x6 & A1 & (m2 & B1 & B2 & B3) & A3).
      destruct (Hall _ _ B1) as (m' & C1 & [->|[-> C2]]).
      + exists G2. split; [|by left]. split; [by apply HK|]. exists x4, x6. split_and!; [eapply kk_root; [|exact HK| |exact A1]; done|by exists m2|by eapply ukkeep6; [| |exact HK|]].
      + exists (g_upd (Some (false, norm 32 k b)) (fun q => g_ins q v) G2). split.
        * split; [by apply HK|]. exists x4, x6. split_and!; [eapply kk_root; [|exact HK| |exact A1]; done| |by eapply ukkeep6; [| |exact HK|]].
          eexists. split_and!; [exact C1|by apply plain_ins|]. intros q. cbn [g_upd fst snd Bool.eqb]. rewrite vals_ins. unfold g_ins. by rewrite B3.
        * right. split; [done|]. eexists. split; [done|]. left. eapply galike_net; [exact M3|exact B3|]. destruct C2 as (P & P1 & (q & P2 & [[k1 v1] P3]) & P4). exists P. split_and!; [done| |].
          -- exists q, v1. split; [done|]. apply vals_some. by exists k1.
          -- intros q' Hq'. unfold vals. by rewrite P4. }
  pose proof (ux_key_spec n) as E6. destruct (ip6_key n) as [[[[hk hb] lk] lb]|].
  2: { apply Hnone. destruct r as [[[] q]|]; [by apply E6 in Hr|by apply E4 in Hr|done]. }
  clear Hnone E4. destruct E6 as (q & Hn & Hvq & Hhk & Hhb & Hlk & Hlb & Eup & Edn & _). assert (r = Some (true, q)) as ->.
  { destruct r as [q'|]; [|by apply Hr in Hn]. f_equal. by eapply net_is_fun. }
  apply wp_bind. eapply wp_ld_ip; [exact Ha|]. cbn [fst snd]. destruct H6 as (m & ss & I1 & I2 & I6).
  set (x := up q) in *.
  apply wp_bind. eapply wp_mono; [apply (n_exact_in _ c64_ok h WS r6 m hk (Z.of_N hb)); [done|by eapply ntree_in_at]|]. cbn beta.
  intros e h1 WS1 (He & -> & HWS1). change (cW c64) with 64 in He. rewrite adj_of in He by done.
  rewrite (exact_up _ _ _ _ Eup) in He.
  destruct (uk_at _ _ _ _ I2 x) as (s & Hs & Hm).
  assert (Hvs : forall l kv, ss x !! l = Some kv -> l.2 < 2 ^ l.1). { intros l [k1 v1] Hl. by apply (top_le _ _ _ _ _ _ (ntree_in_at _ _ _ _ _ Hs) Hl). }
  assert (Hlow : forall m2 ss2, uksubs h K m2 ss2 -> forall l kv, x.1 < 64 -> s_insert 64 (ss2 x) lk lb v !! l = Some kv -> l = (0, 0)).
  { intros m2 ss2 H2. apply us_ins_low; [apply H2|]. intros Hx. rewrite Edn. by apply dn_low. }
  (* the lower tree: what all trees look like then *)
  set (P1 := fun (s' : ptr) h1 WS2 => exists K1, kkeep (KS x) h K h1 K1 /\ dom h1 ⊆ WS2 /\ ntree_in c64 h1 (K1 (KS x)) s' (s_insert 64 (ss x) lk lb v) /\
    forall m2 ss2, uksubs h K m2 ss2 -> exists mx, same_or_ins c64 (ss x) (ss2 x) mx lk lb v /\ uksubs h1 K1 m2 (put ss2 x mx)).
  assert (Hsub : forall WS, dom h ⊆ WS -> wp (n_inplace_insert c64 s lk (Z.of_N lb) v) h WS P1).
  { intros WS0 HW0. eapply wp_mono; [by apply (k_inpl _ c64_ok (KS x) h K WS0 s (ss x) lk (Z.of_N lb) v)|]. cbn beta.
    intros s' h' WS' (K' & HK & HW' & Hx & Hall). change (cW c64) with 64 in *. rewrite adj_of in Hx by done. rewrite (adj_of 64) in Hall by done. exists K'. split_and!; try done.
    intros m2 ss2 HS2. pose proof HS2 as [S1 S2 S3]. destruct (S1 x) as (s2 & X1 & X2). destruct (Hall _ _ X1) as (mx & Y1 & Y2). exists mx. split; [done|]. split.
    - intros y. destruct (decide (y = x)) as [->|Hy].
      + rewrite put_eq. exists s2. split; [done|]. destruct Y2 as [->|[-> Y2]]; [done|]. destruct (m2 !! x); [split; [apply X2|apply sub_ins_ne]|]. destruct X2 as [_ E]. exfalso.
        destruct Y2 as (P & _ & (q' & Z1 & Z2) & Z3). rewrite Z3, E, lookup_empty in Z2 by done. by inversion Z2.
      + rewrite put_ne by done. destruct (S1 y) as (sy & Z1 & Z2). exists sy. split; [|done]. eapply kk_in; [exact HK| |exact Z1]. intros E. apply Hy, en_inj. congruence.
    - intros y l kv Hy. destruct (decide (y = x)) as [->|Hyx]; [|rewrite put_ne by done; by apply S2]. rewrite put_eq. destruct Y2 as [->|[-> Y2]]; [by apply S2|]. by eapply Hlow.
    - intros y. unfold put. destruct (decide (y = x)) as [->|Hy]; [|apply S3]. destruct Y2 as [->|[-> Y2]]; [apply S3|]. by apply plain_ins; [apply S3|]. }
  (* only the lower tree has changed *)
  assert (Hoth1 : forall s' h1 K1, kkeep (KS x) h K h1 K1 -> ntree_in c64 h1 (K1 (KS x)) s' (s_insert 64 (ss x) lk lb v) -> 
    (forall m2 ss2, uksubs h K m2 ss2 -> exists mx, same_or_ins c64 (ss x) (ss2 x) mx lk lb v /\ uksubs h1 K1 m2 (put ss2 x mx)) -> 
    forall m2 ss2 g x6, uksubs h K m2 ss2 -> ntree_in c64 h (K KTop) x6 m2 -> (forall q, g q = us ss2 q) -> exists g' ss2', uksubs h1 K1 m2 ss2' /\ uktree6 h1 K1 x6 g' /\
      ((forall q, g' q = g q) \/ (forall q', g' q' = g_ins q v g q') /\ (galike (us ss) (us ss2) q \/ q.1 < 64 /\ is_Some (us ss q) /\ us ss q = us ss2 q))).
  { intros s' h1 K1 HK Hs' Hall m2 ss2 g x6 B1 B2 B3. destruct (Hall _ _ B1) as (mx & Y1 & Y2). assert (B2' : ntree_in c64 h1 (K1 KTop) x6 m2) by (eapply kk_in; [exact HK|done|exact B2]).
    destruct Y1 as [->|[-> Y1]].
    - exists g, (put ss2 x (ss2 x)). split_and!; [done| |by left]. exists m2, (put ss2 x (ss2 x)). split_and!; [done|done|]. intros q'. rewrite B3. unfold us, put. by destruct (decide _) as [->|].
    - exists (g_ins q v g), (put ss2 x (s_insert 64 (ss2 x) lk lb v)). split_and!; [done| |].
      + exists m2, (put ss2 x (s_insert 64 (ss2 x) lk lb v)). split_and!; [done|done|]. intros q'. unfold x. rewrite (us_ins _ q) by done. unfold g_ins. by rewrite B3.
      + right. split; [done|]. apply (usub_alike ss ss2 lk lb q); [done|done|done|]. apply I2. }
  assert (Hnet : forall G2 ss2, (forall q, G2 (true, q) = us ss2 q) -> galike (us ss) (us ss2) q \/ q.1 < 64 /\ is_Some (us ss q) /\ us ss q = us ss2 q -> ualike G G2 (true, q)).
  { intros G2 ss2 B3 [H|(H1 & H2 & H3)]; [left; by eapply galike_net; [exact I6|exact B3|]|]. right. split; [done|]. by rewrite I6, B3. }
  (* then the upper tree *)
  assert (Hrest : forall s' h1 WS2, dom h ⊆ dom h1 -> P1 s' h1 WS2 ->
    wp (x <- n_inplace_insert c64 r6 hk (Z.of_N hb) (VSub s') ;; store (Some a) (CIp r4 x)) h1 WS2
      (fun _ h' _ => exists K', kle K K' /\ kgood h' K' /\ ukitree h' K' (Some a) (g_upd (Some (true, q)) (fun q => g_ins q v) G) /\ uothers h K a G (Some (true, q)) v h' K')).
  { intros s' h1 WS2 Hdd (K1 & HK1 & HW1 & Hs' & Hall1). assert (I1' : ntree_in c64 h1 (K1 KTop) r6 m) by (eapply kk_in; [exact HK1|done|exact I1]).
    apply wp_bind. eapply wp_mono; [apply (k_inpl _ c64_ok KTop h1 K1 WS2 r6 m hk (Z.of_N hb) (VSub s')); [apply HK1|done|done|done]|]. cbn beta.
    intros x' h2 WS3 (K2 & HK2 & HW2 & Hx' & Hall2). change (cW c64) with 64 in *. rewrite adj_of in Hx' by done. rewrite (adj_of 64) in Hall2 by done. unfold s_insert in Hx'. rewrite Eup in Hx'.
    assert (HK : kle K K2) by (eapply kle_trans; [apply HK1|apply HK2]).
    assert (Hat : forall l, l ∈ K KRoot -> h2 !! l = h !! l). { intros l Hl. rewrite (kk_at _ _ _ _ _ HK2 KRoot l); [|done|by apply HK1]. by apply (kk_at _ _ _ _ _ HK1 KRoot l). }
    assert (H4' : forall p g, ktree4 h K p g -> ktree4 h2 K2 p g). { intros p g Hg. eapply kkeep4; [|exact HK2|]; [done|]. by eapply kkeep4; [|exact HK1|]. }
    assert (Hset : forall m2 ss2, uksubs h K m2 ss2 -> uksubs h2 K2 (<[x := (hk, VSub s')]> m2) (put ss2 x (s_insert 64 (ss x) lk lb v))).
    { intros m2 ss2 H2. eapply uksubs_set; [exact H2| | |apply sub_ins_ne|apply plain_ins; [apply I2|done]|by eapply Hlow].
      - intros y sy Hy Hsy. eapply kk_in; [exact HK2|done|]. eapply kk_in; [exact HK1| |exact Hsy]. intros E. apply Hy, en_inj. congruence.
      - eapply kk_in; [exact HK2|done|exact Hs']. }
    eapply ukstore; [done|done|by apply HK2|by apply HK|rewrite Hat by done; exact Ha|by apply H4'| |].
    - eexists _, _. split_and!; [exact Hx'|by apply Hset|]. intros q'. cbn [g_upd fst snd Bool.eqb]. unfold x. rewrite (us_ins _ q) by done. unfold g_ins. by rewrite I6.
    - intros t2 G2 Ht2 Hne. destruct t2 as [a2|]; [|exists G2; split; [done|by left]]. destruct Ht2 as (Hr2 & x4 & x6 & A1 & A3 & (m2 & ss2 & B1 & B2 & B3)).
      assert (B1' : ntree_in c64 h1 (K1 KTop) x6 m2) by (eapply kk_in; [exact HK1|done|exact B1]).
      destruct (Hall2 _ _ B1') as (m' & C1 & C2). destruct C2 as [->|[-> C2]].
      + (* unchanged above *)
        destruct (Hoth1 s' h1 K1 HK1 Hs' Hall1 m2 ss2 (fun q => G2 (true, q)) x6 B2 B1 B3) as (g' & ss2' & D1 & (m3 & ss3 & D31 & D32 & D33) & D4).
        assert (m3 = m2) as -> by (eapply ntree_at_fun; eapply ntree_in_at; done).
        assert (D3' : uktree6 h2 K2 x6 g'). { exists m2, ss3. split_and!; [done| |done]. by eapply ukkeeps; [|exact HK2|]. }
        destruct D4 as [D4|[D4 D5]].
        * exists G2. split; [|by left]. split; [by apply HK|]. exists x4, x6. split_and!; [by rewrite Hat|by apply H4'|]. destruct D3' as (m4 & ss4 & X1 & X2 & X3). exists m4, ss4. split_and!; [done|done|]. intros q'. by rewrite <- D4.
        * exists (g_upd (Some (true, q)) (fun q => g_ins q v) G2). split.
          -- split; [by apply HK|]. exists x4, x6. split_and!; [by rewrite Hat|by apply H4'|]. destruct D3' as (m4 & ss4 & X1 & X2 & X3). exists m4, ss4. split_and!; [done|done|]. intros q'. cbn [g_upd fst snd Bool.eqb]. by rewrite <- X3, D4.
          -- right. split; [done|]. eexists. split; [done|]. by eapply Hnet.
      + (* inserted above *)
        assert (Ess : ss x = ss2 x). { eapply usubs_det; [exact I2|exact B2|]. destruct C2 as (P & Z1 & _ & Z3). apply Z3. change (cW c64) with 64 in Z1. by rewrite <- Eup. }
        change (cW c64) with 64 in C1. unfold s_insert in C1. rewrite Eup in C1. exists (g_upd (Some (true, q)) (fun q => g_ins q v) G2). split.
        * split; [by apply HK|]. exists x4, x6. split_and!; [by rewrite Hat|by apply H4'|]. eexists _, _. split_and!; [exact C1|by apply Hset|]. intros q'. cbn [g_upd fst snd Bool.eqb]. rewrite Ess. unfold x. rewrite (us_ins _ q) by done. unfold g_ins. by rewrite B3.
        * right. split; [done|]. eexists. split; [done|]. eapply Hnet; [exact B3|]. left. eapply utop_alike; [done|exact I1|done|done| |exact C2|]; done. }
  destruct (m !! x) as [[k' v']|] eqn:Em.
  - destruct Hm as [Hm Hne]. cbn [snd] in *. subst v'. subst e. cbn [fst snd sub_of bind].
    apply wp_bind. eapply wp_mono; [apply Hsub; by etrans|]. cbn beta. intros s' h1 WS2 HP1. pose proof HP1 as (K1 & HK1 & HW1 & Hs' & Hall1).
    destruct (ptr_eqb_spec s' s) as [->|Hss]; [|apply Hrest; [by apply HK1|done]].
    cbn [wp]. exists K1. split_and!; [apply HK1|apply HK1| |].
    + split; [by apply HK1|]. exists r4, r6. split_and!; [eapply kk_root; [|exact HK1| |exact Ha]; done|by eapply kkeep4; [|exact HK1|]|].
      exists (<[x := (k', VSub s)]> m), (put ss x (s_insert 64 (ss x) lk lb v)). split_and!.
      * rewrite insert_id by done. by eapply kk_in; [exact HK1| |].
      * eapply uksubs_set; [exact I2| |exact Hs'|apply sub_ins_ne|apply plain_ins; [apply I2|done]|by eapply Hlow]. intros y sy Hy Hsy. eapply kk_in; [exact HK1| |exact Hsy]. intros E. apply Hy, en_inj. congruence.
      * intros q'. cbn [g_upd fst snd Bool.eqb]. unfold x. rewrite (us_ins _ q) by done. unfold g_ins. by rewrite I6.
    + intros t2 G2 Ht2 Hne2. destruct t2 as [a2|]; [|exists G2; split; [done|by left]]. destruct Ht2 as (Hr2 & x4 & x6 & A1 & A3 & (m2 & ss2 & B1 & B2 & B3)).
      destruct (Hoth1 s h1 K1 HK1 Hs' Hall1 m2 ss2 (fun q => G2 (true, q)) x6 B2 B1 B3) as (g' & ss2' & D1 & (m3 & ss3 & D31 & D32 & D33) & D4).
      destruct D4 as [D4|[D4 D5]].
      * exists G2. split; [|by left]. split; [by apply HK1|]. exists x4, x6. split_and!; [eapply kk_root; [|exact HK1| |exact A1]; done|by eapply kkeep4; [|exact HK1|]|]. exists m3, ss3. split_and!; [done|done|]. intros q'. by rewrite <- D4.
      * exists (g_upd (Some (true, q)) (fun q => g_ins q v) G2). split.
        -- split; [by apply HK1|]. exists x4, x6. split_and!; [eapply kk_root; [|exact HK1| |exact A1]; done|by eapply kkeep4; [|exact HK1|]|]. exists m3, ss3. split_and!; [done|done|]. intros q'. cbn [g_upd fst snd Bool.eqb]. by rewrite <- D33, D4.
        -- right. split; [done|]. eexists. split; [done|]. by eapply Hnet.
  - destruct Hm as (-> & Ess). subst e. cbn [fst snd].
    apply wp_bind. eapply wp_mono; [apply Hsub; by etrans|]. cbn beta. intros s' h1 WS2 HP1. pose proof HP1 as (K1 & HK1 & _). apply Hrest; [by apply HK1|done].
Qed.
End kinds.
