(** * uintX iptree on memory: InplaceInsert, and exactly which versions it reaches. *)
From Verif Require Import Prog History NumSpec NumModel NumFun NumAbs NumFoot NumBits NumSim NumInplace NumNavSpec NumNavProofs NumShare NumExact.
From Verif Require Import IpModel IpSpec IpBits IpAbs IpAbs2 IpAbs3 IpUpd3 IpKinds IpKinds2 IpKinds3 IpVersSpec UxModel UxSpec UxAbs UxAbs2 UxAbs3 UxKinds UxKinds2.
From Verif Require Import StampSpec StampProofs StampTree IpStampSpec IpStamp IpStamp2 IpStamp3 UxStampSpec UxStamp.
From Coq Require Import ZifyBool ZifyNat ZifyN.
Open Scope N_scope.

Section kinds.
Context {U : Type}.
Local Notation heap := (heap U).
Local Notation value := (value U).
Local Notation nmap := (gmap pfx (N * value)).
Local Notation kinds := (kd -> gset loc).
Local Notation ver := (ver U).
Local Notation xver := (xver U).
Local Notation put := IpStampSpec.put.
Local Notation KS x := (KSub (en x)).
Implicit Types (h : heap) (L : kinds) (K : loc -> nat) (n : nat) (v : value).

Lemma xrel6_put h L K h' L' K' (p p' : ptr) n (m m' : nmap) (ss : pfx -> nmap) (gu : ver) (gi : pfx -> ver) (x : pfx) (k' : N) (s' : ptr) (lk lb : N) (q : pfx) v :
  xtop h L K p m gu -> (forall y : pfx, xsub h L K y (m !! y) (ss y) (gi y)) ->
  in_set c64 h' (L' KTop) K' p' (Ver m' (since (grown n gu x VNil))) -> (forall y : pfx, y <> x -> m' !! y = m !! y) -> m' !! x = Some (k', VSub s') ->
  (forall (y : pfx) p (g : ver), y <> x -> in_set c64 h (L (KS y)) K p g -> in_set c64 h' (L' (KS y)) K' p g) ->
  in_set c64 h' (L' (KS x)) K' s' (updated 64 n (Ver (ss x) (since (gi x))) lk lb v) -> norm 64 lk lb = q -> (x.1 < 64 -> q = (0, 0)) -> plain v ->
  xrel6 h' L' K' p' (grown n gu x VNil) (at_spot gi x (grown n (gi x) q v)).
Proof.
  intros I1 I2 Hx Hoth Hval Hin Hs <- Hq Hv. destruct (I2 x) as [(s & A & B & C & _) D].
  eapply (xrel6_set h L K _ _ _ _ _ m _ ss _ _ _ _ x k' s' (s_insert 64 (ss x) lk lb v)); [exact I1|exact I2|exact Hx|done|done| |done| | | | |].
  - intros y. cbn [content grown]. apply put_none.
  - apply (grown_in c64 c64_ok); [done|by apply vals_like].
  - by apply plain_ins.
  - intros q'. cbn [content grown]. rewrite vals_ins, vals_put. by rewrite C.
  - apply sub_ins_ne.
  - intros l kv Hl. by apply (us_ins_low ss x lk lb v).
Qed.

(** ** The last step. *)
Definition xnear (g1 g2 : xver) (p : net) : Prop :=
  if p.1 then sharing (xkeys g1) (xkeys g2) (spot p.2) \/ sharing (xin g1 (spot p.2)) (xin g2 (spot p.2)) (place p.2)
  else sharing (xfour g1) (xfour g2) p.2.
Definition xreach h L K (n : nat) (g : xver) (p : net) (v : value) h' : Prop := exists L' K', linv h' L' K' (S n) /\
  forall t2 g2, xrel h L K t2 g2 -> (xreached g g2 p -> xrel h' L' K' t2 (xaffected n g2 p v)) /\ (~ xreached g g2 p -> xrel h' L' K' t2 g2).
Lemma xaffected_obj n (g : xver) p v : xobj (xaffected n g p v) = xobj g.
Proof. unfold xaffected. by destruct p.1. Qed.
Lemma xreach_store h L K n a p4 p6 g h1 L1 K1 x4 x6 p v : linv h L K n -> a ∈ L KRoot -> xobj g = Some (K a) -> h !! a = Some (CIp p4 p6) ->
  kgood h1 L1 -> klab h1 L1 K1 (S n) -> L1 KRoot = L KRoot -> (forall l, l ∈ L KRoot -> h1 !! l = h !! l /\ K1 l = K l) ->
  (forall g2, xparts h L K p4 p6 g2 -> xparts h1 L1 K1 x4 x6 (xaffected n g2 p v)) ->
  (forall y4 y6 g2, xparts h L K y4 y6 g2 -> (xnear g g2 p -> xparts h1 L1 K1 y4 y6 (xaffected n g2 p v)) /\ (~ xnear g g2 p -> xparts h1 L1 K1 y4 y6 g2)) ->
  xreach h L K n g p v (<[a := CIp x4 x6]> h1).
Proof.
  intros (_ & _ & HR) Ha Ho Hp HG1 HK1 Er Hroot Hown Hoth. pose proof HG1 as [G1 G2]. set (h2 := <[a := CIp x4 x6]> h1). exists L1, K1.
  assert (Hd : dom h1 ⊆ dom h2) by (unfold h2; rewrite dom_insert; clear; set_solver).
  assert (Hat : forall j l, j <> KRoot -> l ∈ L1 j -> h2 !! l = h1 !! l).
  { intros j l Hj Hl. apply lookup_insert_ne. intros <-. apply (G2 j KRoot Hj a); [done|]. by rewrite Er. }
  assert (Hin : forall j q (g' : ver), j <> KRoot -> in_set (cof j) h1 (L1 j) K1 q g' -> in_set (cof j) h2 (L1 j) K1 q g').
  { intros j q g' Hj. apply (in_set_agree _ (cof_ok j)); [intros l Hl; by apply (Hat j)|done]. }
  assert (Hparts : forall y4 y6 g', xparts h1 L1 K1 y4 y6 g' -> xparts h2 L1 K1 y4 y6 g').
  { intros y4 y6 g' [(m4 & A1 & A2) (m & ss & (T1 & T2) & B)]. split; [exists m4; split; [by apply (Hin K4)|done]|]. exists m, ss. split; [split; [by apply (Hin KTop)|done]|].
    intros x. destruct (B x) as [(s & C1 & C2) C3]. split; [|done]. exists s. split; [by apply (Hin (KS x))|done]. }
  split; [split_and!; [split; [intros i; by etrans; [apply G1|]|done]| |]|].
  - intros j Hj. eapply labels_agree; [etrans; [apply G1|done]|intros l Hl; by apply (Hat j)|done|by apply HK1].
  - apply rlab_next. eapply rlab_same; [exact Er| |exact HR]. intros l Hl. by apply Hroot.
  - intros t2 g2 Ht2. destruct t2 as [a2|].
    + destruct Ht2 as (A1 & A2 & y4 & y6 & A3 & A4). destruct (Hroot a2 A1) as [B1 B2]. destruct (decide (a2 = a)) as [->|Hne].
      * rewrite A3 in Hp. injection Hp as -> ->. split; [|intros Hn; exfalso; apply Hn; left; congruence]. intros _.
        split_and!; [by rewrite Er|by rewrite xaffected_obj, B2|]. exists x4, x6. split; [apply lookup_insert|]. by apply Hparts, Hown.
      * assert (Hobj : xobj g2 <> xobj g). { rewrite A2, Ho. intros [= E]. apply Hne. by apply HR. }
        destruct (Hoth y4 y6 g2 A4) as [C1 C2]. split.
        -- intros [?|Hn]; [done|]. split_and!; [by rewrite Er|by rewrite xaffected_obj, B2|]. exists y4, y6. split; [unfold h2; rewrite lookup_insert_ne by done; by rewrite B1|]. by apply Hparts, C1.
        -- intros Hn. split_and!; [by rewrite Er|by rewrite B2|]. exists y4, y6. split; [unfold h2; rewrite lookup_insert_ne by done; by rewrite B1|]. apply Hparts, C2. intros H. apply Hn. by right.
    + destruct Ht2 as (A1 & A2 & A3 & A4). split; [|done]. intros [E|Hn]; [congruence|]. exfalso. unfold xnear in Hn. destruct p.1; [destruct Hn as [Hn|Hn]|]; apply sharing_r in Hn; auto.
Qed.

Lemma x_inplace h L K n WS a g nt r v : linv h L K n -> dom h ⊆ WS -> xrel h L K (Some a) g -> plain v -> isnet nt r ->
  wp (ux_inplace_insert_net (Some a) nt v) h WS (fun _ h' _ => match r with Some p => xreach h L K n g p v h' | None => h' = h end).
Proof.
  intros HI HW Ht Hv Hr. pose proof HI as (HG & HK & HR). pose proof HG as [G1 _].
  destruct nt as [nt|]; [|destruct r as [q|]; [by inversion Hr|done]]. unfold ux_inplace_insert_net.
  destruct Ht as (Hroot & Hobj & p4 & p6 & Ha & Hp). pose proof Hp as [(m4 & M1 & M2 & M3) (m & ss & I1 & I2)].
  assert (Hsto : forall h1 L1 K1 WS1 x4 x6 p, dom h1 ⊆ WS1 -> kgood h1 L1 -> klab h1 L1 K1 (S n) -> L1 KRoot = L KRoot -> (forall l, l ∈ L KRoot -> h1 !! l = h !! l /\ K1 l = K l) ->
     (forall g2, xparts h L K p4 p6 g2 -> xparts h1 L1 K1 x4 x6 (xaffected n g2 p v)) ->
     (forall y4 y6 g2, xparts h L K y4 y6 g2 -> (xnear g g2 p -> xparts h1 L1 K1 y4 y6 (xaffected n g2 p v)) /\ (~ xnear g g2 p -> xparts h1 L1 K1 y4 y6 g2)) ->
     wp (store (Some a) (CIp x4 x6)) h1 WS1 (fun _ h' _ => xreach h L K n g p v h')).
  { intros h1 L1 K1 WS1 x4 x6 p HW1 HG1 HK1 Er Hrt Hown Hoth. cbn [store wp]. destruct (Hrt a Hroot) as [E _]. rewrite Ha in E. split_and!; [apply HW1; by eapply elem_of_dom_2|by eexists|]. by eapply xreach_store. }
  pose proof (ip4_key_spec nt) as E4. destruct (ip4_key nt) as [[k b]|].
  { destruct E4 as (Hn & Hk & Hb). assert (r = Some (false, norm 32 k b)) as ->.
    { destruct r as [q|]; [|by apply Hr in Hn]. f_equal. by eapply net_is_fun. }
    apply wp_bind. eapply wp_ld_ip; [exact Ha|]. cbn [fst snd].
    apply wp_bind. eapply wp_mono; [by apply (t_inplace _ c32_ok h WS (L K4) K n p4 _ k (Z.of_N b) v HW (HK K4 ltac:(done)) M1)|]. cbn beta zeta. intros x h' WS' (HW' & M & Hd & Hx & _ & Hall).
    change (cW c32) with 32 in *. rewrite (adj_of 32) in Hx by done. rewrite (adj_of 32) in Hall by done.
    pose proof (did_stepped K4 n h L K h' M ltac:(done) HG Hd) as S. rewrite <- (kup_same L K4 M) in Hx, Hall. set (L1 := kup L K4 M) in *. set (K1 := mark K M n) in *.
    assert (H6 : forall y6 gu gi, xrel6 h L K y6 gu gi -> xrel6 h' L1 K1 y6 gu gi).
    { intros y6 gu gi (m' & ss' & (T1 & T2) & B). exists m', ss'. split; [split; [by apply (st_in _ _ _ _ _ _ _ _ S KTop)|done]|]. intros y. destruct (B y) as [(s & C1 & C2) C3]. split; [|done]. exists s. split; [by apply (st_in _ _ _ _ _ _ _ _ S (KS y))|done]. }
    apply (Hsto h' L1 K1); [done|apply S|by eapply klab_1|apply S|intros l Hl; by apply (st_at _ _ _ _ _ _ _ _ S KRoot)| |].
    - intros g2 [(m2 & B1 & B2 & B3) B4]. split; [|by apply H6]. cbn [xaffected fst snd xfour]. apply (rel4_grown _ _ _ _ _ m2); [|done|done|done]. eapply (updated_own _ c32_ok); [exact M1|exact B1|exact Hx].
    - intros y4 y6 g2 [(m2 & B1 & B2 & B3) B4]. destruct (Hall _ _ B1) as [C1 C2]. pose proof (like_sharing m4 m2 (xfour g) (xfour g2) (norm 32 k b) (vals_like _ _ M3) (vals_like _ _ B3)) as Hsh. unfold xnear. cbn [fst snd]. split.
      + intros H. split; [|by apply H6]. cbn [xaffected fst snd xfour]. apply (rel4_grown _ _ _ _ _ m2); [|done|done|done]. by apply C1, Hsh.
      + intros H. split; [|by apply H6]. exists m2. split; [|done]. apply C2. by intros ?%Hsh. }
  pose proof (ux_key_spec nt) as E6. destruct (ip6_key nt) as [[[[hk hb] lk] lb]|].
  2: { destruct r as [[[] q]|]; [by apply E6 in Hr|by apply E4 in Hr|done]. }
  clear E4. destruct E6 as (q & Hn & Hvq & Hhk & Hhb & Hlk & Hlb & Enorm & Hnlo & _). assert (r = Some (true, q)) as ->.
  { destruct r as [q'|]; [|by apply Hr in Hn]. f_equal. by eapply net_is_fun. }
  apply wp_bind. eapply wp_ld_ip; [exact Ha|]. cbn [fst snd]. pose proof I1 as (T1 & T2).
  assert (Hup : forall g2 m2, like m2 (content (xkeys g2)) -> forall q', sharing (Ver m (since (xkeys g))) (Ver m2 (since (xkeys g2))) q' <-> sharing (xkeys g) (xkeys g2) q') by (intros g2 m2 Hl q'; by apply like_sharing).
  rewrite <- spot_up in Enorm. rewrite <- place_dn in Hnlo. pose proof (dn_low q) as Hql. rewrite <- spot_up, <- place_dn in Hql.
  set (x := spot q) in *. assert (Haff : forall g2, xaffected n g2 (true, q) v = XVer (xobj g2) (xfour g2) (grown n (xkeys g2) x VNil) (at_spot (xin g2) x (grown n (xin g2 x) (place q) v))) by done.
  assert (Hnear : forall g2, xnear g g2 (true, q) <-> sharing (xkeys g) (xkeys g2) x \/ sharing (xin g x) (xin g2 x) (place q)) by done.
  apply wp_bind. eapply wp_mono; [apply (n_exact_in _ c64_ok h WS p6 m hk (Z.of_N hb)); [done|eapply ntree_in_at, (in_set_in c64 h (L KTop) K p6 (Ver m (since (xkeys g)))); done]|]. cbn beta.
  intros e h1 WS1 (He & -> & HWS1). change (cW c64) with 64 in He. rewrite adj_of in He by done. rewrite (exact_up _ _ _ _ Enorm) in He.
  destruct (I2 x) as [(s & Hs & Hpl & Hvs & Hm) Hlow].
  (* versions that have the same tree at the key *)
  assert (Hsame : forall (m2 : nmap) (ss2 : pfx -> nmap) (gi2 : pfx -> ver), xsub h L K x (m2 !! x) (ss2 x) (gi2 x) -> m !! x = m2 !! x -> in_set c64 h (L (KS x)) K s (Ver (ss2 x) (since (gi2 x)))).
  { intros m2 ss2 gi2 [(s2 & A1 & A2 & A3 & A4) _] E. rewrite <- E in A4. destruct (m !! x) as [kv|].
    - destruct Hm as [Hm _], A4 as [A4 _]. rewrite Hm in A4. by injection A4 as <-.
    - destruct Hm as [-> _], A4 as [-> _]. done. }
  assert (Htop : forall y6 (m2 : nmap) (g2 : xver), xtop h L K y6 m2 (xkeys g2) -> sharing (xkeys g) (xkeys g2) x -> m !! x = m2 !! x).
  { intros y6 m2 g2 (A1 & A3) H. apply (sharing_same c64 c64_ok h (L KTop) K n p6 y6 (Ver m (since (xkeys g))) (Ver m2 (since (xkeys g2))) x); [by apply (HK KTop)|done|done|]. by apply Hup. }
  assert (Hins : forall (g2 : xver) (ss2 : pfx -> nmap), (forall q', vals (ss2 x) q' = vals (content (xin g2 x)) q') -> sharing (Ver (ss x) (since (xin g x))) (Ver (ss2 x) (since (xin g2 x))) (place q) <-> sharing (xin g x) (xin g2 x) (place q)).
  { intros g2 ss2 H2. apply like_sharing; by apply vals_like. }
  set (P1 := fun (s' : ptr) h1 (WS2 : gset loc) => dom h1 ⊆ WS2 /\ exists L1 K1, stepped (KS x) n h L K h1 L1 K1 /\ in_set c64 h1 (L1 (KS x)) K1 s' (updated 64 n (Ver (ss x) (since (xin g x))) lk lb v) /\
    (s' = s \/ forall g2, ~ sharing (Ver (ss x) (since (xin g x))) g2 (place q)) /\
    forall s2 g2, in_set c64 h (L (KS x)) K s2 g2 ->
      (sharing (Ver (ss x) (since (xin g x))) g2 (place q) -> in_set c64 h1 (L1 (KS x)) K1 s2 (updated 64 n g2 lk lb v)) /\
      (~ sharing (Ver (ss x) (since (xin g x))) g2 (place q) -> in_set c64 h1 (L1 (KS x)) K1 s2 g2)).
  assert (Hsub : forall WS0, dom h ⊆ WS0 -> wp (n_inplace_insert c64 s lk (Z.of_N lb) v) h WS0 P1).
  { intros WS0 HW0. eapply wp_mono; [by apply (t_inplace _ c64_ok h WS0 (L (KS x)) K n s _ lk (Z.of_N lb) v HW0 (HK (KS x) ltac:(done)) Hs)|]. cbn beta zeta. intros s' h' WS' (HW' & M & Hd & Hx & Hor & Hall).
    change (cW c64) with 64 in *. rewrite (adj_of 64) in Hx, Hor by done. rewrite (adj_of 64) in Hall by done. rewrite Hnlo in Hor, Hall.
    pose proof (did_stepped (KS x) n h L K h' M ltac:(done) HG Hd) as S. rewrite <- (kup_same L (KS x) M) in Hx, Hall. split; [done|]. exists (kup L (KS x) M), (mark K M n). done. }
  (* then the tree of keys *)
  assert (Hrest : forall s' h1 WS2, P1 s' h1 WS2 -> (forall g2, ~ sharing (Ver (ss x) (since (xin g x))) g2 (place q)) ->
    wp (x <- n_inplace_insert c64 p6 hk (Z.of_N hb) (VSub s') ;; store (Some a) (CIp p4 x)) h1 WS2 (fun _ h' _ => xreach h L K n g (true, q) v h')).
  { intros s' h1 WS2 (HW1 & L1 & K1 & S & Hs' & _ & Hall1) Hno.
    assert (Hl1 : labels c64 h1 (L1 KTop) K1 n) by (apply (st_others _ _ _ _ _ _ _ _ S KTop); [done|by apply (HK KTop)]).
    assert (T1' : in_set c64 h1 (L1 KTop) K1 p6 (Ver m (since (xkeys g)))) by (by apply (st_in _ _ _ _ _ _ _ _ S KTop)).
    apply wp_bind. eapply wp_mono; [by apply (t_inplace _ c64_ok h1 WS2 (L1 KTop) K1 n p6 _ hk (Z.of_N hb) (VSub s') HW1 Hl1 T1')|]. cbn beta zeta. intros x' h2 WS3 (HW2 & Mt & Hd2 & Hx2 & _ & Hall2).
    change (cW c64) with 64 in *. rewrite (adj_of 64) in Hx2 by done. rewrite (adj_of 64) in Hall2 by done. rewrite Enorm in Hall2.
    pose proof (did_stepped KTop n h1 L1 K1 h2 Mt ltac:(done) (st_good _ _ _ _ _ _ _ _ S) Hd2) as S2. rewrite <- (kup_same L1 KTop Mt) in Hx2, Hall2. set (L2 := kup L1 KTop Mt) in *. set (K2 := mark K1 Mt n) in *.
    assert (H4 : forall y4 g4, rel4 h L K y4 g4 -> rel4 h2 L2 K2 y4 g4). { intros y4 g4 (m' & A & B). exists m'. split; [|done]. apply (st_in _ _ _ _ _ _ _ _ S2 K4); [done|]. by apply (st_in _ _ _ _ _ _ _ _ S K4). }
    assert (Hoth : forall (y : pfx) p (g' : ver), y <> x -> in_set c64 h (L (KS y)) K p g' -> in_set c64 h2 (L2 (KS y)) K2 p g').
    { intros y p g' Hy A. apply (st_in _ _ _ _ _ _ _ _ S2 (KS y)); [done|]. apply (st_in _ _ _ _ _ _ _ _ S (KS y)); [|done]. intros E. apply Hy, en_inj. congruence. }
    assert (Hset : forall y6 y6' (m2 : nmap) (ss2 : pfx -> nmap) (g2 : xver), xtop h L K y6 m2 (xkeys g2) -> (forall y : pfx, xsub h L K y (m2 !! y) (ss2 y) (xin g2 y)) -> m !! x = m2 !! x ->
      in_set c64 h2 (L2 KTop) K2 y6' (updated 64 n (Ver m2 (since (xkeys g2))) hk hb (VSub s')) ->
      xrel6 h2 L2 K2 y6' (grown n (xkeys g2) x VNil) (at_spot (xin g2) x (grown n (xin g2 x) (place q) v))).
    { intros y6 y6' m2 ss2 g2 J1 J2 E Hy. pose proof (Hsame m2 ss2 (xin g2) (J2 x) E) as Hs2.
      eapply (xrel6_put h L K _ _ _ _ _ _ m2 (s_insert 64 m2 hk hb (VSub s')) ss2 _ _ x hk s' lk lb); [exact J1|exact J2| | | |done| |done|done|done].
      - apply (grown_in c64 c64_ok); [exact Hy|apply J1].
      - intros q' Hq'. unfold s_insert. rewrite Enorm. by rewrite lookup_insert_ne.
      - unfold s_insert. rewrite Enorm. apply lookup_insert.
      - apply (st_in _ _ _ _ _ _ _ _ S2 (KS x)); [done|]. eapply (updated_own _ c64_ok); [exact Hs|exact Hs2|exact Hs']. }
    apply (Hsto h2 L2 K2); [done|apply S2|eapply (klab_2 (KS x) KTop); [done|exact HK|exact S|exact S2]|rewrite (st_root _ _ _ _ _ _ _ _ S2); apply S| | |].
    - intros l Hl. destruct (st_at _ _ _ _ _ _ _ _ S KRoot l ltac:(done) Hl) as [A1 A2]. assert (Hl' : l ∈ L1 KRoot) by (by rewrite (st_root _ _ _ _ _ _ _ _ S)).
      destruct (st_at _ _ _ _ _ _ _ _ S2 KRoot l ltac:(done) Hl') as [B1 B2]. split; congruence.
    - intros g2 [B4 (m2 & ss2 & J1 & J2)]. rewrite Haff. split; [by apply H4|]. cbn [xkeys xin]. assert (J1' : in_set c64 h1 (L1 KTop) K1 p6 (Ver m2 (since (xkeys g2)))) by (apply (st_in _ _ _ _ _ _ _ _ S KTop); [done|apply J1]).
      eapply Hset; [exact J1|exact J2| |eapply (updated_own _ c64_ok); [exact T1'|exact J1'|exact Hx2]]. destruct (in_set_same c64 c64_ok _ _ _ _ _ _ T1 (proj1 J1)) as [E _]. cbn [content] in E. by rewrite E.
    - intros y4 y6 g2 [B4 (m2 & ss2 & J1 & J2)]. assert (J1' : in_set c64 h1 (L1 KTop) K1 y6 (Ver m2 (since (xkeys g2)))) by (apply (st_in _ _ _ _ _ _ _ _ S KTop); [done|apply J1]).
      destruct (Hall2 _ _ J1') as [C1 C2]. rewrite Hnear. pose proof (J2 x) as [(s2 & A1 & A2 & A3 & A4) A5]. split.
      + intros [H|H]; [|exfalso; apply (Hins g2 ss2 A3) in H; by apply Hno in H]. rewrite Haff. split; [by apply H4|]. cbn [xkeys xin].
        eapply Hset; [exact J1|exact J2|by eapply Htop|]. apply C1. apply Hup; [apply J1|done].
      + intros H. split; [by apply H4|]. exists m2, ss2. split; [split; [apply C2; intros H'; apply H; left; apply (Hup g2 m2); [apply J1|done]|apply J1]|].
        intros y. destruct (decide (y = x)) as [->|Hy].
        * split; [|done]. exists s2. split; [|done]. apply (st_in _ _ _ _ _ _ _ _ S2 (KS x)); [done|]. by apply Hall1.
        * destruct (J2 y) as [(sy & D1 & D2) D3]. split; [|done]. exists sy. split; [by apply Hoth|done]. }
  destruct (m !! x) as [[k' v']|] eqn:Em.
  - destruct Hm as [Hm Hne]. cbn [snd] in *. subst v'. subst e. cbn [fst snd sub_of].
    apply wp_bind. eapply wp_mono; [apply Hsub; by etrans|]. cbn beta. intros s' h1 WS2 HP1. pose proof HP1 as (HW1 & L1 & K1 & S & Hs' & Hor & Hall1).
    destruct (ptr_eqb_spec s' s) as [->|Hss]; [|apply Hrest; [done|by destruct Hor]]. cbn [wp].
    assert (Ha1 : h1 !! a = Some (CIp p4 p6)). { destruct (st_at _ _ _ _ _ _ _ _ S KRoot a ltac:(done) Hroot) as [-> _]. done. }
    rewrite <- (insert_id h1 a _ Ha1).
    assert (H4 : forall y4 g4, rel4 h L K y4 g4 -> rel4 h1 L1 K1 y4 g4). { intros y4 g4 (m' & A & B). exists m'. split; [|done]. by apply (st_in _ _ _ _ _ _ _ _ S K4). }
    assert (Hoth : forall (y : pfx) p (g' : ver), y <> x -> in_set c64 h (L (KS y)) K p g' -> in_set c64 h1 (L1 (KS y)) K1 p g').
    { intros y p g' Hy A. apply (st_in _ _ _ _ _ _ _ _ S (KS y)); [|done]. intros E. apply Hy, en_inj. congruence. }
    assert (Hset : forall y6 (m2 : nmap) (ss2 : pfx -> nmap) (g2 : xver) k2 s2, xtop h L K y6 m2 (xkeys g2) -> (forall y : pfx, xsub h L K y (m2 !! y) (ss2 y) (xin g2 y)) -> m2 !! x = Some (k2, VSub s2) ->
      in_set c64 h1 (L1 (KS x)) K1 s2 (updated 64 n (Ver (ss2 x) (since (xin g2 x))) lk lb v) ->
      xrel6 h1 L1 K1 y6 (grown n (xkeys g2) x VNil) (at_spot (xin g2) x (grown n (xin g2 x) (place q) v))).
    { intros y6 m2 ss2 g2 k2 s2 J1 J2 E Hy. eapply (xrel6_put h L K _ _ _ _ _ _ m2 m2 ss2 _ _ x k2 s2 lk lb); [exact J1|exact J2| |done|done|done|exact Hy|done|done|done].
      apply (grown_stay c64 c64_ok); [|apply J1]. apply (st_in _ _ _ _ _ _ _ _ S KTop); [done|apply J1]. }
    assert (Hsm : forall y6 (m2 : nmap) (ss2 : pfx -> nmap) (g2 : xver), xtop h L K y6 m2 (xkeys g2) -> (forall y : pfx, xsub h L K y (m2 !! y) (ss2 y) (xin g2 y)) -> m2 !! x = Some (k', VSub s) ->
      xrel6 h1 L1 K1 y6 (grown n (xkeys g2) x VNil) (at_spot (xin g2) x (grown n (xin g2 x) (place q) v))).
    { intros y6 m2 ss2 g2 J1 J2 E. eapply Hset; [exact J1|exact J2|exact E|]. pose proof (Hsame m2 ss2 (xin g2) (J2 x) (eq_sym E)) as Hs2. eapply (updated_own _ c64_ok); [exact Hs|exact Hs2|exact Hs']. }
    eapply xreach_store; [exact HI|done|done|exact Ha|apply S|by eapply klab_1|apply S|intros l Hl; by apply (st_at _ _ _ _ _ _ _ _ S KRoot)| |].
    + intros g2 [B4 (m2 & ss2 & J1 & J2)]. rewrite Haff. split; [by apply H4|]. cbn [xkeys xin]. eapply Hsm; [exact J1|exact J2|].
      destruct (in_set_same c64 c64_ok _ _ _ _ _ _ T1 (proj1 J1)) as [E _]. cbn [content] in E. by rewrite <- E.
    + intros y4 y6 g2 [B4 (m2 & ss2 & J1 & J2)]. rewrite Hnear. pose proof (J2 x) as [(s2 & A1 & A2 & A3 & A4) A5]. destruct (Hall1 _ _ A1) as [C1 C2]. pose proof (Hins g2 ss2 A3) as Hi. split.
      * intros H. rewrite Haff. split; [by apply H4|]. cbn [xkeys xin]. destruct H as [H|H].
        -- eapply Hsm; [exact J1|exact J2|]. symmetry. by eapply Htop.
        -- destruct (m2 !! x) as [[k2 v2]|] eqn:E2.
           ++ destruct A4 as [A4 _]. cbn [snd] in A4. subst v2. eapply Hset; [exact J1|exact J2|exact E2|]. by apply C1, Hi.
           ++ exfalso. apply Hi, sharing_r in H. cbn [content] in H. by destruct A4 as [_ ?].
      * intros H. split; [by apply H4|]. exists m2, ss2. split; [split; [apply (st_in _ _ _ _ _ _ _ _ S KTop); [done|apply J1]|apply J1]|].
        intros y. destruct (decide (y = x)) as [->|Hy].
        -- split; [|done]. exists s2. split; [|done]. apply C2. intros H'. apply H. right. by apply Hi.
        -- destruct (J2 y) as [(sy & D1 & D2) D3]. split; [|done]. exists sy. split; [by apply Hoth|done].
  - destruct Hm as (-> & Ess). subst e. cbn [fst snd].
    apply wp_bind. eapply wp_mono; [apply Hsub; by etrans|]. cbn beta. intros s' h1 WS2 HP1. apply Hrest; [done|]. intros g2 H. apply sharing_l in H. by apply H.
Qed.
End kinds.
