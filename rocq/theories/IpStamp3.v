(** * iptree on memory: InplaceInsert, and exactly which versions it reaches. *)
From Verif Require Import Prog History NumSpec NumModel NumFun NumAbs NumFoot NumBits NumSim NumInplace NumNavSpec NumNavProofs NumShare NumExact StampSpec StampProofs StampTree.
From Verif Require Import IpModel IpSpec IpBits IpAbs IpAbs2 IpAbs3 IpUpd3 IpKinds IpKinds2 IpKinds3 IpVersSpec IpStampSpec IpStamp IpStamp2.
From Coq Require Import ZifyBool ZifyNat ZifyN.
Open Scope N_scope.

Section kinds.
Context {U : Type}.
Local Notation heap := (heap U).
Local Notation value := (value U).
Local Notation nmap := (gmap pfx (N * value)).
Local Notation kinds := (kd -> gset loc).
Local Notation ver := (ver U).
Local Notation ver0 := (ver0 U).
Local Notation iver := (iver U).
Implicit Types (h : heap) (L : kinds) (K : loc -> nat) (n : nat) (v : value).

Lemma grown_in c (Hc : cfg_ok c) h (F : gset loc) K (p : ptr) n (m : nmap) (g : ver) (k b : N) v (q : pfx) (vv : value) : in_set c h F K p (updated (cW c) n (Ver m (since g)) k b v) -> like m (content g) ->
  in_set c h F K p (Ver (s_insert (cW c) m k b v) (since (grown n g q vv))).
Proof.
  intros H Hl. eapply (in_set_ext c Hc); [| |exact H]; [done|]. intros X _. unfold updated, grown. cbn [since content].
  destruct (decide (branching m X)) as [B|B], (decide (branching (content g) X)) as [B'|B']; try done; exfalso; [apply B'; by apply (like_branching _ _ X Hl)|apply B; by apply (like_branching _ _ X Hl)].
Qed.
Lemma grown_stay c (Hc : cfg_ok c) h (F : gset loc) K (p : ptr) n (m : nmap) (g : ver) (q : pfx) (vv : value) : in_set c h F K p (Ver m (since g)) -> like m (content g) -> in_set c h F K p (Ver m (since (grown n g q vv))).
Proof.
  intros H Hl. eapply (in_set_ext c Hc); [| |exact H]; [done|]. intros X HX. cbn [content] in HX. unfold grown. cbn [since content]. rewrite decide_True; [done|]. by apply (like_branching _ _ X Hl).
Qed.
Lemma rel4_grown h L K (p : ptr) n (m : nmap) (g : ver) (k b : N) v : in_set c32 h (L K4) K p (updated 32 n (Ver m (since g)) k b v) -> plain_map m -> plain v -> (forall q, vals m q = vals (content g) q) ->
  rel4 h L K p (grown n g (norm 32 k b) v).
Proof.
  intros H Hp Hv Hl. exists (s_insert 32 m k b v). split_and!; [apply (grown_in c32 c32_ok); [done|by apply vals_like]|by apply plain_ins|]. intros q. cbn [content grown]. rewrite vals_ins, vals_put. by rewrite Hl.
Qed.
Lemma rel6_low h L K h' L' K' (p p' : ptr) n (m : nmap) ss gu gi (hk : N) q v : rtop h L K p m gu -> (forall y, rsub h L K y (m !! (64, y)) (ss y) (gi y)) -> q.1 < 64 -> norm 64 hk q.1 = q -> plain v ->
  in_set c64 h' (L' KTop) K' p' (updated 64 n (Ver m (since gu)) hk q.1 v) ->
  (forall y p (g : ver), in_set c64 h (L (KSub y)) K p g -> in_set c64 h' (L' (KSub y)) K' p g) -> rel6 h' L' K' p' (grown n gu q v) gi.
Proof.
  intros (T1 & T2 & T3 & T4) I2 Hq Hnorm Hv Hx Hin. exists (s_insert 64 m hk q.1 v), ss. split.
  - split_and!; [by apply (grown_in c64 c64_ok)| | |].
    + intros q' Hq'. cbn [content grown]. rewrite vals_ins, vals_put, Hnorm. by rewrite T2.
    + cbn [content grown]. rewrite <- Hnorm at 2. by apply like_ins.
    + intros q' k' v'. unfold s_insert. rewrite Hnorm. destruct (decide (q = q')) as [<-|Hne]; [rewrite lookup_insert; by intros [= <- <-] _|]. rewrite lookup_insert_ne by done. apply T4.
  - intros y. unfold s_insert. rewrite Hnorm, lookup_insert_ne by (intros ->; cbn [fst] in Hq; lia). destruct (I2 y) as (s & A & B). exists s. split; [by apply Hin|done].
Qed.
Lemma rel6_put h L K h' L' K' (p p' : ptr) n (m m' : nmap) ss gu gi (x k' : N) s' (lk lb : N) q v : rtop h L K p m gu -> (forall y, rsub h L K y (m !! (64, y)) (ss y) (gi y)) ->
  in_set c64 h' (L' KTop) K' p' (Ver m' (since (grown n gu (64, x) VNil))) -> (forall q', q' <> (64, x) -> m' !! q' = m !! q') -> m' !! (64, x) = Some (k', VSub s') ->
  (forall y p (g : ver), y <> x -> in_set c64 h (L (KSub y)) K p g -> in_set c64 h' (L' (KSub y)) K' p g) ->
  in_set c64 h' (L' (KSub x)) K' s' (updated 64 n (Ver (ss x) (since (gi x))) lk lb v) -> norm 64 lk lb = q -> plain v ->
  rel6 h' L' K' p' (grown n gu (64, x) VNil) (at_half gi x (grown n (gi x) q v)).
Proof.
  intros (T1 & T2 & T3 & T4) I2 Hx Hoth Hval Hin Hs <- Hv. exists m', (fun y => if y =? x then s_insert 64 (ss x) lk lb v else ss y). split.
  - split_and!; [done| | |].
    + intros q' Hq'. assert (Hn : q' <> (64, x)) by (intros ->; by apply Hq'). cbn [content grown]. rewrite vals_put, decide_False by done. unfold vals. rewrite Hoth by done. by apply T2.
    + intros q'. cbn [content grown]. rewrite lookup_put. destruct (decide ((64, x) = q')) as [<-|Hn]; [rewrite decide_True by done; split; [intros E; pose proof (eq_trans (eq_sym Hval) E); discriminate|done]|]. rewrite decide_False by done; rewrite Hoth by congruence. apply T3.
    + intros q' k1 v1 E Hq'. rewrite Hoth in E by (intros ->; by apply Hq'). by eapply T4.
  - intros y. unfold at_half. destruct (N.eqb_spec y x) as [->|Hy].
    + rewrite decide_True by done. rewrite Hval. destruct (I2 x) as (s & A & B & C & _). exists s'. split_and!; [apply (grown_in c64 c64_ok); [done|by apply vals_like]|by apply plain_ins| |done|apply sub_ins_ne].
      intros q'. cbn [content grown]. rewrite vals_ins, vals_put. by rewrite C.
    + rewrite decide_False by done. rewrite Hoth by congruence. destruct (I2 y) as (s & A & B). exists s. split; [by apply Hin|done].
Qed.

(** ** The last step. *)
Definition near (g1 g2 : iver) (p : net) : Prop :=
  if p.1 then if p.2.1 <? 64 then sharing (upper g1) (upper g2) p.2
              else sharing (upper g1) (upper g2) (64, half p.2) \/ sharing (inside g1 (half p.2)) (inside g2 (half p.2)) (rest p.2)
  else sharing (four g1) (four g2) p.2.
Definition reach h L K (n : nat) (g : iver) (p : net) (v : value) h' : Prop := exists L' K', linv h' L' K' (S n) /\
  forall t2 g2, irel h L K t2 g2 -> (reached g g2 p -> irel h' L' K' t2 (affected n g2 p v)) /\ (~ reached g g2 p -> irel h' L' K' t2 g2).
Lemma affected_obj n (g : iver) p v : obj (affected n g p v) = obj g.
Proof. unfold affected. destruct p.1; [|done]. by destruct (p.2.1 <? 64). Qed.
Lemma reach_store h L K n a p4 p6 g h1 L1 K1 x4 x6 p v : linv h L K n -> a ∈ L KRoot -> obj g = Some (K a) -> h !! a = Some (CIp p4 p6) ->
  kgood h1 L1 -> klab h1 L1 K1 (S n) -> L1 KRoot = L KRoot -> (forall l, l ∈ L KRoot -> h1 !! l = h !! l /\ K1 l = K l) ->
  (forall g2, parts h L K p4 p6 g2 -> parts h1 L1 K1 x4 x6 (affected n g2 p v)) ->
  (forall y4 y6 g2, parts h L K y4 y6 g2 -> (near g g2 p -> parts h1 L1 K1 y4 y6 (affected n g2 p v)) /\ (~ near g g2 p -> parts h1 L1 K1 y4 y6 g2)) ->
  reach h L K n g p v (<[a := CIp x4 x6]> h1).
Proof.
  intros (_ & _ & HR) Ha Ho Hp HG1 HK1 Er Hroot Hown Hoth. pose proof HG1 as [G1 G2]. set (h2 := <[a := CIp x4 x6]> h1). exists L1, K1.
  assert (Hd : dom h1 ⊆ dom h2) by (unfold h2; rewrite dom_insert; clear; set_solver).
  assert (Hat : forall j l, j <> KRoot -> l ∈ L1 j -> h2 !! l = h1 !! l).
  { intros j l Hj Hl. apply lookup_insert_ne. intros <-. apply (G2 j KRoot Hj a); [done|]. by rewrite Er. }
  assert (Hin : forall j q (g' : ver), j <> KRoot -> in_set (cof j) h1 (L1 j) K1 q g' -> in_set (cof j) h2 (L1 j) K1 q g').
  { intros j q g' Hj. apply (in_set_agree _ (cof_ok j)); [intros l Hl; by apply (Hat j)|done]. }
  assert (Hparts : forall y4 y6 g', parts h1 L1 K1 y4 y6 g' -> parts h2 L1 K1 y4 y6 g').
  { intros y4 y6 g' [(m4 & A1 & A2) (m & ss & (T1 & T2) & B)]. split; [exists m4; split; [by apply (Hin K4)|done]|]. exists m, ss. split; [split; [by apply (Hin KTop)|done]|].
    intros x. destruct (B x) as (s & C1 & C2). exists s. split; [by apply (Hin (KSub x))|done]. }
  split; [split_and!; [split; [intros i; by etrans; [apply G1|]|done]| |]|].
  - intros j Hj. eapply labels_agree; [etrans; [apply G1|done]|intros l Hl; by apply (Hat j)|done|by apply HK1].
  - apply rlab_next. eapply rlab_same; [exact Er| |exact HR]. intros l Hl. by apply Hroot.
  - intros t2 g2 Ht2. destruct t2 as [a2|].
    + destruct Ht2 as (A1 & A2 & y4 & y6 & A3 & A4). destruct (Hroot a2 A1) as [B1 B2]. destruct (decide (a2 = a)) as [->|Hne].
      * rewrite A3 in Hp. injection Hp as -> ->. split; [|intros Hn; exfalso; apply Hn; left; congruence]. intros _.
        split_and!; [by rewrite Er|by rewrite affected_obj, B2|]. exists x4, x6. split; [apply lookup_insert|]. by apply Hparts, Hown.
      * assert (Hobj : obj g2 <> obj g). { rewrite A2, Ho. intros [= E]. apply Hne. by apply HR. }
        destruct (Hoth y4 y6 g2 A4) as [C1 C2]. split.
        -- intros [?|Hn]; [done|]. split_and!; [by rewrite Er|by rewrite affected_obj, B2|]. exists y4, y6. split; [unfold h2; rewrite lookup_insert_ne by done; by rewrite B1|]. by apply Hparts, C1.
        -- intros Hn. split_and!; [by rewrite Er|by rewrite B2|]. exists y4, y6. split; [unfold h2; rewrite lookup_insert_ne by done; by rewrite B1|]. apply Hparts, C2. intros H. apply Hn. by right.
    + destruct Ht2 as (A1 & A2 & A3 & A4). split; [|done]. intros [E|Hn]; [congruence|]. exfalso. unfold near in Hn. destruct p.1; [destruct (p.2.1 <? 64); [|destruct Hn as [Hn|Hn]]|]; apply sharing_r in Hn; auto.
Qed.

Lemma i_inplace h L K n WS a g nt r v : linv h L K n -> dom h ⊆ WS -> irel h L K (Some a) g -> plain v -> isnet nt r ->
  wp (ip_inplace_insert_net (Some a) nt v) h WS (fun _ h' _ => match r with Some p => reach h L K n g p v h' | None => h' = h end).
Proof.
  intros HI HW Ht Hv Hr. pose proof HI as (HG & HK & HR). pose proof HG as [G1 _].
  destruct nt as [nt|]; [|destruct r as [q|]; [by inversion Hr|done]]. unfold ip_inplace_insert_net.
  destruct Ht as (Hroot & Hobj & p4 & p6 & Ha & Hp). pose proof Hp as [(m4 & M1 & M2 & M3) (m & ss & I1 & I2)].
  assert (Hsto : forall h1 L1 K1 WS1 x4 x6 p, dom h1 ⊆ WS1 -> kgood h1 L1 -> klab h1 L1 K1 (S n) -> L1 KRoot = L KRoot -> (forall l, l ∈ L KRoot -> h1 !! l = h !! l /\ K1 l = K l) ->
     (forall g2, parts h L K p4 p6 g2 -> parts h1 L1 K1 x4 x6 (affected n g2 p v)) ->
     (forall y4 y6 g2, parts h L K y4 y6 g2 -> (near g g2 p -> parts h1 L1 K1 y4 y6 (affected n g2 p v)) /\ (~ near g g2 p -> parts h1 L1 K1 y4 y6 g2)) ->
     wp (store (Some a) (CIp x4 x6)) h1 WS1 (fun _ h' _ => reach h L K n g p v h')).
  { intros h1 L1 K1 WS1 x4 x6 p HW1 HG1 HK1 Er Hrt Hown Hoth. cbn [store wp]. destruct (Hrt a Hroot) as [E _]. rewrite Ha in E. split_and!; [apply HW1; by eapply elem_of_dom_2|by eexists|]. by eapply reach_store. }
  pose proof (ip4_key_spec nt) as E4. destruct (ip4_key nt) as [[k b]|].
  { destruct E4 as (Hn & Hk & Hb). assert (r = Some (false, norm 32 k b)) as ->.
    { destruct r as [q|]; [|by apply Hr in Hn]. f_equal. by eapply net_is_fun. }
    apply wp_bind. eapply wp_ld_ip; [exact Ha|]. cbn [fst snd].
    apply wp_bind. eapply wp_mono; [by apply (t_inplace _ c32_ok h WS (L K4) K n p4 _ k (Z.of_N b) v HW (HK K4 ltac:(done)) M1)|]. cbn beta zeta. intros x h' WS' (HW' & M & Hd & Hx & _ & Hall).
    change (cW c32) with 32 in *. rewrite (adj_of 32) in Hx by done. rewrite (adj_of 32) in Hall by done.
    pose proof (did_stepped K4 n h L K h' M ltac:(done) HG Hd) as S. rewrite <- (kup_same L K4 M) in Hx, Hall. set (L1 := kup L K4 M) in *. set (K1 := mark K M n) in *.
    assert (H6 : forall y6 gu gi, rel6 h L K y6 gu gi -> rel6 h' L1 K1 y6 gu gi).
    { intros y6 gu gi (m' & ss' & (T1 & T2) & B). exists m', ss'. split; [split; [by apply (st_in _ _ _ _ _ _ _ _ S KTop)|done]|]. intros y. destruct (B y) as (s & C1 & C2). exists s. split; [by apply (st_in _ _ _ _ _ _ _ _ S (KSub y))|done]. }
    apply (Hsto h' L1 K1); [done|apply S|by eapply klab_1|apply S|intros l Hl; by apply (st_at _ _ _ _ _ _ _ _ S KRoot)| |].
    - intros g2 [(m2 & B1 & B2 & B3) B4]. split; [|by apply H6]. cbn [affected fst snd four]. apply (rel4_grown _ _ _ _ _ m2); [|done|done|done]. eapply (updated_own _ c32_ok); [exact M1|exact B1|exact Hx].
    - intros y4 y6 g2 [(m2 & B1 & B2 & B3) B4]. destruct (Hall _ _ B1) as [C1 C2]. pose proof (like_sharing m4 m2 (four g) (four g2) (norm 32 k b) (vals_like _ _ M3) (vals_like _ _ B3)) as Hsh. unfold near. cbn [fst snd]. split.
      + intros H. split; [|by apply H6]. cbn [affected fst snd four]. apply (rel4_grown _ _ _ _ _ m2); [|done|done|done]. by apply C1, Hsh.
      + intros H. split; [|by apply H6]. exists m2. split; [|done]. apply C2. by intros ?%Hsh. }
  pose proof (ip6_key_spec nt) as E6. destruct (ip6_key nt) as [[[[hk hb] lk] lb]|].
  2: { destruct r as [[[] q]|]; [by apply E6 in Hr|by apply E4 in Hr|done]. }
  clear E4. destruct E6 as (q & Hn & Hhk & Hlk & Hvq & Klow & Khigh). assert (r = Some (true, q)) as ->.
  { destruct r as [q'|]; [|by apply Hr in Hn]. f_equal. by eapply net_is_fun. }
  apply wp_bind. eapply wp_ld_ip; [exact Ha|]. cbn [fst snd]. pose proof I1 as (T1 & T2 & T3 & T4).
  assert (Hup : forall g2 m2, like m2 (content (upper g2)) -> forall q', sharing (Ver m (since (upper g))) (Ver m2 (since (upper g2))) q' <-> sharing (upper g) (upper g2) q') by (intros g2 m2 Hl q'; by apply like_sharing).
  destruct (N.ltb_spec hb 64) as [Hhb|Hhb].
  - assert (Hq : q.1 < 64). { destruct (N.lt_ge_cases q.1 64) as [|Hge]; [done|]. destruct (Khigh Hge) as [-> _]. lia. }
    destruct (Klow Hq) as [-> Hnorm]. apply wp_bind. eapply wp_mono; [by apply (t_inplace _ c64_ok h WS (L KTop) K n p6 _ hk (Z.of_N q.1) v HW (HK KTop ltac:(done)) T1)|]. cbn beta zeta. intros x h' WS' (HW' & M & Hd & Hx & _ & Hall).
    change (cW c64) with 64 in *. rewrite (adj_of 64) in Hx by lia. rewrite (adj_of 64) in Hall by lia. rewrite Hnorm in Hall.
    pose proof (did_stepped KTop n h L K h' M ltac:(done) HG Hd) as S. rewrite <- (kup_same L KTop M) in Hx, Hall. set (L1 := kup L KTop M) in *. set (K1 := mark K M n) in *.
    assert (H4 : forall y4 g4, rel4 h L K y4 g4 -> rel4 h' L1 K1 y4 g4). { intros y4 g4 (m' & A & B). exists m'. split; [by apply (st_in _ _ _ _ _ _ _ _ S K4)|done]. }
    assert (Hs : forall y p (g' : ver), in_set c64 h (L (KSub y)) K p g' -> in_set c64 h' (L1 (KSub y)) K1 p g') by (intros y p g'; by apply (st_in _ _ _ _ _ _ _ _ S (KSub y))).
    assert (Haff : forall g2, affected n g2 (true, q) v = IVer (obj g2) (four g2) (grown n (upper g2) q v) (inside g2)). { intros g2. unfold affected. cbn [fst snd]. by destruct (N.ltb_spec q.1 64); [|lia]. }
    apply (Hsto h' L1 K1); [done|apply S|by eapply klab_1|apply S|intros l Hl; by apply (st_at _ _ _ _ _ _ _ _ S KRoot)| |].
    + intros g2 [B4 (m2 & ss2 & J1 & J2)]. rewrite Haff. split; [by apply H4|]. cbn [upper inside]. eapply rel6_low; [exact J1|exact J2|done|exact Hnorm|done| |done]. eapply (updated_own _ c64_ok); [exact T1|apply J1|exact Hx].
    + intros y4 y6 g2 [B4 (m2 & ss2 & J1 & J2)]. destruct (Hall _ _ (proj1 J1)) as [C1 C2]. unfold near. cbn [fst snd]. destruct (N.ltb_spec q.1 64); [|lia]. pose proof (Hup g2 m2 ltac:(by apply J1) q) as Hsh. split.
      * intros H'. rewrite Haff. split; [by apply H4|]. cbn [upper inside]. eapply rel6_low; [exact J1|exact J2|done|exact Hnorm|done| |done]. by apply C1, Hsh.
      * intros H'. split; [by apply H4|]. exists m2, ss2. split; [split; [apply C2; by intros ?%Hsh|apply J1]|]. intros y. destruct (J2 y) as (s & A & B). exists s. split; [by apply Hs|done].
  - assert (Hq : 64 <= q.1). { destruct (N.lt_ge_cases q.1 64) as [Hlt|]; [|done]. destruct (Klow Hlt) as [-> _]. lia. }
    destruct (Khigh Hq) as (-> & Hlb & Hnhi & Hnlo & Hhk2). change (lo q) with (rest q) in Hnlo. set (x := half q).
    assert (Enorm : norm 64 hk 64 = (64, x)) by (rewrite Hnhi; done). clear Klow Khigh Hnhi Hhk2.
    assert (Haff : forall g2, affected n g2 (true, q) v = IVer (obj g2) (four g2) (grown n (upper g2) (64, x) VNil) (at_half (inside g2) x (grown n (inside g2 x) (rest q) v))).
    { intros g2. unfold affected. cbn [fst snd]. by destruct (N.ltb_spec q.1 64); [lia|]. }
    assert (Hnear : forall g2, near g g2 (true, q) <-> sharing (upper g) (upper g2) (64, x) \/ sharing (inside g x) (inside g2 x) (rest q)).
    { intros g2. unfold near. cbn [fst snd]. by destruct (N.ltb_spec q.1 64); [lia|]. }
    apply wp_bind. eapply wp_mono; [apply (n_exact_in _ c64_ok h WS p6 m hk (Z.of_N 64)); [done|eapply ntree_in_at, (in_set_in c64 h (L KTop) K p6 (Ver m (since (upper g)))); done]|]. cbn beta.
    intros e h1 WS1 (He & -> & HWS1). change (cW c64) with 64 in He. change (adj 64 (Z.of_N 64)) with 64 in He. rewrite (exact64 _ _ _ Enorm) in He.
    destruct (I2 x) as (s & Hs & Hpl & Hvs & Hm).
    (* versions that have the same tree below *)
    assert (Hsame : forall (m2 : nmap) (gu2 : ver) (ss2 : N -> nmap) (gi2 : N -> ver), rsub h L K x (m2 !! (64, x)) (ss2 x) (gi2 x) -> m !! (64, x) = m2 !! (64, x) -> in_set c64 h (L (KSub x)) K s (Ver (ss2 x) (since (gi2 x))) /\ (gu2 : ver) = gu2).
    { intros m2 gu2 ss2 gi2 (s2 & A1 & A2 & A3 & A4) E. split; [|done]. rewrite <- E in A4. destruct (m !! (64, x)) as [kv|].
      - destruct Hm as [Hm _], A4 as [A4 _]. rewrite Hm in A4. by injection A4 as <-.
      - destruct Hm as [-> _], A4 as [-> _]. done. }
    assert (Htop : forall y6 (m2 : nmap) (g2 : iver), rtop h L K y6 m2 (upper g2) -> sharing (upper g) (upper g2) (64, x) -> m !! (64, x) = m2 !! (64, x)).
    { intros y6 m2 g2 (A1 & _ & A3 & _) H. apply (sharing_same c64 c64_ok h (L KTop) K n p6 y6 (Ver m (since (upper g))) (Ver m2 (since (upper g2))) (64, x)); [by apply (HK KTop)|done|done|]. by apply Hup. }
    assert (Hins : forall (g2 : iver) (ss2 : N -> nmap), (forall q', vals (ss2 x) q' = vals (content (inside g2 x)) q') -> sharing (Ver (ss x) (since (inside g x))) (Ver (ss2 x) (since (inside g2 x))) (rest q) <-> sharing (inside g x) (inside g2 x) (rest q)).
    { intros g2 ss2 H2. apply like_sharing; by apply vals_like. }
    set (P1 := fun (s' : ptr) h1 (WS2 : gset loc) => dom h1 ⊆ WS2 /\ exists L1 K1, stepped (KSub x) n h L K h1 L1 K1 /\ in_set c64 h1 (L1 (KSub x)) K1 s' (updated 64 n (Ver (ss x) (since (inside g x))) lk lb v) /\
      (s' = s \/ forall g2, ~ sharing (Ver (ss x) (since (inside g x))) g2 (rest q)) /\
      forall s2 g2, in_set c64 h (L (KSub x)) K s2 g2 ->
        (sharing (Ver (ss x) (since (inside g x))) g2 (rest q) -> in_set c64 h1 (L1 (KSub x)) K1 s2 (updated 64 n g2 lk lb v)) /\
        (~ sharing (Ver (ss x) (since (inside g x))) g2 (rest q) -> in_set c64 h1 (L1 (KSub x)) K1 s2 g2)).
    assert (Hsub : forall WS0, dom h ⊆ WS0 -> wp (n_inplace_insert c64 s lk (Z.of_N lb) v) h WS0 P1).
    { intros WS0 HW0. eapply wp_mono; [by apply (t_inplace _ c64_ok h WS0 (L (KSub x)) K n s _ lk (Z.of_N lb) v HW0 (HK (KSub x) ltac:(done)) Hs)|]. cbn beta zeta. intros s' h' WS' (HW' & M & Hd & Hx & Hor & Hall).
      change (cW c64) with 64 in *. rewrite (adj_of 64) in Hx, Hor by done. rewrite (adj_of 64) in Hall by done. rewrite Hnlo in Hor, Hall.
      pose proof (did_stepped (KSub x) n h L K h' M ltac:(done) HG Hd) as S. rewrite <- (kup_same L (KSub x) M) in Hx, Hall. split; [done|]. exists (kup L (KSub x) M), (mark K M n). done. }
    (* then the upper tree *)
    assert (Hrest : forall s' h1 WS2, P1 s' h1 WS2 -> (forall g2, ~ sharing (Ver (ss x) (since (inside g x))) g2 (rest q)) ->
      wp (x <- n_inplace_insert c64 p6 hk (Z.of_N 64) (VSub s') ;; store (Some a) (CIp p4 x)) h1 WS2 (fun _ h' _ => reach h L K n g (true, q) v h')).
    { intros s' h1 WS2 (HW1 & L1 & K1 & S & Hs' & _ & Hall1) Hno.
      assert (Hl1 : labels c64 h1 (L1 KTop) K1 n) by (apply (st_others _ _ _ _ _ _ _ _ S KTop); [done|by apply (HK KTop)]).
      assert (T1' : in_set c64 h1 (L1 KTop) K1 p6 (Ver m (since (upper g)))) by (by apply (st_in _ _ _ _ _ _ _ _ S KTop)).
      apply wp_bind. eapply wp_mono; [by apply (t_inplace _ c64_ok h1 WS2 (L1 KTop) K1 n p6 _ hk (Z.of_N 64) (VSub s') HW1 Hl1 T1')|]. cbn beta zeta. intros x' h2 WS3 (HW2 & Mt & Hd2 & Hx2 & _ & Hall2).
      change (cW c64) with 64 in *. change (adj 64 (Z.of_N 64)) with 64 in Hx2, Hall2. rewrite Enorm in Hall2.
      pose proof (did_stepped KTop n h1 L1 K1 h2 Mt ltac:(done) (st_good _ _ _ _ _ _ _ _ S) Hd2) as S2. rewrite <- (kup_same L1 KTop Mt) in Hx2, Hall2. set (L2 := kup L1 KTop Mt) in *. set (K2 := mark K1 Mt n) in *.
      assert (H4 : forall y4 g4, rel4 h L K y4 g4 -> rel4 h2 L2 K2 y4 g4). { intros y4 g4 (m' & A & B). exists m'. split; [|done]. apply (st_in _ _ _ _ _ _ _ _ S2 K4); [done|]. by apply (st_in _ _ _ _ _ _ _ _ S K4). }
      assert (Hoth : forall y p (g' : ver), y <> x -> in_set c64 h (L (KSub y)) K p g' -> in_set c64 h2 (L2 (KSub y)) K2 p g').
      { intros y p g' Hy A. apply (st_in _ _ _ _ _ _ _ _ S2 (KSub y)); [done|]. apply (st_in _ _ _ _ _ _ _ _ S (KSub y)); [congruence|done]. }
      assert (Hset : forall y6 y6' (m2 : nmap) (ss2 : N -> nmap) (g2 : iver), rtop h L K y6 m2 (upper g2) -> (forall y, rsub h L K y (m2 !! (64, y)) (ss2 y) (inside g2 y)) -> m !! (64, x) = m2 !! (64, x) ->
        in_set c64 h2 (L2 KTop) K2 y6' (updated 64 n (Ver m2 (since (upper g2))) hk 64 (VSub s')) ->
        rel6 h2 L2 K2 y6' (grown n (upper g2) (64, x) VNil) (at_half (inside g2) x (grown n (inside g2 x) (rest q) v))).
      { intros y6 y6' m2 ss2 g2 J1 J2 E Hy. destruct (Hsame m2 (upper g2) ss2 (inside g2) (J2 x) E) as [Hs2 _].
        eapply (rel6_put h L K _ _ _ _ _ _ m2 (s_insert 64 m2 hk 64 (VSub s')) ss2 _ _ x hk s' lk lb); [exact J1|exact J2| | | |done| |done|done].
        - apply (grown_in c64 c64_ok); [exact Hy|apply J1].
        - intros q' Hq'. rewrite (ins64 _ _ _ _ Enorm). by rewrite lookup_insert_ne.
        - rewrite (ins64 _ _ _ _ Enorm). apply lookup_insert.
        - apply (st_in _ _ _ _ _ _ _ _ S2 (KSub x)); [done|]. eapply (updated_own _ c64_ok); [exact Hs|exact Hs2|exact Hs']. }
      apply (Hsto h2 L2 K2); [done|apply S2|eapply (klab_2 (KSub x) KTop); [done|exact HK|exact S|exact S2]|rewrite (st_root _ _ _ _ _ _ _ _ S2); apply S| | |].
      - intros l Hl. destruct (st_at _ _ _ _ _ _ _ _ S KRoot l ltac:(done) Hl) as [A1 A2]. assert (Hl' : l ∈ L1 KRoot) by (by rewrite (st_root _ _ _ _ _ _ _ _ S)).
        destruct (st_at _ _ _ _ _ _ _ _ S2 KRoot l ltac:(done) Hl') as [B1 B2]. split; congruence.
      - intros g2 [B4 (m2 & ss2 & J1 & J2)]. rewrite Haff. split; [by apply H4|]. cbn [upper inside]. assert (J1' : in_set c64 h1 (L1 KTop) K1 p6 (Ver m2 (since (upper g2)))) by (apply (st_in _ _ _ _ _ _ _ _ S KTop); [done|apply J1]).
        eapply Hset; [exact J1|exact J2| |eapply (updated_own _ c64_ok); [exact T1'|exact J1'|exact Hx2]]. destruct (in_set_same c64 c64_ok _ _ _ _ _ _ T1 (proj1 J1)) as [E _]. cbn [content] in E. by rewrite E.
      - intros y4 y6 g2 [B4 (m2 & ss2 & J1 & J2)]. assert (J1' : in_set c64 h1 (L1 KTop) K1 y6 (Ver m2 (since (upper g2)))) by (apply (st_in _ _ _ _ _ _ _ _ S KTop); [done|apply J1]).
        destruct (Hall2 _ _ J1') as [C1 C2]. rewrite Hnear. pose proof (J2 x) as (s2 & A1 & A2 & A3 & A4). split.
        + intros [H|H]; [|exfalso; apply (Hins g2 ss2 A3) in H; by apply Hno in H]. rewrite Haff. split; [by apply H4|]. cbn [upper inside].
          eapply Hset; [exact J1|exact J2|by eapply Htop|]. apply C1. apply Hup; [apply J1|done].
        + intros H. split; [by apply H4|]. exists m2, ss2. split; [split; [apply C2; intros H'; apply H; left; apply (Hup g2 m2); [apply J1|done]|apply J1]|].
          intros y. destruct (decide (y = x)) as [->|Hy].
          * exists s2. split; [|done]. apply (st_in _ _ _ _ _ _ _ _ S2 (KSub x)); [done|]. by apply Hall1.
          * destruct (J2 y) as (sy & D1 & D2). exists sy. split; [by apply Hoth|done]. }
    destruct (m !! (64, x)) as [[k' v']|] eqn:Em.
    + destruct Hm as [Hm Hne]. cbn [snd] in *. subst v'. subst e. cbn [fst snd as_sub bind].
      apply wp_bind. eapply wp_mono; [apply Hsub; by etrans|]. cbn beta. intros s' h1 WS2 HP1. pose proof HP1 as (HW1 & L1 & K1 & S & Hs' & Hor & Hall1).
      destruct (ptr_eqb_spec s' s) as [->|Hss]; [|apply Hrest; [done|by destruct Hor]]. cbn [wp].
      assert (Ha1 : h1 !! a = Some (CIp p4 p6)). { destruct (st_at _ _ _ _ _ _ _ _ S KRoot a ltac:(done) Hroot) as [-> _]. done. }
      rewrite <- (insert_id h1 a _ Ha1).
      assert (H4 : forall y4 g4, rel4 h L K y4 g4 -> rel4 h1 L1 K1 y4 g4). { intros y4 g4 (m' & A & B). exists m'. split; [|done]. by apply (st_in _ _ _ _ _ _ _ _ S K4). }
      assert (Hoth : forall y p (g' : ver), y <> x -> in_set c64 h (L (KSub y)) K p g' -> in_set c64 h1 (L1 (KSub y)) K1 p g').
      { intros y p g' Hy A. apply (st_in _ _ _ _ _ _ _ _ S (KSub y)); [congruence|done]. }
      assert (Hset : forall y6 (m2 : nmap) (ss2 : N -> nmap) (g2 : iver) k2 s2, rtop h L K y6 m2 (upper g2) -> (forall y, rsub h L K y (m2 !! (64, y)) (ss2 y) (inside g2 y)) -> m2 !! (64, x) = Some (k2, VSub s2) ->
        in_set c64 h1 (L1 (KSub x)) K1 s2 (updated 64 n (Ver (ss2 x) (since (inside g2 x))) lk lb v) ->
        rel6 h1 L1 K1 y6 (grown n (upper g2) (64, x) VNil) (at_half (inside g2) x (grown n (inside g2 x) (rest q) v))).
      { intros y6 m2 ss2 g2 k2 s2 J1 J2 E Hy. eapply (rel6_put h L K _ _ _ _ _ _ m2 m2 ss2 _ _ x k2 s2 lk lb); [exact J1|exact J2| |done|done|done|exact Hy|done|done].
        apply (grown_stay c64 c64_ok); [|apply J1]. apply (st_in _ _ _ _ _ _ _ _ S KTop); [done|apply J1]. }
      assert (Hsm : forall y6 (m2 : nmap) (ss2 : N -> nmap) (g2 : iver), rtop h L K y6 m2 (upper g2) -> (forall y, rsub h L K y (m2 !! (64, y)) (ss2 y) (inside g2 y)) -> m2 !! (64, x) = Some (k', VSub s) ->
        rel6 h1 L1 K1 y6 (grown n (upper g2) (64, x) VNil) (at_half (inside g2) x (grown n (inside g2 x) (rest q) v))).
      { intros y6 m2 ss2 g2 J1 J2 E. eapply Hset; [exact J1|exact J2|exact E|]. destruct (Hsame m2 (upper g2) ss2 (inside g2) (J2 x) (eq_sym E)) as [Hs2 _]. eapply (updated_own _ c64_ok); [exact Hs|exact Hs2|exact Hs']. }
      eapply reach_store; [exact HI|done|done|exact Ha|apply S|by eapply klab_1|apply S|intros l Hl; by apply (st_at _ _ _ _ _ _ _ _ S KRoot)| |].
      * intros g2 [B4 (m2 & ss2 & J1 & J2)]. rewrite Haff. split; [by apply H4|]. cbn [upper inside]. eapply Hsm; [exact J1|exact J2|].
        destruct (in_set_same c64 c64_ok _ _ _ _ _ _ T1 (proj1 J1)) as [E _]. cbn [content] in E. by rewrite <- E.
      * intros y4 y6 g2 [B4 (m2 & ss2 & J1 & J2)]. rewrite Hnear. pose proof (J2 x) as (s2 & A1 & A2 & A3 & A4). destruct (Hall1 _ _ A1) as [C1 C2]. pose proof (Hins g2 ss2 A3) as Hi. split.
        -- intros H. rewrite Haff. split; [by apply H4|]. cbn [upper inside]. destruct H as [H|H].
           ++ eapply Hsm; [exact J1|exact J2|]. symmetry. by eapply Htop.
           ++ destruct (m2 !! (64, x)) as [[k2 v2]|] eqn:E2.
              ** destruct A4 as [A4 _]. cbn [snd] in A4. subst v2. eapply Hset; [exact J1|exact J2|exact E2|]. by apply C1, Hi.
              ** exfalso. apply Hi, sharing_r in H. cbn [content] in H. by destruct A4 as [_ ?].
        -- intros H. split; [by apply H4|]. exists m2, ss2. split; [split; [apply (st_in _ _ _ _ _ _ _ _ S KTop); [done|apply J1]|apply J1]|].
           intros y. destruct (decide (y = x)) as [->|Hy].
           ++ exists s2. split; [|done]. apply C2. intros H'. apply H. right. by apply Hi.
           ++ destruct (J2 y) as (sy & D1 & D2). exists sy. split; [by apply Hoth|done].
    + destruct Hm as (-> & Ess). subst e. cbn [fst snd].
      apply wp_bind. eapply wp_mono; [apply Hsub; by etrans|]. cbn beta. intros s' h1 WS2 HP1. apply Hrest; [done|]. intros g2 H. apply sharing_l in H. by apply H.
Qed.
End kinds.
