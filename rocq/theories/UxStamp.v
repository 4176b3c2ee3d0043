(** * uintX iptree on memory: the nodes of many versions and the calls that made them. As IpStamp.v. *)
From Verif Require Import Prog History NumSpec NumModel NumFun NumAbs NumFoot NumBits NumSim NumInplace NumNavSpec NumNavProofs NumShare NumExact.
From Verif Require Import IpModel IpSpec IpBits IpAbs IpAbs2 IpAbs3 IpUpd3 IpKinds IpKinds2 IpKinds3 IpVersSpec UxModel UxSpec UxAbs UxAbs2 UxAbs3 UxKinds UxKinds2.
From Verif Require Import StampSpec StampProofs StampTree IpStampSpec IpStamp IpStamp2 IpStamp3 UxStampSpec.
From Coq Require Import ZifyBool ZifyNat ZifyN.
Open Scope N_scope.

Lemma spot_up q : spot q = up q. Proof. done. Qed.
Lemma place_dn q : place q = dn q. Proof. done. Qed.

Section kinds.
Context {U : Type}.
Local Notation heap := (heap U).
Local Notation value := (value U).
Local Notation nmap := (gmap pfx (N * value)).
Local Notation kinds := (kd -> gset loc).
Local Notation ver := (ver U).
Local Notation ver0 := (ver0 U).
Local Notation xver := (xver U).
Local Notation xver0 := (xver0 U).
Local Notation put := IpStampSpec.put.
Local Notation KS x := (KSub (en x)).
Implicit Types (h : heap) (L : kinds) (K : loc -> nat) (n : nat) (v : value).

Definition lowmap (x : pfx) (ms : nmap) : Prop := forall l kv, x.1 < 64 -> ms !! l = Some kv -> l = (0, 0).
Definition xsub h L K (x : pfx) (e : option (N * value)) (ms : nmap) (g : ver) : Prop := rsub h L K (en x) e ms g /\ lowmap x ms.
Definition xtop h L K (p : ptr) (m : nmap) (g : ver) : Prop := in_set c64 h (L KTop) K p (Ver m (since g)) /\ like m (content g).
Definition xrel6 h L K (p : ptr) (gu : ver) (gi : pfx -> ver) : Prop :=
  exists (m : nmap) (ss : pfx -> nmap), xtop h L K p m gu /\ forall x : pfx, xsub h L K x (m !! x) (ss x) (gi x).
Definition xparts h L K (p4 p6 : ptr) (g : xver) : Prop := rel4 h L K p4 (xfour g) /\ xrel6 h L K p6 (xkeys g) (xin g).
Definition xrel h L K (t : ptr) (g : xver) : Prop :=
  match t with
  | None => xobj g = None /\ content (xfour g) = ∅ /\ content (xkeys g) = ∅ /\ forall x, content (xin g x) = ∅
  | Some a => a ∈ L KRoot /\ xobj g = Some (K a) /\ exists p4 p6, h !! a = Some (CIp p4 p6) /\ xparts h L K p4 p6 g
  end.
Lemma xtop_moves h L K h' L' K' p m g : moves h L K h' L' K' -> xtop h L K p m g -> xtop h' L' K' p m g.
Proof. intros M (A & B). split; [|done]. by apply (mv_in _ _ _ _ _ _ M KTop). Qed.
Lemma xsub_moves h L K h' L' K' x e ms g : moves h L K h' L' K' -> xsub h L K x e ms g -> xsub h' L' K' x e ms g.
Proof. intros M [A B]. split; [by eapply rsub_moves|done]. Qed.
Lemma xrel6_moves h L K h' L' K' p gu gi : moves h L K h' L' K' -> xrel6 h L K p gu gi -> xrel6 h' L' K' p gu gi.
Proof. intros M (m & ss & A & B). exists m, ss. split; [by eapply xtop_moves|]. intros x. by eapply xsub_moves. Qed.
Lemma xparts_moves h L K h' L' K' p4 p6 g : moves h L K h' L' K' -> xparts h L K p4 p6 g -> xparts h' L' K' p4 p6 g.
Proof. intros M [A B]. split; [by eapply rel4_moves|by eapply xrel6_moves]. Qed.
Lemma xrel_moves h L K h' L' K' t g : moves h L K h' L' K' -> xrel h L K t g -> xrel h' L' K' t g.
Proof.
  intros M. destruct t as [a|]; [|done]. intros (A & B & p4 & p6 & C & D). destruct (mv_root _ _ _ _ _ _ M a A) as (X1 & X2 & X3). split_and!; [done|by rewrite X3|].
  exists p4, p6. split; [by rewrite X2|by eapply xparts_moves].
Qed.
Definition xpost h L K (n : nat) (t : ptr) (g : xver) h' : Prop := exists L' K', linv h' L' K' (S n) /\ xrel h' L' K' t g /\ moves h L K h' L' K'.
Lemma same_moves h L K n h' : linv h L K n -> h ⊆ h' -> linv h' L K (S n) /\ moves h L K h' L K.
Proof.
  intros (HG & HK & HR) Hs. pose proof HG as [G1 G2]. assert (Hd : forall i, L i ⊆ dom h') by (intros i; etrans; [apply G1|by apply subseteq_dom]).
  assert (Hat : forall i a, a ∈ L i -> h' !! a = h !! a). { intros i a Ha. apply (G1 i), elem_of_dom in Ha as [z Hz]. rewrite Hz. by eapply lookup_weaken. }
  assert (M : moves h L K h' L K). { split; [intros j p g' _; apply (in_set_up _ (cof_ok j)); done|]. intros a Ha. split_and!; [done|by apply (Hat KRoot)|done]. }
  split; [split_and!|done].
  - by split.
  - intros j Hj. eapply labels_agree; [apply Hd|apply Hat|done|]. by apply labels_next, HK.
  - by apply rlab_next.
Qed.
Lemma xpost_same h L K n t g h' : linv h L K n -> xrel h L K t g -> h ⊆ h' -> xpost h L K n t g h'.
Proof. intros HI Ht Hs. destruct (same_moves _ _ _ _ _ HI Hs) as [A M]. exists L, K. split_and!; [done|by eapply xrel_moves|done]. Qed.
Lemma xpost_alloc h L K n h1 L1 K1 p4 p6 g a : linv h L K n -> moves h L K h1 L1 K1 -> kgood h1 L1 -> klab h1 L1 K1 (S n) -> L1 KRoot = L KRoot ->
  xparts h1 L1 K1 p4 p6 g -> xobj g = Some n -> h1 !! a = None -> xpost h L K n (Some a) g (<[a := CIp p4 p6]> h1).
Proof.
  intros (_ & _ & HR) M HG1 HK1 Er Hp Ho Ha. pose proof HG1 as [G1 G2]. set (h2 := <[a := CIp p4 p6]> h1). set (L2 := kup L1 KRoot {[a]}). set (K2 := mark K1 {[a]} n).
  assert (Hs2 : h1 ⊆ h2) by (by apply insert_subseteq).
  assert (HG2 : kgood h2 L2).
  { eapply kup_good; [exact HG1|by apply subseteq_dom|unfold h2; rewrite dom_insert; clear; set_solver|]. intros l Hl. apply elem_of_singleton in Hl as ->. by right. }
  assert (Hk : forall i l, l ∈ L1 i -> K2 l = K1 l). { intros i l Hl. unfold K2, mark. rewrite decide_False; [done|]. intros ->%elem_of_singleton. apply (G1 i), elem_of_dom in Hl as [? Hl]. congruence. }
  assert (Hat : forall i l, l ∈ L1 i -> h2 !! l = h1 !! l). { intros i l Hl. apply (G1 i), elem_of_dom in Hl as [z Hz]. rewrite Hz. by eapply lookup_weaken. }
  assert (Hoth : forall j, j <> KRoot -> L2 j = L1 j) by (intros j Hj; unfold L2; by rewrite kup_other).
  assert (M2 : moves h1 L1 K1 h2 L2 K2).
  { split.
    - intros j p g' Hj. rewrite Hoth by done. apply (in_set_agree _ (cof_ok j)); [apply Hat|apply Hk].
    - intros l Hl. split_and!; [unfold L2; by apply kup_le|by apply (Hat KRoot)|by apply (Hk KRoot)]. }
  exists L2, K2. split_and!; [split_and!; [done| |]| |by eapply moves_trans].
  - intros j Hj. rewrite Hoth by done. eapply labels_agree; [|apply Hat|apply Hk|by apply HK1]. etrans; [apply G1|by apply subseteq_dom].
  - assert (HR1 : rlab L1 K1 n). { eapply rlab_same; [exact Er| |exact HR]. intros l Hl. by apply M. }
    destruct HR1 as [R1 R2]. assert (Ha1 : forall l, l ∈ L1 KRoot -> l <> a). { intros l Hl ->. apply (G1 KRoot), elem_of_dom in Hl as [? Hl]. congruence. }
    assert (Kn : K2 a = n) by (unfold K2, mark; rewrite decide_True; [done|clear; set_solver]).
    split; unfold L2; rewrite kup_same.
    + intros l Hl. apply elem_of_union in Hl as [Hl| ->%elem_of_singleton]; [rewrite (Hk KRoot) by done; specialize (R1 l Hl); lia|lia].
    + intros l l' Hl Hl'. apply elem_of_union in Hl as [Hl| ->%elem_of_singleton], Hl' as [Hl'| ->%elem_of_singleton]; [rewrite !(Hk KRoot) by done; auto|rewrite Kn, (Hk KRoot) by done|rewrite Kn, (Hk KRoot) by done|done].
      * intros E. specialize (R1 l Hl). lia.
      * intros E. specialize (R1 l' Hl'). lia.
  - split_and!; [unfold L2; rewrite kup_same; clear; set_solver| |].
    + rewrite Ho. unfold K2, mark. rewrite decide_True; [done|clear; set_solver].
    + exists p4, p6. split; [apply lookup_insert|by eapply xparts_moves].
Qed.
Lemma xsub_nil h L K x (g : ver) : content g = ∅ -> xsub h L K x None ∅ g.
Proof.
  intros E. split; [|intros l kv _; by rewrite lookup_empty]. exists None. split_and!; [by apply in_set_nil|by intros ???|by rewrite E|done|done].
Qed.
Lemma xparts_nil h L K g : content (xfour g) = ∅ -> content (xkeys g) = ∅ -> (forall x, content (xin g x) = ∅) -> xparts h L K None None g.
Proof.
  intros E4 E6 Ei. split.
  - exists ∅. split_and!; [by apply in_set_nil|by intros ???|by rewrite E4].
  - exists ∅, (fun _ => ∅). split; [split; [by apply in_set_nil|by rewrite E6]|]. intros x. rewrite lookup_empty. by apply xsub_nil.
Qed.
Lemma xroots h L K WS t g (Q : ptr * ptr -> heap -> gset loc -> Prop) : xrel h L K t g -> (forall p4 p6, xparts h L K p4 p6 g -> Q (p4, p6) h WS) -> wp (ip_roots t) h WS Q.
Proof.
  intros Ht HQ. destruct t as [a|].
  - destruct Ht as (_ & _ & p4 & p6 & Ha & Hp). eapply wp_ld_ip; [exact Ha|]. by apply HQ.
  - destruct Ht as (_ & E4 & E6 & Ei). cbn [ip_roots wp]. by apply HQ, xparts_nil.
Qed.

(** ** As in UxKinds.v. *)
Lemma rel_uksubs h L K (m : nmap) (ss : pfx -> nmap) (gi : pfx -> ver) : kgood h L -> (forall x : pfx, xsub h L K x (m !! x) (ss x) (gi x)) -> uksubs h L m ss.
Proof.
  intros [G1 _] H. split.
  - intros x. destruct (H x) as [(s & B1 & _ & _ & B4) _]. exists s. split; [|done]. by apply (in_set_in c64 h (L (KS x)) K s (Ver (ss x) (since (gi x)))).
  - intros x. by destruct (H x) as [_ B].
  - intros x. by destruct (H x) as [(s & _ & B & _) _].
Qed.
Lemma rel_us h L K (m : nmap) (ss : pfx -> nmap) (gi : pfx -> ver) q : (forall x : pfx, xsub h L K x (m !! x) (ss x) (gi x)) -> us ss q = snd <$> content (gi (spot q)) !! place q.
Proof. intros H. destruct (H (spot q)) as [(s & _ & _ & B & _) _]. apply B. Qed.
Lemma xrel_ukitree h L K t g : kgood h L -> xrel h L K t g -> ukitree h L t (xholds g).
Proof.
  intros HG Ht. pose proof HG as [G1 _]. destruct t as [a|].
  2: { destruct Ht as (_ & E4 & E6 & Ei). intros [[] q]; unfold xholds; cbn [fst snd]; [|by rewrite E4]. by rewrite Ei, lookup_empty. }
  destruct Ht as (A & _ & p4 & p6 & Ha & (m4 & B1 & B2 & B3) & (m & ss & C1 & C2)). split; [done|]. exists p4, p6. split_and!; [done| |].
  - exists m4. split_and!; [by apply (in_set_in c32 h (L K4) K p4 (Ver m4 (since (xfour g))))|done|]. intros q. unfold xholds. cbn [fst snd]. symmetry. apply B3.
  - exists m, ss. split_and!; [apply (in_set_in c64 h (L KTop) K p6 (Ver m (since (xkeys g)))); [done|by apply C1]|by eapply rel_uksubs|].
    intros q. rewrite (rel_us _ _ _ _ _ _ q C2). done.
Qed.

(** ** Changing one key. *)
Lemma xrel6_set h L K h' L' K' (p p' : ptr) (m m' : nmap) (ss : pfx -> nmap) (gu : ver) (gi : pfx -> ver) (gu' gx : ver) (x : pfx) (k : N) (s' : ptr) (mx : nmap) :
  xtop h L K p m gu -> (forall y : pfx, xsub h L K y (m !! y) (ss y) (gi y)) ->
  in_set c64 h' (L' KTop) K' p' (Ver m' (since gu')) -> (forall y : pfx, y <> x -> m' !! y = m !! y) -> m' !! x = Some (k, VSub s') ->
  (forall y : pfx, content gu' !! y = None <-> y <> x /\ content gu !! y = None) ->
  (forall (y : pfx) s (g : ver), y <> x -> in_set c64 h (L (KS y)) K s g -> in_set c64 h' (L' (KS y)) K' s g) ->
  in_set c64 h' (L' (KS x)) K' s' (Ver mx (since gx)) -> plain_map mx -> (forall q, vals mx q = vals (content gx) q) -> mx <> ∅ -> lowmap x mx ->
  xrel6 h' L' K' p' gu' (at_spot gi x gx).
Proof.
  intros [T1 T2] I2 Hx Hoth Hval Hgu Hin Hs Hpl Hv Hne Hlow. exists m', (fun y => if decide (y = x) then mx else ss y). split.
  - split; [done|]. intros y. rewrite Hgu. destruct (decide (y = x)) as [->|Hy].
    + rewrite Hval. split; [done|by intros [? _]].
    + rewrite Hoth by done. split; [intros E; split; [done|by apply T2]|intros [_ E]; by apply T2].
  - intros y. unfold at_spot. destruct (decide (y = x)) as [->|Hy].
    + rewrite Hval. split; [|done]. by exists s'.
    + rewrite Hoth by done. destruct (I2 y) as [(s & A & B) C]. split; [|done]. exists s. split; [by apply Hin|done].
Qed.
Lemma put_none (m : nmap) x v y : put m x v !! y = None <-> y <> x /\ m !! y = None.
Proof. rewrite lookup_put. destruct (decide (x = y)) as [->|Hn]; [split; [done|by intros [? _]]|]. split; [intros E; split; [congruence|done]|by intros [_ ?]]. Qed.

Lemma x_insert h L K n WS t g nt r v : linv h L K n -> xrel h L K t g -> plain v -> isnet nt r ->
  wp (ux_insert_net t nt v) h WS (fun t' h' _ => xpost h L K n t' (match r with Some p => xinserted n g p v | None => g end) h').
Proof.
  intros HI Ht Hv Hr. pose proof HI as (HG & HK & HR). pose proof HG as [G1 _].
  assert (Hnone : r = None -> wp (Ret t) h WS (fun t' h' _ => xpost h L K n t' (match r with Some p => xinserted n g p v | None => g end) h')).
  { intros ->. cbn [wp]. by apply xpost_same. }
  destruct nt as [nt|]; [|destruct r as [q|]; [by inversion Hr|by apply Hnone]]. unfold ux_insert_net.
  assert (Hend : forall h1 L1 K1 p4 p6 WS1 g', moves h L K h1 L1 K1 -> kgood h1 L1 -> klab h1 L1 K1 (S n) -> L1 KRoot = L KRoot -> xparts h1 L1 K1 p4 p6 g' -> xobj g' = Some n ->
    wp (l <- alloc (CIp p4 p6) ;; Ret (Some l)) h1 WS1 (fun t' h' _ => xpost h L K n t' g' h')).
  { intros h1 L1 K1 p4 p6 WS1 g' M HG1 HK1 Er Hp Ho. apply wp_bind, wp_alloc. intros a Ha. cbn [wp]. by eapply xpost_alloc. }
  apply wp_bind. eapply xroots; [exact Ht|]. intros p4 p6 [H4 H6]. cbn [fst snd].
  pose proof (ip4_key_spec nt) as E4. destruct (ip4_key nt) as [[k b]|].
  { destruct E4 as (Hn & Hk & Hb). assert (r = Some (false, norm 32 k b)) as ->.
    { destruct r as [q|]; [|by apply Hr in Hn]. f_equal. by eapply net_is_fun. }
    destruct H4 as (m & M1 & M2 & M3).
    apply wp_bind. eapply wp_mono; [by apply (t_insert _ c32_ok h _ (L K4) K n p4 _ k (Z.of_N b) v (HK K4 ltac:(done)) M1)|]. cbn beta. intros x h' WS' (Hs & M & Hd & Hx).
    change (cW c32) with 32 in *. rewrite adj_of in Hx by done. pose proof (did_stepped K4 n h L K h' M ltac:(done) HG Hd) as S. pose proof (step_moves _ _ _ _ _ _ _ _ HG Hs S) as HM.
    eapply Hend; [exact HM|apply S|by eapply klab_1|apply S| |done]. split.
    - eexists. split_and!; [rewrite kup_same; exact Hx|by apply plain_ins|]. intros q. cbn [xinserted fst snd xfour content remade]. rewrite vals_ins, vals_put. by rewrite M3.
    - eapply xrel6_moves; [exact HM|exact H6]. }
  pose proof (ux_key_spec nt) as E6. destruct (ip6_key nt) as [[[[hk hb] lk] lb]|].
  2: { apply Hnone. destruct r as [[[] q]|]; [by apply E6 in Hr|by apply E4 in Hr|done]. }
  clear Hnone E4. destruct E6 as (q & Hn & Hvq & Hhk & Hhb & Hlk & Hlb & Eup & Edn & _). assert (r = Some (true, q)) as ->.
  { destruct r as [q'|]; [|by apply Hr in Hn]. f_equal. by eapply net_is_fun. }
  destruct H6 as (m & ss & I1 & I2). pose proof I1 as (T1 & T2). rewrite <- spot_up in Eup. rewrite <- place_dn in Edn. set (x := spot q) in *.
  apply wp_bind. eapply wp_mono; [apply (n_exact_in _ c64_ok h _ p6 m hk (Z.of_N hb)); [done|eapply ntree_in_at, (in_set_in c64 h (L KTop) K p6 (Ver m (since (xkeys g)))); done]|]. cbn beta.
  intros e h1 WS1 (He & -> & _). change (cW c64) with 64 in He. rewrite adj_of in He by done. rewrite (exact_up _ _ _ _ Eup) in He.
  destruct (I2 x) as [(s & Hs & Hpl & Hvs & Hm) Hlow].
  assert (Hse : (if e.2 then sub_of e.1 else None) = s).
  { destruct (m !! x) as [kv|]; subst e; cbn [fst snd]; [destruct Hm as [-> _]|destruct Hm as [-> _]]; done. }
  cbv zeta. rewrite Hse. clear Hse He.
  apply wp_bind. eapply wp_mono; [by apply (t_insert _ c64_ok h _ (L (KS x)) K n s _ lk (Z.of_N lb) v (HK (KS x) ltac:(done)) Hs)|]. cbn beta.
  intros s' h1 WS3 (Hs1 & M & Hd & Hx). change (cW c64) with 64 in *. rewrite adj_of in Hx by done. rewrite Edn in Hx.
  pose proof (did_stepped (KS x) n h L K h1 M ltac:(done) HG Hd) as S. pose proof (step_moves _ _ _ _ _ _ _ _ HG Hs1 S) as HM.
  rewrite <- (kup_same L (KS x) M) in Hx. set (L1 := kup L (KS x) M) in *. set (K1 := mark K M n) in *.
  assert (Hl1 : labels c64 h1 (L1 KTop) K1 n) by (apply (st_others _ _ _ _ _ _ _ _ S KTop); [done|by apply (HK KTop)]).
  assert (T1' : in_set c64 h1 (L1 KTop) K1 p6 (Ver m (since (xkeys g)))) by (by apply (mv_in _ _ _ _ _ _ HM KTop)).
  apply wp_bind. eapply wp_mono; [by apply (t_insert _ c64_ok h1 _ (L1 KTop) K1 n p6 _ hk (Z.of_N hb) (VSub s') Hl1 T1')|]. cbn beta.
  intros x' h2 WS4 (Hs2 & M2 & Hd2 & Hx2). change (cW c64) with 64 in *. rewrite adj_of in Hx2 by done. unfold s_insert at 1 in Hx2. rewrite Eup in Hx2.
  pose proof (did_stepped KTop n h1 L1 K1 h2 M2 ltac:(done) (st_good _ _ _ _ _ _ _ _ S) Hd2) as S2. pose proof (step_moves _ _ _ _ _ _ _ _ (st_good _ _ _ _ _ _ _ _ S) Hs2 S2) as HM2.
  rewrite <- (kup_same L1 KTop M2) in Hx2. set (L2 := kup L1 KTop M2) in *. set (K2 := mark K1 M2 n) in *.
  pose proof (moves_trans _ _ _ _ _ _ _ _ _ HM HM2) as HM'.
  eapply Hend; [exact HM'|apply S2|eapply (klab_2 (KS x) KTop); [done|exact HK|exact S|exact S2]|rewrite (st_root _ _ _ _ _ _ _ _ S2); apply S| |done]. split; cbn [xinserted fst snd xfour xkeys xin].
  - by eapply rel4_moves.
  - eapply (xrel6_set h L K _ _ _ _ _ m _ ss _ _ _ _ x hk s' (s_insert 64 (ss x) lk lb v)); [exact I1|exact I2|exact Hx2| | | | | | | | |].
    + intros y Hy. by rewrite lookup_insert_ne.
    + apply lookup_insert.
    + intros y. cbn [content remade]. apply put_none.
    + intros y sy gy _. by apply (mv_in _ _ _ _ _ _ HM' (KS y)).
    + apply (mv_in _ _ _ _ _ _ HM2 (KS x)); [done|exact Hx].
    + by apply plain_ins.
    + intros q'. cbn [content remade]. rewrite vals_ins, vals_put, Edn. by rewrite Hvs.
    + apply sub_ins_ne.
    + intros l kv Hl. apply (us_ins_low ss x lk lb v); [by apply Hlow| |done]. intros Hl'. rewrite Edn. by apply dn_low.
Qed.
End kinds.
