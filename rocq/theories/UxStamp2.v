(** * uintX iptree on memory: DeleteByNet, with the nodes it makes. *)
From Verif Require Import Prog History NumSpec NumModel NumFun NumAbs NumFoot NumBits NumSim NumInplace NumNavSpec NumNavProofs NumShare NumExact.
From Verif Require Import IpModel IpSpec IpBits IpAbs IpAbs2 IpAbs3 IpUpd3 IpKinds IpKinds2 IpKinds3 IpVersSpec UxModel UxSpec UxAbs UxAbs2 UxAbs3 UxKinds UxKinds2.
From Verif Require Import StampSpec StampProofs StampTree IpStampSpec IpStamp IpStamp2 IpStamp3 UxStampSpec UxStamp.
From Coq Require Import ZifyBool ZifyNat ZifyN.
Open Scope N_scope.

Section kinds.
Context {U : Type}.
Local Notation heap := (heap U).
Local Notation value := (value U).
Local Notation nmap := (gmap pfx (N * value)).
Local Notation kinds := (kd -> gset loc).
Local Notation ver := (ver U).
Local Notation xver := (xver U).
Local Notation put := IpStampSpec.put.
Local Notation KS x := (KSub (en x)).
Implicit Types (h : heap) (L : kinds) (K : loc -> nat) (n : nat) (v : value).

Lemma cut_none (m : nmap) x y : cut m x !! y = None <-> covers x y \/ m !! y = None.
Proof. rewrite lookup_cut. destruct (decide (covers x y)); [split; [by left|done]|]. split; [by right|by intros [?|?]]. Qed.

Lemma x_delete h L K n WS t g nt r : linv h L K n -> xrel h L K t g -> isnet nt r ->
  wp (ux_delete_net t nt) h WS (fun x h' _ => xpost h L K n x.1 (match r with Some p => if x.2 then xdeleted n g p else g | None => g end) h' /\
    (x.2 = true <-> exists p q v, r = Some p /\ ~ xpassed g p /\ ncovers p q /\ xholds g q = Some v)).
Proof.
  intros HI Ht Hr. pose proof HI as (HG & HK & HR). pose proof HG as [G1 _].
  set (Q := fun (x : ptr * bool) h' (_ : gset loc) => xpost h L K n x.1 (match r with Some p => if x.2 then xdeleted n g p else g | None => g end) h' /\
    (x.2 = true <-> exists p q v, r = Some p /\ ~ xpassed g p /\ ncovers p q /\ xholds g q = Some v)).
  assert (Hnot : forall h' WS', h ⊆ h' -> (forall q0, r = Some q0 -> ~ xpassed g q0 -> ~ below_ q0.2 (fun q => xholds g (q0.1, q))) -> wp (Ret (t, false)) h' WS' Q).
  { intros h' WS' Hs Hb. cbn [wp]. split; cbn [fst snd].
    - replace (match r with Some _ => g | None => g end) with g by (by destruct r). by apply xpost_same.
    - split; [done|]. intros (p & q & v & -> & Hp & H1 & H2). exfalso. apply (Hb p eq_refl Hp). apply below_net. by exists p, q, v. }
  destruct t as [a|].
  2: { apply Hnot; [done|]. intros q0 _ _ (q & v & _ & H). pose proof (xrel_ukitree _ _ _ _ _ HG Ht) as Hn. cbn [ukitree] in Hn. by rewrite Hn in H. }
  destruct nt as [nt|]; [|destruct r as [q|]; [by inversion Hr|by apply Hnot]]. unfold ux_delete_net.
  pose proof Ht as (_ & _ & p4 & p6 & Ha & H4 & H6). apply wp_bind. eapply wp_ld_ip; [exact Ha|]. cbn [fst snd].
  assert (Hend : forall h1 L1 K1 x4 x6 WS1 q0, r = Some q0 -> ~ xpassed g q0 -> moves h L K h1 L1 K1 -> kgood h1 L1 -> klab h1 L1 K1 (S n) -> L1 KRoot = L KRoot -> xparts h1 L1 K1 x4 x6 (xdeleted n g q0) -> xobj (xdeleted n g q0) = Some n ->
    below_ q0.2 (fun q => xholds g (q0.1, q)) -> wp (l <- alloc (CIp x4 x6) ;; Ret (Some l, true)) h1 WS1 Q).
  { intros h1 L1 K1 x4 x6 WS1 q0 -> Hps M HG1 HK1 Er Hp Ho Hb. apply wp_bind, wp_alloc. intros l Hl. cbn [wp]. split; cbn [fst snd]; [by eapply xpost_alloc|]. split; [|done]. intros _.
    apply below_net in Hb as (p & q & v & [= <-] & A & B). by exists q0, q, v. }
  pose proof (ip4_key_spec nt) as E4. destruct (ip4_key nt) as [[k b]|].
  { destruct E4 as (Hn & Hk & Hb). assert (r = Some (false, norm 32 k b)) as ->.
    { destruct r as [q|]; [|by apply Hr in Hn]. f_equal. by eapply net_is_fun. }
    destruct H4 as (m & M1 & M2 & M3).
    apply wp_bind. eapply wp_mono; [by apply (t_delete _ c32_ok h WS (L K4) K n p4 _ k (Z.of_N b) (HK K4 ltac:(done)) M1)|]. cbn beta. intros [x f] h' WS' (Hs & Hdel & Hx). cbn [fst snd content] in *.
    change (cW c32) with 32 in *. rewrite adj_of in Hx, Hdel by done.
    assert (Hg : forall q, xholds g (false, q) = vals m q) by (intros q; unfold xholds; cbn [fst snd]; symmetry; apply M3).
    pose proof (deleted_below 32 m k b f _ Hg Hdel) as Hfl. destruct f.
    - destruct Hx as (M & Hd & Hx). pose proof (did_stepped K4 n h L K h' M ltac:(done) HG Hd) as S. pose proof (step_moves _ _ _ _ _ _ _ _ HG Hs S) as HM.
      eapply Hend; [done|by intros [[? _] _]|exact HM|apply S|by eapply klab_1|apply S| |done|cbn [fst snd]; by apply Hfl]. split.
      + eexists. split_and!; [rewrite kup_same; exact Hx|by apply plain_del|]. intros q. cbn [xdeleted fst snd xfour content remade]. rewrite vals_del, vals_cut. by rewrite M3.
      + eapply xrel6_moves; [exact HM|exact H6].
    - apply Hnot; [done|]. intros ? [= <-] _ H. cbn [fst snd] in H. by apply Hfl in H. }
  pose proof (ux_key_spec nt) as E6. destruct (ip6_key nt) as [[[[hk hb] lk] lb]|].
  2: { apply Hnot; [done|]. intros [[] q] ->; [by apply E6 in Hr|by apply E4 in Hr]. }
  clear E4. destruct E6 as (q & Hn & Hvq & Hhk & Hhb & Hlk & Hlb & Eup & Edn & _). assert (r = Some (true, q)) as ->.
  { destruct r as [q'|]; [|by apply Hr in Hn]. f_equal. by eapply net_is_fun. }
  destruct H6 as (m & ss & I1 & I2). pose proof I1 as (T1 & T2). pose proof (rel_uksubs _ _ _ _ _ _ HG I2) as Hks. pose proof (uksubs_usubs _ _ _ _ HG Hks) as I2'.
  assert (I6 : forall q, xholds g (true, q) = us ss q). { intros q'. by rewrite (rel_us _ _ _ _ _ _ q' I2). }
  pose proof (below_us (fun q => xholds g (true, q)) ss q I6) as Hbs.
  assert (Hnot' : forall h' WS', h ⊆ h' -> (~ xpassed g (true, q) -> ~ below_ q (us ss)) -> wp (Ret (Some a, false)) h' WS' Q).
  { intros h' WS' Hs Hb. apply Hnot; [done|]. intros ? [= <-] Hp H. cbn [fst snd] in H. apply (Hb Hp). by apply Hbs. }
  apply wp_bind. eapply wp_mono; [apply (n_exact_in _ c64_ok h WS p6 m hk (Z.of_N hb)); [done|eapply ntree_in_at, (in_set_in c64 h (L KTop) K p6 (Ver m (since (xkeys g)))); done]|]. cbn beta.
  intros e h1 WS1 (He & -> & _). change (cW c64) with 64 in He. rewrite adj_of in He by done. rewrite (exact_up _ _ _ _ Eup) in He.
  destruct (I2 (up q)) as [(s & Hs & Hpl & Hvs & Hm) Hlow].
  destruct (m !! up q) as [[k' v']|] eqn:Em.
  2: { subst e. cbn [fst snd]. apply Hnot'; [done|]. intros Hnp. destruct (N.lt_ge_cases q.1 64) as [Hq|Hq].
       - exfalso. apply Hnp. split; [done|]. rewrite I6. apply (us_low_iff _ _ _ _ _ _ I2' Hq). by rewrite (proj1 (up_low q Hq)) in Em.
       - intros (x & v & Hc & Hx). apply cov_up_high in Hc as [E _]; [|done]. unfold us in Hx. rewrite <- E in Hx. destruct Hm as (_ & Em'). by rewrite Em' in Hx. }
  destruct Hm as [Hm Hne]. cbn [snd] in Hm. subst v'. subst e. cbn [fst snd sub_of].
  apply wp_bind. eapply wp_mono; [by apply (t_delete _ c64_ok h WS1 (L (KS (up q))) K n s _ lk (Z.of_N lb) (HK (KS (up q)) ltac:(done)) Hs)|]. cbn beta.
  intros [s' f] h1 WS2 (Hs1 & Hdel & Hx). cbn [fst snd content] in *. change (cW c64) with 64 in *. rewrite adj_of in Hx, Hdel by done.
  pose proof (us_flag _ _ _ _ _ _ _ _ _ _ I2' Edn Em Hdel) as Hfl.
  destruct f; [|apply Hnot'; [done|]; intros _ H; by apply Hfl in H]. rewrite Edn in Hx.
  assert (Hnp : ~ xpassed g (true, q)).
  { intros [[_ Hq] E]. cbn [fst snd] in Hq. rewrite I6 in E. apply (us_low_iff _ _ _ _ _ _ I2' Hq) in E. rewrite (proj1 (up_low q Hq)) in Em. by rewrite Em in E. }
  destruct Hx as (M & Hd & Hx). pose proof (did_stepped (KS (up q)) n h L K h1 M ltac:(done) HG Hd) as S. pose proof (step_moves _ _ _ _ _ _ _ _ HG Hs1 S) as HM.
  rewrite <- (kup_same L (KS (up q)) M) in Hx. set (L1 := kup L (KS (up q)) M) in *. set (K1 := mark K M n) in *.
  assert (Hl1 : labels c64 h1 (L1 KTop) K1 n) by (apply (st_others _ _ _ _ _ _ _ _ S KTop); [done|by apply (HK KTop)]).
  assert (T1' : in_set c64 h1 (L1 KTop) K1 p6 (Ver m (since (xkeys g)))) by (by apply (mv_in _ _ _ _ _ _ HM KTop)).
  assert (Hvd : forall q', vals (s_delete 64 (ss (up q)) lk lb) q' = vals (cut (content (xin g (up q))) (dn q)) q') by (intros q'; rewrite vals_del, vals_cut, Edn; by rewrite Hvs).
  pose proof (vals_empty _ _ Hvd) as Hemp. pose proof (in_set_none c64 _ _ _ _ _ Hx) as Hsn. cbn [content remade] in Hsn.
  assert (Hlowe : q.1 < 64 -> s_delete 64 (ss (up q)) lk lb = ∅).
  { intros Hq. apply map_eq. intros l. rewrite lookup_empty, lookup_del, Edn, (proj2 (up_low q Hq)). destruct (decide _) as [|Hc]; [done|].
    destruct (ss (up q) !! l) as [kv|] eqn:El; [|done]. destruct Hc. assert (l = (0, 0)) as ->; [|apply covers_refl]. eapply Hlow; [by apply up_len|exact El]. }
  destruct s' as [s'|].
  - assert (Hmne : s_delete 64 (ss (up q)) lk lb <> ∅) by (intros E; by apply Hsn in E).
    assert (Hq : 64 <= q.1) by (destruct (N.lt_ge_cases q.1 64) as [Hq|]; [by apply Hlowe in Hq|done]).
    apply wp_bind. eapply wp_mono; [by apply (t_insert _ c64_ok h1 WS2 (L1 KTop) K1 n p6 _ hk (Z.of_N hb) (VSub (Some s')) Hl1 T1')|]. cbn beta.
    intros x' h2 WS4 (Hs2 & M2 & Hd2 & Hx2). change (cW c64) with 64 in *. rewrite adj_of in Hx2 by done. unfold s_insert in Hx2. rewrite Eup in Hx2. cbn [content] in Hx2.
    pose proof (did_stepped KTop n h1 L1 K1 h2 M2 ltac:(done) (st_good _ _ _ _ _ _ _ _ S) Hd2) as S2. pose proof (step_moves _ _ _ _ _ _ _ _ (st_good _ _ _ _ _ _ _ _ S) Hs2 S2) as HM2.
    rewrite <- (kup_same L1 KTop M2) in Hx2. set (L2 := kup L1 KTop M2) in *. set (K2 := mark K1 M2 n) in *.
    pose proof (moves_trans _ _ _ _ _ _ _ _ _ HM HM2) as HM'.
    assert (Edel : xdeleted n g (true, q) = XVer (Some n) (xfour g) (remade n (xkeys g) (up q) (content (xkeys g))) (at_spot (xin g) (up q) (remade n (xin g (up q)) (dn q) (cut (content (xin g (up q))) (dn q))))).
    { unfold xdeleted. cbn [fst snd]. rewrite decide_False; [done|]. intros [E|E]; [lia|]. by apply Hmne, Hemp. }
    eapply (Hend _ _ _ _ _ _ (true, q)); [done|done|exact HM'|apply S2|eapply (klab_2 (KS (up q)) KTop); [done|exact HK|exact S|exact S2]|rewrite (st_root _ _ _ _ _ _ _ _ S2); apply S| | |cbn [fst snd]; by apply Hbs, Hfl]; rewrite Edel; [|done].
    split; cbn [xfour xkeys xin]; [by eapply rel4_moves|].
    eapply (xrel6_set h L K _ _ _ _ _ m _ ss _ _ _ _ (up q) hk (Some s') (s_delete 64 (ss (up q)) lk lb)); [exact I1|exact I2|exact Hx2| | | | | | | | |].
    + intros y Hy. by rewrite lookup_insert_ne.
    + apply lookup_insert.
    + intros y. cbn [content remade]. split; [|by intros [_ ?]]. intros E. split; [|done]. intros ->. apply T2 in E. pose proof (eq_trans (eq_sym Em) E). discriminate.
    + intros y sy gy _. by apply (mv_in _ _ _ _ _ _ HM' (KS y)).
    + apply (mv_in _ _ _ _ _ _ HM2 (KS (up q))); [done|exact Hx].
    + by apply plain_del.
    + done.
    + done.
    + intros l kv Hl. exfalso. apply (proj1 (up_len q)) in Hl. lia.
  - apply bind_assoc. cbn [bind].
    apply wp_bind. eapply wp_mono; [by apply (t_delete _ c64_ok h1 WS2 (L1 KTop) K1 n p6 _ hk (Z.of_N hb) Hl1 T1')|]. cbn beta.
    intros [x' f'] h2 WS4 (Hs2 & Hdel2 & Hx2). cbn [bind fst snd content] in *. change (cW c64) with 64 in *. rewrite adj_of in Hx2, Hdel2 by done.
    assert (f' = true) as ->. { apply Hdel2. exists (up q). rewrite Eup. split; [eexists; exact Em|apply covers_refl]. }
    destruct Hx2 as (M2 & Hd2 & Hx2). rewrite Eup in Hx2.
    pose proof (did_stepped KTop n h1 L1 K1 h2 M2 ltac:(done) (st_good _ _ _ _ _ _ _ _ S) Hd2) as S2. pose proof (step_moves _ _ _ _ _ _ _ _ (st_good _ _ _ _ _ _ _ _ S) Hs2 S2) as HM2.
    rewrite <- (kup_same L1 KTop M2) in Hx2. set (L2 := kup L1 KTop M2) in *. set (K2 := mark K1 M2 n) in *.
    pose proof (moves_trans _ _ _ _ _ _ _ _ _ HM HM2) as HM'.
    assert (Edel : xdeleted n g (true, q) = XVer (Some n) (xfour g) (remade n (xkeys g) (up q) (cut (content (xkeys g)) (up q))) (fun y => if decide (covers (up q) y) then ver0 U else xin g y)).
    { unfold xdeleted. cbn [fst snd]. rewrite decide_True; [done|]. right. apply Hemp. by apply Hsn. }
    eapply (Hend _ _ _ _ _ _ (true, q)); [done|done|exact HM'|apply S2|eapply (klab_2 (KS (up q)) KTop); [done|exact HK|exact S|exact S2]|rewrite (st_root _ _ _ _ _ _ _ _ S2); apply S| | |cbn [fst snd]; by apply Hbs, Hfl]; rewrite Edel; [|done].
    split; cbn [xfour xkeys xin]; [by eapply rel4_moves|].
    exists (s_delete 64 m hk hb), (fun y => if decide (covers (up q) y) then ∅ else ss y). split.
    + split; [exact Hx2|]. cbn [content remade]. rewrite <- Eup. by apply like_del.
    + intros y. rewrite lookup_del, Eup. destruct (decide (covers (up q) y)) as [Hc|Hc]; [by apply xsub_nil|]. eapply xsub_moves; [exact HM'|apply I2].
Qed.
End kinds.
