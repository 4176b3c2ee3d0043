(** * iptree on memory: the calls that make a version, with the nodes they make. *)
From Verif Require Import Prog History NumSpec NumModel NumFun NumAbs NumFoot NumBits NumSim NumInplace NumNavSpec NumNavProofs NumShare NumExact StampSpec StampProofs StampTree.
From Verif Require Import IpModel IpSpec IpBits IpAbs IpAbs2 IpAbs3 IpUpd3 IpKinds IpKinds2 IpKinds3 IpVersSpec IpStampSpec IpStamp.
From Coq Require Import ZifyBool ZifyNat ZifyN.
Open Scope N_scope.

Section kinds.
Context {U : Type}.
Local Notation heap := (heap U).
Local Notation value := (value U).
Local Notation nmap := (gmap pfx (N * value)).
Local Notation kinds := (kd -> gset loc).
Local Notation ver := (ver U).
Local Notation ver0 := (ver0 U).
Local Notation iver := (iver U).
Implicit Types (h : heap) (L : kinds) (K : loc -> nat).

Lemma rsub_ext h L K x e ms (g g' : ver) : content g = content g' -> since g = since g' -> rsub h L K x e ms g -> rsub h L K x e ms g'.
Proof. intros E1 E2 (s & A). exists s. by rewrite <- E1, <- E2. Qed.
Lemma like_ins (W : N) (m m' : nmap) (k b : N) v v' : like m m' -> like (s_insert W m k b v) (put m' (norm W k b) v').
Proof. intros H q. rewrite lookup_put. unfold s_insert. destruct (decide (norm W k b = q)) as [<-|Hn]; [by rewrite lookup_insert|]. rewrite lookup_insert_ne by done. apply H. Qed.
Lemma like_del (W : N) (m m' : nmap) (k b : N) : like m m' -> like (s_delete W m k b) (cut m' (norm W k b)).
Proof. intros H q. rewrite lookup_cut, lookup_del. by destruct (decide _). Qed.
Lemma ins_other (m : nmap) hk x v y : norm 64 hk 64 = (64, x) -> y <> x -> s_insert 64 m hk 64 v !! (64, y) = m !! (64, y).
Proof. intros E Hy. rewrite (ins64 _ _ _ _ E). apply lookup_insert_ne. congruence. Qed.

Lemma i_insert h L K n WS t g nt r v : linv h L K n -> irel h L K t g -> plain v -> isnet nt r ->
  wp (ip_insert_net t nt v) h WS (fun t' h' _ => ipost h L K n t' (match r with Some p => inserted n g p v | None => g end) h').
Proof.
  intros HI Ht Hv Hr. pose proof HI as (HG & HK & HR). pose proof HG as [G1 _].
  assert (Hnone : r = None -> wp (Ret t) h WS (fun t' h' _ => ipost h L K n t' (match r with Some p => inserted n g p v | None => g end) h')).
  { intros ->. cbn [wp]. by apply ipost_same. }
  destruct nt as [nt|]; [|destruct r as [q|]; [by inversion Hr|by apply Hnone]]. unfold ip_insert_net.
  assert (Hend : forall h1 L1 K1 p4 p6 WS1 g', moves h L K h1 L1 K1 -> kgood h1 L1 -> klab h1 L1 K1 (S n) -> L1 KRoot = L KRoot -> parts h1 L1 K1 p4 p6 g' -> obj g' = Some n ->
    wp (l <- alloc (CIp p4 p6) ;; Ret (Some l)) h1 WS1 (fun t' h' _ => ipost h L K n t' g' h')).
  { intros h1 L1 K1 p4 p6 WS1 g' M HG1 HK1 Er Hp Ho. apply wp_bind, wp_alloc. intros a Ha. cbn [wp]. by eapply ipost_alloc. }
  pose proof (ip4_key_spec nt) as E4. destruct (ip4_key nt) as [[k b]|].
  { destruct E4 as (Hn & Hk & Hb). assert (r = Some (false, norm 32 k b)) as ->.
    { destruct r as [q|]; [|by apply Hr in Hn]. f_equal. by eapply net_is_fun. }
    apply wp_bind. eapply iroots; [exact Ht|]. intros p4 p6 [(m & M1 & M2 & M3) H6]. cbn [fst snd].
    apply wp_bind. eapply wp_mono; [by apply (t_insert _ c32_ok h _ (L K4) K n p4 _ k (Z.of_N b) v (HK K4 ltac:(done)) M1)|]. cbn beta. intros x h' WS' (Hs & M & Hd & Hx).
    change (cW c32) with 32 in *. rewrite adj_of in Hx by done. pose proof (did_stepped K4 n h L K h' M ltac:(done) HG Hd) as S. pose proof (step_moves _ _ _ _ _ _ _ _ HG Hs S) as HM.
    eapply Hend; [exact HM|apply S|by eapply klab_1|apply S| |done]. split.
    - eexists. split_and!; [rewrite kup_same; exact Hx|by apply plain_ins|]. intros q. cbn [inserted fst snd four content remade]. rewrite vals_ins, vals_put. by rewrite M3.
    - eapply rel6_moves; [exact HM|exact H6]. }
  pose proof (ip6_key_spec nt) as E6. destruct (ip6_key nt) as [[[[hk hb] lk] lb]|].
  2: { apply Hnone. destruct r as [[[] q]|]; [by apply E6 in Hr|by apply E4 in Hr|done]. }
  clear Hnone E4. destruct E6 as (q & Hn & Hhk & Hlk & Hvq & Klow & Khigh). assert (r = Some (true, q)) as ->.
  { destruct r as [q'|]; [|by apply Hr in Hn]. f_equal. by eapply net_is_fun. }
  apply wp_bind. eapply iroots; [exact Ht|]. intros p4 p6 [H4 (m & ss & I1 & I2)]. cbn [fst snd]. pose proof I1 as (T1 & T2 & T3 & T4).
  destruct (N.ltb_spec hb 64) as [Hhb|Hhb].
  - assert (Hq : q.1 < 64). { destruct (N.lt_ge_cases q.1 64) as [|Hge]; [done|]. destruct (Khigh Hge) as [-> _]. lia. }
    destruct (Klow Hq) as [-> Hnorm]. apply wp_bind. eapply wp_mono; [by apply (t_insert _ c64_ok h _ (L KTop) K n p6 _ hk (Z.of_N q.1) v (HK KTop ltac:(done)) T1)|]. cbn beta. intros x h' WS' (Hs & M & Hd & Hx).
    change (cW c64) with 64 in *. rewrite adj_of in Hx by lia. pose proof (did_stepped KTop n h L K h' M ltac:(done) HG Hd) as S. pose proof (step_moves _ _ _ _ _ _ _ _ HG Hs S) as HM.
    unfold inserted. cbn [fst snd]. destruct (N.ltb_spec q.1 64) as [_|]; [|lia].
    eapply Hend; [exact HM|apply S|by eapply klab_1|apply S| |done]. split; cbn [four upper inside].
    + by eapply rel4_moves.
    + exists (s_insert 64 m hk q.1 v), ss. split.
      * split_and!; [rewrite kup_same; rewrite Hnorm in Hx; exact Hx| | |].
        -- intros q' Hq'. cbn [content remade]. rewrite vals_ins, vals_put, Hnorm. by rewrite T2.
        -- cbn [content remade]. rewrite <- Hnorm at 2. by apply like_ins.
        -- intros q' k' v'. unfold s_insert. rewrite Hnorm. destruct (decide (q = q')) as [<-|Hne]; [rewrite lookup_insert; by intros [= <- <-] _|]. rewrite lookup_insert_ne by done. apply T4.
      * intros y. unfold s_insert. rewrite Hnorm, lookup_insert_ne by (intros ->; cbn [fst] in Hq; lia). eapply rsub_moves; [exact HM|apply I2].
  - assert (Hq : 64 <= q.1). { destruct (N.lt_ge_cases q.1 64) as [Hlt|]; [|done]. destruct (Klow Hlt) as [-> _]. lia. }
    destruct (Khigh Hq) as (-> & Hlb & Hnhi & Hnlo & Hhk2). change (lo q) with (rest q) in Hnlo. set (x := half q).
    assert (Enorm : norm 64 hk 64 = (64, x)) by (rewrite Hnhi; done). clear Klow Khigh Hnhi Hhk2.
    apply wp_bind. eapply wp_mono; [apply (n_exact_in _ c64_ok h _ p6 m hk (Z.of_N 64)); [done|eapply ntree_in_at, (in_set_in c64 h (L KTop) K p6 (Ver m (since (upper g)))); done]|]. cbn beta.
    intros e h1 WS1 (He & -> & _). change (cW c64) with 64 in He. change (adj 64 (Z.of_N 64)) with 64 in He.
    destruct (I2 x) as (s & Hs & Hpl & Hvs & Hm).
    apply wp_bind. assert (Hse : wp (if e.2 then as_sub e.1 else Ret None) h WS1 (fun a h' WS' => a = s /\ h' = h)).
    { rewrite He, (exact64 _ _ _ Enorm). destruct (m !! (64, x)) as [[k' v']|].
      - destruct Hm as [Hm _]. cbn [snd fst] in *. rewrite Hm. done.
      - destruct Hm as [-> _]. done. }
    eapply wp_mono; [exact Hse|]. clear Hse He. cbn beta. intros ? ? WS2 [-> ->].
    apply wp_bind. eapply wp_mono; [by apply (t_insert _ c64_ok h _ (L (KSub x)) K n s _ lk (Z.of_N lb) v (HK (KSub x) ltac:(done)) Hs)|]. cbn beta.
    intros s' h1 WS3 (Hs1 & M & Hd & Hx). change (cW c64) with 64 in *. rewrite adj_of in Hx by done. rewrite Hnlo in Hx.
    pose proof (did_stepped (KSub x) n h L K h1 M ltac:(done) HG Hd) as S. pose proof (step_moves _ _ _ _ _ _ _ _ HG Hs1 S) as HM.
    rewrite <- (kup_same L (KSub x) M) in Hx. set (L1 := kup L (KSub x) M) in *. set (K1 := mark K M n) in *.
    assert (Hl1 : labels c64 h1 (L1 KTop) K1 n) by (apply (st_others _ _ _ _ _ _ _ _ S KTop); [done|by apply (HK KTop)]).
    assert (T1' : in_set c64 h1 (L1 KTop) K1 p6 (Ver m (since (upper g)))) by (by apply (mv_in _ _ _ _ _ _ HM KTop)).
    apply wp_bind. eapply wp_mono; [by apply (t_insert _ c64_ok h1 _ (L1 KTop) K1 n p6 _ hk (Z.of_N 64) (VSub s') Hl1 T1')|]. cbn beta.
    intros x' h2 WS4 (Hs2 & M2 & Hd2 & Hx2). change (cW c64) with 64 in *. change (adj 64 (Z.of_N 64)) with 64 in Hx2.
    pose proof (did_stepped KTop n h1 L1 K1 h2 M2 ltac:(done) (st_good _ _ _ _ _ _ _ _ S) Hd2) as S2. pose proof (step_moves _ _ _ _ _ _ _ _ (st_good _ _ _ _ _ _ _ _ S) Hs2 S2) as HM2.
    rewrite <- (kup_same L1 KTop M2) in Hx2. set (L2 := kup L1 KTop M2) in *. set (K2 := mark K1 M2 n) in *.
    pose proof (moves_trans _ _ _ _ _ _ _ _ _ HM HM2) as HM'.
    unfold inserted. cbn [fst snd]. destruct (N.ltb_spec q.1 64) as [|_]; [lia|]. fold x.
    eapply Hend; [exact HM'|apply S2|eapply (klab_2 (KSub x) KTop); [done|exact HK|exact S|exact S2]|rewrite (st_root _ _ _ _ _ _ _ _ S2); apply S| |done]. split; cbn [four upper inside].
    + by eapply rel4_moves.
    + exists (s_insert 64 m hk 64 (VSub s')), (fun y => if y =? x then s_insert 64 (ss x) lk lb v else ss y). split.
      * split_and!; [rewrite Enorm in Hx2; exact Hx2| | |].
        -- intros q' Hq'. cbn [content remade]. rewrite vals_ins, vals_put, Enorm. rewrite !decide_False by (intros <-; by apply Hq'). by apply T2.
        -- cbn [content remade]. rewrite <- Enorm. by apply like_ins.
        -- intros q' k' v'. rewrite (ins64 _ _ _ _ Enorm). destruct (decide ((64, x) = q')) as [<-|Hne]; [by intros _ H|]. rewrite lookup_insert_ne by done. apply T4.
      * intros y. unfold at_half. destruct (N.eqb_spec y x) as [->|Hy].
        -- rewrite decide_True by done. rewrite (ins64 _ _ _ _ Enorm), lookup_insert. exists s'. split_and!; [apply (mv_in _ _ _ _ _ _ HM2 (KSub x)); [done|exact Hx]|by apply plain_ins| |done|apply sub_ins_ne].
           intros q'. cbn [content remade]. rewrite vals_ins, vals_put, Hnlo. by rewrite Hvs.
        -- rewrite decide_False by done. rewrite (ins_other _ _ x) by done. eapply rsub_moves; [exact HM'|apply I2].
Qed.

Lemma i_delete h L K n WS t g nt r : linv h L K n -> irel h L K t g -> isnet nt r ->
  wp (ip_delete_net t nt) h WS (fun x h' _ => ipost h L K n x.1 (match r with Some p => if x.2 then deleted n g p else g | None => g end) h' /\
    (x.2 = true <-> exists p q v, r = Some p /\ ncovers p q /\ holds g q = Some v)).
Proof.
  intros HI Ht Hr. pose proof HI as (HG & HK & HR). pose proof HG as [G1 _].
  set (Q := fun (x : ptr * bool) h' (_ : gset loc) => ipost h L K n x.1 (match r with Some p => if x.2 then deleted n g p else g | None => g end) h' /\
    (x.2 = true <-> exists p q v, r = Some p /\ ncovers p q /\ holds g q = Some v)).
  assert (Hnot : forall h' WS', h ⊆ h' -> (forall q0, r = Some q0 -> ~ below_ q0.2 (fun q => holds g (q0.1, q))) -> wp (Ret (t, false)) h' WS' Q).
  { intros h' WS' Hs Hb. cbn [wp]. split; cbn [fst snd].
    - replace (match r with Some _ => g | None => g end) with g by (by destruct r). by apply ipost_same.
    - split; [done|]. intros (p & q & v & -> & H1 & H2). exfalso. apply (Hb p eq_refl). apply below_net. by exists p, q, v. }
  destruct t as [a|].
  2: { apply Hnot; [done|]. intros q0 _ (q & v & _ & H). pose proof (irel_kitree _ _ _ _ _ HG Ht) as Hn. cbn [kitree] in Hn. by rewrite Hn in H. }
  destruct nt as [nt|]; [|destruct r as [q|]; [by inversion Hr|by apply Hnot]]. unfold ip_delete_net.
  pose proof Ht as (_ & _ & p4 & p6 & Ha & H4 & H6). apply wp_bind. eapply wp_ld_ip; [exact Ha|]. cbn [fst snd].
  assert (Hend : forall h1 L1 K1 x4 x6 WS1 q0, r = Some q0 -> moves h L K h1 L1 K1 -> kgood h1 L1 -> klab h1 L1 K1 (S n) -> L1 KRoot = L KRoot -> parts h1 L1 K1 x4 x6 (deleted n g q0) -> obj (deleted n g q0) = Some n ->
    below_ q0.2 (fun q => holds g (q0.1, q)) -> wp (l <- alloc (CIp x4 x6) ;; Ret (Some l, true)) h1 WS1 Q).
  { intros h1 L1 K1 x4 x6 WS1 q0 -> M HG1 HK1 Er Hp Ho Hb. apply wp_bind, wp_alloc. intros l Hl. cbn [wp]. split; cbn [fst snd]; [by eapply ipost_alloc|]. split; [|done]. intros _. by apply below_net. }
  pose proof (ip4_key_spec nt) as E4. destruct (ip4_key nt) as [[k b]|].
  { destruct E4 as (Hn & Hk & Hb). assert (r = Some (false, norm 32 k b)) as ->.
    { destruct r as [q|]; [|by apply Hr in Hn]. f_equal. by eapply net_is_fun. }
    destruct H4 as (m & M1 & M2 & M3).
    apply wp_bind. eapply wp_mono; [by apply (t_delete _ c32_ok h WS (L K4) K n p4 _ k (Z.of_N b) (HK K4 ltac:(done)) M1)|]. cbn beta. intros [x f] h' WS' (Hs & Hdel & Hx). cbn [fst snd content] in *.
    change (cW c32) with 32 in *. rewrite adj_of in Hx, Hdel by done.
    assert (Hg : forall q, holds g (false, q) = vals m q) by (intros q; unfold holds; cbn [fst snd]; symmetry; apply M3).
    pose proof (deleted_below 32 m k b f _ Hg Hdel) as Hfl. destruct f.
    - destruct Hx as (M & Hd & Hx). pose proof (did_stepped K4 n h L K h' M ltac:(done) HG Hd) as S. pose proof (step_moves _ _ _ _ _ _ _ _ HG Hs S) as HM.
      eapply Hend; [done|exact HM|apply S|by eapply klab_1|apply S| |done|cbn [fst snd]; by apply Hfl]. split.
      + eexists. split_and!; [rewrite kup_same; exact Hx|by apply plain_del|]. intros q. cbn [deleted fst snd four content remade]. rewrite vals_del, vals_cut. by rewrite M3.
      + eapply rel6_moves; [exact HM|exact H6].
    - apply Hnot; [done|]. intros ? [= <-] H. cbn [fst snd] in H. by apply Hfl in H. }
  pose proof (ip6_key_spec nt) as E6. destruct (ip6_key nt) as [[[[hk hb] lk] lb]|].
  2: { apply Hnot; [done|]. intros [[] q] ->; [by apply E6 in Hr|by apply E4 in Hr]. }
  clear E4. destruct E6 as (q & Hn & Hhk & Hlk & Hvq & Klow & Khigh). assert (r = Some (true, q)) as ->.
  { destruct r as [q'|]; [|by apply Hr in Hn]. f_equal. by eapply net_is_fun. }
  destruct H6 as (m & ss & I1 & I2). pose proof I1 as (T1 & T2 & T3 & T4). pose proof (rel_ksubs _ _ _ _ _ _ _ _ HG I1 I2) as Hks. pose proof (ksubs_subs _ _ _ _ HG Hks) as I2'.
  assert (Htop : ntree_at c64 h p6 m) by (eapply ntree_in_at, (in_set_in c64 h (L KTop) K p6 (Ver m (since (upper g)))); done).
  assert (I6 : forall q, holds g (true, q) = six m ss q). { intros q'. rewrite (rel_six _ _ _ _ _ _ _ _ q' I1 I2). done. }
  pose proof (below_six (fun q => holds g (true, q)) m ss q I6) as Hbs.
  assert (Hnot' : forall h' WS', h ⊆ h' -> ~ below_ q (six m ss) -> wp (Ret (Some a, false)) h' WS' Q).
  { intros h' WS' Hs Hb. apply Hnot; [done|]. intros ? [= <-] H. cbn [fst snd] in H. by apply Hb, Hbs. }
  destruct (N.ltb_spec hb 64) as [Hhb|Hhb].
  - assert (Hq : q.1 < 64). { destruct (N.lt_ge_cases q.1 64) as [|Hge]; [done|]. destruct (Khigh Hge) as [-> _]. lia. }
    destruct (Klow Hq) as [-> Hnorm]. apply wp_bind.
    eapply wp_mono; [by apply (t_delete _ c64_ok h WS (L KTop) K n p6 _ hk (Z.of_N q.1) (HK KTop ltac:(done)) T1)|]. cbn beta. intros [x f] h' WS' (Hs & Hdel & Hx). cbn [fst snd content] in *.
    change (cW c64) with 64 in *. rewrite adj_of in Hx, Hdel by lia.
    pose proof (flag_low _ _ _ _ _ _ _ _ _ _ I2' Htop Hnorm Hq Hdel) as Hfl.
    destruct f; [|eapply Hnot'; [done|]; intros H; by apply Hfl in H].
    destruct Hx as (M & Hd & Hx). pose proof (did_stepped KTop n h L K h' M ltac:(done) HG Hd) as S. pose proof (step_moves _ _ _ _ _ _ _ _ HG Hs S) as HM.
    eapply (Hend _ _ _ _ _ _ (true, q)); [done|exact HM|apply S|by eapply klab_1|apply S| | |cbn [fst snd]; by apply Hbs, Hfl]; unfold deleted; cbn [fst snd]; (destruct (N.ltb_spec q.1 64) as [_|]; [|lia]); [|done].
    split; cbn [four upper inside].
    + by eapply rel4_moves.
    + exists (s_delete 64 m hk q.1), (fun y => if decide (covers q (64, y)) then ∅ else ss y). split.
      * split_and!; [rewrite kup_same; rewrite Hnorm in Hx; exact Hx| | |].
        -- intros q' Hq'. cbn [content remade]. rewrite vals_del, vals_cut, Hnorm. by rewrite T2.
        -- cbn [content remade]. rewrite <- Hnorm at 2. by apply like_del.
        -- intros q' k' v'. rewrite lookup_del. destruct (decide _); [done|]. apply T4.
      * intros y. rewrite lookup_del, Hnorm. destruct (decide (covers q (64, y))) as [Hc|Hc]; [|eapply rsub_moves; [exact HM|apply I2]].
        exists None. split_and!; [by apply in_set_nil|by intros ???|done|done|done].
  - assert (Hq : 64 <= q.1). { destruct (N.lt_ge_cases q.1 64) as [Hlt|]; [|done]. destruct (Klow Hlt) as [-> _]. lia. }
    destruct (Khigh Hq) as (-> & Hlb & Hnhi & Hnlo & Hhk2). pose proof Hnlo as Hnlo'. change (lo q) with (rest q) in Hnlo. set (x := half q).
    assert (Enorm : norm 64 hk 64 = (64, x)) by (rewrite Hnhi; done). clear Klow Khigh Hnhi Hhk2.
    apply wp_bind. eapply wp_mono; [by apply (n_exact_in _ c64_ok h WS p6 m hk (Z.of_N 64))|]. cbn beta.
    intros e h1 WS1 (He & -> & _). change (cW c64) with 64 in He. change (adj 64 (Z.of_N 64)) with 64 in He.
    rewrite (exact64 _ _ _ Enorm) in He.
    destruct (I2 x) as (s & Hs & Hpl & Hvs & Hm).
    destruct (m !! (64, x)) as [[k' v']|] eqn:Em.
    2: { subst e. cbn [fst snd]. eapply Hnot'; [done|]. intros (q' & v & Hc & Hq').
         assert (64 <= q'.1) by (destruct Hc; lia). apply six_high in Hq' as [k' Hq']; [|done]. apply cov_high in Hc as [Hh _]; [|done..].
         rewrite <- Hh in Hq'. change (hi q).2 with x in Hq'. destruct Hm as (_ & E). rewrite E in Hq'. by rewrite lookup_empty in Hq'. }
    destruct Hm as [Hm Hne]. cbn [snd] in Hm. subst v'. subst e. cbn [fst snd as_sub bind].
    apply wp_bind. eapply wp_mono; [by apply (t_delete _ c64_ok h WS1 (L (KSub x)) K n s _ lk (Z.of_N lb) (HK (KSub x) ltac:(done)) Hs)|]. cbn beta.
    intros [s' f] h1 WS2 (Hs1 & Hdel & Hx). cbn [fst snd content] in *. change (cW c64) with 64 in *. rewrite adj_of in Hx, Hdel by done.
    pose proof (flag_high _ _ _ _ _ _ _ _ _ I2' Hnlo' Hq Hdel) as Hfl.
    destruct f; [|eapply Hnot'; [done|]; intros H; by apply Hfl in H]. rewrite Hnlo in Hx.
    destruct Hx as (M & Hd & Hx). pose proof (did_stepped (KSub x) n h L K h1 M ltac:(done) HG Hd) as S. pose proof (step_moves _ _ _ _ _ _ _ _ HG Hs1 S) as HM.
    rewrite <- (kup_same L (KSub x) M) in Hx. set (L1 := kup L (KSub x) M) in *. set (K1 := mark K M n) in *.
    assert (Hl1 : labels c64 h1 (L1 KTop) K1 n) by (apply (st_others _ _ _ _ _ _ _ _ S KTop); [done|by apply (HK KTop)]).
    assert (T1' : in_set c64 h1 (L1 KTop) K1 p6 (Ver m (since (upper g)))) by (by apply (mv_in _ _ _ _ _ _ HM KTop)).
    assert (Hvd : forall q', vals (s_delete 64 (ss x) lk lb) q' = vals (cut (content (inside g x)) (rest q)) q') by (intros q'; rewrite vals_del, vals_cut, Hnlo; by rewrite Hvs).
    pose proof (vals_empty _ _ Hvd) as Hemp. pose proof (in_set_none c64 _ _ _ _ _ Hx) as Hsn. cbn [content remade] in Hsn.
    (* what is left is made anew *)
    assert (Hlast : forall x' h2 M2 m', h1 ⊆ h2 -> did c64 h1 h2 (L1 KTop) M2 K1 n -> in_set c64 h2 (L1 KTop ∪ M2) (mark K1 M2 n) x' (remade n (Ver m (since (upper g))) (64, x) m') ->
       (forall q', q' <> (64, x) -> m' !! q' = m !! q') -> (m' !! (64, x) = None <-> s_delete 64 (ss x) lk lb = ∅) -> (forall kv, m' !! (64, x) = Some kv -> kv.2 = VSub s') ->
       forall WS3, wp (l <- alloc (CIp p4 x') ;; Ret (Some l, true)) h2 WS3 Q).
    { intros x' h2 M2 m' Hs2 Hd2 Hx2 Hoth H64 Hval WS3.
      pose proof (did_stepped KTop n h1 L1 K1 h2 M2 ltac:(done) (st_good _ _ _ _ _ _ _ _ S) Hd2) as S2. pose proof (step_moves _ _ _ _ _ _ _ _ (st_good _ _ _ _ _ _ _ _ S) Hs2 S2) as HM2.
      rewrite <- (kup_same L1 KTop M2) in Hx2. set (L2 := kup L1 KTop M2) in *. set (K2 := mark K1 M2 n) in *.
      pose proof (moves_trans _ _ _ _ _ _ _ _ _ HM HM2) as HM'.
      eapply (Hend _ _ _ _ _ _ (true, q)); [done|exact HM'|apply S2|eapply (klab_2 (KSub x) KTop); [done|exact HK|exact S|exact S2]|rewrite (st_root _ _ _ _ _ _ _ _ S2); apply S| | |cbn [fst snd]; by apply Hbs, Hfl]; unfold deleted; cbn [fst snd]; (destruct (N.ltb_spec q.1 64) as [|_]; [lia|]); [|done].
      fold x. set (mc := cut (content (inside g x)) (rest q)) in *. split; cbn [four upper inside]; [by eapply rel4_moves|].
      assert (Hup : forall q', vals (if decide (mc = ∅) then cut (content (upper g)) (64, x) else content (upper g)) q' = if decide (mc = ∅ /\ covers (64, x) q') then None else vals (content (upper g)) q').
      { intros q'. destruct (decide (mc = ∅)) as [E|E].
        - rewrite vals_cut. destruct (decide (covers (64, x) q')) as [Hc|Hc]; [by rewrite decide_True|rewrite decide_False; [done|by intros [_ ?]]].
        - rewrite decide_False; [done|by intros [? _]]. }
      assert (Hcov : forall q', covers (64, x) q' -> q' <> (64, x) -> m !! q' = None).
      { intros q' Hc Hne'. destruct (m !! q') as [[k1 v1]|] eqn:E'; [|done]. exfalso. apply Hne'. pose proof (top_le _ _ _ _ _ _ Htop E') as [Hle _].
        assert (q'.1 = 64) by (destruct Hc as [Hc _]; cbn [fst] in Hc; lia). symmetry. eapply covers_same_len; [exact Hc|apply covers_refl|done]. }
      exists m', (fun y => if y =? x then s_delete 64 (ss x) lk lb else ss y). split.
      - split_and!; [exact Hx2| | |].
        + intros q' Hq'. cbn [content remade]. rewrite Hup. assert (Hn' : q' <> (64, x)) by (intros ->; by apply Hq'). assert (vals m' q' = vals m q') as -> by (unfold vals; by rewrite Hoth).
          rewrite T2 by done. destruct (decide (mc = ∅ /\ covers (64, x) q')) as [[_ Hc]|]; [|done]. rewrite <- T2 by done. apply vals_none. by apply Hcov.
        + intros q'. cbn [content remade]. rewrite <- (vals_none (if decide (mc = ∅) then cut (content (upper g)) (64, x) else content (upper g))), Hup, <- vals_none. destruct (decide (q' = (64, x))) as [->|Hn'].
          * rewrite vals_none, H64, Hemp. destruct (decide (mc = ∅ /\ covers (64, x) (64, x))) as [[E _]|E]; [done|]. rewrite vals_none. split; [intros E'; exfalso; apply E; split; [done|apply covers_refl]|]. intros E'. apply T3 in E'. pose proof (eq_trans (eq_sym Em) E') as E2. discriminate E2.
          * rewrite vals_none, Hoth by done. destruct (decide (mc = ∅ /\ covers (64, x) q')) as [[E Hc]|E]; [|rewrite vals_none; apply T3]. split; [done|]. intros _. by apply Hcov.
        + intros q' k1 v1 E' Hq'. rewrite Hoth in E' by (intros ->; by apply Hq'). by eapply T4.
      - intros y. unfold at_half. destruct (N.eqb_spec y x) as [->|Hy].
        + rewrite decide_True by done. exists s'. split_and!; [apply (mv_in _ _ _ _ _ _ HM2 (KSub x)); [done|exact Hx]|by apply plain_del|done|].
          destruct (m' !! (64, x)) as [kv|] eqn:E'; [split; [by apply Hval|]; intros E''; apply H64 in E''; done|]. assert (E2 : s_delete 64 (ss x) lk lb = ∅) by (by apply H64). split; [by apply Hsn|done].
        + rewrite decide_False by done. rewrite Hoth by congruence. eapply rsub_moves; [exact HM'|apply I2]. }
    destruct s' as [s'|].
    + apply wp_bind. eapply wp_mono; [by apply (t_insert _ c64_ok h1 WS2 (L1 KTop) K1 n p6 _ hk (Z.of_N 64) (VSub (Some s')) Hl1 T1')|]. cbn beta.
      intros x' h2 WS4 (Hs2 & M2 & Hd2 & Hx2). change (cW c64) with 64 in *. change (adj 64 (Z.of_N 64)) with 64 in Hx2. cbn [content] in Hx2. rewrite Enorm, (ins64 _ _ _ _ Enorm) in Hx2.
      eapply Hlast; [exact Hs2|exact Hd2|exact Hx2| | |].
      * intros q' Hq'. by rewrite lookup_insert_ne.
      * rewrite lookup_insert. split; [done|]. intros E. by apply Hsn in E.
      * intros kv. rewrite lookup_insert. by intros [= <-].
    + apply bind_assoc. cbn [bind].
      apply wp_bind. eapply wp_mono; [by apply (t_delete _ c64_ok h1 WS2 (L1 KTop) K1 n p6 _ hk (Z.of_N 64) Hl1 T1')|]. cbn beta.
      intros [x' f'] h2 WS4 (Hs2 & Hdel2 & Hx2). cbn [bind fst snd content] in *. change (cW c64) with 64 in *. change (adj 64 (Z.of_N 64)) with 64 in Hx2, Hdel2.
      assert (f' = true) as ->. { apply Hdel2. exists (64, x). rewrite Enorm. split; [eexists; exact Em|apply covers_refl]. }
      destruct Hx2 as (M2 & Hd2 & Hx2). rewrite Enorm in Hx2.
      eapply Hlast; [exact Hs2|exact Hd2|exact Hx2| | |].
      * intros q' Hne'. rewrite lookup_del, Enorm. destruct (decide _) as [Hc|]; [|done]. destruct (m !! q') as [[k1 v1]|] eqn:E'; [|done].
        exfalso. apply Hne'. pose proof (top_le _ _ _ _ _ _ Htop E') as [Hle _]. assert (q'.1 = 64) by (destruct Hc as [Hc _]; cbn [fst] in Hc; lia). symmetry. eapply covers_same_len; [exact Hc|apply covers_refl|done].
      * rewrite lookup_del, Enorm, decide_True by apply covers_refl. split; [|done]. intros _. by apply Hsn.
      * intros kv. rewrite lookup_del, Enorm, decide_True by apply covers_refl. done.
Qed.
End kinds.
