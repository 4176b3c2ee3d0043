(** * uintX iptree on memory: many trees, by kinds of nodes as in IpKinds.v. *)
From Verif Require Import Prog NumModel NumBits NumFun NumSim NumSpec NumAbs NumFoot IpModel IpSpec IpBits IpAbs IpAbs2 IpAbs3 NumShare IpKinds UxModel UxAbs UxAbs2 UxAbs3.
From Coq Require Import ZifyBool ZifyNat ZifyN.
Open Scope N_scope.

(** The trees below the key [x] of the tree of upper parts are of kind [KSub (en x)]. *)
Definition en (x : pfx) : N := Npos (encode x).
Definition de (y : N) : option pfx := match y with N0 => None | Npos p => match decode (A := pfx) p with Some x => if decide (encode x = p) then Some x else None | None => None end end.
Lemma en_inj x y : en x = en y -> x = y.
Proof. unfold en. intros [= H]. by apply (inj encode). Qed.
Lemma de_en x : de (en x) = Some x.
Proof. unfold de, en. rewrite decode_encode. by rewrite decide_True. Qed.
Lemma de_some y x : de y = Some x -> y = en x.
Proof. unfold de, en. destruct y as [|p]; [done|]. destruct (decode p) as [x'|]; [|done]. destruct (decide _) as [<-|]; [|done]. by intros [= ->]. Qed.

Section kinds.
Context {U : Type}.
Local Notation heap := (heap U).
Local Notation value := (value U).
Local Notation nmap := (@gmap pfx (@prod_eq_dec N N_eq_dec N N_eq_dec) (@prod_countable N N_eq_dec N_countable N N_eq_dec N_countable) (prod N value)).
Local Notation kinds := (kd -> gset loc).
Local Notation KS x := (KSub (en x)).
Implicit Types (h : heap) (K : kinds).

Record uksubs h K (m : nmap) (ss : pfx -> nmap) : Prop := {
  uk_at : forall x, exists s, ntree_in c64 h (K (KS x)) s (ss x) /\
     match m !! x with Some kv => kv.2 = VSub s /\ ss x <> ∅ | None => s = None /\ ss x = ∅ end;
  uk_low : forall x l kv, x.1 < 64 -> ss x !! l = Some kv -> l = (0, 0);
  uk_plain : forall x, plain_map (ss x) }.
Definition uktree6 h K (p : ptr) (g : pfx -> option value) : Prop :=
  exists m ss, ntree_in c64 h (K KTop) p m /\ uksubs h K m ss /\ forall q, g q = us ss q.
Definition ukitree h K (t : ptr) (G : net -> option value) : Prop :=
  match t with
  | None => forall q, G q = None
  | Some a => a ∈ K KRoot /\ exists r4 r6, h !! a = Some (CIp r4 r6) /\ ktree4 h K r4 (fun q => G (false, q)) /\ uktree6 h K r6 (fun q => G (true, q))
  end.
Lemma uksubs_mono h h' K K' m ss : h ⊆ h' -> kle K K' -> kgood h' K' -> uksubs h K m ss -> uksubs h' K' m ss.
Proof. intros Hs HK [G1 _] [S1 S2 S3]. split; try done. intros x. destruct (S1 x) as (s & A & B). exists s. split; [|done]. eapply in_grow; [exact Hs|apply HK|apply G1|eassumption]. Qed.
Lemma uktree6_mono h h' K K' p g : h ⊆ h' -> kle K K' -> kgood h' K' -> uktree6 h K p g -> uktree6 h' K' p g.
Proof. intros Hs HK HG (m & ss & H1 & H2 & H3). exists m, ss. split_and!; [|by eapply uksubs_mono|done]. destruct HG as [G1 _]. eapply in_grow; [exact Hs|apply HK|apply G1|eassumption]. Qed.
Lemma ukitree_mono h h' K K' t G : h ⊆ h' -> kle K K' -> kgood h' K' -> ukitree h K t G -> ukitree h' K' t G.
Proof.
  intros Hs HK HG. destruct t as [a|]; [|done]. intros (Hr & r4 & r6 & Ha & H4 & H6). split; [by apply HK|]. exists r4, r6. split_and!; [by eapply lookup_weaken|by eapply ktree4_mono|by eapply uktree6_mono].
Qed.
Lemma ukitree_ext h K t G G' : (forall q, G q = G' q) -> ukitree h K t G -> ukitree h K t G'.
Proof.
  intros H. destruct t as [a|]; [|by intros H' q; rewrite <- H]. intros (Hr & r4 & r6 & Ha & (m4 & A1 & A2 & A3) & (m & ss & B1 & B2 & B3)). split; [done|]. exists r4, r6. split_and!; [done| |].
  - exists m4. split_and!; [done|done|]. intros q. by rewrite <- H.
  - exists m, ss. split_and!; [done|done|]. intros q. by rewrite <- H.
Qed.
Lemma uktree6_nil h K (g : pfx -> option value) : kgood h K -> (forall q, g q = None) -> uktree6 h K None g.
Proof.
  intros HG H. exists ∅, (fun _ => ∅). split_and!; [by apply in_nil| |].
  - split; try done. intros x. exists None. rewrite lookup_empty. split; [by apply in_nil|done].
  - intros q. by rewrite H.
Qed.
(** *** From and to trees taken alone. *)
Lemma uksubs_usubs h K (m : nmap) ss : kgood h K -> uksubs h K m ss -> usubs h m ss (K KTop) (fun x => if m !! x then K (KS x) else ∅).
Proof.
  intros [G1 G2] [S1 S2 S3]. split; [|done|done| |].
  - intros x. destruct (S1 x) as (s & X1 & X2). exists s. destruct (m !! x) as [kv|]; [done|]. destruct X2 as (-> & X2). rewrite X2. split; [apply ntree_in_nil|done].
  - intros x. destruct (m !! x); [by apply G2|]. clear. set_solver.
  - intros x y Hxy. destruct (m !! x); [|clear; set_solver]. destruct (m !! y); [|clear; set_solver]. apply G2. intros E. apply Hxy, en_inj. congruence.
Qed.
Lemma ukitree_utree h K t G : kgood h K -> ukitree h K t G -> utree h t G.
Proof.
  intros HG. pose proof HG as [G1 G2]. destruct t as [a|]; [|done]. intros (Hr & r4 & r6 & Ha & (m4 & A1 & A2 & A3) & (m & ss & B1 & S & B3)).
  exists r4, r6, (K K4), (dom h ∖ (K K4 ∪ K KRoot)). split_and!; [done|by exists m4| |clear; set_solver| |clear -Hr; set_solver].
  2: { assert (K KRoot ## K K4) as HH by (by apply G2). clear -Hr HH. set_solver. }
  exists m, ss, (K KTop), (fun x => if m !! x then K (KS x) else ∅).
  assert (Hsub : forall i, i <> K4 -> i <> KRoot -> K i ⊆ dom h ∖ (K K4 ∪ K KRoot)).
  { intros i H1 H2. pose proof (G1 i) as X1. pose proof (G2 i K4 H1) as X2. pose proof (G2 i KRoot H2) as X3. clear -X1 X2 X3. set_solver. }
  split_and!; [done|by apply uksubs_usubs|by apply Hsub| |clear; set_solver|done].
  intros x. destruct (m !! x); [by apply Hsub|]. clear. set_solver.
Qed.
(** A tree that is new. *)
Definition ukpost h K (t : ptr) (G : net -> option value) h' : Prop := exists K', kle K K' /\ kgood h' K' /\ ukitree h' K' t G /\ h ⊆ h'.
Lemma ukitree_new h h' hp K t G : kgood h K -> utree hp t G -> hp ⊆ h' -> h ⊆ h' -> dom hp ## dom h -> ukpost h K t G h'.
Proof.
  intros HG Ht Hs Hs' Hd. pose proof HG as [G1 G2]. pose proof (subseteq_dom _ _ Hs) as D. pose proof (subseteq_dom _ _ Hs') as D'.
  destruct t as [a|].
  2: { exists K. split_and!; [apply kle_refl| |done|done]. split; [|done]. intros i. by etrans; [apply G1|]. }
  destruct Ht as (r4 & r6 & F4 & F6 & Ha & (m4 & A1 & A2 & A3) & (m & ss & F0 & Fs & I1 & [S1 S2 S3 S4 S5] & I3 & I4 & I5 & I6) & Hd46 & Ha4 & Ha6).
  set (N := fun i => match i with KRoot => {[a]} | K4 => F4 | KTop => F0 | KSub y => match de y with Some x => Fs x | None => ∅ end end).
  assert (N1 : forall i, N i ⊆ dom hp).
  { intros [| | |y]; cbn [N]; [apply elem_of_dom_2 in Ha; clear -Ha; set_solver|by eapply ntree_in_dom|by eapply ntree_in_dom|]. destruct (de y) as [x|]; [by etrans; [apply I4|]|clear; set_solver]. }
  assert (N2 : forall i j, i <> j -> N i ## N j).
  { assert (Ho : forall i, i <> KRoot -> a ∉ N i).
    { intros [| | |y]; cbn [N]; [done|done|clear -Ha6 I3; set_solver|]. intros _. destruct (de y) as [x|]; [|clear; set_solver]. specialize (I4 x). clear -Ha6 I4. set_solver. }
    assert (H40 : F4 ## F0) by (clear -Hd46 I3; set_solver). assert (H4s : forall y, F4 ## N (KSub y)).
    { intros y. cbn [N]. destruct (de y) as [x|]; [|clear; set_solver]. specialize (I4 x); clear -Hd46 I4; set_solver. }
    assert (H0s : forall y, F0 ## N (KSub y)). { intros y. cbn [N]. destruct (de y) as [x|]; [|clear; set_solver]. symmetry. apply S4. }
    assert (Hss : forall y z, y <> z -> N (KSub y) ## N (KSub z)).
    { intros y z Hyz. cbn [N]. destruct (de y) as [x|] eqn:Ey; [|clear; set_solver]. destruct (de z) as [x'|] eqn:Ez; [|clear; set_solver]. apply S5. intros <-. apply de_some in Ey, Ez. congruence. }
    intros i j Hij. destruct (decide (i = KRoot)) as [->|Hi]; [|destruct (decide (j = KRoot)) as [->|Hj]].
    - cbn [N]. assert (a ∉ N j) as H by auto. intros l L1 L2. apply elem_of_singleton in L1 as ->. done.
    - cbn [N]. assert (a ∉ N i) as H by auto. intros l L1 L2. apply elem_of_singleton in L2 as ->. done.
    - destruct i as [| | |x], j as [| | |y]; first [done|apply H40|symmetry; apply H40|apply H4s|symmetry; apply H4s|apply H0s|symmetry; apply H0s|apply Hss; congruence]. }
  exists (fun i => K i ∪ N i). assert (HK : kle N (fun i => K i ∪ N i)) by (intros i; clear; set_solver).
  assert (HG' : kgood h' (fun i => K i ∪ N i)).
  { split.
    - intros i. apply union_least; [by etrans; [apply G1|]|by etrans; [apply N1|]].
    - intros i j Hij. pose proof (G2 i j Hij) as X1. pose proof (N2 i j Hij) as X2. pose proof (N1 i) as X3. pose proof (N1 j) as X4. pose proof (G1 i) as X5. pose proof (G1 j) as X6. clear -X1 X2 X3 X4 X5 X6 Hd. set_solver. }
  split_and!; [intros i; clear; set_solver|done| |done]. eapply (ukitree_mono hp h' N); [done|done|done|]. split; [cbn [N]; clear; set_solver|]. exists r4, r6. split_and!; [done|by exists m4|].
  exists m, ss. split_and!; [done| |done]. split; [|done|done]. intros x. destruct (S1 x) as (s & X1 & X2). exists s. split; [cbn [N]; by rewrite de_en|]. destruct (m !! x); [done|]. naive_solver.
Qed.
Lemma ukpost_alloc h h1 K K1 r4 r6 G a : kle K K1 -> h ⊆ h1 -> kgood h1 K1 -> ktree4 h1 K1 r4 (fun q => G (false, q)) -> uktree6 h1 K1 r6 (fun q => G (true, q)) ->
  h1 !! a = None -> ukpost h K (Some a) G (<[a := CIp r4 r6]> h1).
Proof.
  intros HK Hs HG H4 H6 Ha. set (h2 := <[a := CIp r4 r6]> h1). assert (Hs2 : h1 ⊆ h2) by (by apply insert_subseteq).
  assert (HG2 : kgood h2 (kup K1 KRoot {[a]})).
  { eapply kup_good; [exact HG|by apply subseteq_dom|unfold h2; rewrite dom_insert; clear; set_solver|]. intros l Hl. apply elem_of_singleton in Hl as ->. by right. }
  exists (kup K1 KRoot {[a]}). split_and!; [eapply kle_trans; [exact HK|apply kup_le]|done| |by etrans].
  split; [rewrite kup_same; clear; set_solver|]. exists r4, r6. split_and!; [apply lookup_insert|eapply ktree4_mono; [exact Hs2|apply kup_le|done|done]|eapply uktree6_mono; [exact Hs2|apply kup_le|done|done]].
Qed.
Lemma ukroots h K WS t G (Q : ptr * ptr -> heap -> gset loc -> Prop) : kgood h K -> ukitree h K t G ->
  (forall r4 r6, ktree4 h K r4 (fun q => G (false, q)) -> uktree6 h K r6 (fun q => G (true, q)) -> Q (r4, r6) h WS) ->
  wp (ip_roots t) h WS Q.
Proof.
  intros HG Ht HQ. destruct t as [a|].
  - destruct Ht as (Hr & r4 & r6 & Ha & H4 & H6). eapply wp_ld_ip; [exact Ha|]. by eapply HQ.
  - cbn [ip_roots wp]. apply HQ; [by apply ktree4_nil|by apply uktree6_nil].
Qed.
Lemma ukpost_same h h' K t G : kgood h K -> h ⊆ h' -> ukitree h K t G -> ukpost h K t G h'.
Proof.
  intros HG Hs Ht. assert (HG' : kgood h' K). { destruct HG as [G1 G2]. split; [|done]. intros i. etrans; [apply G1|]. by apply subseteq_dom. }
  exists K. split_and!; [apply kle_refl|done|eapply ukitree_mono; [exact Hs|apply kle_refl|done|exact Ht]|done].
Qed.

(** ** Changing the upper tree. *)
Lemma uksubs_set h h' K K' m ss (x : pfx) (k : N) (s' : ptr) (mx : nmap) : uksubs h K m ss ->
  (forall y s, y <> x -> ntree_in c64 h (K (KS y)) s (ss y) -> ntree_in c64 h' (K' (KS y)) s (ss y)) ->
  ntree_in c64 h' (K' (KS x)) s' mx -> mx <> ∅ -> plain_map mx -> (forall l kv, x.1 < 64 -> mx !! l = Some kv -> l = (0, 0)) ->
  uksubs h' K' (<[x := (k, VSub s')]> m) (put ss x mx).
Proof.
  intros [S1 S2 S3] Ho Hx Hne Hpl Hlow. split.
  - intros y. destruct (decide (y = x)) as [->|Hy].
    + exists s'. rewrite lookup_insert, put_eq. done.
    + destruct (S1 y) as (s & Hs & Hm). exists s. rewrite put_ne, lookup_insert_ne by congruence. split; [by apply Ho|done].
  - intros y l kv. destruct (decide (y = x)) as [->|Hy]; [rewrite put_eq; apply Hlow|rewrite put_ne by done; apply S2].
  - intros y. unfold put. by destruct (decide _).
Qed.

(** ** Insert. *)
Lemma uk_insert h K WS t G n r v : kgood h K -> ukitree h K t G -> plain v -> isnet n r ->
  wp (ux_insert_net t n v) h WS (fun t' h' _ => ukpost h K t' (g_upd r (fun q => g_ins q v) G) h' /\ (r = None -> t' = t) /\ (r <> None -> exists a, t' = Some a /\ a ∉ dom h)).
Proof.
  intros HG Ht Hv Hr.
  assert (Hnone : r = None -> wp (Ret t) h WS (fun t' h' _ => ukpost h K t' (g_upd r (fun q => g_ins q v) G) h' /\ (r = None -> t' = t) /\ (r <> None -> exists a, t' = Some a /\ a ∉ dom h))).
  { intros ->. cbn [wp]. split_and!; [|done|done]. by apply ukpost_same. }
  destruct n as [n|]; [|destruct r as [q|]; [by inversion Hr|by apply Hnone]]. unfold ux_insert_net.
  assert (Hend : forall h1 K1 r4 r6 WS1 G', r <> None -> kle K K1 -> h ⊆ h1 -> kgood h1 K1 -> ktree4 h1 K1 r4 (fun q => G' (false, q)) -> uktree6 h1 K1 r6 (fun q => G' (true, q)) ->
    wp (l <- alloc (CIp r4 r6) ;; Ret (Some l)) h1 WS1 (fun t' h' _ => ukpost h K t' G' h' /\ (r = None -> t' = t) /\ (r <> None -> exists a, t' = Some a /\ a ∉ dom h))).
  { intros h1 K1 r4 r6 WS1 G' Hrn HK Hs HG1 H4 H6. apply wp_bind, wp_alloc. intros a Ha. cbn [wp]. split_and!; [by eapply ukpost_alloc|done|]. intros _. exists a. split; [done|]. apply subseteq_dom in Hs. apply not_elem_of_dom in Ha. auto. }
  apply wp_bind. eapply ukroots; [exact HG|exact Ht|]. intros r4 r6 H4 H6. cbn [fst snd].
  pose proof HG as [GG1 GG2]. pose proof (ip4_key_spec n) as E4. destruct (ip4_key n) as [[k b]|].
  { destruct E4 as (Hn & Hk & Hb). assert (r = Some (false, norm 32 k b)) as ->.
    { destruct r as [q|]; [|by apply Hr in Hn]. f_equal. by eapply net_is_fun. }
    destruct H4 as (m & M1 & M2 & M3).
    apply wp_bind. eapply wp_mono; [by apply (n_insert_in _ c32_ok h _ (K K4) r4 m k (Z.of_N b) v)|]. cbn beta. intros x h' WS' ((F' & Hx & Hf) & Hs & _). change (cW c32) with 32 in *. rewrite adj_of in Hx by done.
    pose proof (subseteq_dom _ _ Hs) as Dh. assert (HG' : kgood h' (kup K K4 F')) by (eapply kup_good; [exact HG|done|by eapply ntree_in_dom|done]).
    eapply (Hend h' (kup K K4 F')); [done|apply kup_le|done|done| |].
    - eexists. split_and!; [apply in_kup; [by etrans; [apply GG1|]|exact Hx]|by apply plain_ins|]. intros q. cbn [g_upd fst snd Bool.eqb]. rewrite vals_ins. unfold g_ins. by rewrite M3.
    - eapply uktree6_mono; [exact Hs|apply kup_le|done|exact H6]. }
  pose proof (ux_key_spec n) as E6. destruct (ip6_key n) as [[[[hk hb] lk] lb]|].
  2: { apply Hnone. destruct r as [[[] q]|]; [by apply E6 in Hr|by apply E4 in Hr|done]. }
  clear Hnone E4. destruct E6 as (q & Hn & Hvq & Hhk & Hhb & Hlk & Hlb & Eup & Edn & _). assert (r = Some (true, q)) as ->.
  { destruct r as [q'|]; [|by apply Hr in Hn]. f_equal. by eapply net_is_fun. }
  destruct H6 as (m & ss & I1 & I2 & I6). set (x := up q) in *.
  apply wp_bind. eapply wp_mono; [apply (n_exact_in _ c64_ok h _ r6 m hk (Z.of_N hb)); [done|by eapply ntree_in_at]|]. cbn beta.
  intros e h1 WS1 (He & -> & _). change (cW c64) with 64 in He. rewrite adj_of in He by done. rewrite (exact_up _ _ _ _ Eup) in He.
  destruct (uk_at _ _ _ _ I2 x) as (s & Hs & Hm).
  assert (Hse : (if e.2 then sub_of e.1 else None) = s).
  { destruct (m !! x) as [kv|]; subst e; cbn [fst snd].
    - destruct Hm as [-> _]. done.
    - by destruct Hm as [-> _]. }
  cbv zeta. rewrite Hse. clear Hse He.
  apply wp_bind. eapply wp_mono; [by apply (n_insert_in _ c64_ok h _ (K (KS x)) s (ss x) lk (Z.of_N lb) v)|]. cbn beta.
  intros s' h1 WS3 ((Fx & Hs' & Hfx) & Hs1 & _). change (cW c64) with 64 in *. rewrite adj_of in Hs' by done.
  pose proof (subseteq_dom _ _ Hs1) as D1. assert (HG1 : kgood h1 (kup K (KS x) Fx)) by (eapply kup_good; [exact HG|done|by eapply ntree_in_dom|done]). set (K1 := kup K (KS x) Fx) in *.
  assert (HK1 : kle K K1) by apply kup_le.
  apply wp_bind. eapply wp_mono; [apply (n_insert_in _ c64_ok h1 _ (K1 KTop) r6 m hk (Z.of_N hb) (VSub s')); [done|eapply in_grow; [exact Hs1|apply HK1|apply HG1|exact I1]]|]. cbn beta.
  intros x' h2 WS4 ((F0' & Hx' & Hf0) & Hs2 & _). change (cW c64) with 64 in *. rewrite adj_of in Hx' by done. unfold s_insert in Hx'. rewrite Eup in Hx'.
  pose proof (subseteq_dom _ _ Hs2) as D2. assert (HG2 : kgood h2 (kup K1 KTop F0')) by (eapply kup_good; [exact HG1|done|by eapply ntree_in_dom|done]). set (K2 := kup K1 KTop F0') in *.
  assert (HK2 : kle K1 K2) by apply kup_le. assert (HK : kle K K2) by (by eapply kle_trans). assert (Hh2 : h ⊆ h2) by (by etrans).
  eapply (Hend h2 K2); [done|done|done|done| |].
  - by eapply ktree4_mono.
  - eexists _, _. split_and!; [apply in_kup; [by etrans; [apply HG1|]|exact Hx']| |].
    + eapply uksubs_set; [exact I2| | | | |].
      * intros y sy _ Hy. eapply in_grow; [exact Hh2|apply HK|apply HG2|exact Hy].
      * eapply in_grow; [exact Hs2|apply HK2|apply HG2|]. apply in_kup; [by etrans; [apply GG1|]|exact Hs'].
      * apply sub_ins_ne.
      * apply plain_ins; [apply I2|done].
      * apply us_ins_low; [apply I2|]. intros Hx. rewrite Edn. by apply dn_low.
    + intros q'. cbn [g_upd fst snd Bool.eqb]. unfold x. rewrite (us_ins _ q) by done. unfold g_ins. by rewrite I6.
Qed.
End kinds.
