(** * iptree on memory: many trees, and to which kind of radix tree each node belongs. *)
From Verif Require Import Prog NumModel NumBits NumFun NumSim NumSpec NumAbs NumFoot IpModel IpSpec IpBits IpAbs IpAbs2 IpAbs3 NumShare.
From Coq Require Import ZifyBool ZifyNat ZifyN.
Open Scope N_scope.

(** Tree structs, nodes of IPv4 trees, of trees of upper halves, of the trees below one upper half. *)
Inductive kd := KRoot | K4 | KTop | KSub (x : N).
Global Instance kd_dec : EqDecision kd.
Proof. solve_decision. Defined.

Section kinds.
Context {U : Type}.
Local Notation heap := (heap U).
Local Notation value := (value U).
Local Notation nmap := (@gmap pfx (@prod_eq_dec N N_eq_dec N N_eq_dec) (@prod_countable N N_eq_dec N_countable N N_eq_dec N_countable) (prod N value)).
Local Notation kinds := (kd -> gset loc).
Implicit Types (h : heap) (K : kinds).

Definition kgood h K : Prop := (forall i, K i ⊆ dom h) /\ forall i j, i <> j -> K i ## K j.
Definition kle K K' : Prop := forall i, K i ⊆ K' i.
Definition kup K j (F : gset loc) : kinds := fun i => if decide (i = j) then K i ∪ F else K i.
Lemma kle_refl K : kle K K.
Proof. by intros i. Qed.
Lemma kle_trans K1 K2 K3 : kle K1 K2 -> kle K2 K3 -> kle K1 K3.
Proof. intros H1 H2 i. by etrans; [apply H1|]. Qed.
Lemma kup_le K j F : kle K (kup K j F).
Proof. intros i. unfold kup. destruct (decide (i = j)); [|done]. clear. set_solver. Qed.
Lemma kup_same K j F : kup K j F j = K j ∪ F.
Proof. unfold kup. by rewrite decide_True. Qed.
Lemma kup_other K i j F : i <> j -> kup K j F i = K i.
Proof. intros H. unfold kup. by rewrite decide_False. Qed.
Lemma kup_good h h' K j F : kgood h K -> dom h ⊆ dom h' -> F ⊆ dom h' -> fresh_or h (K j) F -> kgood h' (kup K j F).
Proof.
  intros [G1 G2] Hd HF Hf.
  assert (Hx : forall i, i <> j -> K i ## F).
  { intros i Hi l L1 L2. destruct (Hf l L2) as [H|H]; [by apply (G2 i j Hi l)|]. apply G1 in L1. by apply not_elem_of_dom in H. }
  split.
  - intros i. unfold kup. destruct (decide (i = j)); [apply union_least; [by etrans; [apply G1|]|done]|by etrans; [apply G1|]].
  - intros i k Hik. unfold kup. destruct (decide (i = j)) as [->|Hi], (decide (k = j)) as [->|Hk]; try done.
    + pose proof (Hx k Hk) as A. pose proof (G2 j k Hik) as B. clear -A B. set_solver.
    + pose proof (Hx i Hi) as A. pose proof (G2 i j Hik) as B. clear -A B. set_solver.
    + by apply G2.
Qed.
Lemma in_grow c h h' F F' p (m : nmap) : h ⊆ h' -> F ⊆ F' -> F' ⊆ dom h' -> ntree_in c h F p m -> ntree_in c h' F' p m.
Proof.
  intros Hs HF HF' (h0 & H1 & H2 & H3). exists (hr h' F'). split_and!; [apply hr_sub|by apply hr_dom|]. eapply ntree_at_mono; [|exact H3].
  apply map_subseteq_spec. intros l x Hl. rewrite hr_lookup, decide_True; [eapply lookup_weaken; [exact Hl|by etrans]|]. apply HF. rewrite <- H2. by eapply elem_of_dom_2.
Qed.
Lemma in_kup c h K j F p (m : nmap) : K j ⊆ dom h -> ntree_in c h F p m -> ntree_in c h (kup K j F j) p m.
Proof.
  intros Hd H. rewrite kup_same. eapply in_grow; [done| |apply union_least; [done|by eapply ntree_in_dom]|exact H]. clear. set_solver.
Qed.

(** ** Trees. *)
Definition ktree4 h K (p : ptr) (g : pfx -> option value) : Prop :=
  exists m, ntree_in c32 h (K K4) p m /\ plain_map m /\ forall q, g q = vals m q.
Record ksubs h K (m : nmap) (ss : N -> nmap) : Prop := {
  ksub_at : forall x, exists s, ntree_in c64 h (K (KSub x)) s (ss x) /\
     match m !! (64, x) with Some kv => kv.2 = VSub s /\ ss x <> ∅ | None => s = None /\ ss x = ∅ end;
  ksub_plain : forall q k v, m !! q = Some (k, v) -> q.1 <> 64 -> plain v;
  ksub_plain' : forall x, plain_map (ss x) }.
Definition ktree6 h K (p : ptr) (g : pfx -> option value) : Prop :=
  exists m ss, ntree_in c64 h (K KTop) p m /\ ksubs h K m ss /\ forall q, g q = six m ss q.
Definition kitree h K (t : ptr) (G : net -> option value) : Prop :=
  match t with
  | None => forall q, G q = None
  | Some a => a ∈ K KRoot /\ exists r4 r6, h !! a = Some (CIp r4 r6) /\ ktree4 h K r4 (fun q => G (false, q)) /\ ktree6 h K r6 (fun q => G (true, q))
  end.
Lemma ktree4_mono h h' K K' p g : h ⊆ h' -> kle K K' -> kgood h' K' -> ktree4 h K p g -> ktree4 h' K' p g.
Proof. intros Hs HK [G1 _] (m & H1 & H2). exists m. split; [|done]. eapply in_grow; [exact Hs|apply HK|apply G1|eassumption]. Qed.
Lemma ksubs_mono h h' K K' m ss : h ⊆ h' -> kle K K' -> kgood h' K' -> ksubs h K m ss -> ksubs h' K' m ss.
Proof. intros Hs HK [G1 _] [S1 S2 S3]. split; try done. intros x. destruct (S1 x) as (s & A & B). exists s. split; [|done]. eapply in_grow; [exact Hs|apply HK|apply G1|eassumption]. Qed.
Lemma ktree6_mono h h' K K' p g : h ⊆ h' -> kle K K' -> kgood h' K' -> ktree6 h K p g -> ktree6 h' K' p g.
Proof. intros Hs HK HG (m & ss & H1 & H2 & H3). exists m, ss. split_and!; [|by eapply ksubs_mono|done]. destruct HG as [G1 _]. eapply in_grow; [exact Hs|apply HK|apply G1|eassumption]. Qed.
Lemma kitree_mono h h' K K' t G : h ⊆ h' -> kle K K' -> kgood h' K' -> kitree h K t G -> kitree h' K' t G.
Proof.
  intros Hs HK HG. destruct t as [a|]; [|done]. intros (Hr & r4 & r6 & Ha & H4 & H6). split; [by apply HK|]. exists r4, r6. split_and!; [by eapply lookup_weaken|by eapply ktree4_mono|by eapply ktree6_mono].
Qed.
Lemma kitree_ext h K t G G' : (forall q, G q = G' q) -> kitree h K t G -> kitree h K t G'.
Proof.
  intros H. destruct t as [a|]; [|by intros H' q; rewrite <- H]. intros (Hr & r4 & r6 & Ha & (m4 & A1 & A2 & A3) & (m & ss & B1 & B2 & B3)). split; [done|]. exists r4, r6. split_and!; [done| |].
  - exists m4. split_and!; [done|done|]. intros q. by rewrite <- H.
  - exists m, ss. split_and!; [done|done|]. intros q. by rewrite <- H.
Qed.
Lemma ktree4_nil h K (g : pfx -> option value) : kgood h K -> (forall q, g q = None) -> ktree4 h K None g.
Proof.
  intros [G1 _] H. exists ∅. split_and!; [|by intros ???|intros q; rewrite H; done]. eapply in_grow; [done| |apply G1|apply (ntree_in_nil c32)]. clear. set_solver.
Qed.
Lemma in_nil c h K i : kgood h K -> ntree_in c h (K i) None (∅ : nmap).
Proof. intros [G1 _]. eapply in_grow; [done| |apply G1|apply (ntree_in_nil c)]. clear. set_solver. Qed.
Lemma ktree6_nil h K (g : pfx -> option value) : kgood h K -> (forall q, g q = None) -> ktree6 h K None g.
Proof.
  intros HG H. exists ∅, (fun _ => ∅). split_and!; [by apply in_nil| |].
  - split; try done. intros x. exists None. rewrite lookup_empty. split; [by apply in_nil|done].
  - intros q. rewrite H. unfold six, vals. rewrite !lookup_empty. by destruct (q.1 <? 64).
Qed.
(** *** From and to trees taken alone. *)
Lemma kitree_itree h K t G : kgood h K -> kitree h K t G -> itree h t G.
Proof.
  intros [G1 G2]. destruct t as [a|]; [|done]. intros (Hr & r4 & r6 & Ha & (m4 & A1 & A2 & A3) & (m & ss & B1 & [S1 S2 S3] & B3)).
  exists r4, r6, (K K4), (dom h ∖ (K K4 ∪ K KRoot)). split_and!; [done|by exists m4| |clear; set_solver| |clear -Hr; set_solver].
  2: { assert (K KRoot ## K K4) as HH by (by apply G2). clear -Hr HH. set_solver. }
  exists m, ss, (K KTop), (fun x => if m !! (64, x) then K (KSub x) else ∅).
  assert (Hsub : forall i, i <> K4 -> i <> KRoot -> K i ⊆ dom h ∖ (K K4 ∪ K KRoot)).
  { intros i H1 H2. pose proof (G1 i) as X1. pose proof (G2 i K4 H1) as X2. pose proof (G2 i KRoot H2) as X3. clear -X1 X2 X3. set_solver. }
  split_and!; [done| |by apply Hsub| |clear; set_solver|done].
  - split; [|done|done| |].
    + intros x. destruct (S1 x) as (s & X1 & X2). exists s. destruct (m !! (64, x)) as [kv|]; [done|]. destruct X2 as (-> & X2). rewrite X2. split; [apply ntree_in_nil|done].
    + intros x. destruct (m !! (64, x)); [by apply G2|]. clear. set_solver.
    + intros x y Hxy. destruct (m !! (64, x)); [|clear; set_solver]. destruct (m !! (64, y)); [|clear; set_solver]. apply G2. congruence.
  - intros x. destruct (m !! (64, x)); [by apply Hsub|]. clear. set_solver.
Qed.
(** A tree that is new. *)
Definition kpost h K (t : ptr) (G : net -> option value) h' : Prop := exists K', kle K K' /\ kgood h' K' /\ kitree h' K' t G /\ h ⊆ h'.
Lemma kitree_new h h' hp K t G : kgood h K -> itree hp t G -> hp ⊆ h' -> h ⊆ h' -> dom hp ## dom h -> kpost h K t G h'.
Proof.
  intros HG Ht Hs Hs' Hd. pose proof HG as [G1 G2]. pose proof (subseteq_dom _ _ Hs) as D. pose proof (subseteq_dom _ _ Hs') as D'.
  destruct t as [a|].
  2: { exists K. split_and!; [apply kle_refl| |done|done]. split; [|done]. intros i. by etrans; [apply G1|]. }
  destruct Ht as (r4 & r6 & F4 & F6 & Ha & (m4 & A1 & A2 & A3) & (m & ss & F0 & Fs & I1 & [S1 S2 S3 S4 S5] & I3 & I4 & I5 & I6) & Hd46 & Ha4 & Ha6).
  set (N := fun i => match i with KRoot => {[a]} | K4 => F4 | KTop => F0 | KSub x => Fs x end).
  assert (N1 : forall i, N i ⊆ dom hp).
  { intros [| | |x]; cbn [N]; [apply elem_of_dom_2 in Ha; clear -Ha; set_solver|by eapply ntree_in_dom|by eapply ntree_in_dom|by etrans; [apply I4|]]. }
  assert (N2 : forall i j, i <> j -> N i ## N j).
  { assert (Ho : forall i, i <> KRoot -> a ∉ N i). { intros [| | |x]; cbn [N]; [done|done|clear -Ha6 I3; set_solver|]. intros _. specialize (I4 x). clear -Ha6 I4. set_solver. }
    assert (H40 : F4 ## F0) by (clear -Hd46 I3; set_solver). assert (H4s : forall x, F4 ## Fs x) by (intros x; specialize (I4 x); clear -Hd46 I4; set_solver).
    intros i j Hij. destruct (decide (i = KRoot)) as [->|Hi]; [|destruct (decide (j = KRoot)) as [->|Hj]].
    - cbn [N]. assert (a ∉ N j) as H by auto. intros l L1 L2. apply elem_of_singleton in L1 as ->. done.
    - cbn [N]. assert (a ∉ N i) as H by auto. intros l L1 L2. apply elem_of_singleton in L2 as ->. done.
    - destruct i as [| | |x], j as [| | |y]; cbn [N]; first [done|apply H40|symmetry; apply H40|apply H4s|symmetry; apply H4s|apply S4|symmetry; apply S4|apply S5; congruence]. }
  exists (fun i => K i ∪ N i). assert (HK : kle N (fun i => K i ∪ N i)) by (intros i; clear; set_solver).
  assert (HG' : kgood h' (fun i => K i ∪ N i)).
  { split.
    - intros i. apply union_least; [by etrans; [apply G1|]|by etrans; [apply N1|]].
    - intros i j Hij. pose proof (G2 i j Hij) as X1. pose proof (N2 i j Hij) as X2. pose proof (N1 i) as X3. pose proof (N1 j) as X4. pose proof (G1 i) as X5. pose proof (G1 j) as X6. clear -X1 X2 X3 X4 X5 X6 Hd. set_solver. }
  split_and!; [intros i; clear; set_solver|done| |done]. eapply (kitree_mono hp h' N); [done|done|done|]. split; [cbn [N]; clear; set_solver|]. exists r4, r6. split_and!; [done|by exists m4|].
  exists m, ss. split_and!; [done| |done]. split; [|done|done]. intros x. destruct (S1 x) as (s & X1 & X2). exists s. split; [done|]. destruct (m !! (64, x)); [done|]. naive_solver.
Qed.
Lemma kpost_alloc h h1 K K1 r4 r6 G a : kle K K1 -> h ⊆ h1 -> kgood h1 K1 -> ktree4 h1 K1 r4 (fun q => G (false, q)) -> ktree6 h1 K1 r6 (fun q => G (true, q)) ->
  h1 !! a = None -> kpost h K (Some a) G (<[a := CIp r4 r6]> h1).
Proof.
  intros HK Hs HG H4 H6 Ha. set (h2 := <[a := CIp r4 r6]> h1). assert (Hs2 : h1 ⊆ h2) by (by apply insert_subseteq).
  assert (HG2 : kgood h2 (kup K1 KRoot {[a]})).
  { eapply kup_good; [exact HG|by apply subseteq_dom|unfold h2; rewrite dom_insert; clear; set_solver|]. intros l Hl. apply elem_of_singleton in Hl as ->. by right. }
  exists (kup K1 KRoot {[a]}). split_and!; [eapply kle_trans; [exact HK|apply kup_le]|done| |by etrans].
  split; [rewrite kup_same; clear; set_solver|]. exists r4, r6. split_and!; [apply lookup_insert|eapply ktree4_mono; [exact Hs2|apply kup_le|done|done]|eapply ktree6_mono; [exact Hs2|apply kup_le|done|done]].
Qed.
Lemma kroots h K WS t G (Q : ptr * ptr -> heap -> gset loc -> Prop) : kgood h K -> kitree h K t G ->
  (forall r4 r6, ktree4 h K r4 (fun q => G (false, q)) -> ktree6 h K r6 (fun q => G (true, q)) -> Q (r4, r6) h WS) ->
  wp (ip_roots t) h WS Q.
Proof.
  intros HG Ht HQ. destruct t as [a|].
  - destruct Ht as (Hr & r4 & r6 & Ha & H4 & H6). eapply wp_ld_ip; [exact Ha|]. by eapply HQ.
  - cbn [ip_roots wp]. apply HQ; [by apply ktree4_nil|by apply ktree6_nil].
Qed.
Lemma kpost_same h h' K t G : kgood h K -> h ⊆ h' -> kitree h K t G -> kpost h K t G h'.
Proof.
  intros HG Hs Ht. assert (HG' : kgood h' K). { destruct HG as [G1 G2]. split; [|done]. intros i. etrans; [apply G1|]. by apply subseteq_dom. }
  exists K. split_and!; [apply kle_refl|done|eapply kitree_mono; [exact Hs|apply kle_refl|done|exact Ht]|done].
Qed.

(** ** Changing the upper tree. *)
Lemma ksubs_set h h' K K' m ss (x k : N) (s' : ptr) (mx : nmap) : ksubs h K m ss ->
  (forall y s, y <> x -> ntree_in c64 h (K (KSub y)) s (ss y) -> ntree_in c64 h' (K' (KSub y)) s (ss y)) ->
  ntree_in c64 h' (K' (KSub x)) s' mx -> mx <> ∅ -> plain_map mx ->
  ksubs h' K' (<[(64, x) := (k, VSub s')]> m) (fun y => if y =? x then mx else ss y).
Proof.
  intros [S1 S2 S3] Ho Hx Hne Hpl. split.
  - intros y. destruct (N.eqb_spec y x) as [->|Hy].
    + exists s'. rewrite lookup_insert. done.
    + destruct (S1 y) as (s & Hs & Hm). exists s. rewrite lookup_insert_ne by congruence. split; [by apply Ho|done].
  - intros q k0 v0. destruct (decide ((64, x) = q)) as [<-|Hq]; [by intros _ H|]. rewrite lookup_insert_ne by done. apply S2.
  - intros y. by destruct (y =? x).
Qed.
Lemma ksubs_low h h' K K' m ss q k v : ksubs h K m ss -> q.1 < 64 -> plain v ->
  (forall x s, ntree_in c64 h (K (KSub x)) s (ss x) -> ntree_in c64 h' (K' (KSub x)) s (ss x)) -> ksubs h' K' (<[q := (k, v)]> m) ss.
Proof.
  intros [S1 S2 S3] Hq Hv Hin. split; try done.
  - intros x. destruct (S1 x) as (s & Hs & Hm). exists s. rewrite lookup_insert_ne by (intros ->; cbn [fst] in Hq; lia). split; [by apply Hin|done].
  - intros q' k' v'. destruct (decide (q = q')) as [<-|Hne].
    + rewrite lookup_insert. by intros [= <- <-].
    + rewrite lookup_insert_ne by done. apply S2.
Qed.

(** ** Insert. *)
Lemma k_insert h K WS t G n r v : kgood h K -> kitree h K t G -> plain v -> isnet n r ->
  wp (ip_insert_net t n v) h WS (fun t' h' _ => kpost h K t' (g_upd r (fun q => g_ins q v) G) h' /\ (r = None -> t' = t) /\ (r <> None -> exists a, t' = Some a /\ a ∉ dom h)).
Proof.
  intros HG Ht Hv Hr.
  assert (Hnone : r = None -> wp (Ret t) h WS (fun t' h' _ => kpost h K t' (g_upd r (fun q => g_ins q v) G) h' /\ (r = None -> t' = t) /\ (r <> None -> exists a, t' = Some a /\ a ∉ dom h))).
  { intros ->. cbn [wp]. split_and!; [|done|done]. by apply kpost_same. }
  destruct n as [n|]; [|destruct r as [q|]; [by inversion Hr|by apply Hnone]]. unfold ip_insert_net.
  assert (Hend : forall h1 K1 r4 r6 WS1 G', r <> None -> kle K K1 -> h ⊆ h1 -> kgood h1 K1 -> ktree4 h1 K1 r4 (fun q => G' (false, q)) -> ktree6 h1 K1 r6 (fun q => G' (true, q)) ->
    wp (l <- alloc (CIp r4 r6) ;; Ret (Some l)) h1 WS1 (fun t' h' _ => kpost h K t' G' h' /\ (r = None -> t' = t) /\ (r <> None -> exists a, t' = Some a /\ a ∉ dom h))).
  { intros h1 K1 r4 r6 WS1 G' Hrn HK Hs HG1 H4 H6. apply wp_bind, wp_alloc. intros a Ha. cbn [wp]. split_and!; [by eapply kpost_alloc|done|]. intros _. exists a. split; [done|]. apply subseteq_dom in Hs. apply not_elem_of_dom in Ha. auto. }
  pose proof HG as [GG1 GG2]. pose proof (ip4_key_spec n) as E4. destruct (ip4_key n) as [[k b]|].
  { destruct E4 as (Hn & Hk & Hb). assert (r = Some (false, norm 32 k b)) as ->.
    { destruct r as [q|]; [|by apply Hr in Hn]. f_equal. by eapply net_is_fun. }
    apply wp_bind. eapply kroots; [exact HG|exact Ht|]. intros r4 r6 (m & M1 & M2 & M3) H6. cbn [fst snd].
    apply wp_bind. eapply wp_mono; [by apply (n_insert_in _ c32_ok h _ (K K4) r4 m k (Z.of_N b) v)|]. cbn beta. intros x h' WS' ((F' & Hx & Hf) & Hs & _). change (cW c32) with 32 in *. rewrite adj_of in Hx by done.
    pose proof (subseteq_dom _ _ Hs) as Dh. assert (HG' : kgood h' (kup K K4 F')) by (eapply kup_good; [exact HG|done|by eapply ntree_in_dom|done]).
    eapply (Hend h' (kup K K4 F')); [done|apply kup_le|done|done| |].
    - eexists. split_and!; [apply in_kup; [by etrans; [apply GG1|]|exact Hx]|by apply plain_ins|]. intros q. cbn [g_upd fst snd Bool.eqb]. rewrite vals_ins. unfold g_ins. by rewrite M3.
    - eapply ktree6_mono; [exact Hs|apply kup_le|done|exact H6]. }
  pose proof (ip6_key_spec n) as E6. destruct (ip6_key n) as [[[[hk hb] lk] lb]|].
  2: { apply Hnone. destruct r as [[[] q]|]; [by apply E6 in Hr|by apply E4 in Hr|done]. }
  clear Hnone E4. destruct E6 as (q & Hn & Hhk & Hlk & Hvq & Klow & Khigh). assert (r = Some (true, q)) as ->.
  { destruct r as [q'|]; [|by apply Hr in Hn]. f_equal. by eapply net_is_fun. }
  apply wp_bind. eapply kroots; [exact HG|exact Ht|]. intros r4 r6 H4 (m & ss & I1 & I2 & I6). cbn [fst snd].
  destruct (N.ltb_spec hb 64) as [Hhb|Hhb].
  - assert (Hq : q.1 < 64). { destruct (N.lt_ge_cases q.1 64) as [|Hge]; [done|]. destruct (Khigh Hge) as [-> _]. lia. }
    destruct (Klow Hq) as [-> Hnorm]. apply wp_bind.
    eapply wp_mono; [by apply (n_insert_in _ c64_ok h _ (K KTop) r6 m hk (Z.of_N q.1) v)|]. cbn beta.
    intros x h' WS' ((F' & Hx & Hf) & Hs & _). change (cW c64) with 64 in *. rewrite adj_of in Hx by lia. unfold s_insert in Hx. rewrite Hnorm in Hx.
    pose proof (subseteq_dom _ _ Hs) as Dh. assert (HG' : kgood h' (kup K KTop F')) by (eapply kup_good; [exact HG|done|by eapply ntree_in_dom|done]).
    eapply (Hend h' (kup K KTop F')); [done|apply kup_le|done|done| |].
    + eapply ktree4_mono; [exact Hs|apply kup_le|done|exact H4].
    + eexists _, ss. split_and!; [apply in_kup; [by etrans; [apply GG1|]|exact Hx]| |].
      * eapply ksubs_low; [exact I2|done|done|]. intros y s Hy. eapply in_grow; [exact Hs|apply (kup_le K KTop F')|apply HG'|exact Hy].
      * intros q'. cbn [g_upd fst snd Bool.eqb]. rewrite six_low by done. unfold g_ins. by rewrite I6.
  - assert (Hq : 64 <= q.1). { destruct (N.lt_ge_cases q.1 64) as [Hlt|]; [|done]. destruct (Klow Hlt) as [-> _]. lia. }
    destruct (Khigh Hq) as (-> & Hlb & Hnhi & Hnlo & Hhk2). set (x := (hi q).2) in *.
    assert (Enorm : norm 64 hk 64 = (64, x)) by (rewrite Hnhi; done). clear Klow Khigh.
    apply wp_bind. eapply wp_mono; [apply (n_exact_in _ c64_ok h _ r6 m hk (Z.of_N 64)); [done|by eapply ntree_in_at]|]. cbn beta.
    intros e h1 WS1 (He & -> & _). change (cW c64) with 64 in He. change (adj 64 (Z.of_N 64)) with 64 in He.
    destruct (ksub_at _ _ _ _ I2 x) as (s & Hs & Hm).
    apply wp_bind. assert (Hse : wp (if e.2 then as_sub e.1 else Ret None) h WS1 (fun a h' WS' => a = s /\ h' = h)).
    { rewrite He, (exact64 _ _ _ Enorm). destruct (m !! (64, x)) as [[k' v']|].
      - destruct Hm as [Hm _]. cbn [snd fst] in *. rewrite Hm. done.
      - destruct Hm as [-> _]. done. }
    eapply wp_mono; [exact Hse|]. clear Hse He. cbn beta. intros ? ? WS2 [-> ->].
    apply wp_bind. eapply wp_mono; [by apply (n_insert_in _ c64_ok h _ (K (KSub x)) s (ss x) lk (Z.of_N lb) v)|]. cbn beta.
    intros s' h1 WS3 ((Fx & Hs' & Hfx) & Hs1 & _). change (cW c64) with 64 in *. rewrite adj_of in Hs' by done.
    pose proof (subseteq_dom _ _ Hs1) as D1. assert (HG1 : kgood h1 (kup K (KSub x) Fx)) by (eapply kup_good; [exact HG|done|by eapply ntree_in_dom|done]). set (K1 := kup K (KSub x) Fx) in *.
    assert (HK1 : kle K K1) by apply kup_le.
    apply wp_bind. eapply wp_mono; [apply (n_insert_in _ c64_ok h1 _ (K1 KTop) r6 m hk (Z.of_N 64) (VSub s')); [done|eapply in_grow; [exact Hs1|apply HK1|apply HG1|exact I1]]|]. cbn beta.
    intros x' h2 WS4 ((F0' & Hx' & Hf0) & Hs2 & _). change (cW c64) with 64 in *. change (adj 64 (Z.of_N 64)) with 64 in Hx'. rewrite (ins64 _ _ _ _ Enorm) in Hx'.
    pose proof (subseteq_dom _ _ Hs2) as D2. assert (HG2 : kgood h2 (kup K1 KTop F0')) by (eapply kup_good; [exact HG1|done|by eapply ntree_in_dom|done]). set (K2 := kup K1 KTop F0') in *.
    assert (HK2 : kle K1 K2) by apply kup_le. assert (HK : kle K K2) by (by eapply kle_trans). assert (Hh2 : h ⊆ h2) by (by etrans).
    eapply (Hend h2 K2); [done|done|done|done| |].
    + by eapply ktree4_mono.
    + eexists _, _. split_and!; [apply in_kup; [by etrans; [apply HG1|]|exact Hx']| |].
      * eapply ksubs_set; [exact I2| | | |].
        -- intros y sy _ Hy. eapply in_grow; [exact Hh2|apply HK|apply HG2|exact Hy].
        -- eapply in_grow; [exact Hs2|apply HK2|apply HG2|]. apply in_kup; [by etrans; [apply GG1|]|exact Hs'].
        -- apply sub_ins_ne.
        -- apply plain_ins; [apply I2|done].
      * intros q'. cbn [g_upd fst snd Bool.eqb]. unfold x. rewrite (set_ins _ _ q) by done. unfold g_ins. by rewrite I6.
Qed.
End kinds.
