(** * uintX iptree on memory: Enumerate. *)
From Verif Require Import Prog NumModel NumBits NumFun NumSim NumSpec NumAbs NumFoot IpModel IpSpec IpBits IpAbs IpAbs3 IpEnum UxModel UxAbs UxAbs3.
From Coq Require Import ZifyBool ZifyNat ZifyN.
Open Scope N_scope.

(** The network of an outer and an inner key. *)
Definition jn (p l : pfx) : pfx := if p.1 <? 64 then p else join p.2 l.
Lemma norm64_ k : norm 64 k 64 = (64, k).
Proof. unfold norm. change (2 ^ (64 - 64)) with 1. by rewrite N.div_1_r. Qed.
Lemma canon_ux k b k' b' : k < 2 ^ 64 -> k' < 2 ^ 64 -> b <= 64 -> b' <= 64 -> (b < 64 -> b' = 0) ->
  canonical (ip_mask (firstn 8 (unpack64 k ++ repeat x00 8) ++ unpack64 k') (cidr_mask (b + b') 128)) (cidr_mask (b + b') 128) (true, jn (norm 64 k b) (norm 64 k' b')).
Proof.
  intros Hk Hk' Hb Hb' Hlow. unfold jn. cbn [norm fst]. destruct (N.ltb_spec b 64) as [Hl|Hl].
  - rewrite (Hlow Hl), N.add_0_r. pose proof (canon_gen true (unpack64 k ++ unpack64 k') b 16 eq_refl eq_refl) as H. change (8 * N.of_nat 16) with 128 in H.
    change (width true) with 128 in H. rewrite be_cat, norm_low in H by done. apply H. lia.
  - assert (b = 64) as -> by lia. rewrite norm64_. cbn [fst snd]. by apply canon6s.
Qed.

Section ux.
Context {U : Type}.
Local Notation heap := (heap U).
Local Notation value := (value U).
Local Notation nmap := (@gmap pfx (@prod_eq_dec N N_eq_dec N N_eq_dec) (@prod_countable N N_eq_dec N_countable N N_eq_dec N_countable) (prod N value)).
Local Notation prog := (prog U).
Local Notation entry := (N * N * value)%type.

Definition ue (y e : entry) : pair_ :=
  let m := cidr_mask (y.1.2 + e.1.2) 128 in (ip_mask (firstn 8 (unpack64 y.1.1 ++ repeat x00 8) ++ unpack64 e.1.1) m, m, e.2).
Definition okey (y : entry) : pfx := norm 64 y.1.1 y.1.2.
Definition umember (ss : pfx -> nmap) (y : entry) (x : net * value) : Prop := x.1.1 = true /\ up x.1.2 = okey y /\ us ss x.1.2 = Some x.2.
Definition ugroup (ss : pfx -> nmap) (y : entry) (z : list pair_) : Prop := exists es, s_enum 64 (ss (okey y)) es /\ z = map (ue y) es.

Section six.
Variables (h : heap) (m : nmap) (ss : pfx -> nmap) (F0 : gset loc) (Fs : pfx -> gset loc) (p : ptr) (ys : list entry).
Hypothesis I2 : usubs h m ss F0 Fs.
Hypothesis Ht : ntree_at c64 h p m.
Hypothesis He : s_enum 64 m ys.

Lemma uys_valid y : y ∈ ys -> y.1.1 < 2 ^ 64 /\ y.1.2 <= 64 /\ m !! okey y = Some (y.1.1, y.2).
Proof. apply (enum_valid 64 m h c64 p ys eq_refl Ht He). Qed.
Lemma uys_sub y : y ∈ ys -> exists s, y.2 = VSub s /\ ntree_in c64 h (Fs (okey y)) s (ss (okey y)).
Proof.
  intros Hy. destruct (uys_valid _ Hy) as (H1 & H2 & H3). destruct (us_at _ _ _ _ _ I2 (okey y)) as (s & Hs & Hm). rewrite H3 in Hm.
  exists s. split; [apply Hm|done].
Qed.
Lemma us_jn (x l : pfx) k v : x.1 <= 64 -> ss x !! l = Some (k, v) -> up (jn x l) = x /\ dn (jn x l) = l /\ us ss (jn x l) = Some v.
Proof.
  intros Hx Hl. unfold jn. destruct (N.ltb_spec x.1 64) as [H|H].
  - pose proof (us_low _ _ _ _ _ I2 _ _ _ H Hl) as ->. unfold us. rewrite (proj1 (up_low x H)), (proj2 (up_low x H)). split_and!; [done|done|].
    apply vals_some. by exists k.
  - assert (Ex : x.1 = 64) by (clear -Hx H; lia). apply (us_join _ _ _ _ _ _ _ _ _ I2 Ex Hl).
Qed.

Lemma ugroup_spec y z : y ∈ ys -> ugroup ss y z -> exists ps, StronglySorted nlt ps /\ Forall2 isp z ps /\ forall x, x ∈ ps <-> umember ss y x.
Proof.
  intros Hy (es & Hes & ->). destruct (uys_valid _ Hy) as (H1 & H2 & H3). destruct (uys_sub _ Hy) as (s & Es & Hs). apply ntree_in_at in Hs.
  pose proof (enum_valid 64 (ss (okey y)) h c64 s es eq_refl Hs Hes) as Hv. destruct Hes as [Hsort Hm].
  assert (Hlow : forall e, e ∈ es -> y.1.2 < 64 -> norm 64 e.1.1 e.1.2 = (0, 0)).
  { intros e Hin Hl. destruct (Hv e Hin) as (_ & _ & H). eapply (us_low _ _ _ _ _ I2 (okey y)); [exact Hl|exact H]. }
  assert (Hlow0 : forall e, e ∈ es -> y.1.2 < 64 -> e.1.2 = 0).
  { intros e Hin Hl. exact (f_equal fst (Hlow e Hin Hl)). }
  exists (map (fun e : entry => ((true, jn (okey y) (norm 64 e.1.1 e.1.2)), e.2)) es). split_and!.
  - clear Hm Hs. induction Hsort as [|x l Hs' IH Hf]; simpl; constructor; [apply IH; intros e He'; [apply Hv|apply Hlow|apply Hlow0]; by right|].
    apply Forall_map. rewrite Forall_forall in Hf. apply Forall_forall. intros x' Hx'. specialize (Hf x' Hx').
    destruct (Hv x ltac:(by left)) as (_ & X2 & _). destruct (Hv x' ltac:(by right)) as (_ & Y2 & _).
    destruct (N.lt_ge_cases y.1.2 64) as [Hl|Hl].
    + exfalso. assert (Xin : x ∈ x :: l) by (by left). assert (Xin' : x' ∈ x :: l) by (by right).
      pose proof (Hlow _ Xin Hl) as E1. pose proof (Hlow _ Xin' Hl) as E2. pose proof (Hlow0 _ Xin Hl) as E3. pose proof (Hlow0 _ Xin' Hl) as E4.
      unfold nentry_lt in Hf. rewrite E1, E2, E3, E4 in Hf. clear -Hf. lia.
    + unfold compose, nlt, net_lt. cbn [fst snd width]. right. split; [done|]. unfold jn. assert (Eo : (okey y).1 = y.1.2) by done.
      rewrite Eo. destruct (N.ltb_spec y.1.2 64); [lia|].
      rewrite !start_join by (unfold norm; cbn [fst]; done). cbn [join norm fst]. unfold nentry_lt in Hf. destruct Hf as [Hf|[Hf1 Hf2]]; [left|right]; lia.
  - clear Hm Hsort Hlow Hs. induction es as [|x l IH]; simpl; constructor.
    + split; [done|]. cbn [fst snd ue]. destruct (Hv x) as (? & ? & _); [by left|]. apply canon_ux; try done. apply Hlow0. by left.
    + apply IH; intros e He'; [apply Hv|apply Hlow0]; by right.
  - intros [[f q] w]. rewrite elem_of_list_fmap. unfold umember. cbn [fst snd]. split.
    + intros ([[k1 b1] w'] & [= -> -> ->] & Hin). split; [done|]. destruct (Hv _ Hin) as (_ & _ & Hl). cbn [fst snd] in Hl.
      destruct (us_jn (okey y) _ _ _ H2 Hl) as (J1 & _ & J3). done.
    + intros (-> & Eu & Eq). unfold us in Eq. rewrite Eu in Eq. apply vals_some in Eq as [k1 Eq]. destruct (us_jn (okey y) _ _ _ H2 Eq) as (J1 & J2 & _).
      apply Hm in Eq as [Hin Hl]. exists (k1, (dn q).1, w). split; [|done]. cbn [fst snd]. rewrite <- Hl.
      f_equal. f_equal. apply up_dn_inj; [by rewrite J1|by rewrite J2].
Qed.
Lemma umember_bounds y x : y ∈ ys -> umember ss y x ->
  let a := start 64 (okey y) in
  x.1.1 = true /\ a * 2 ^ 64 <= start 128 x.1.2 < (a + 1) * 2 ^ 64 /\ y.1.2 <= x.1.2.1 /\ (y.1.2 < 64 -> start 128 x.1.2 = a * 2 ^ 64 /\ x.1.2.1 = y.1.2).
Proof.
  intros Hy (Hx & Eu & Eq). destruct (uys_valid _ Hy) as (H1 & H2 & H3). cbn beta zeta. split; [done|].
  assert (Eo : (okey y).1 = y.1.2) by done. destruct (N.lt_ge_cases x.1.2.1 64) as [Hl|Hl].
  - rewrite (proj1 (up_low _ Hl)) in Eu. rewrite Eu.
    assert (Es : start 128 (okey y) = start 64 (okey y) * 2 ^ 64) by (by apply start_low).
    rewrite Es. pose proof (pow2_pos 64). split_and!; [lia|lia|apply N.le_refl|done].
  - assert (E64 : y.1.2 = 64) by (rewrite <- Eo, <- Eu, (proj1 (up_high _ Hl)); done).
    unfold us in Eq. apply vals_some in Eq as [k Eq]. destruct (us_at _ _ _ _ _ I2 (up x.1.2)) as (s & Hs & _). apply ntree_in_at in Hs.
    pose proof (top_le _ _ _ _ _ _ Hs Eq) as Hv. rewrite (proj1 (up_high _ Hl)) in Eu. rewrite (proj2 (up_high _ Hl)) in Hv.
    assert (Ex : x.1.2 = join (hi x.1.2).2 (lo x.1.2)) by (symmetry; by apply join_hi_lo).
    assert (Ek : start 64 (okey y) = (hi x.1.2).2).
    { rewrite <- Eu. unfold start. cbn [hi fst snd]. change (2 ^ (64 - 64)) with 1. apply N.mul_1_r. }
    assert (Est : start 128 x.1.2 = start 64 (okey y) * 2 ^ 64 + start 64 (lo x.1.2)) by (rewrite Ex at 1; rewrite start_join by apply Hv; by rewrite Ek).
    pose proof (start_lt 64 _ Hv) as Hlt. rewrite Est, E64. split_and!; [lia|lia|done|intros Hlt'; exfalso; clear -Hlt'; lia].
Qed.
Lemma uenum6_spec zs : Forall2 (ugroup ss) ys zs ->
  exists ps, StronglySorted nlt ps /\ Forall2 isp (concat zs) ps /\ forall q v, (q, v) ∈ ps <-> q.1 = true /\ us ss q.2 = Some v.
Proof.
  intros Hz.
  assert (Hps : exists pss, Forall2 (fun z ps => Forall2 isp z ps) zs pss /\
    Forall2 (fun y ps => StronglySorted nlt ps /\ forall x, x ∈ ps <-> umember ss y x) ys pss).
  { assert (Hin : Forall (fun y => y ∈ ys) ys) by (by apply Forall_forall).
    revert Hin Hz. generalize ys at 2 3 4. intros ys0 Hin Hz. revert Hin. induction Hz as [|y z ys' zs Hg Hz IH].
    - intros _. exists []. done.
    - intros Hin. inversion Hin as [|? ? Hy Hin']; subst. destruct (IH Hin') as (pss & P1 & P2).
      destruct (ugroup_spec y z Hy Hg) as (ps & Q1 & Q2 & Q3). exists (ps :: pss). split; constructor; done. }
  destruct Hps as (pss & P1 & P2). exists (concat pss). split_and!.
  - eapply (sorted_concat (nentry_lt 64) nlt (umember ss) ys); [apply He| |].
    + eapply Forall2_impl; [exact P2|]. intros y ps [Q1 Q2]. split; [done|]. intros b. apply Q2.
    + intros y1 y2 b1 b2 Hy1 Hy2 Hlt M1 M2. destruct (umember_bounds _ _ Hy1 M1) as (A1 & A2 & A3 & A4). destruct (umember_bounds _ _ Hy2 M2) as (B1 & B2 & B3 & B4).
      unfold nlt, net_lt. right. rewrite A1, B1. split; [done|]. change (width true) with 128. unfold nentry_lt in Hlt. unfold okey in *.
      destruct (uys_valid _ Hy1) as (_ & U1 & _). destruct (uys_valid _ Hy2) as (_ & U2 & _).
      set (x1 := start 128 b1.1.2) in *. set (x2 := start 128 b2.1.2) in *. clearbody x1 x2.
      set (a1 := start 64 (norm 64 y1.1.1 y1.1.2)) in *. set (a2 := start 64 (norm 64 y2.1.1 y2.1.2)) in *. clearbody a1 a2.
      pose proof (pow2_pos 64) as Hp. set (P := 2 ^ 64) in *. clearbody P.
      destruct Hlt as [Hlt|[Heq Hlt]].
      * left. clear -A2 B2 Hlt Hp. nia.
      * subst a2. destruct A4 as [A5 A6]; [clear -Hlt U2; lia|]. rewrite A5. destruct (N.eq_dec x2 (a1 * P)) as [E|E]; [right|left]; clear -E A6 B3 Hlt B2; lia.
  - by apply Forall2_concat.
  - intros q v. rewrite elem_of_concat. split.
    + intros (ps & Hps & Hx). apply elem_of_list_lookup in Hps as [i Hi]. destruct (Forall2_lookup_r _ _ _ _ _ P2 Hi) as (y & Hy & _ & Q2).
      destruct (proj1 (Q2 _) Hx) as (X1 & _ & X2). done.
    + intros [Hq Hv].
      assert (Hy : exists y, y ∈ ys /\ umember ss y (q, v)).
      { destruct (us_present _ _ _ _ _ _ _ I2 Hv) as [[k w] Hk]. destruct He as [_ Hm]. apply Hm in Hk as [Hin Hk].
        exists (k, (up q.2).1, w). split; [exact Hin|]. unfold umember. cbn [fst snd]. split_and!; [done|exact Hk|done]. }
      destruct Hy as (y & Hy & Hm). apply elem_of_list_lookup in Hy as [i Hi]. destruct (Forall2_lookup_l _ _ _ _ _ P2 Hi) as (ps & Hps & _ & Q2).
      exists ps. split; [by eapply elem_of_list_lookup_2|]. by apply Q2.
Qed.
End six.

Lemma uenum6_all (h : heap) (ss : pfx -> nmap) : forall (ys : list (loc * numnode U)) WS,
  (forall y, y ∈ ys -> exists s, nn_val y.2 = VSub s /\ ntree_at c64 h s (ss (okey (as_entry y)))) ->
  wp (mapM (fun y => ux_enum6 y.2) ys) h WS (fun zs h' WS' => h' = h /\ Forall2 (fun y z => ugroup ss (as_entry y) z) ys zs).
Proof.
  induction ys as [|y ys IH]; intros WS Hy; cbn [mapM].
  - cbn [wp]. done.
  - apply wp_bind. eapply (wp_mono _ _ _ (fun z h' WS' => h' = h /\ ugroup ss (as_entry y) z)).
    + unfold ux_enum6. destruct (Hy y ltac:(by left)) as (s & Es & Hs). rewrite Es. cbn [sub_of].
      apply wp_bind. eapply wp_mono; [apply (n_enumerate_in _ c64_ok h WS s _ Hs)|]. cbn beta.
      intros r h' WS' (Hr & -> & _). cbn [wp]. split; [done|]. exists (map as_entry r). split; [exact Hr|].
      rewrite map_map. done.
    + cbn beta. intros z ? WS1 [-> Hz]. apply wp_bind. eapply wp_mono; [apply IH; intros y' Hy'; apply (Hy y'); by right|]. cbn beta.
      intros zs ? WS2 [-> Hzs]. cbn [wp]. split; [done|]. by constructor.
Qed.

Lemma ux_enumerate_at (h : heap) WS t G : utree h t G -> wp (ux_enumerate t) h WS (fun e h' _ => h' = h /\ enum_of G e).
Proof.
  intros Ht. destruct t as [a|].
  2: { cbn [ux_enumerate wp]. split; [done|]. exists []. split_and!; [constructor| |constructor]. intros q v. rewrite Ht. split; [by intros ?%elem_of_nil|done]. }
  destruct Ht as (r4 & r6 & F4 & F6 & Ha & H4 & H6 & Hd & _). unfold ux_enumerate. apply wp_bind. eapply wp_ld_ip; [exact Ha|]. cbn [fst snd].
  destruct H4 as (m4 & H4 & P4 & G4). destruct H6 as (m & ss & F0 & Fs & I1 & I2 & _ & _ & _ & I6). apply ntree_in_at in H4, I1.
  apply wp_bind. eapply wp_mono; [apply (n_enumerate_in _ c32_ok _ _ _ _ H4)|]. cbn beta. intros xs ? WS1 (Hx & -> & _).
  apply wp_bind. eapply wp_mono; [apply (n_enumerate_in _ c64_ok _ _ _ _ I1)|]. cbn beta. intros ys ? WS2 (Hy & -> & _).
  apply wp_bind. eapply wp_mono; [apply (uenum6_all h ss ys)|].
  { intros y Hin. destruct (uys_sub h m ss F0 Fs r6 (map as_entry ys) I2 I1 Hy (as_entry y)) as (s & Es & Hs).
    - by apply elem_of_list_fmap_1.
    - apply ntree_in_at in Hs. by exists s. }
  cbn beta. intros zs ? WS3 [-> Hz]. cbn [wp]. split; [done|].
  change (cW c32) with 32 in Hx. change (cW c64) with 64 in Hy.
  destruct (enum4_spec m4 h r4 _ (fun q => G (false, q)) H4 Hx G4) as (ps4 & A1 & A2 & A3).
  destruct (uenum6_spec h m ss F0 Fs r6 (map as_entry ys) I2 I1 Hy zs) as (ps6 & B1 & B2 & B3).
  { by apply Forall2_fmap_l. }
  exists (ps4 ++ ps6). split_and!.
  - apply sorted_app; [done|done|]. intros [q v] [q' v'] H H'. apply A3 in H as [E _]. apply B3 in H' as [E' _]. left. cbn [fst]. done.
  - intros [f q] v. rewrite elem_of_app, A3, B3. cbn [fst snd]. rewrite <- I6. split.
    + intros [[-> H]|[-> H]]; done.
    + intros H. destruct f; [by right|by left].
  - apply Forall2_app; [|done]. by rewrite map_map in A2.
Qed.
End ux.
