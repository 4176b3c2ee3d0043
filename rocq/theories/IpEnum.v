(** * iptree on memory: Enumerate. *)
From Verif Require Import Prog NumModel NumBits NumFun NumSim NumSpec NumAbs NumFoot IpModel IpSpec IpBits IpAbs IpAbs3.
From Coq Require Import ZifyBool ZifyNat ZifyN.
Open Scope N_scope.

(** ** The printed form of the networks. *)
Lemma mask_len n l : n <= 8 * N.of_nat l -> 8 * nlen (cidr_mask n (8 * N.of_nat l)) = 8 * N.of_nat l.
Proof. intros H. destruct (cidr_mask_spec n l H) as [_ E]. unfold nlen. by rewrite E. Qed.
Lemma canon_gen (six : bool) ip n l : width six = 8 * N.of_nat l -> length ip = l -> n <= 8 * N.of_nat l ->
  canonical (ip_mask ip (cidr_mask n (8 * N.of_nat l))) (cidr_mask n (8 * N.of_nat l)) (six, norm (width six) (be ip) n).
Proof.
  intros Hw Hl Hn. destruct (cidr_mask_spec n l Hn) as [M1 M2]. destruct (ip_mask_spec ip _ n ltac:(by rewrite M2) M1) as [P1 P2].
  unfold canonical. cbn [fst snd]. split_and!.
  - unfold nlen. by rewrite P1, Hl.
  - by rewrite mask_len.
  - exact M1.
  - rewrite P2. unfold nlen. by rewrite Hl, Hw.
Qed.
Lemma canon4 k b : k < 2 ^ 32 -> b <= 32 -> canonical (ip_mask (unpack32 k) (cidr_mask b 32)) (cidr_mask b 32) (false, norm 32 k b).
Proof.
  intros Hk Hb. pose proof (canon_gen false (unpack32 k) b 4 eq_refl eq_refl Hb) as H. change (8 * N.of_nat 4) with 32 in H.
  change (width false) with 32 in H. by rewrite be_unpack32 in H.
Qed.
Lemma be_cat k k' : k < 2 ^ 64 -> k' < 2 ^ 64 -> be (unpack64 k ++ unpack64 k') = k * 2 ^ 64 + k'.
Proof. intros H H'. rewrite be_app, !be_unpack64 by done. unfold nlen. rewrite unpack64_len. done. Qed.
Lemma zeros_unpack : repeat x00 8 = unpack64 0.
Proof. done. Qed.
Lemma canon6 k b : k < 2 ^ 64 -> b <= 64 ->
  canonical (ip_mask (unpack64 k ++ repeat x00 8) (cidr_mask b 128)) (cidr_mask b 128) (true, norm 64 k b).
Proof.
  intros Hk Hb. rewrite zeros_unpack. pose proof (canon_gen true (unpack64 k ++ unpack64 0) b 16 eq_refl eq_refl) as H. change (8 * N.of_nat 16) with 128 in H.
  change (width true) with 128 in H. rewrite be_cat, norm_low in H by done. apply H. lia.
Qed.
Lemma norm_join a b n : b < 2 ^ 64 -> n <= 64 -> norm 128 (a * 2 ^ 64 + b) (64 + n) = join a (norm 64 b n).
Proof.
  intros Hb Hn. destruct (norm_high a b (64 + n) Hb ltac:(lia)) as [-> _]. unfold join, norm. cbn [fst snd].
  replace (64 + n - 64) with n by lia. replace (128 - (64 + n)) with (64 - n) by lia. f_equal. lia.
Qed.
Lemma canon6s k k' b : k < 2 ^ 64 -> k' < 2 ^ 64 -> b <= 64 ->
  canonical (ip_mask (firstn 8 (unpack64 k ++ repeat x00 8) ++ unpack64 k') (cidr_mask (64 + b) 128)) (cidr_mask (64 + b) 128) (true, join k (norm 64 k' b)).
Proof.
  intros Hk Hk' Hb. pose proof (canon_gen true (unpack64 k ++ unpack64 k') (64 + b) 16 eq_refl eq_refl) as H. change (8 * N.of_nat 16) with 128 in H.
  change (width true) with 128 in H. rewrite be_cat, norm_join in H by done. apply H. lia.
Qed.

(** ** Concatenating sorted groups. *)
Lemma sorted_app {A} (R : A -> A -> Prop) l1 l2 : StronglySorted R l1 -> StronglySorted R l2 -> (forall x y, x ∈ l1 -> y ∈ l2 -> R x y) -> StronglySorted R (l1 ++ l2).
Proof.
  induction 1 as [|x l1 Hs IH Hf]; intros H2 Hc; simpl; [done|]. constructor.
  - apply IH; [done|]. intros a b Ha. apply Hc. by right.
  - apply Forall_app. split; [done|]. apply Forall_forall. intros b Hb. apply Hc; [by left|done].
Qed.
Lemma sorted_concat {A B} (R : A -> A -> Prop) (S : B -> B -> Prop) (M : A -> B -> Prop) ys zs :
  StronglySorted R ys -> Forall2 (fun y z => StronglySorted S z /\ forall b, b ∈ z -> M y b) ys zs ->
  (forall y1 y2 b1 b2, y1 ∈ ys -> y2 ∈ ys -> R y1 y2 -> M y1 b1 -> M y2 b2 -> S b1 b2) -> StronglySorted S (concat zs).
Proof.
  intros Hs Hf. induction Hf as [|y z ys zs [Hz Hm] Hf IH]; intros Hc; simpl; [constructor|].
  inversion Hs as [|? ? Hs' Hall]; subst. apply sorted_app; [done|apply IH; [done|]|].
  - intros y1 y2 b1 b2 H1 H2. apply Hc; by right.
  - intros b1 b2 H1 H2. apply elem_of_list_In, in_concat in H2 as (z' & Hz' & H2). apply elem_of_list_In in Hz', H2.
    apply elem_of_list_lookup in Hz' as [i Hi]. destruct (Forall2_lookup_r _ _ _ _ _ Hf Hi) as (y' & Hy' & _ & Hm').
    apply elem_of_list_lookup_2 in Hy'. rewrite Forall_forall in Hall. eapply Hc; [by left|by right|by apply Hall|by apply Hm|by apply Hm'].
Qed.
Lemma Forall2_concat {A B} (R : A -> B -> Prop) xs ys : Forall2 (Forall2 R) xs ys -> Forall2 R (concat xs) (concat ys).
Proof. induction 1; simpl; [constructor|]. by apply Forall2_app. Qed.
Lemma elem_of_concat {A} (x : A) ls : x ∈ concat ls <-> exists l, l ∈ ls /\ x ∈ l.
Proof.
  rewrite elem_of_list_In, in_concat. split; intros (l & H1 & H2); exists l; rewrite ?elem_of_list_In in *; done.
Qed.

Section ip.
Context {U : Type}.
Local Notation heap := (heap U).
Local Notation value := (value U).
Local Notation nmap := (@gmap pfx (@prod_eq_dec N N_eq_dec N N_eq_dec) (@prod_countable N N_eq_dec N_countable N N_eq_dec N_countable) (prod N value)).
Local Notation prog := (prog U).
Local Notation entry := (N * N * value)%type.

(** The pairs sent for entries. *)
Definition e4 (e : entry) : pair_ := let m := cidr_mask e.1.2 32 in (ip_mask (unpack32 e.1.1) m, m, e.2).
Definition e6 (e : entry) : pair_ := let m := cidr_mask e.1.2 128 in (ip_mask (unpack64 e.1.1 ++ repeat x00 8) m, m, e.2).
Definition e6s (k : N) (e : entry) : pair_ :=
  let m := cidr_mask (64 + e.1.2) 128 in (ip_mask (firstn 8 (unpack64 k ++ repeat x00 8) ++ unpack64 e.1.1) m, m, e.2).
Definition isp (x : pair_ (U := U)) (y : net * value) : Prop := x.2 = y.2 /\ canonical x.1.1 x.1.2 y.1.
Definition nlt (x y : net * value) : Prop := net_lt x.1 y.1.

Lemma enum_valid W (m : nmap) (h : heap) c p es : cW c = W -> ntree_at c h p m -> s_enum W m es -> forall e, e ∈ es -> e.1.1 < 2 ^ W /\ e.1.2 <= W /\ m !! norm W e.1.1 e.1.2 = Some (e.1.1, e.2).
Proof.
  intros <- Ht [_ Hm] [[k b] v] He. cbn [fst snd]. assert (Hl : m !! norm (cW c) k b = Some (k, v)) by (apply Hm; done).
  pose proof (ntree_at_key _ _ _ _ _ _ _ Ht Hl) as (_ & H1 & H2). done.
Qed.

(** *** IPv4. *)
Lemma enum4_spec (m : nmap) (h : heap) p es g : ntree_at c32 h p m -> s_enum 32 m es -> (forall q, g q = vals m q) ->
  exists ps, StronglySorted nlt ps /\ Forall2 isp (map e4 es) ps /\ forall q v, (q, v) ∈ ps <-> q.1 = false /\ g q.2 = Some v.
Proof.
  intros Ht He Hg. pose proof (enum_valid 32 m h c32 p es eq_refl Ht He) as Hv. destruct He as [Hs Hm].
  exists (map (fun e : entry => ((false, norm 32 e.1.1 e.1.2), e.2)) es). split_and!.
  - clear Hm Hv. induction Hs as [|x l Hs IH Hf]; simpl; constructor; [done|]. apply Forall_map. eapply Forall_impl; [exact Hf|].
    intros y Hy. right. split; [done|]. exact Hy.
  - clear Hm Hs. induction es as [|x l IH]; simpl; constructor.
    + split; [done|]. cbn [fst snd e4]. destruct (Hv x) as (? & ? & _); [by left|]. by apply canon4.
    + apply IH. intros e He. apply Hv. by right.
  - intros [f q] v. rewrite elem_of_list_fmap. cbn [fst snd]. split.
    + intros ([[k b] v'] & [= -> -> ->] & Hin). split; [done|]. rewrite Hg. apply vals_some. exists k. by apply (Hv _ Hin).
    + intros [-> Hq]. rewrite Hg in Hq. apply vals_some in Hq as [k Hq]. apply Hm in Hq as [Hin Hq]. exists (k, q.1, v). split; [|done]. cbn [fst snd]. by rewrite <- Hq.
Qed.

(** *** IPv6. *)
Definition member (ss : N -> nmap) (y : entry) (x : net * value) : Prop :=
  x.1.1 = true /\
  match y.2 with
  | VSub _ => exists l k', x.1.2 = join y.1.1 l /\ ss y.1.1 !! l = Some (k', x.2)
  | w => x.1.2 = norm 64 y.1.1 y.1.2 /\ x.2 = w
  end.
Definition group (ss : N -> nmap) (y : entry) (z : list pair_) : Prop :=
  match y.2 with
  | VSub _ => exists es, s_enum 64 (ss y.1.1) es /\ z = map (e6s y.1.1) es
  | _ => z = [e6 y]
  end.

Section six.
Variables (h : heap) (m : nmap) (ss : N -> nmap) (F0 : gset loc) (Fs : N -> gset loc) (p : ptr) (ys : list entry).
Hypothesis I2 : subs h m ss F0 Fs.
Hypothesis Ht : ntree_at c64 h p m.
Hypothesis He : s_enum 64 m ys.

Lemma ys_valid y : y ∈ ys -> y.1.1 < 2 ^ 64 /\ y.1.2 <= 64 /\ m !! norm 64 y.1.1 y.1.2 = Some (y.1.1, y.2).
Proof. apply (enum_valid 64 m h c64 p ys eq_refl Ht He). Qed.
Lemma norm64 k : norm 64 k 64 = (64, k).
Proof. unfold norm. change (2 ^ (64 - 64)) with 1. by rewrite N.div_1_r. Qed.
Lemma ys_sub y s : y ∈ ys -> y.2 = VSub s -> y.1.2 = 64 /\ ntree_in c64 h (Fs y.1.1) s (ss y.1.1).
Proof.
  destruct y as [[k b] v]. cbn [fst snd]. intros Hy ->. destruct (ys_valid _ Hy) as (H1 & H2 & H3). cbn [fst snd] in *.
  destruct (N.eq_dec b 64) as [->|Hb]; [|by pose proof (sub_plain _ _ _ _ _ I2 _ _ _ H3 Hb)]. split; [done|].
  destruct (sub_at _ _ _ _ _ I2 k) as (s' & Hs & Hm). rewrite norm64 in H3.
  destruct (m !! (64, k)) as [[k' v']|] eqn:Em; [|by pose proof (eq_trans (eq_sym Em) H3)].
  pose proof (eq_trans (eq_sym Em) H3) as [= -> ->]. destruct Hm as [[= ->] _]. done.
Qed.
Lemma ys_plain y : y ∈ ys -> plain y.2 -> y.1.2 < 64.
Proof.
  destruct y as [[k b] v]. cbn [fst snd]. intros Hy Hp. destruct (ys_valid _ Hy) as (H1 & H2 & H3). cbn [fst snd] in *.
  destruct (N.eq_dec b 64) as [->|Hb]; [|lia]. exfalso. destruct (sub_at _ _ _ _ _ I2 k) as (s' & Hs & Hm). rewrite norm64 in H3.
  destruct (m !! (64, k)) as [[k' v']|] eqn:Em; [|by pose proof (eq_trans (eq_sym Em) H3)].
  pose proof (eq_trans (eq_sym Em) H3) as [= -> ->]. destruct Hm as [Hm _]. cbn [snd] in Hm. by subst.
Qed.

Lemma group_spec y z : y ∈ ys -> group ss y z -> exists ps, StronglySorted nlt ps /\ Forall2 isp z ps /\ forall x, x ∈ ps <-> member ss y x.
Proof.
  intros Hy Hg. destruct (ys_valid _ Hy) as (H1 & H2 & H3).
  assert (Hpl : plain y.2 -> z = [e6 y] -> (forall x, member ss y x <-> x.1.1 = true /\ x.1.2 = norm 64 y.1.1 y.1.2 /\ x.2 = y.2) ->
    exists ps, StronglySorted nlt ps /\ Forall2 isp z ps /\ forall x, x ∈ ps <-> member ss y x).
  { intros Hp -> Hmem. exists [((true, norm 64 y.1.1 y.1.2), y.2)]. split_and!.
    - repeat constructor.
    - constructor; [|constructor]. split; [done|]. cbn [e6 fst snd]. by apply canon6.
    - intros [[f q] v]. rewrite Hmem, elem_of_list_singleton. cbn [fst snd]. split; [by intros [= -> -> ->]|]. by intros (-> & -> & ->). }
  unfold group, member in *. destruct y as [[k b] v]. cbn [fst snd] in *. destruct v as [|u|s|d].
  - by apply Hpl.
  - by apply Hpl.
  - clear Hpl. destruct Hg as (es & Hes & ->). destruct (ys_sub _ s Hy eq_refl) as [Eb Hs]. cbn [fst snd] in *. apply ntree_in_at in Hs.
    pose proof (enum_valid 64 (ss k) h c64 s es eq_refl Hs Hes) as Hv. destruct Hes as [Hsort Hm].
    exists (map (fun e : entry => ((true, join k (norm 64 e.1.1 e.1.2)), e.2)) es). split_and!.
    + clear Hm. induction Hsort as [|x l Hs' IH Hf]; simpl; constructor; [apply IH; intros e He'; apply Hv; by right|].
      apply Forall_map. rewrite Forall_forall in Hf. apply Forall_forall. intros y Hy'. specialize (Hf y Hy'). unfold compose, nlt, net_lt. cbn [fst snd width]. right. split; [done|].
      destruct (Hv x ltac:(by left)) as (_ & X2 & _). destruct (Hv y ltac:(by right)) as (_ & Y2 & _).
      rewrite !start_join by (unfold norm; cbn [fst]; done). cbn [join norm fst]. unfold nentry_lt in Hf. destruct Hf as [Hf|[Hf1 Hf2]]; [left|right]; lia.
    + clear Hm Hsort. induction es as [|x l IH]; simpl; constructor.
      * split; [done|]. cbn [fst snd e6s]. destruct (Hv x) as (? & ? & _); [by left|]. by apply canon6s.
      * apply IH. intros e He'. apply Hv. by right.
    + intros [[f q] w]. rewrite elem_of_list_fmap. cbn [fst snd]. split.
      * intros ([[k1 b1] w'] & [= -> -> ->] & Hin). split; [done|]. exists (norm 64 k1 b1), k1. split; [done|]. by apply (Hv _ Hin).
      * intros (-> & l & k1 & -> & Hl). apply Hm in Hl as [Hin Hl]. exists (k1, l.1, w). split; [|done]. cbn [fst snd]. by rewrite <- Hl.
  - by apply Hpl.
Qed.
Lemma member_bounds y x : y ∈ ys -> member ss y x ->
  let a := start 64 (norm 64 y.1.1 y.1.2) in
  x.1.1 = true /\ a * 2 ^ 64 <= start 128 x.1.2 < (a + 1) * 2 ^ 64 /\ y.1.2 <= x.1.2.1 /\ (y.1.2 < 64 -> start 128 x.1.2 = a * 2 ^ 64 /\ x.1.2.1 = y.1.2).
Proof.
  intros Hy [Hx Hm]. destruct (ys_valid _ Hy) as (H1 & H2 & H3). cbn beta zeta. split; [done|].
  assert (Hpl : x.1.2 = norm 64 y.1.1 y.1.2 -> start 64 (norm 64 y.1.1 y.1.2) * 2 ^ 64 <= start 128 x.1.2 < (start 64 (norm 64 y.1.1 y.1.2) + 1) * 2 ^ 64 /\ y.1.2 <= x.1.2.1 /\ (y.1.2 < 64 -> start 128 x.1.2 = start 64 (norm 64 y.1.1 y.1.2) * 2 ^ 64 /\ x.1.2.1 = y.1.2)).
  { intros E. rewrite E. assert (Es : start 128 (norm 64 y.1.1 y.1.2) = start 64 (norm 64 y.1.1 y.1.2) * 2 ^ 64) by (unfold norm; by apply start_low).
    rewrite Es. pose proof (pow2_pos 64). split_and!; [lia|lia|apply N.le_refl|done]. }
  destruct y as [[k b] v]. cbn [fst snd] in *. destruct v as [|u|s|d]; try (by apply Hpl, Hm).
  clear Hpl. destruct Hm as (l & k' & E & Hl). destruct (ys_sub _ s Hy eq_refl) as [Eb Hs]. cbn [fst snd] in *. subst b. apply ntree_in_at in Hs.
  pose proof (top_le _ _ _ _ _ _ Hs Hl) as Hv. rewrite E, start_join by apply Hv. rewrite norm64.
  assert (Ek : start 64 (64, k) = k) by (unfold start; cbn [fst snd]; change (2 ^ (64 - 64)) with 1; apply N.mul_1_r). rewrite Ek.
  pose proof (start_lt 64 l Hv). split_and!; [lia|lia|unfold join; cbn [fst]; clear; lia|intros Hlt; exfalso; clear -Hlt; lia].
Qed.
Lemma enum6_spec zs : Forall2 (group ss) ys zs ->
  exists ps, StronglySorted nlt ps /\ Forall2 isp (concat zs) ps /\ forall q v, (q, v) ∈ ps <-> q.1 = true /\ six m ss q.2 = Some v.
Proof.
  intros Hz.
  assert (Hps : exists pss, Forall2 (fun z ps => Forall2 isp z ps) zs pss /\
    Forall2 (fun y ps => StronglySorted nlt ps /\ forall x, x ∈ ps <-> member ss y x) ys pss).
  { assert (Hin : Forall (fun y => y ∈ ys) ys) by (by apply Forall_forall).
    revert Hin Hz. generalize ys at 2 3 4. intros ys0 Hin Hz. revert Hin. induction Hz as [|y z ys' zs Hg Hz IH].
    - intros _. exists []. done.
    - intros Hin. inversion Hin as [|? ? Hy Hin']; subst. destruct (IH Hin') as (pss & P1 & P2).
      destruct (group_spec y z Hy Hg) as (ps & Q1 & Q2 & Q3). exists (ps :: pss). split; constructor; done. }
  destruct Hps as (pss & P1 & P2). exists (concat pss). split_and!.
  - eapply (sorted_concat (nentry_lt 64) nlt (member ss) ys); [apply He| |].
    + eapply Forall2_impl; [exact P2|]. intros y ps [Q1 Q2]. split; [done|]. intros b. apply Q2.
    + intros y1 y2 b1 b2 Hy1 Hy2 Hlt M1 M2. destruct (member_bounds _ _ Hy1 M1) as (A1 & A2 & A3 & A4). destruct (member_bounds _ _ Hy2 M2) as (B1 & B2 & B3 & B4).
      unfold nlt, net_lt. right. rewrite A1, B1. split; [done|]. change (width true) with 128. unfold nentry_lt in Hlt.
      destruct (ys_valid _ Hy1) as (_ & U1 & _). destruct (ys_valid _ Hy2) as (_ & U2 & _).
      set (x1 := start 128 b1.1.2) in *. set (x2 := start 128 b2.1.2) in *. clearbody x1 x2.
      set (a1 := start 64 (norm 64 y1.1.1 y1.1.2)) in *. set (a2 := start 64 (norm 64 y2.1.1 y2.1.2)) in *. clearbody a1 a2.
      pose proof (pow2_pos 64) as Hp. set (P := 2 ^ 64) in *. clearbody P.
      destruct Hlt as [Hlt|[Heq Hlt]].
      * left. clear -A2 B2 Hlt Hp. nia.
      * subst a2. destruct A4 as [A5 A6]; [clear -Hlt U2; lia|]. rewrite A5. destruct (N.eq_dec x2 (a1 * P)) as [E|E]; [right|left]; clear -E A6 B3 Hlt B2; lia.
  - by apply Forall2_concat.
  - intros q v. rewrite elem_of_concat. split.
    + intros (ps & Hps & Hx). apply elem_of_list_lookup in Hps as [i Hi]. destruct (Forall2_lookup_r _ _ _ _ _ P2 Hi) as (y & Hy & _ & Q2).
      apply elem_of_list_lookup_2 in Hy. destruct (proj1 (Q2 _) Hx) as [X1 X2]. split; [done|]. cbn [fst snd] in *. destruct (ys_valid _ Hy) as (V1 & V2 & V3).
      assert (Hpl : plain y.2 -> q.2 = norm 64 y.1.1 y.1.2 -> v = y.2 -> six m ss q.2 = Some v).
      { intros Hp -> ->. unfold six. rewrite (proj2 (N.ltb_lt _ _) (ys_plain _ Hy Hp : (norm 64 y.1.1 y.1.2).1 < 64)). apply vals_some. by eexists. }
      destruct y as [[k b] w]. cbn [fst snd] in *. destruct w as [|u|s|d]; try (by apply Hpl; [done|apply X2..]). destruct X2 as (l & k' & -> & Hl).
      by apply (six_join _ _ _ _ _ _ _ _ _ I2 Hl).
    + intros [Hq Hv].
      assert (Hy : exists y, y ∈ ys /\ member ss y (q, v)).
      { destruct (N.lt_ge_cases q.2.1 64) as [Hl|Hl].
        - unfold six in Hv. rewrite (proj2 (N.ltb_lt _ _) Hl) in Hv. apply vals_some in Hv as [k Hk]. assert (Hk' := Hk). destruct He as [_ Hm]. apply Hm in Hk as [Hin Hk].
          exists (k, q.2.1, v). split; [done|]. split; [done|]. cbn [fst snd]. pose proof (sub_plain _ _ _ _ _ I2 _ _ _ Hk' ltac:(clear -Hl; lia)) as Hp. by destruct v.
        - apply (six_high _ _ _ _ Hl) in Hv as [k' Hk'].
          destruct (sub_present _ _ _ _ _ _ _ _ _ I2 Hk') as (k & s & Hs & _). assert (Hs' := Hs). apply (top64 _ _ _ _ _ _ Ht) in Hs'. subst k.
          destruct He as [_ Hm]. apply Hm in Hs as [Hin _]. exists ((hi q.2).2, 64, VSub s). split; [exact Hin|]. split; [done|]. cbn [fst snd].
          exists (lo q.2), k'. split; [|done]. symmetry. by apply join_hi_lo. }
      destruct Hy as (y & Hy & Hm). apply elem_of_list_lookup in Hy as [i Hi]. destruct (Forall2_lookup_l _ _ _ _ _ P2 Hi) as (ps & Hps & _ & Q2).
      exists ps. split; [by eapply elem_of_list_lookup_2|]. by apply Q2.
Qed.
End six.

Lemma enum6_all (h : heap) (ss : N -> nmap) : forall (ys : list (loc * numnode U)) WS,
  (forall y s, y ∈ ys -> nn_val y.2 = VSub s -> ntree_at c64 h s (ss (nn_key y.2))) ->
  wp (mapM (fun y => enum6 y.2) ys) h WS (fun zs h' WS' => h' = h /\ Forall2 (fun y z => group ss (as_entry y) z) ys zs).
Proof.
  induction ys as [|y ys IH]; intros WS Hy; cbn [mapM].
  - cbn [wp]. done.
  - apply wp_bind. eapply (wp_mono _ _ _ (fun z h' WS' => h' = h /\ group ss (as_entry y) z)).
    + unfold enum6. destruct y as [l n]. cbn [snd]. unfold group, as_entry. cbn [fst snd]. destruct (nn_val n) as [|u|s|d] eqn:Ev; try (cbn [wp]; split; [done|]; unfold pair6, e6, msip; cbn [fst snd]; by rewrite Ev).
      apply wp_bind. eapply wp_mono; [apply (n_enumerate_in _ c64_ok h WS s (ss (nn_key n))); apply (Hy (l, n) s); [by left|done]|]. cbn beta.
      intros r h' WS' (Hr & -> & _). cbn [wp]. split; [done|]. exists (map as_entry r). split; [exact Hr|].
      rewrite map_map. done.
    + cbn beta. intros z ? WS1 [-> Hz]. apply wp_bind. eapply wp_mono; [apply IH; intros y' s Hy' Es; apply (Hy y' s); [by right|done]|]. cbn beta.
      intros zs ? WS2 [-> Hzs]. cbn [wp]. split; [done|]. by constructor.
Qed.

(** The result of Enumerate for the entries of the component trees. *)
Definition enum_of (G : net -> option value) (e : list pair_) : Prop :=
  exists ps : list (net * value), StronglySorted nlt ps /\ (forall q v, (q, v) ∈ ps <-> G q = Some v) /\ Forall2 isp e ps.

Lemma ip_enumerate_at (h : heap) WS t G : itree h t G -> wp (ip_enumerate t) h WS (fun e h' _ => h' = h /\ enum_of G e).
Proof.
  intros Ht. destruct t as [a|].
  2: { cbn [ip_enumerate wp]. split; [done|]. exists []. split_and!; [constructor| |constructor]. intros q v. rewrite Ht. split; [by intros ?%elem_of_nil|done]. }
  destruct Ht as (r4 & r6 & F4 & F6 & Ha & H4 & H6 & Hd & _). unfold ip_enumerate. apply wp_bind. eapply wp_ld_ip; [exact Ha|]. cbn [fst snd].
  destruct H4 as (m4 & H4 & P4 & G4). destruct H6 as (m & ss & F0 & Fs & I1 & I2 & _ & _ & _ & I6). apply ntree_in_at in H4, I1.
  apply wp_bind. eapply wp_mono; [apply (n_enumerate_in _ c32_ok _ _ _ _ H4)|]. cbn beta. intros xs ? WS1 (Hx & -> & _).
  apply wp_bind. eapply wp_mono; [apply (n_enumerate_in _ c64_ok _ _ _ _ I1)|]. cbn beta. intros ys ? WS2 (Hy & -> & _).
  apply wp_bind. eapply wp_mono; [apply (enum6_all h ss ys)|].
  { intros y s Hin Es. destruct (ys_sub h m ss F0 Fs r6 (map as_entry ys) I2 I1 Hy (as_entry y) s) as [_ Hs].
    - by apply elem_of_list_fmap_1.
    - exact Es.
    - apply ntree_in_at in Hs. exact Hs. }
  cbn beta. intros zs ? WS3 [-> Hz]. cbn [wp]. split; [done|].
  change (cW c32) with 32 in Hx. change (cW c64) with 64 in Hy.
  destruct (enum4_spec m4 h r4 _ (fun q => G (false, q)) H4 Hx G4) as (ps4 & A1 & A2 & A3).
  destruct (enum6_spec h m ss F0 Fs r6 (map as_entry ys) I2 I1 Hy zs) as (ps6 & B1 & B2 & B3).
  { by apply Forall2_fmap_l. }
  exists (ps4 ++ ps6). split_and!.
  - apply sorted_app; [done|done|]. intros [q v] [q' v'] H H'. apply A3 in H as [E _]. apply B3 in H' as [E' _]. left. cbn [fst]. done.
  - intros [f q] v. rewrite elem_of_app, A3, B3. cbn [fst snd]. rewrite <- I6. split.
    + intros [[-> H]|[-> H]]; done.
    + intros H. destruct f; [by right|by left].
  - apply Forall2_app; [|done]. by rewrite map_map in A2.
Qed.
End ip.
