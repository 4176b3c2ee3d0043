(** * iptree on memory: the nodes of many versions and the calls that made them. *)
From Verif Require Import Prog History NumSpec NumModel NumFun NumAbs NumFoot NumBits NumSim NumInplace NumNavSpec NumNavProofs NumShare NumExact StampSpec StampProofs StampTree.
From Verif Require Import IpModel IpSpec IpBits IpAbs IpAbs2 IpAbs3 IpUpd3 IpKinds IpKinds2 IpKinds3 IpVersSpec IpStampSpec.
From Coq Require Import ZifyBool ZifyNat ZifyN.
Open Scope N_scope.

Section kinds.
Context {U : Type}.
Local Notation heap := (heap U).
Local Notation value := (value U).
Local Notation nmap := (gmap pfx (N * value)).
Local Notation kinds := (kd -> gset loc).
Local Notation ver := (ver U).
Local Notation ver0 := (ver0 U).
Local Notation iver := (iver U).
Local Notation iver0 := (iver0 U).
Implicit Types (h : heap) (L : kinds) (K : loc -> nat).

(** ** Contents that differ in values only. *)
Definition like (m m' : nmap) : Prop := forall q, m !! q = None <-> m' !! q = None.
Lemma like_some (m m' : nmap) q : like m m' -> is_Some (m !! q) <-> is_Some (m' !! q).
Proof. intros H. rewrite <- !not_eq_None_Some. by rewrite (H q). Qed.
Lemma like_sym (m m' : nmap) : like m m' -> like m' m.
Proof. intros H q. symmetry. apply H. Qed.
Lemma like_occupied (m m' : nmap) q : like m m' -> occupied m q -> occupied m' q.
Proof. intros H (p & x & E & Hc). destruct (proj1 (like_some m m' p H)) as [y Hy]; [by eexists|]. by exists p, y. Qed.
Lemma like_branching (m m' : nmap) q : like m m' -> branching m q <-> branching m' q.
Proof.
  intros H. pose proof (like_sym _ _ H) as H'. unfold branching. split; (intros [A|[A B]]; [left; by apply (like_some _ _ q H)|right; split; by eapply like_occupied]).
Qed.
Lemma like_sharing (m m2 : nmap) (g g2 : ver) q : like m (content g) -> like m2 (content g2) -> sharing (Ver m (since g)) (Ver m2 (since g2)) q <-> sharing g g2 q.
Proof.
  intros H H2. unfold sharing, lowest. cbn [content since]. split; intros (X & (A1 & A2 & A3) & A4 & A5); exists X.
  - split_and!; [by apply (like_branching _ _ X H)|done| |by apply (like_branching _ _ X H2)|done]. intros Y HY. apply A3. by apply (like_branching _ _ Y H).
  - split_and!; [by apply (like_branching _ _ X H)|done| |by apply (like_branching _ _ X H2)|done]. intros Y HY. apply A3. by apply (like_branching _ _ Y H).
Qed.
Lemma vals_none (m : nmap) q : vals m q = None <-> m !! q = None.
Proof. unfold vals. by destruct (m !! q). Qed.
Lemma vals_like (m m' : nmap) : (forall q, vals m q = vals m' q) -> like m m'.
Proof. intros H q. by rewrite <- !vals_none, H. Qed.
Lemma lookup_put (m : nmap) q v q' : put m q v !! q' = if decide (q = q') then Some (0, v) else m !! q'.
Proof. unfold put. destruct (decide (q = q')) as [<-|]; [by rewrite lookup_insert|by rewrite lookup_insert_ne]. Qed.
Lemma vals_put (m : nmap) q v q' : vals (put m q v) q' = if decide (q = q') then Some v else vals m q'.
Proof. unfold vals. rewrite lookup_put. by destruct (decide _). Qed.
Lemma lookup_cut (m : nmap) q q' : cut m q !! q' = if decide (covers q q') then None else m !! q'.
Proof.
  unfold cut. destruct (decide (covers q q')) as [Hc|Hc].
  - apply map_filter_lookup_None. right. intros x _. simpl. by intros Hn.
  - destruct (m !! q') as [x|] eqn:E; [by apply map_filter_lookup_Some|]. apply map_filter_lookup_None. by left.
Qed.
Lemma vals_cut (m : nmap) q q' : vals (cut m q) q' = if decide (covers q q') then None else vals m q'.
Proof. unfold vals. rewrite lookup_cut. by destruct (decide _). Qed.
Lemma no_branching q : ~ branching (∅ : nmap) q.
Proof. intros [[x H]|[(p & x & H & _) _]]; by rewrite lookup_empty in H. Qed.
Lemma sharing_l (g g2 : ver) q : sharing g g2 q -> content g <> ∅.
Proof. intros (X & (A & _) & _) E. rewrite E in A. by eapply no_branching. Qed.
Lemma sharing_r (g g2 : ver) q : sharing g g2 q -> content g2 <> ∅.
Proof. intros (X & _ & A & _) E. rewrite E in A. by eapply no_branching. Qed.
Lemma vals_empty (m m' : nmap) : (forall q, vals m q = vals m' q) -> m = ∅ <-> m' = ∅.
Proof.
  intros H. pose proof (vals_like _ _ H) as Hl. split; intros ->; apply map_empty; intros q; apply Hl, lookup_empty.
Qed.

(** ** Nodes by kind. *)
Definition cof (i : kd) : cfg := match i with K4 => c32 | _ => c64 end.
Lemma cof_ok i : cfg_ok (cof i).
Proof. destruct i; first [apply c32_ok|apply c64_ok]. Qed.
Definition klab h L K n : Prop := forall i, i <> KRoot -> labels (cof i) h (L i) K n.
Definition rlab L K (n : nat) : Prop := (forall a, a ∈ L KRoot -> (K a < n)%nat) /\ forall a a', a ∈ L KRoot -> a' ∈ L KRoot -> K a = K a' -> a = a'.
Definition linv h L K n : Prop := kgood h L /\ klab h L K n /\ rlab L K n.
Record stepped (i : kd) (n : nat) h L K h' L' K' : Prop := {
  st_le : kle L L'; st_good : kgood h' L'; st_dom : dom h ⊆ dom h'; st_root : L' KRoot = L KRoot;
  st_lab : labels (cof i) h' (L' i) K' (S n);
  st_others : forall j m, j <> i -> labels (cof j) h (L j) K m -> labels (cof j) h' (L' j) K' m;
  st_in : forall j p (g : ver), j <> i -> in_set (cof j) h (L j) K p g -> in_set (cof j) h' (L' j) K' p g;
  st_at : forall j a, j <> i -> a ∈ L j -> h' !! a = h !! a /\ K' a = K a;
  st_K : forall a, a ∈ dom h -> K' a = K a }.
Lemma did_stepped i n h L K h' M : i <> KRoot -> kgood h L -> did (cof i) h h' (L i) M K n -> stepped i n h L K h' (kup L i M) (mark K M n).
Proof.
  intros Hi HG Hd. pose proof (did_mark (cof i) _ _ _ _ _ _ Hd) as Hm. destruct Hd as (D1 & D2 & D3 & D4 & D5). pose proof HG as [G1 G2].
  assert (HG' : kgood h' (kup L i M)). { eapply kup_good; [exact HG|done|done|]. intros l Hl. right. by apply D1. }
  assert (Hat : forall j a, j <> i -> a ∈ L j -> h' !! a = h !! a /\ mark K M n a = K a).
  { intros j a Hj Ha. split; [|apply Hm; by apply (G1 j)]. apply D4; [by apply (G1 j)|]. intros Ha'. by apply (G2 j i Hj a). }
  split; [apply kup_le|done|done|by rewrite kup_other|by rewrite kup_same| | |done|done].
  - intros j m Hj. rewrite kup_other by done. apply labels_agree; [etrans; [apply G1|done]|intros a Ha; by apply Hat with j|intros a Ha; by apply Hat with j].
  - intros j p g Hj. rewrite kup_other by done. apply (in_set_agree _ (cof_ok j)); intros a Ha; by apply Hat with j.
Qed.
Lemma klab_1 i n h L K h' L' K' : klab h L K n -> stepped i n h L K h' L' K' -> klab h' L' K' (S n).
Proof. intros H S j Hj. destruct (decide (j = i)) as [->|Hne]; [by apply S|]. apply S; [done|]. by apply labels_next, H. Qed.
Lemma klab_2 i i2 n h L K h1 L1 K1 h2 L2 K2 : i <> i2 -> klab h L K n -> stepped i n h L K h1 L1 K1 -> stepped i2 n h1 L1 K1 h2 L2 K2 -> klab h2 L2 K2 (S n).
Proof.
  intros Hi H S S2 j Hj. destruct (decide (j = i2)) as [->|Hne]; [by apply S2|]. apply S2; [done|]. destruct (decide (j = i)) as [->|Hne2]; [by apply S|]. apply S; [done|]. by apply labels_next, H.
Qed.
Lemma klab_next h L K n : klab h L K n -> klab h L K (S n).
Proof. intros H j Hj. by apply labels_next, H. Qed.
Lemma rlab_same L K L' K' n : L' KRoot = L KRoot -> (forall a, a ∈ L KRoot -> K' a = K a) -> rlab L K n -> rlab L' K' n.
Proof. intros E HK [A B]. split; rewrite E; [intros a Ha; rewrite HK by done; auto|intros a a' Ha Ha'; rewrite !HK by done; auto]. Qed.
Lemma rlab_next L K n : rlab L K n -> rlab L K (S n).
Proof. intros [A B]. split; [|done]. intros a Ha. specialize (A a Ha). lia. Qed.

(** ** Versions. *)
Definition rel4 h L K (p : ptr) (g : ver) : Prop :=
  exists m, in_set c32 h (L K4) K p (Ver m (since g)) /\ plain_map m /\ forall q, vals m q = vals (content g) q.
Definition rtop h L K (p : ptr) (m : nmap) (g : ver) : Prop :=
  in_set c64 h (L KTop) K p (Ver m (since g)) /\ (forall q, q.1 <> 64 -> vals m q = vals (content g) q) /\ like m (content g) /\
  forall q k v, m !! q = Some (k, v) -> q.1 <> 64 -> plain v.
Definition rsub h L K (x : N) (e : option (N * value)) (ms : nmap) (g : ver) : Prop := exists s,
  in_set c64 h (L (KSub x)) K s (Ver ms (since g)) /\ plain_map ms /\ (forall q, vals ms q = vals (content g) q) /\
  match e with Some kv => kv.2 = VSub s /\ ms <> ∅ | None => s = None /\ ms = ∅ end.
Definition rel6 h L K (p : ptr) (gu : ver) (gi : N -> ver) : Prop :=
  exists m ss, rtop h L K p m gu /\ forall x, rsub h L K x (m !! (64, x)) (ss x) (gi x).
Definition parts h L K (p4 p6 : ptr) (g : iver) : Prop := rel4 h L K p4 (four g) /\ rel6 h L K p6 (upper g) (inside g).
Definition irel h L K (t : ptr) (g : iver) : Prop :=
  match t with
  | None => obj g = None /\ content (four g) = ∅ /\ content (upper g) = ∅ /\ forall x, content (inside g x) = ∅
  | Some a => a ∈ L KRoot /\ obj g = Some (K a) /\ exists p4 p6, h !! a = Some (CIp p4 p6) /\ parts h L K p4 p6 g
  end.
(** Everything that was there is as before. *)
Record moves h L K h' L' K' : Prop := {
  mv_in : forall j p (g : ver), j <> KRoot -> in_set (cof j) h (L j) K p g -> in_set (cof j) h' (L' j) K' p g;
  mv_root : forall a, a ∈ L KRoot -> a ∈ L' KRoot /\ h' !! a = h !! a /\ K' a = K a }.
Lemma moves_refl h L K : moves h L K h L K.
Proof. by split. Qed.
Lemma moves_trans h L K h1 L1 K1 h2 L2 K2 : moves h L K h1 L1 K1 -> moves h1 L1 K1 h2 L2 K2 -> moves h L K h2 L2 K2.
Proof.
  intros [A1 A2] [B1 B2]. split; [intros j p g Hj H; by apply B1, A1|]. intros a Ha. destruct (A2 a Ha) as (X1 & X2 & X3). destruct (B2 a X1) as (Y1 & Y2 & Y3). split_and!; [done|congruence|congruence].
Qed.
Lemma rel4_moves h L K h' L' K' p g : moves h L K h' L' K' -> rel4 h L K p g -> rel4 h' L' K' p g.
Proof. intros M (m & A & B). exists m. split; [|done]. by apply (mv_in _ _ _ _ _ _ M K4). Qed.
Lemma rtop_moves h L K h' L' K' p m g : moves h L K h' L' K' -> rtop h L K p m g -> rtop h' L' K' p m g.
Proof. intros M (A & B). split; [|done]. by apply (mv_in _ _ _ _ _ _ M KTop). Qed.
Lemma rsub_moves h L K h' L' K' x e ms g : moves h L K h' L' K' -> rsub h L K x e ms g -> rsub h' L' K' x e ms g.
Proof. intros M (s & A & B). exists s. split; [|done]. by apply (mv_in _ _ _ _ _ _ M (KSub x)). Qed.
Lemma rel6_moves h L K h' L' K' p gu gi : moves h L K h' L' K' -> rel6 h L K p gu gi -> rel6 h' L' K' p gu gi.
Proof. intros M (m & ss & A & B). exists m, ss. split; [by eapply rtop_moves|]. intros x. by eapply rsub_moves. Qed.
Lemma parts_moves h L K h' L' K' p4 p6 g : moves h L K h' L' K' -> parts h L K p4 p6 g -> parts h' L' K' p4 p6 g.
Proof. intros M [A B]. split; [by eapply rel4_moves|by eapply rel6_moves]. Qed.
Lemma irel_moves h L K h' L' K' t g : moves h L K h' L' K' -> irel h L K t g -> irel h' L' K' t g.
Proof.
  intros M. destruct t as [a|]; [|done]. intros (A & B & p4 & p6 & C & D). destruct (mv_root _ _ _ _ _ _ M a A) as (X1 & X2 & X3). split_and!; [done|by rewrite X3|].
  exists p4, p6. split; [by rewrite X2|by eapply parts_moves].
Qed.
Lemma in_set_up c (Hc : cfg_ok c) h h' (F F' : gset loc) K K' p (g : ver) : h ⊆ h' -> F ⊆ F' -> (forall a, a ∈ F -> K' a = K a) -> in_set c h F K p g -> in_set c h' F' K' p g.
Proof.
  intros Hs HF HK H. apply (in_set_mono c Hc h h' F K K' F' p g Hs HK) in H. replace (F ∪ F') with F' in H; [done|]. clear -HF. set_solver.
Qed.
Lemma step_moves i n h L K h' L' K' : kgood h L -> h ⊆ h' -> stepped i n h L K h' L' K' -> moves h L K h' L' K'.
Proof.
  intros [G1 G2] Hs S. split.
  - intros j p g Hj. apply (in_set_up _ (cof_ok j)); [done|apply S|]. intros a Ha. apply S. by apply (G1 j).
  - intros a Ha. assert (Hd : a ∈ dom h) by (by apply (G1 KRoot)). split_and!; [rewrite (st_root _ _ _ _ _ _ _ _ S); done| |by apply S]. apply elem_of_dom in Hd as [z Hz]. rewrite Hz. by eapply lookup_weaken.
Qed.
Definition ipost h L K (n : nat) (t : ptr) (g : iver) h' : Prop := exists L' K', linv h' L' K' (S n) /\ irel h' L' K' t g /\ moves h L K h' L' K'.
Lemma ipost_same h L K n t g h' : linv h L K n -> irel h L K t g -> h ⊆ h' -> ipost h L K n t g h'.
Proof.
  intros (HG & HK & HR) Ht Hs. pose proof HG as [G1 G2]. assert (Hd : forall i, L i ⊆ dom h') by (intros i; etrans; [apply G1|by apply subseteq_dom]).
  assert (Hat : forall i a, a ∈ L i -> h' !! a = h !! a). { intros i a Ha. apply (G1 i), elem_of_dom in Ha as [z Hz]. rewrite Hz. by eapply lookup_weaken. }
  assert (M : moves h L K h' L K). { split; [intros j p g' _; apply (in_set_up _ (cof_ok j)); done|]. intros a Ha. split_and!; [done|by apply (Hat KRoot)|done]. }
  exists L, K. split_and!; [split_and!| |done].
  - by split.
  - intros j Hj. eapply labels_agree; [apply Hd|apply Hat|done|]. by apply labels_next, HK.
  - by apply rlab_next.
  - by eapply irel_moves.
Qed.
Lemma ipost_alloc h L K n h1 L1 K1 p4 p6 g a : linv h L K n -> moves h L K h1 L1 K1 -> kgood h1 L1 -> klab h1 L1 K1 (S n) -> L1 KRoot = L KRoot ->
  parts h1 L1 K1 p4 p6 g -> obj g = Some n -> h1 !! a = None -> ipost h L K n (Some a) g (<[a := CIp p4 p6]> h1).
Proof.
  intros (_ & _ & HR) M HG1 HK1 Er Hp Ho Ha. pose proof HG1 as [G1 G2]. set (h2 := <[a := CIp p4 p6]> h1). set (L2 := kup L1 KRoot {[a]}). set (K2 := mark K1 {[a]} n).
  assert (Hs2 : h1 ⊆ h2) by (by apply insert_subseteq).
  assert (HG2 : kgood h2 L2).
  { eapply kup_good; [exact HG1|by apply subseteq_dom|unfold h2; rewrite dom_insert; clear; set_solver|]. intros l Hl. apply elem_of_singleton in Hl as ->. by right. }
  assert (Hk : forall i l, l ∈ L1 i -> K2 l = K1 l). { intros i l Hl. unfold K2, mark. rewrite decide_False; [done|]. intros ->%elem_of_singleton. apply (G1 i), elem_of_dom in Hl as [? Hl]. congruence. }
  assert (Hat : forall i l, l ∈ L1 i -> h2 !! l = h1 !! l). { intros i l Hl. apply (G1 i), elem_of_dom in Hl as [z Hz]. rewrite Hz. by eapply lookup_weaken. }
  assert (Hoth : forall j, j <> KRoot -> L2 j = L1 j) by (intros j Hj; unfold L2; by rewrite kup_other).
  assert (M2 : moves h1 L1 K1 h2 L2 K2).
  { split.
    - intros j p g' Hj. rewrite Hoth by done. apply (in_set_agree _ (cof_ok j)); [apply Hat|apply Hk].
    - intros l Hl. split_and!; [unfold L2; by apply kup_le|by apply (Hat KRoot)|by apply (Hk KRoot)]. }
  exists L2, K2. split_and!; [split_and!; [done| |]| |by eapply moves_trans].
  - intros j Hj. rewrite Hoth by done. eapply labels_agree; [|apply Hat|apply Hk|by apply HK1]. etrans; [apply G1|by apply subseteq_dom].
  - assert (HR1 : rlab L1 K1 n). { eapply rlab_same; [exact Er| |exact HR]. intros l Hl. by apply M. }
    destruct HR1 as [R1 R2]. assert (Ha1 : forall l, l ∈ L1 KRoot -> l <> a). { intros l Hl ->. apply (G1 KRoot), elem_of_dom in Hl as [? Hl]. congruence. }
    assert (Kn : K2 a = n) by (unfold K2, mark; rewrite decide_True; [done|clear; set_solver]).
    split; unfold L2; rewrite kup_same.
    + intros l Hl. apply elem_of_union in Hl as [Hl| ->%elem_of_singleton]; [rewrite (Hk KRoot) by done; specialize (R1 l Hl); lia|lia].
    + intros l l' Hl Hl'. apply elem_of_union in Hl as [Hl| ->%elem_of_singleton], Hl' as [Hl'| ->%elem_of_singleton]; [rewrite !(Hk KRoot) by done; auto|rewrite Kn, (Hk KRoot) by done|rewrite Kn, (Hk KRoot) by done|done].
      * intros E. specialize (R1 l Hl). lia.
      * intros E. specialize (R1 l' Hl'). lia.
  - split_and!; [unfold L2; rewrite kup_same; clear; set_solver| |].
    + rewrite Ho. unfold K2, mark. rewrite decide_True; [done|clear; set_solver].
    + exists p4, p6. split; [apply lookup_insert|by eapply parts_moves].
Qed.
Lemma parts_nil h L K g : content (four g) = ∅ -> content (upper g) = ∅ -> (forall x, content (inside g x) = ∅) -> parts h L K None None g.
Proof.
  intros E4 E6 Ei. split.
  - exists ∅. split_and!; [by apply in_set_nil|by intros ???|by rewrite E4].
  - exists ∅, (fun _ => ∅). split.
    + split_and!; [by apply in_set_nil|by rewrite E6|by rewrite E6|intros q k v H; by rewrite lookup_empty in H].
    + intros x. exists None. rewrite lookup_empty. split_and!; [by apply in_set_nil|by intros ???|by rewrite Ei|done|done].
Qed.
Lemma iroots h L K WS t g (Q : ptr * ptr -> heap -> gset loc -> Prop) : irel h L K t g -> (forall p4 p6, parts h L K p4 p6 g -> Q (p4, p6) h WS) -> wp (ip_roots t) h WS Q.
Proof.
  intros Ht HQ. destruct t as [a|].
  - destruct Ht as (_ & _ & p4 & p6 & Ha & Hp). eapply wp_ld_ip; [exact Ha|]. by apply HQ.
  - destruct Ht as (_ & E4 & E6 & Ei). cbn [ip_roots wp]. by apply HQ, parts_nil.
Qed.

(** ** As in IpKinds.v. *)
Lemma rel_ksubs h L K p m ss gu gi : kgood h L -> rtop h L K p m gu -> (forall x, rsub h L K x (m !! (64, x)) (ss x) (gi x)) -> ksubs h L m ss.
Proof.
  intros [G1 _] (_ & _ & _ & A4) H. split; [|exact A4|intros x; by destruct (H x) as (s & _ & B & _)].
  intros x. destruct (H x) as (s & B1 & _ & _ & B4). exists s. split; [|done]. by apply (in_set_in c64 h (L (KSub x)) K s (Ver (ss x) (since (gi x)))).
Qed.
Lemma rel_six h L K p m ss gu gi q : rtop h L K p m gu -> (forall x, rsub h L K x (m !! (64, x)) (ss x) (gi x)) ->
  six m ss q = snd <$> (if q.1 <? 64 then content gu !! q else content (gi (half q)) !! rest q).
Proof.
  intros (_ & A2 & _) H. unfold six. destruct (N.ltb_spec q.1 64) as [Hq|Hq]; [apply A2; lia|]. change (hi q).2 with (half q). change (lo q) with (rest q).
  destruct (H (half q)) as (s & _ & _ & B & _). apply B.
Qed.
Lemma irel_kitree h L K t g : kgood h L -> irel h L K t g -> kitree h L t (holds g).
Proof.
  intros HG Ht. pose proof HG as [G1 _]. destruct t as [a|].
  2: { destruct Ht as (_ & E4 & E6 & Ei). intros [[] q]; unfold holds; cbn [fst snd]; [|by rewrite E4]. rewrite E6, Ei, !lookup_empty. by destruct (q.1 <? 64). }
  destruct Ht as (A & _ & p4 & p6 & Ha & (m4 & B1 & B2 & B3) & (m & ss & C1 & C2)). split; [done|]. exists p4, p6. split_and!; [done| |].
  - exists m4. split_and!; [by apply (in_set_in c32 h (L K4) K p4 (Ver m4 (since (four g))))|done|]. intros q. unfold holds. cbn [fst snd]. symmetry. apply B3.
  - exists m, ss. split_and!; [apply (in_set_in c64 h (L KTop) K p6 (Ver m (since (upper g)))); [done|by apply C1]|by eapply rel_ksubs|].
    intros q. rewrite (rel_six _ _ _ _ _ _ _ _ q C1 C2). done.
Qed.
End kinds.
