(** * uintX iptree on memory: what a tree contains; Insert. *)
From Verif Require Import Prog NumModel NumBits NumFun NumSim NumSpec NumAbs NumFoot IpModel IpSpec IpBits IpAbs UxModel.
From Coq Require Import ZifyBool ZifyNat ZifyN.
Open Scope N_scope.

(** The key in the upper tree and the key in the tree stored there. *)
Definition up (q : pfx) : pfx := if q.1 <? 64 then q else hi q.
Definition dn (q : pfx) : pfx := if q.1 <? 64 then (0, 0) else lo q.
Lemma up_len q : (up q).1 < 64 <-> q.1 < 64.
Proof. unfold up. destruct (N.ltb_spec q.1 64); [done|]. unfold hi. cbn [fst]. lia. Qed.
Lemma up_le q : (up q).1 <= 64.
Proof. unfold up. destruct (N.ltb_spec q.1 64); [lia|]. unfold hi. cbn [fst]. lia. Qed.
Lemma up_low q : q.1 < 64 -> up q = q /\ dn q = (0, 0).
Proof. intros H. unfold up, dn. by destruct (N.ltb_spec q.1 64); [|lia]. Qed.
Lemma up_high q : 64 <= q.1 -> up q = hi q /\ dn q = lo q.
Proof. intros H. unfold up, dn. by destruct (N.ltb_spec q.1 64); [lia|]. Qed.
Lemma up_dn_inj p q : up p = up q -> dn p = dn q -> p = q.
Proof.
  intros E1 E2. pose proof (up_len p) as Lp. pose proof (up_len q) as Lq. rewrite E1 in Lp.
  destruct (N.lt_ge_cases p.1 64) as [Hp|Hp], (N.lt_ge_cases q.1 64) as [Hq|Hq]; try lia.
  - by rewrite (proj1 (up_low p Hp)), (proj1 (up_low q Hq)) in E1.
  - destruct (up_high p Hp) as [A B], (up_high q Hq) as [C D]. rewrite A, C in E1. rewrite B, D in E2.
    apply hi_lo_inj; done.
Qed.
Lemma norm0 k : k < 2 ^ 64 -> norm 64 k 0 = (0, 0).
Proof. intros H. unfold norm. f_equal. change (64 - 0) with 64. by apply N.div_small. Qed.
Lemma ip6_key_lb n hk hb lk lb : ip6_key n = Some (hk, hb, lk, lb) -> hb < 64 -> lb = 0.
Proof.
  unfold ip6_key. destruct (negb _); [done|]. destruct (mask_size n.2) as [ones sz]. destruct (negb _); [done|].
  destruct (N.ltb_spec 64 ones); [intros [= <- <- <- <-]; lia|]. by intros [= <- <- <- <-] _.
Qed.
Lemma ux_key_spec n : match ip6_key n with
  | Some (hk, hb, lk, lb) => exists q, net_is (Some n) (true, q) /\ valid_pfx 128 q /\ hk < 2 ^ 64 /\ hb <= 64 /\ lk < 2 ^ 64 /\ lb <= 64 /\
      norm 64 hk hb = up q /\ norm 64 lk lb = dn q /\ (hb < 64 <-> q.1 < 64) /\ (64 <= q.1 -> hk = (hi q).2)
  | None => forall q, ~ net_is (Some n) (true, q) end.
Proof.
  pose proof (ip6_key_spec n) as K. pose proof (ip6_key_lb n) as L. destruct (ip6_key n) as [[[[hk hb] lk] lb]|]; [|exact K].
  destruct K as (q & Hn & Hhk & Hlk & Hv & Klow & Khigh). exists q. specialize (L hk hb lk lb eq_refl).
  destruct (N.lt_ge_cases q.1 64) as [Hq|Hq].
  - destruct (Klow Hq) as [-> E]. destruct (up_low q Hq) as [-> ->]. rewrite (L Hq), (norm0 _ Hlk). split_and!; try done; lia.
  - destruct (Khigh Hq) as (-> & Hlb & E1 & E2 & E3). destruct (up_high q Hq) as [-> ->]. split_and!; try done; try lia.
Qed.

Section ux.
Context {U : Type}.
Local Notation heap := (heap U).
Local Notation value := (value U).
Local Notation nmap := (@gmap pfx (@prod_eq_dec N N_eq_dec N N_eq_dec) (@prod_countable N N_eq_dec N_countable N N_eq_dec N_countable) (prod N value)).
Local Notation prog := (prog U).

(** The upper tree has a key for each upper part, its value is the tree of the lower parts. *)
Definition us (ss : pfx -> nmap) (q : pfx) : option value := vals (ss (up q)) (dn q).
Record usubs (h : heap) (m : nmap) (ss : pfx -> nmap) (F0 : gset loc) (Fs : pfx -> gset loc) : Prop := {
  us_at : forall x, exists s, ntree_in c64 h (Fs x) s (ss x) /\
     match m !! x with Some kv => kv.2 = VSub s /\ ss x <> ∅ | None => s = None /\ ss x = ∅ /\ Fs x = ∅ end;
  us_low : forall x l kv, x.1 < 64 -> ss x !! l = Some kv -> l = (0, 0);
  us_plain : forall x, plain_map (ss x);
  us_disj0 : forall x, Fs x ## F0;
  us_disj : forall x y, x <> y -> Fs x ## Fs y }.
Definition utree6 (h : heap) (F : gset loc) (p : ptr) (g : pfx -> option value) : Prop :=
  exists m ss F0 Fs, ntree_in c64 h F0 p m /\ usubs h m ss F0 Fs /\ F0 ⊆ F /\ (forall x, Fs x ⊆ F) /\ F ⊆ dom h /\
    forall q, g q = us ss q.

Lemma usubs_mono (h h' : heap) m ss F0 Fs : h ⊆ h' -> usubs h m ss F0 Fs -> usubs h' m ss F0 Fs.
Proof.
  intros Hs [H1 H2 H3 H4 H5]. split; try done. intros x. destruct (H1 x) as (s & Hs' & Hx). exists s. split; [by eapply ntree_in_mono|done].
Qed.
Lemma utree6_mono (h h' : heap) F p g : h ⊆ h' -> utree6 h F p g -> utree6 h' F p g.
Proof.
  intros Hs (m & ss & F0 & Fs & H1 & H2 & H3 & H4 & H5 & H6). exists m, ss, F0, Fs. split_and!; try done.
  - by eapply ntree_in_mono.
  - by eapply usubs_mono.
  - apply subseteq_dom in Hs. by etrans.
Qed.
Lemma utree6_untouched (h h' : heap) (WS F : gset loc) p g : untouched WS h h' -> dom h ⊆ dom h' -> F ## WS -> utree6 h F p g -> utree6 h' F p g.
Proof.
  intros Hu Hdd Hd (m & ss & F0 & Fs & H1 & H2 & H3 & H4 & H5 & H6). exists m, ss, F0, Fs. split_and!; try done.
  - eapply ntree_in_untouched; [done| |done]. clear -H3 Hd. set_solver.
  - destruct H2 as [S1 S2 S3 S4 S5]. split; try done. intros x. destruct (S1 x) as (s & Hs' & Hx). exists s. split; [|done].
    eapply ntree_in_untouched; [done| |done]. specialize (H4 x). clear -H4 Hd. set_solver.
  - by etrans.
Qed.
Lemma utree6_dom (h : heap) F p g : utree6 h F p g -> F ⊆ dom h.
Proof. by intros (m & ss & F0 & Fs & H1 & H2 & H3 & H4 & H5 & H6). Qed.
Lemma utree6_nil (h : heap) g : (forall q, g q = None) -> utree6 h ∅ None g.
Proof.
  intros H. exists ∅, (fun _ => ∅), ∅, (fun _ => ∅). split_and!; try (clear; set_solver).
  - apply ntree_in_nil.
  - split; try done. intros x. exists None. rewrite lookup_empty. split; [apply ntree_in_nil|done].
  - intros q. by rewrite H.
Qed.
Lemma utree6_ext (h : heap) F p g g' : (forall q, g q = g' q) -> utree6 h F p g -> utree6 h F p g'.
Proof.
  intros H (m & ss & F0 & Fs & H1 & H2 & H3 & H4 & H5 & H6). exists m, ss, F0, Fs. split_and!; try done. intros q. by rewrite <- H.
Qed.

Definition put {A} (f : pfx -> A) (x : pfx) (a : A) (y : pfx) : A := if decide (y = x) then a else f y.
Lemma put_eq {A} (f : pfx -> A) x a : put f x a x = a.
Proof. unfold put. by destruct (decide _). Qed.
Lemma put_ne {A} (f : pfx -> A) x a y : y <> x -> put f x a y = f y.
Proof. unfold put. by destruct (decide _). Qed.

(** Writing the tree of the upper part [x]. *)
Lemma utree6_set (h h' : heap) m ss F0 Fs (x : pfx) (p' s' : ptr) (mx : nmap) (F0' Fx : gset loc) (k : N) :
  usubs h m ss F0 Fs ->
  ntree_in c64 h' F0' p' (<[x := (k, VSub s')]> m) -> ntree_in c64 h' Fx s' mx -> mx <> ∅ -> plain_map mx ->
  (forall l kv, x.1 < 64 -> mx !! l = Some kv -> l = (0, 0)) ->
  (forall y s, y <> x -> ntree_in c64 h (Fs y) s (ss y) -> ntree_in c64 h' (Fs y) s (ss y)) ->
  Fx ## F0' -> (forall y, y <> x -> Fs y ## F0' /\ Fs y ## Fx) ->
  usubs h' (<[x := (k, VSub s')]> m) (put ss x mx) F0' (put Fs x Fx).
Proof.
  intros [S1 S2 S3 S4 S5] Hp Hx Hne Hpl Hlow Hother Hd Hd'. split.
  - intros y. destruct (decide (y = x)) as [->|Hy].
    + exists s'. rewrite lookup_insert, !put_eq. done.
    + destruct (S1 y) as (s & Hs & Hm). exists s. rewrite !put_ne, lookup_insert_ne by congruence. split; [by apply Hother|done].
  - intros y l kv. destruct (decide (y = x)) as [->|Hy]; [rewrite put_eq; apply Hlow|rewrite put_ne by done; apply S2].
  - intros y. unfold put. by destruct (decide _).
  - intros y. destruct (decide (y = x)) as [->|Hy]; [by rewrite put_eq|]. rewrite put_ne by done. by apply Hd'.
  - intros y z Hyz. unfold put. destruct (decide (y = x)) as [->|Hy], (decide (z = x)) as [->|Hz]; try done.
    + symmetry. by apply Hd'.
    + by apply Hd'.
    + by apply S5.
Qed.
Lemma us_ins (ss : pfx -> nmap) (q0 : pfx) (lk lb : N) v q : norm 64 lk lb = dn q0 ->
  us (put ss (up q0) (s_insert 64 (ss (up q0)) lk lb v)) q = g_ins q0 v (us ss) q.
Proof.
  intros E. unfold us, g_ins, put. cbn beta. destruct (decide (up q = up q0)) as [Eu|Eu].
  - rewrite vals_ins, E, Eu. destruct (decide (dn q0 = dn q)) as [Ed|Ed], (decide (q0 = q)) as [->|Hn]; try done.
    destruct Hn. apply up_dn_inj; done.
  - destruct (decide (q0 = q)) as [->|]; done.
Qed.
Lemma us_ins_low (ss : pfx -> nmap) x (lk lb : N) v : (forall l kv, x.1 < 64 -> ss x !! l = Some kv -> l = (0, 0)) -> (x.1 < 64 -> norm 64 lk lb = (0, 0)) ->
  forall l kv, x.1 < 64 -> s_insert 64 (ss x) lk lb v !! l = Some kv -> l = (0, 0).
Proof.
  intros Hl Hn l kv Hx. unfold s_insert. destruct (decide (norm 64 lk lb = l)) as [<-|Hne]; [by intros _; apply Hn|].
  rewrite lookup_insert_ne by done. by apply Hl.
Qed.
Lemma dn_low q : (up q).1 < 64 -> dn q = (0, 0).
Proof. intros H. exact (proj2 (up_low q (proj1 (up_len q) H))). Qed.
Lemma exact_up (m : nmap) (hk hb : N) (x : pfx) : norm 64 hk hb = x ->
  s_exact 64 m hk hb = match m !! x with Some kv => (kv.2, true) | None => (VNil, false) end.
Proof. intros E. unfold s_exact. by rewrite E. Qed.

(** ** Whole trees. *)
Definition utree (h : heap) (t : ptr) (G : net -> option value) : Prop :=
  match t with
  | None => forall q, G q = None
  | Some a => exists r4 r6 F4 F6, h !! a = Some (CIp r4 r6) /\
      tree4 h F4 r4 (fun q => G (false, q)) /\ utree6 h F6 r6 (fun q => G (true, q)) /\ F4 ## F6 /\ a ∉ F4 /\ a ∉ F6
  end.
Lemma utree_mono (h h' : heap) t G : h ⊆ h' -> utree h t G -> utree h' t G.
Proof.
  intros Hs. destruct t as [a|]; [|done]. intros (r4 & r6 & F4 & F6 & Ha & H4 & H6 & Hd). exists r4, r6, F4, F6. split_and!; try apply Hd.
  - by eapply lookup_weaken.
  - by eapply tree4_mono.
  - by eapply utree6_mono.
Qed.
Lemma utree_ext (h : heap) t G G' : (forall q, G q = G' q) -> utree h t G -> utree h t G'.
Proof.
  intros H. destruct t as [a|]; [|by intros H' q; rewrite <- H]. intros (r4 & r6 & F4 & F6 & Ha & H4 & H6 & Hd). exists r4, r6, F4, F6. split_and!; try apply Hd; try done.
  - eapply tree4_ext; [|exact H4]. intros q. apply H.
  - eapply utree6_ext; [|exact H6]. intros q. apply H.
Qed.
Lemma utree_roots (h : heap) WS t G (Q : ptr * ptr -> heap -> gset loc -> Prop) : utree h t G ->
  (forall r4 r6 F4 F6, tree4 h F4 r4 (fun q => G (false, q)) -> utree6 h F6 r6 (fun q => G (true, q)) -> F4 ## F6 -> Q (r4, r6) h WS) ->
  wp (ip_roots t) h WS Q.
Proof.
  intros Ht HQ. destruct t as [a|].
  - destruct Ht as (r4 & r6 & F4 & F6 & Ha & H4 & H6 & Hd & _). eapply wp_ld_ip; [exact Ha|]. by eapply HQ.
  - cbn [ip_roots wp]. apply (HQ None None ∅ ∅); [by apply tree4_nil|by apply utree6_nil|]. clear. set_solver.
Qed.
Lemma utree_alloc (h : heap) WS r4 r6 F4 F6 G : tree4 h F4 r4 (fun q => G (false, q)) -> utree6 h F6 r6 (fun q => G (true, q)) -> F4 ## F6 ->
  wp (l <- alloc (CIp r4 r6) ;; Ret (Some l)) h WS (fun r h' _ => utree h' r G /\ h ⊆ h').
Proof.
  intros H4 H6 Hd. apply wp_bind, wp_alloc. intros a Ha. cbn [wp].
  assert (Hs : h ⊆ <[a := CIp r4 r6]> h) by (by apply insert_subseteq). split; [|done].
  assert (Ha' : a ∉ dom h) by (by apply not_elem_of_dom). apply tree4_dom in H4 as D4. apply utree6_dom in H6 as D6.
  exists r4, r6, F4, F6. split_and!; [by rewrite lookup_insert|by eapply tree4_mono|by eapply utree6_mono|done|clear -Ha' D4; set_solver|clear -Ha' D6; set_solver].
Qed.

(** The tree at an upper part, and storing another one there. *)
Lemma utree6_put (h : heap) WS F4 F6 (r6 : ptr) m ss F0 Fs (q : pfx) hk hb (h1 : heap) (s' : ptr) (mx : nmap) Fx (G : pfx -> option value) :
  hk < 2 ^ 64 -> hb <= 64 -> norm 64 hk hb = up q ->
  ntree_in c64 h F0 r6 m -> usubs h m ss F0 Fs -> F0 ⊆ F6 -> (forall x, Fs x ⊆ F6) -> F6 ⊆ dom h -> F4 ⊆ dom h -> F4 ## F6 ->
  h ⊆ h1 -> ntree_in c64 h1 Fx s' mx -> fresh_or h (Fs (up q)) Fx -> mx <> ∅ -> plain_map mx ->
  (forall l kv, (up q).1 < 64 -> mx !! l = Some kv -> l = (0, 0)) ->
  (forall q', G q' = us (put ss (up q) mx) q') ->
  wp (n_insert c64 r6 hk (Z.of_N hb) (VSub s')) h1 WS (fun x h2 _ => exists F6', utree6 h2 F6' x G /\ h ⊆ h2 /\ F4 ## F6').
Proof.
  intros Hhk Hhb Enorm I1 I2 I3 I4 I5 D4 Hd Hs1 Hs' Hfx Hne Hpl Hlow HG.
  eapply wp_mono; [apply (n_insert_in _ c64_ok h1 _ F0 r6 m hk (Z.of_N hb) (VSub s')); [done|by eapply ntree_in_mono]|]. cbn beta.
  intros x' h2 WS4 ((F0' & Hx' & Hf0) & Hs2 & _). change (cW c64) with 64 in *. rewrite adj_of in Hx' by done.
  unfold s_insert in Hx'. rewrite Enorm in Hx'.
  assert (Hh2 : h ⊆ h2) by (by etrans).
  assert (Dx : Fx ⊆ dom h1) by (by eapply ntree_in_dom).
  assert (D0 : F0 ⊆ dom h) by (by eapply ntree_in_dom).
  assert (D1 : dom h ⊆ dom h1) by (by apply subseteq_dom).
  assert (Hfx' : forall F, F ⊆ dom h -> F ## Fs (up q) -> F ## Fx).
  { intros F HF HF0 l Hl Hl0. destruct (Hfx l Hl0) as [H|H]; [by eapply HF0|]. apply HF in Hl. by apply not_elem_of_dom in H. }
  assert (Hf0' : forall F, F ⊆ dom h1 -> F ## F0 -> F ## F0').
  { intros F HF HF0 l Hl Hl0. destruct (Hf0 l Hl0) as [H|H]; [by eapply HF0|]. apply HF in Hl. by apply not_elem_of_dom in H. }
  assert (Hsub : usubs h2 (<[up q := (hk, VSub s')]> m) (put ss (up q) mx) F0' (put Fs (up q) Fx)).
  { eapply utree6_set; [exact I2|exact Hx'| |exact Hne|exact Hpl|exact Hlow| | |].
    - eapply ntree_in_mono; [exact Hs2|exact Hs'].
    - intros y sy _ Hy. by eapply ntree_in_mono.
    - apply Hf0'; [done|]. symmetry. apply Hfx'; [done|]. symmetry. apply I2.
    - intros y Hy. split; [apply Hf0'; [|apply I2]|apply Hfx'; [|by apply I2]].
      + etrans; [apply I4|]. by etrans.
      + by etrans; [apply I4|]. }
  exists (F0' ∪ (Fx ∪ F6)). split_and!; [|done|].
  - exists (<[up q := (hk, VSub s')]> m), (put ss (up q) mx), F0', (put Fs (up q) Fx). split_and!; [done|done|clear; set_solver| | |done].
    + intros y. specialize (I4 y). unfold put. destruct (decide _); clear -I4; set_solver.
    + apply union_least; [by eapply ntree_in_dom|]. apply union_least; [|etrans; [exact I5|by apply subseteq_dom]].
      apply subseteq_dom in Hs2. by etrans.
  - assert (F4 ## F0') by (apply Hf0'; [by etrans|]; clear -Hd I3; set_solver).
    assert (F4 ## Fx) by (apply Hfx'; [done|]; specialize (I4 (up q)); clear -Hd I4; set_solver). clear -H H0 Hd. set_solver.
Qed.

(** *** Insert. *)
Lemma ux_insert_at (h : heap) t G n r v : utree h t G -> plain v -> isnet n r ->
  wp (ux_insert_net t n v) h ∅ (fun t' h' _ => utree h' t' (g_upd r (fun q => g_ins q v) G)).
Proof.
  intros Ht Hv Hr. destruct n as [n|]; [|destruct r as [q|]; [by inversion Hr|by apply Ht]]. unfold ux_insert_net.
  pose proof (ip4_key_spec n) as K4. destruct (ip4_key n) as [[k b]|].
  { destruct K4 as (Hn & Hk & Hb). assert (r = Some (false, norm 32 k b)) as ->.
    { destruct r as [q|]; [|by apply Hr in Hn]. f_equal. by eapply net_is_fun. }
    apply wp_bind. eapply utree_roots; [exact Ht|]. intros r4 r6 F4 F6 H4 H6 Hd. cbn [fst snd].
    apply wp_bind. eapply wp_mono; [by apply tree4_ins_step|]. cbn beta. intros x h' WS' ((F' & H4' & Hf) & Hs & _).
    eapply wp_mono; [eapply (utree_alloc _ _ _ _ F' F6 (g_upd (Some (false, norm 32 k b)) (fun q => g_ins q v) G)); [| |]|].
    - exact H4'.
    - eapply utree6_mono; [exact Hs|exact H6].
    - intros l Hl Hl6. destruct (Hf l Hl) as [H|H]; [by eapply Hd|]. apply utree6_dom in H6. apply H6 in Hl6. by apply not_elem_of_dom in H.
    - cbn beta. intros t' h2 _ [Ht' _]. exact Ht'. }
  pose proof (ux_key_spec n) as K6. destruct (ip6_key n) as [[[[hk hb] lk] lb]|].
  2: { assert (r = None) as ->; [|apply wp_bind; eapply utree_roots; [exact Ht|]; intros; exact Ht]. destruct r as [[[] q]|]; [by apply K6 in Hr|by apply K4 in Hr|done]. }
  destruct K6 as (q & Hn & Hvq & Hhk & Hhb & Hlk & Hlb & Eup & Edn & _). assert (r = Some (true, q)) as ->.
  { destruct r as [q'|]; [|by apply Hr in Hn]. f_equal. by eapply net_is_fun. }
  apply wp_bind. eapply utree_roots; [exact Ht|]. intros r4 r6 F4 F6 H4 H6 Hd. cbn [fst snd].
  pose proof H6 as (m & ss & F0 & Fs & I1 & I2 & I3 & I4 & I5 & I6).
  apply wp_bind. eapply wp_mono; [apply (n_exact_in _ c64_ok h _ r6 m hk (Z.of_N hb)); [done|by eapply ntree_in_at]|]. cbn beta.
  intros e h1 WS1 (He & -> & _). change (cW c64) with 64 in He. rewrite adj_of in He by done. rewrite (exact_up _ _ _ _ Eup) in He.
  destruct (us_at _ _ _ _ _ I2 (up q)) as (s & Hs & Hm).
  assert (Hse : (if e.2 then sub_of e.1 else None) = s).
  { destruct (m !! up q) as [kv|]; subst e; cbn [fst snd].
    - destruct Hm as [-> _]. done.
    - by destruct Hm as [-> _]. }
  cbv zeta. rewrite Hse. clear Hse He.
  apply wp_bind. eapply wp_mono; [by apply (n_insert_in _ c64_ok h _ (Fs (up q)) s (ss (up q)) lk (Z.of_N lb) v)|]. cbn beta.
  intros s' h1 WS3 ((Fx & Hs' & Hfx) & Hs1 & _). change (cW c64) with 64 in *. rewrite adj_of in Hs' by done.
  apply wp_bind. eapply wp_mono; [eapply (utree6_put h _ F4 F6 r6 m ss F0 Fs q hk hb h1 s' _ Fx (fun q' => g_ins q v (fun x => G (true, x)) q')); try eassumption|].
  - by eapply tree4_dom.
  - apply sub_ins_ne.
  - apply plain_ins; [apply I2|done].
  - apply us_ins_low; [apply I2|]. intros Hx. rewrite Edn. by apply dn_low.
  - intros q'. rewrite us_ins by done. unfold g_ins. by rewrite I6.
  - cbn beta. intros x h2 WS5 (F6' & H6' & Hs2 & Hd').
    eapply wp_mono; [eapply (utree_alloc _ _ _ _ F4 F6' (g_upd (Some (true, q)) (fun q => g_ins q v) G)); [| |]|].
    + eapply tree4_mono; [exact Hs2|exact H4].
    + exact H6'.
    + exact Hd'.
    + cbn beta. intros t' h3 _ [Ht' _]. exact Ht'.
Qed.
End ux.
