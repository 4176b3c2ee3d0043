(** * iptree on memory: Delete and Get. *)
From Verif Require Import Prog NumModel NumBits NumFun NumSim NumSpec NumAbs NumFoot IpModel IpSpec IpBits IpAbs.
From Coq Require Import ZifyBool ZifyNat ZifyN.
Open Scope N_scope.

Section ip.
Context {U : Type}.
Local Notation heap := (heap U).
Local Notation value := (value U).
Local Notation nmap := (@gmap pfx (@prod_eq_dec N N_eq_dec N N_eq_dec) (@prod_countable N N_eq_dec N_countable N N_eq_dec N_countable) (prod N value)).
Local Notation prog := (prog U).

Definition below_ (q0 : pfx) (g : pfx -> option value) : Prop := exists q v, covers q0 q /\ g q = Some v.
Lemma g_del_none q0 (g : pfx -> option value) : ~ below_ q0 g -> forall q, g_del q0 g q = g q.
Proof.
  intros H q. unfold g_del. destruct (decide (covers q0 q)) as [Hc|Hc]; [|done]. destruct (g q) as [v|] eqn:E; [|done].
  exfalso. apply H. by exists q, v.
Qed.
Lemma deleted_below W (m : nmap) k b f (g : pfx -> option value) : (forall q, g q = vals m q) -> s_deleted W m k b f -> f = true <-> below_ (norm W k b) g.
Proof.
  intros Hg Hd. unfold s_deleted in Hd. rewrite Hd. split.
  - intros (q & [[k' v] Hq] & Hc). exists q, v. split; [done|]. rewrite Hg. apply vals_some. by exists k'.
  - intros (q & v & Hc & Hq). exists q. split; [|done]. rewrite Hg in Hq. apply vals_some in Hq as [k' Hq]. by exists (k', v).
Qed.

(** Deleting above the boundary. *)
Definition cut (q : pfx) {A} (d : A) (f : N -> A) (y : N) : A := if decide (covers q (64, y)) then d else f y.
Lemma subs_del_low (h h' : heap) (m : nmap) ss F0 F0' Fs k b q0 : subs h m ss F0 Fs -> norm 64 k b = q0 ->
  (forall x s, ntree_in c64 h (Fs x) s (ss x) -> ntree_in c64 h' (Fs x) s (ss x)) -> (forall x, Fs x ## F0') ->
  subs h' (s_delete 64 m k b) (cut q0 ∅ ss) F0' (cut q0 ∅ Fs).
Proof.
  intros [S1 S2 S3 S4 S5] <- Hin Hd. unfold cut. split.
  - intros x. destruct (S1 x) as (s & Hs & Hm). rewrite lookup_del.
    destruct (decide (covers (norm 64 k b) (64, x))) as [Hc|Hc].
    + exists None. split; [apply ntree_in_nil|done].
    + exists s. split; [by apply Hin|done].
  - intros q k' v'. rewrite lookup_del. destruct (decide _); [done|]. apply S2.
  - intros x. destruct (decide _); [by intros ???|apply S3].
  - intros x. destruct (decide _); [clear; set_solver|apply Hd].
  - intros x y Hxy. destruct (decide _), (decide _); try (clear; set_solver). by apply S5.
Qed.
Lemma six_del_low (m : nmap) ss k b q0 q : norm 64 k b = q0 -> q0.1 < 64 -> six (s_delete 64 m k b) (cut q0 ∅ ss) q = g_del q0 (six m ss) q.
Proof.
  intros <- H. unfold six, g_del. destruct (N.ltb_spec q.1 64) as [Hq|Hq]; [apply vals_del|].
  assert (Hi : hi q = (64, (hi q).2)) by done. unfold cut. rewrite <- Hi.
  assert (Hcl := cov_low (norm 64 k b) q). rewrite (decide_ext (covers (norm 64 k b) (hi q)) (covers (norm 64 k b) q)) by (symmetry; apply Hcl; lia).
  destruct (decide _); [|done]. unfold vals. by rewrite lookup_empty.
Qed.
Lemma some_of_nonempty (m : nmap) : m <> ∅ -> exists q k v, m !! q = Some (k, v).
Proof. intros H. apply map_choose in H as (q & [k v] & H). eauto. Qed.
Lemma six_join (h : heap) (m : nmap) ss F0 Fs x l k v : subs h m ss F0 Fs -> ss x !! l = Some (k, v) ->
  hi (join x l) = (64, x) /\ lo (join x l) = l /\ 64 <= (join x l).1 /\ six m ss (join x l) = Some v.
Proof.
  intros I2 Hl. destruct (sub_at _ _ _ _ _ I2 x) as (s & Hs & _). apply ntree_in_at in Hs.
  destruct (top_le _ _ _ _ _ _ Hs Hl) as [V1 V2]. split_and!.
  - by apply hi_join.
  - by apply lo_join.
  - unfold join. cbn [fst]. lia.
  - unfold six. rewrite hi_join, lo_join by done. cbn [snd]. destruct (N.ltb_spec (join x l).1 64) as [H|H]; [unfold join in H; cbn [fst] in H; lia|].
    apply vals_some. by exists k.
Qed.
Lemma six_high (m : nmap) ss q v : 64 <= q.1 -> six m ss q = Some v -> exists k, ss (hi q).2 !! lo q = Some (k, v).
Proof. intros Hq. unfold six. destruct (N.ltb_spec q.1 64); [lia|]. by intros H'%vals_some. Qed.
Lemma sub_present (h : heap) (m : nmap) ss F0 Fs x l k v : subs h m ss F0 Fs -> ss x !! l = Some (k, v) -> exists k s, m !! (64, x) = Some (k, VSub s) /\ ntree_in c64 h (Fs x) s (ss x).
Proof.
  intros I2 Hl. destruct (sub_at _ _ _ _ _ I2 x) as (s & Hs & Hm). destruct (m !! (64, x)) as [[k' v']|].
  - destruct Hm as [Hm _]. cbn [snd] in Hm. subst. by exists k', s.
  - destruct Hm as (_ & E & _). rewrite E in Hl. by rewrite lookup_empty in Hl.
Qed.
Lemma flag_low (h : heap) p (m : nmap) ss F0 Fs k b q0 f : subs h m ss F0 Fs -> ntree_at c64 h p m -> norm 64 k b = q0 -> q0.1 < 64 ->
  s_deleted 64 m k b f -> f = true <-> below_ q0 (six m ss).
Proof.
  intros I2 Ht <- Hq0 Hd. unfold s_deleted in Hd. rewrite Hd. split.
  - intros (q & [[k' v] Hq] & Hc). pose proof (top_le _ _ _ _ _ _ Ht Hq) as [Hle _].
    destruct (N.eq_dec q.1 64) as [Eq|Eq].
    + destruct q as [? x]. cbn [fst] in Eq. subst. destruct (sub_at _ _ _ _ _ I2 x) as (s & Hs & Hm).
      destruct (m !! (64, x)) as [kv|] eqn:E; [|by pose proof (eq_trans (eq_sym E) Hq)]. destruct Hm as [_ Hm].
      apply some_of_nonempty in Hm as (l & k1 & v1 & Hl). destruct (six_join _ _ _ _ _ _ _ _ _ I2 Hl) as (J1 & J2 & J3 & J4).
      exists (join x l), v1. split; [|done]. apply cov_low; [lia|done|]. by rewrite J1.
    + exists q, v. split; [done|]. unfold six. destruct (N.ltb_spec q.1 64); [|lia]. apply vals_some. by exists k'.
  - intros (q & v & Hc & Hq). destruct (N.lt_ge_cases q.1 64) as [Hlt|Hge].
    + exists q. split; [|done]. unfold six in Hq. destruct (N.ltb_spec q.1 64); [|lia]. apply vals_some in Hq as [k' Hq]. by eexists.
    + apply six_high in Hq as [k' Hq]; [|done]. destruct (sub_present _ _ _ _ _ _ _ _ _ I2 Hq) as (k1 & s & Hm & _).
      exists (hi q). split; [by eexists|]. apply cov_low in Hc; [done|lia|done].
Qed.
Lemma flag_high (h : heap) (m : nmap) ss F0 Fs k b q0 f : subs h m ss F0 Fs -> norm 64 k b = lo q0 -> 64 <= q0.1 ->
  s_deleted 64 (ss (hi q0).2) k b f -> f = true <-> below_ q0 (six m ss).
Proof.
  intros I2 Hn Hq0 Hd. unfold s_deleted in Hd. rewrite Hd, Hn. split.
  - intros (l & [[k' v] Hl] & Hc). destruct (six_join _ _ _ _ _ _ _ _ _ I2 Hl) as (J1 & J2 & J3 & J4).
    exists (join (hi q0).2 l), v. split; [|done]. apply cov_high; [done|done|]. by rewrite J1, J2.
  - intros (q & v & Hc & Hq). assert (64 <= q.1) by (destruct Hc; lia). apply six_high in Hq as [k' Hq]; [|done].
    apply cov_high in Hc as [Hh Hc]; [|done..]. exists (lo q). rewrite Hh. split; [by eexists|done].
Qed.
Lemma six_del_high (m m' : nmap) ss q0 k b q : norm 64 k b = lo q0 -> 64 <= q0.1 -> (forall q, q.1 < 64 -> m' !! q = m !! q) ->
  six m' (fun y => if y =? (hi q0).2 then s_delete 64 (ss (hi q0).2) k b else ss y) q = g_del q0 (six m ss) q.
Proof.
  intros Hn Hq0 Hm. unfold six, g_del. destruct (N.ltb_spec q.1 64) as [Hq|Hq].
  - unfold vals. rewrite Hm by done. destruct (decide (covers q0 q)) as [[Hc _]|]; [lia|done].
  - destruct (N.eqb_spec (hi q).2 (hi q0).2) as [E|E].
    + rewrite vals_del, Hn, E. rewrite (decide_ext (covers q0 q) (covers (lo q0) (lo q))); [done|]. rewrite cov_high by done. split; [by intros [_ ?]|].
      intros ?. split; [|done]. unfold hi in *. cbn [snd] in E. congruence.
    + destruct (decide (covers q0 q)) as [Hc|]; [|done]. apply cov_high in Hc as [Hh _]; [|done..]. congruence.
Qed.

Lemma nothing_itree (h : heap) t G q0 : itree h t G -> ~ below_ q0.2 (fun q => G (q0.1, q)) -> itree h t (g_upd (Some q0) g_del G).
Proof.
  intros Ht Hn. eapply itree_ext; [|exact Ht]. intros [f q]. unfold g_upd. cbn [fst snd].
  destruct (Bool.eqb q0.1 f) eqn:E; [|done]. apply Bool.eqb_prop in E. subst f. symmetry. by apply g_del_none.
Qed.
Lemma below_net (G : net -> option value) q0 : below_ q0.2 (fun q => G (q0.1, q)) <-> exists p q v, Some q0 = Some p /\ ncovers p q /\ G q = Some v.
Proof.
  split.
  - intros (q & v & Hc & Hq). exists q0, (q0.1, q), v. done.
  - intros (p & [f q] & v & [= <-] & [E Hc] & Hq). cbn [fst snd] in *. subst f. by exists q, v.
Qed.
Lemma below_six (g : pfx -> option value) m ss q0 : (forall q, g q = six m ss q) -> below_ q0 g <-> below_ q0 (six m ss).
Proof. intros H. unfold below_. split; intros (q & v & Hc & Hq); exists q, v; rewrite H in *; done. Qed.

Lemma ip_delete_at (h : heap) t G n r : itree h t G -> isnet n r ->
  wp (ip_delete_net t n) h ∅ (fun x h' _ => itree h' x.1 (g_upd r g_del G) /\
     (x.2 = true <-> exists p q v, r = Some p /\ ncovers p q /\ G q = Some v)).
Proof.
  intros Ht Hr.
  assert (Hnone : r = None -> wp (Ret (t, false)) h ∅ (fun x h' _ => itree h' x.1 (g_upd r g_del G) /\
     (x.2 = true <-> exists p q v, r = Some p /\ ncovers p q /\ G q = Some v))).
  { intros ->. cbn [wp fst snd]. split; [done|]. split; [done|]. by intros (p & q & v & ? & _). }
  destruct t as [a|].
  2: { cbn [ip_delete_net wp fst snd]. split; [|split; [done|]; intros (p & q & v & _ & _ & H); by rewrite Ht in H].
       intros q. destruct r as [p|]; cbn [g_upd]; [|apply Ht]. destruct (Bool.eqb p.1 q.1); [|apply Ht]. unfold g_del. destruct (decide _); [done|apply Ht]. }
  destruct n as [n|]; [|destruct r as [q|]; [by inversion Hr|by apply Hnone]]. unfold ip_delete_net.
  pose proof Ht as (r4 & r6 & F4 & F6 & Ha & H4 & H6 & Hd & A4 & A6).
  apply wp_bind. eapply wp_ld_ip; [exact Ha|]. cbn [fst snd].
  assert (Hnot : forall q0, r = Some q0 -> ~ below_ q0.2 (fun q => G (q0.1, q)) -> forall WS, wp (Ret (Some a, false)) h WS (fun x h' _ => itree h' x.1 (g_upd r g_del G) /\
     (x.2 = true <-> exists p q v, r = Some p /\ ncovers p q /\ G q = Some v))).
  { intros q0 -> Hb WS. cbn [wp fst snd]. split; [by apply nothing_itree|]. split; [done|]. by rewrite <- below_net. }
  pose proof (tree4_dom _ _ _ _ H4) as D4. pose proof (tree6_dom _ _ _ _ H6) as D6.
  pose proof (ip4_key_spec n) as K4. destruct (ip4_key n) as [[k b]|].
  { destruct K4 as (Hn & Hk & Hb). assert (r = Some (false, norm 32 k b)) as ->.
    { destruct r as [q|]; [|by apply Hr in Hn]. f_equal. by eapply net_is_fun. }
    pose proof H4 as (m & M1 & M2 & M3). apply wp_bind. eapply wp_mono; [apply (n_delete_in _ c32_ok h ∅ F4 r4 m k (Z.of_N b)); done|]. cbn beta.
    intros [x f] h' WS' ((F' & Hx & Hf) & Hdel & Hs & _). cbn [fst snd] in *. change (cW c32) with 32 in *. rewrite adj_of in Hx, Hdel by done.
    pose proof (deleted_below 32 m k b f _ M3 Hdel) as Hfl. destruct f.
    - apply wp_bind, wp_alloc. intros a' Ha'. cbn [bind wp fst snd]. apply not_elem_of_dom in Ha'.
      assert (Hs' : h' ⊆ <[a' := CIp x r6]> h') by (apply insert_subseteq; by apply not_elem_of_dom).
      split; [|rewrite <- below_net; exact Hfl]. pose proof (ntree_in_dom _ _ _ _ _ Hx) as Dx. pose proof (subseteq_dom _ _ Hs) as Dh.
      exists x, r6, F', F6. split_and!.
      + by rewrite lookup_insert.
      + eexists. split_and!; [eapply ntree_in_mono; [exact Hs'|exact Hx]|by apply plain_del|]. intros q. cbn [g_upd fst snd Bool.eqb]. rewrite vals_del. unfold g_del. by rewrite M3.
      + eapply tree6_mono; [exact Hs'|]. by eapply tree6_mono.
      + intros l Hl Hl6. destruct (Hf l Hl) as [H|H]; [by eapply Hd|]. apply D6 in Hl6. by apply not_elem_of_dom in H.
      + clear -Ha' Dx. set_solver.
      + clear -Ha' D6 Dh. set_solver.
    - cbn [wp fst snd]. split; [|split; [done|]; intros H; apply below_net in H; cbn [fst snd] in H; by apply Hfl in H].
      eapply itree_mono; [exact Hs|]. apply nothing_itree; [done|]. cbn [fst snd]. intros H. by apply Hfl in H. }
  pose proof (ip6_key_spec n) as K6. destruct (ip6_key n) as [[[[hk hb] lk] lb]|].
  2: { apply Hnone. destruct r as [[[] q]|]; [by apply K6 in Hr|by apply K4 in Hr|done]. }
  clear Hnone. destruct K6 as (q & Hn & Hhk & Hlk & Hvq & Klow & Khigh). assert (r = Some (true, q)) as ->.
  { destruct r as [q'|]; [|by apply Hr in Hn]. f_equal. by eapply net_is_fun. }
  pose proof H6 as (m & ss & F0 & Fs & I1 & I2 & I3 & I4 & I5 & I6).
  assert (D0 : F0 ⊆ dom h) by (by eapply ntree_in_dom).
  assert (Ds : forall y, Fs y ⊆ dom h) by (intros y; by etrans; [apply I4|]).
  pose proof (below_six (fun q => G (true, q)) m ss q I6) as Hbs.
  (* the end of all successful deletions *)
  assert (Hend : forall h1 WS1 x' (m' : nmap) ss' F0' Fs' F', h ⊆ h1 -> ntree_in c64 h1 F0' x' m' -> subs h1 m' ss' F0' Fs' -> F0' ⊆ F' -> (forall y, Fs' y ⊆ F') -> F' ⊆ dom h1 -> F4 ## F' ->
    (forall q', six m' ss' q' = g_del q (six m ss) q') -> below_ q (six m ss) ->
    wp (l <- alloc (CIp r4 x') ;; Ret (Some l, true)) h1 WS1 (fun x h' _ => itree h' x.1 (g_upd (Some (true, q)) g_del G) /\
     (x.2 = true <-> exists p q' v, Some (true, q) = Some p /\ ncovers p q' /\ G q' = Some v))).
  { intros h1 WS1 x' m' ss' F0' Fs' F' Hs X1 X2 X3 X4 X5 X6 X7 X8. apply wp_bind, wp_alloc. intros a' Ha'. cbn [wp fst snd]. apply not_elem_of_dom in Ha'.
    assert (Hs' : h1 ⊆ <[a' := CIp r4 x']> h1) by (apply insert_subseteq; by apply not_elem_of_dom).
    pose proof (subseteq_dom _ _ Hs) as Dh. split.
    - exists r4, x', F4, F'. split_and!; [by rewrite lookup_insert| | |done|clear -Ha' D4 Dh; set_solver|clear -Ha' X5; set_solver].
      + eapply tree4_mono; [exact Hs'|]. by eapply tree4_mono.
      + eapply tree6_mono; [exact Hs'|]. exists m', ss', F0', Fs'. split_and!; try done. intros q'. cbn [g_upd fst snd Bool.eqb]. rewrite X7. unfold g_del. by rewrite I6.
    - split; [|done]. intros _. apply below_net. by apply Hbs. }
  destruct (N.ltb_spec hb 64) as [Hhb|Hhb].
  - assert (Hq : q.1 < 64). { destruct (N.lt_ge_cases q.1 64) as [|Hge]; [done|]. destruct (Khigh Hge) as [-> _]. lia. }
    destruct (Klow Hq) as [-> Hnorm]. apply wp_bind.
    eapply wp_mono; [apply (n_delete_in _ c64_ok h ∅ F0 r6 m hk (Z.of_N q.1)); done|]. cbn beta.
    intros [x f] h' WS' ((F0' & Hx & Hf) & Hdel & Hs & _). cbn [fst snd] in *. change (cW c64) with 64 in *. rewrite adj_of in Hx, Hdel by lia.
    pose proof (flag_low _ _ _ _ _ _ _ _ _ _ I2 (ntree_in_at _ _ _ _ _ I1) Hnorm Hq Hdel) as Hfl.
    assert (Hfd : forall F, F ⊆ dom h -> F ## F0 -> F ## F0').
    { intros F HF HF0 l Hl Hl0. destruct (Hf l Hl0) as [H|H]; [by eapply HF0|]. apply HF in Hl. by apply not_elem_of_dom in H. }
    destruct f.
    + assert (Hsub : subs h' (s_delete 64 m hk q.1) (cut q ∅ ss) F0' (cut q ∅ Fs)).
      { eapply subs_del_low; [exact I2|exact Hnorm| |].
        - intros y s Hy. by eapply ntree_in_mono.
        - intros y. apply Hfd; [done|apply I2]. }
      eapply (Hend h' _ x _ _ _ _ (F0' ∪ F6)); [done|exact Hx|exact Hsub|clear; set_solver| | | | |by apply Hfl].
      * intros y. unfold cut. specialize (I4 y). destruct (decide _); clear -I4; set_solver.
      * apply union_least; [by eapply ntree_in_dom|]. etrans; [exact I5|by apply subseteq_dom].
      * assert (F4 ## F0') by (apply Hfd; [done|]; clear -Hd I3; set_solver). clear -H Hd. set_solver.
      * intros q'. by apply six_del_low.
    + cbn [wp fst snd]. split; [|split; [done|]; intros H; apply below_net in H; apply Hbs in H; by apply Hfl in H].
      eapply itree_mono; [exact Hs|]. apply nothing_itree; [done|]. cbn [fst snd]. intros H. apply Hbs in H. by apply Hfl in H.
  - assert (Hq : 64 <= q.1). { destruct (N.lt_ge_cases q.1 64) as [Hlt|]; [|done]. destruct (Klow Hlt) as [-> _]. lia. }
    destruct (Khigh Hq) as (-> & Hlb & Hnhi & Hnlo & Hhk2). 
    assert (Enorm : norm 64 hk 64 = (64, (hi q).2)) by (rewrite Hnhi; done). clear Klow Khigh.
    apply wp_bind. eapply wp_mono; [apply (n_exact_in _ c64_ok h ∅ r6 m hk (Z.of_N 64)); [done|by eapply ntree_in_at]|]. cbn beta.
    intros e h1 WS1 (He & -> & _). change (cW c64) with 64 in He. change (adj 64 (Z.of_N 64)) with 64 in He.
    rewrite (exact64 _ _ _ Enorm) in He.
    destruct (sub_at _ _ _ _ _ I2 (hi q).2) as (s & Hs & Hm).
    destruct (m !! (64, (hi q).2)) as [[k' v']|] eqn:Em.
    2: { subst e. cbn [fst snd]. eapply (Hnot (true, q)); [done|]. cbn [fst snd]. intros H. apply Hbs in H. destruct H as (q' & v & Hc & Hq').
         assert (64 <= q'.1) by (destruct Hc; lia). apply six_high in Hq' as [k' Hq']; [|done]. apply cov_high in Hc as [Hh _]; [|done..].
         rewrite <- Hh in Hq'. destruct Hm as (_ & E & _). rewrite E in Hq'. by rewrite lookup_empty in Hq'. }
    destruct Hm as [Hm Hne]. cbn [snd] in Hm. subst v'. subst e. cbn [fst snd as_sub bind].
    apply wp_bind. eapply wp_mono; [apply (n_delete_in _ c64_ok h _ (Fs (hi q).2) s (ss (hi q).2) lk (Z.of_N lb)); done|]. cbn beta.
    intros [s' f] h1 WS2 ((Fx & Hx & Hfx) & Hdel & Hs1 & _). cbn [fst snd] in *. change (cW c64) with 64 in *. rewrite adj_of in Hx, Hdel by done.
    pose proof (flag_high _ _ _ _ _ _ _ _ _ I2 Hnlo Hq Hdel) as Hfl.
    destruct f.
    2: { cbn [wp fst snd]. split; [|split; [done|]; intros H; apply below_net in H; apply Hbs in H; by apply Hfl in H].
         eapply itree_mono; [exact Hs1|]. apply nothing_itree; [done|]. cbn [fst snd]. intros H. apply Hbs in H. by apply Hfl in H. }
    assert (D1 : dom h ⊆ dom h1) by (by apply subseteq_dom).
    assert (Dx : Fx ⊆ dom h1) by (by eapply ntree_in_dom).
    assert (Hfx' : forall F, F ⊆ dom h -> F ## Fs (hi q).2 -> F ## Fx).
    { intros F HF HF0 l Hl Hl0. destruct (Hfx l Hl0) as [H|H]; [by eapply HF0|]. apply HF in Hl. by apply not_elem_of_dom in H. }
    assert (X4 : F4 ## Fs (hi q).2) by (specialize (I4 (hi q).2); clear -Hd I4; set_solver).
    assert (X40 : F4 ## F0) by (clear -Hd I3; set_solver).
    destruct s' as [s'|].
    + (* the subtree is still inhabited *)
      apply wp_bind. eapply wp_mono; [apply (n_insert_in _ c64_ok h1 _ F0 r6 m hk (Z.of_N 64) (VSub (Some s'))); [done|by eapply ntree_in_mono]|]. cbn beta.
      intros x' h2 WS4 ((F0' & Hx' & Hf0) & Hs2 & _). change (cW c64) with 64 in *. change (adj 64 (Z.of_N 64)) with 64 in Hx'.
      rewrite (ins64 _ _ _ _ Enorm) in Hx'. assert (Hh2 : h ⊆ h2) by (by etrans).
      assert (Hf0' : forall F, F ⊆ dom h1 -> F ## F0 -> F ## F0').
      { intros F HF HF0 l Hl Hl0. destruct (Hf0 l Hl0) as [H|H]; [by eapply HF0|]. apply HF in Hl. by apply not_elem_of_dom in H. }
      assert (Hsub : subs h2 (<[(64, (hi q).2) := (hk, VSub (Some s'))]> m) (fun y => if y =? (hi q).2 then s_delete 64 (ss (hi q).2) lk lb else ss y) F0' (fun y => if y =? (hi q).2 then Fx else Fs y)).
      { eapply tree6_set; [exact I2|exact Hx'| | | | | |].
        - eapply ntree_in_mono; [exact Hs2|exact Hx].
        - intros E. apply (ntree_at_none _ _ _ _ (ntree_in_at _ _ _ _ _ Hx)) in E. done.
        - apply plain_del. apply I2.
        - intros y sy _ Hy. eapply ntree_in_mono; [exact Hh2|done].
        - apply Hf0'; [done|]. symmetry. apply Hfx'; [done|]. symmetry. apply I2.
        - intros y Hy. split; [apply Hf0'; [|apply I2]|apply Hfx'; [done|by apply I2]]. by etrans; [apply Ds|]. }
      eapply (Hend h2 _ x' _ _ _ _ (F0' ∪ (Fx ∪ F6))); [done|exact Hx'|exact Hsub|clear; set_solver| | | | |by apply Hfl].
      * intros y. cbn beta. specialize (I4 y). destruct (y =? (hi q).2); clear -I4; set_solver.
      * apply union_least; [by eapply ntree_in_dom|]. apply subseteq_dom in Hs2; apply subseteq_dom in Hh2. apply union_least; [etrans; [exact Dx|exact Hs2]|etrans; [exact I5|exact Hh2]].
      * assert (F4 ## F0') by (apply Hf0'; [by etrans|done]). assert (F4 ## Fx) by (by apply Hfx'). clear -H H0 Hd. set_solver.
      * intros q'. apply six_del_high; [done|done|]. intros q1 Hq1. apply lookup_insert_ne. intros <-. cbn [fst] in Hq1. lia.
    + (* the last network below this /64 is gone *)
      apply bind_assoc. cbn [bind].
      apply wp_bind. eapply wp_mono; [apply (n_delete_in _ c64_ok h1 _ F0 r6 m hk (Z.of_N 64)); [done|by eapply ntree_in_mono]|]. cbn beta.
      intros [x' f'] h2 WS4 ((F0' & Hx' & Hf0) & _ & Hs2 & _). cbn [bind fst snd] in *. change (cW c64) with 64 in *. change (adj 64 (Z.of_N 64)) with 64 in Hx'.
      assert (Hh2 : h ⊆ h2) by (by etrans).
      assert (Hf0' : forall F, F ⊆ dom h1 -> F ## F0 -> F ## F0').
      { intros F HF HF0 l Hl Hl0. destruct (Hf0 l Hl0) as [H|H]; [by eapply HF0|]. apply HF in Hl. by apply not_elem_of_dom in H. }
      assert (Emx : s_delete 64 (ss (hi q).2) lk lb = ∅) by (by apply (ntree_at_none _ _ _ _ (ntree_in_at _ _ _ _ _ Hx))).
      assert (Hcov : forall q', covers (64, (hi q).2) q' -> is_Some (m !! q') -> q' = (64, (hi q).2)).
      { intros q' Hc [[k1 v1] Hm']. pose proof (top_le _ _ _ _ _ _ (ntree_in_at _ _ _ _ _ I1) Hm') as [Hle _].
        assert (q'.1 = 64) by (destruct Hc as [Hc _]; cbn [fst] in Hc; lia). symmetry. eapply covers_same_len; [exact Hc|apply covers_refl|done]. }
      assert (Hlk' : forall q', q' <> (64, (hi q).2) -> s_delete 64 m hk 64 !! q' = m !! q').
      { intros q' Hne'. rewrite lookup_del, Enorm. destruct (decide _) as [Hc|]; [|done]. destruct (m !! q') as [y|] eqn:E'; [|done].
        exfalso. apply Hne'. apply Hcov; [done|by eexists]. }
      assert (Hsub : subs h2 (s_delete 64 m hk 64) (fun y => if y =? (hi q).2 then s_delete 64 (ss (hi q).2) lk lb else ss y) F0' (fun y => if y =? (hi q).2 then ∅ else Fs y)).
      { destruct I2 as [S1 S2 S3 S4 S5]. split.
        - intros y. destruct (N.eqb_spec y (hi q).2) as [->|Hy].
          + exists None. rewrite lookup_del, Enorm. rewrite decide_True by apply covers_refl. rewrite Emx. split; [apply ntree_in_nil|done].
          + destruct (S1 y) as (sy & Hsy & Hmy). exists sy. rewrite Hlk' by congruence. split; [by eapply ntree_in_mono|done].
        - intros q' k1 v1. rewrite lookup_del. destruct (decide _); [done|]. apply S2.
        - intros y. destruct (y =? (hi q).2); [|apply S3]. rewrite Emx. by intros ???.
        - intros y. destruct (y =? (hi q).2); [clear; set_solver|]. apply Hf0'; [|apply S4]. by etrans; [apply Ds|].
        - intros y z Hyz. destruct (y =? (hi q).2), (z =? (hi q).2); try (clear; set_solver). by apply S5. }
      eapply (Hend h2 _ x' _ _ _ _ (F0' ∪ F6)); [done|exact Hx'|exact Hsub|clear; set_solver| | | | |by apply Hfl].
      * intros y. cbn beta. specialize (I4 y). destruct (y =? (hi q).2); clear -I4; set_solver.
      * apply union_least; [by eapply ntree_in_dom|]. apply subseteq_dom in Hh2; by etrans.
      * assert (F4 ## F0') by (apply Hf0'; [by etrans|done]). clear -H Hd. set_solver.
      * intros q'. apply six_del_high; [done|done|]. intros q1 Hq1. apply Hlk'. intros ->. cbn [fst] in Hq1. lia.
Qed.
End ip.
