(** * iptree on memory: Get and Enumerate. *)
From Verif Require Import Prog NumModel NumBits NumFun NumSim NumSpec NumAbs NumFoot IpModel IpSpec IpBits IpAbs IpAbs3.
From Coq Require Import ZifyBool ZifyNat ZifyN.
Open Scope N_scope.

Section ip.
Context {U : Type}.
Local Notation heap := (heap U).
Local Notation value := (value U).
Local Notation nmap := (@gmap pfx (@prod_eq_dec N N_eq_dec N N_eq_dec) (@prod_countable N N_eq_dec N_countable N N_eq_dec N_countable) (prod N value)).
Local Notation prog := (prog U).

Definition gl (G : net -> option value) (q : net) (res : option value) : Prop :=
  match res with
  | Some v => exists p, G p = Some v /\ ncovers p q /\ forall p' v', G p' = Some v' -> ncovers p' q -> p'.2.1 <= p.2.1
  | None => forall p v, G p = Some v -> ~ ncovers p q
  end.
Definition pl (g : pfx -> option value) (q : pfx) (res : option value) : Prop :=
  match res with
  | Some v => exists p, g p = Some v /\ covers p q /\ forall p' v', g p' = Some v' -> covers p' q -> p'.1 <= p.1
  | None => forall p v, g p = Some v -> ~ covers p q
  end.
Lemma gl_pl G f q res : pl (fun x => G (f, x)) q res -> gl G (f, q) res.
Proof.
  destruct res as [v|]; cbn [gl pl].
  - intros (p & H1 & H2 & H3). exists (f, p). split_and!; [done|done|]. intros [f' p'] v' H [E Hc]. cbn [fst snd] in *. subst. by eapply H3.
  - intros H [f' p'] v' H' [E Hc]. cbn [fst snd] in *. subst. by eapply H.
Qed.
Definition ret_of (res : option value) : value * bool := match res with Some v => (v, true) | None => (VNil, false) end.

(** The longest stored prefix: it exists or there is none. *)
Lemma s_longest_split (m : nmap) q r : s_longest m q r -> exists res, r = ret_of res /\ pl (vals m) q res.
Proof.
  intros [(p & k & v & H1 & H2 & -> & H3)|[-> H]].
  - exists (Some v). split; [done|]. exists p. split_and!; [apply vals_some; by exists k|done|].
    intros p' v' H' Hc. apply vals_some in H' as [k' H']. by eapply H3.
  - exists None. split; [done|]. intros p v H' Hc. apply vals_some in H' as [k' H']. by eapply H.
Qed.
Lemma pl_ext (g g' : pfx -> option value) q res : (forall x, g x = g' x) -> pl g q res -> pl g' q res.
Proof.
  intros E. destruct res as [v|]; cbn [pl].
  - intros (p & H1 & H2 & H3). exists p. rewrite <- E. split_and!; [done|done|]. intros p' v'. rewrite <- E. apply H3.
  - intros H p v. rewrite <- E. apply H.
Qed.

(** Above the boundary only the upper tree counts. *)
Lemma pl_low (m : nmap) ss q res : q.1 < 64 -> pl (vals m) q res -> pl (six m ss) q res.
Proof.
  intros Hq. assert (E : forall p, covers p q -> six m ss p = vals m p).
  { intros p [Hp _]. unfold six. destruct (N.ltb_spec p.1 64); [done|lia]. }
  destruct res as [v|]; cbn [pl].
  - intros (p & H1 & H2 & H3). exists p. rewrite E by done. split_and!; [done|done|]. intros p' v' H' Hc. rewrite E in H' by done. by eapply H3.
  - intros H p v H' Hc. rewrite E in H' by done. by eapply H.
Qed.
(** Below it: the subtree first, ... *)
Lemma pl_sub (m : nmap) ss q v : 64 <= q.1 -> pl (vals (ss (hi q).2)) (lo q) (Some v) ->
  (forall l k v, ss (hi q).2 !! l = Some (k, v) -> valid_pfx 64 l) -> pl (six m ss) q (Some v).
Proof.
  intros Hq (l & H1 & H2 & H3) Hval. apply vals_some in H1 as H1'. destruct H1' as [k H1']. destruct (Hval _ _ _ H1') as [_ Hl].
  assert (J : (join (hi q).2 l).1 = l.1 + 64) by done.
  exists (join (hi q).2 l). split_and!.
  - unfold six. rewrite hi_join, lo_join by done. cbn [snd]. rewrite J. destruct (N.ltb_spec (l.1 + 64) 64); [lia|done].
  - apply cov_high; [rewrite J; lia|done|]. rewrite hi_join, lo_join by done. done.
  - intros p' v' H' Hc. destruct (N.lt_ge_cases p'.1 64) as [|Hp]; [lia|]. apply cov_high in Hc as [Hh Hc]; [|done..].
    unfold six in H'. destruct (N.ltb_spec p'.1 64); [lia|]. rewrite Hh in H'. specialize (H3 _ _ H' Hc). rewrite J. unfold lo in H3. cbn [fst] in H3. lia.
Qed.
(** ... then what is above. *)
Lemma pl_above (m : nmap) ss q res : 64 <= q.1 -> pl (vals (ss (hi q).2)) (lo q) None ->
  pl (fun p => if p.1 <? 64 then vals m p else None) (hi q) res -> pl (six m ss) q res.
Proof.
  intros Hq Hno.
  assert (E : forall p v, six m ss p = Some v -> covers p q -> p.1 < 64).
  { intros p v H Hc. destruct (N.lt_ge_cases p.1 64) as [|Hp]; [done|]. exfalso. apply cov_high in Hc as [Hh Hc]; [|done..].
    unfold six in H. destruct (N.ltb_spec p.1 64); [lia|]. rewrite Hh in H. by eapply Hno. }
  assert (E' : forall p, p.1 < 64 -> six m ss p = (if p.1 <? 64 then vals m p else None) /\ (covers p q <-> covers p (hi q))).
  { intros p Hp. unfold six. destruct (N.ltb_spec p.1 64); [|lia]. split; [done|]. apply cov_low; [lia|done]. }
  destruct res as [v|]; cbn [pl].
  - intros (p & H1 & H2 & H3). assert (Hp : p.1 < 64) by (destruct (N.ltb_spec p.1 64); [done|discriminate H1]).
    destruct (E' p Hp) as [E1 E2]. exists p. rewrite E1, E2. split_and!; [done|done|].
    intros p' v' H' Hc. assert (Hp' : p'.1 < 64) by (by eapply E). destruct (E' p' Hp') as [E1' E2']. rewrite E1' in H'. apply E2' in Hc. by eapply H3.
  - intros H p v H' Hc. assert (Hp : p.1 < 64) by (by eapply E). destruct (E' p Hp) as [E1 E2]. rewrite E1 in H'. apply E2 in Hc. by eapply H.
Qed.
Lemma cov63 k p : p.1 < 64 -> covers p (norm 64 k 63) <-> covers p (norm 64 k 64).
Proof.
  intros H. unfold covers, norm. cbn [fst snd]. rewrite !N.div_div by apply pow2_nz. rewrite <- !N.pow_add_r.
  replace (64 - 63 + (63 - p.1)) with (64 - p.1) by lia. replace (64 - 64 + (64 - p.1)) with (64 - p.1) by lia.
  split; intros [? ?]; (split; [lia|done]).
Qed.
Lemma pl_63 (m : nmap) k res : pl (vals m) (norm 64 k 63) res -> pl (fun p => if p.1 <? 64 then vals m p else None) (norm 64 k 64) res.
Proof.
  destruct res as [v|]; cbn [pl].
  - intros (p & H1 & H2 & H3). assert (Hp : p.1 < 64) by (destruct H2 as [H2 _]; unfold norm in H2; cbn [fst] in H2; lia).
    exists p. destruct (N.ltb_spec p.1 64); [|lia]. split_and!; [done|by apply cov63|].
    intros p' v'. destruct (N.ltb_spec p'.1 64); [|done]. intros H' Hc. apply cov63 in Hc; [|done]. by eapply H3.
  - intros H p v. destruct (N.ltb_spec p.1 64); [|done]. intros H' Hc. apply cov63 in Hc; [|done]. by eapply H.
Qed.

Lemma ip_get_at (h : heap) WS t G n r : itree h t G -> isnet n r ->
  wp (ip_get_net t n) h WS (fun x h' WS' => h' = h /\ exists res, x = ret_of res /\ match r with Some q => gl G q res | None => res = None end).
Proof.
  intros Ht Hr.
  assert (Hnone : r = None -> wp (Ret (VNil, false)) h WS (fun x h' WS' => h' = h /\ exists res, x = ret_of res /\ match r with Some q => gl G q res | None => res = None end)).
  { intros ->. cbn [wp]. split; [done|]. by exists None. }
  destruct t as [a|].
  2: { cbn [ip_get_net wp]. split; [done|]. exists None. split; [done|]. destruct r as [q|]; [|done]. intros p v H. by rewrite Ht in H. }
  destruct n as [n|]; [|destruct r as [q|]; [by inversion Hr|by apply Hnone]]. unfold ip_get_net.
  pose proof Ht as (r4 & r6 & F4 & F6 & Ha & H4 & H6 & Hd & A4 & A6).
  apply wp_bind. eapply wp_ld_ip; [exact Ha|]. cbn [fst snd].
  pose proof (ip4_key_spec n) as K4. destruct (ip4_key n) as [[k b]|].
  { destruct K4 as (Hn & Hk & Hb). assert (r = Some (false, norm 32 k b)) as ->.
    { destruct r as [q|]; [|by apply Hr in Hn]. f_equal. by eapply net_is_fun. }
    destruct H4 as (m & M1 & M2 & M3). eapply wp_mono; [apply (n_match_in _ c32_ok h WS r4 m k (Z.of_N b)); [done|by eapply ntree_in_at]|]. cbn beta.
    intros x h' WS' (Hx & -> & _). change (cW c32) with 32 in *. rewrite adj_of in Hx by done. split; [done|].
    apply s_longest_split in Hx as (res & -> & Hp). exists res. split; [done|]. apply gl_pl. eapply pl_ext; [|exact Hp]. done. }
  pose proof (ip6_key_spec n) as K6. destruct (ip6_key n) as [[[[hk hb] lk] lb]|].
  2: { apply Hnone. destruct r as [[[] q]|]; [by apply K6 in Hr|by apply K4 in Hr|done]. }
  clear Hnone. destruct K6 as (q & Hn & Hhk & Hlk & Hvq & Klow & Khigh). assert (r = Some (true, q)) as ->.
  { destruct r as [q'|]; [|by apply Hr in Hn]. f_equal. by eapply net_is_fun. }
  destruct H6 as (m & ss & F0 & Fs & I1 & I2 & I3 & I4 & I5 & I6). pose proof (ntree_in_at _ _ _ _ _ I1) as I1'.
  assert (Hhb64 : hb <= 64). { destruct (N.lt_ge_cases q.1 64) as [Hlt|Hge]; [destruct (Klow Hlt) as [-> _]; lia|destruct (Khigh Hge) as [-> _]; lia]. }
  assert (Hgoal : forall res, pl (six m ss) q res -> exists res', ret_of res = ret_of res' /\ gl G (true, q) res').
  { intros res H. exists res. split; [done|]. apply gl_pl. eapply pl_ext; [|exact H]. done. }
  apply wp_bind. eapply wp_mono; [apply (n_match_in _ c64_ok h WS r6 m hk (Z.of_N hb)); [done|done]|]. cbn beta.
  intros x h' WS' (Hx & -> & _). change (cW c64) with 64 in *. rewrite adj_of in Hx by done.
  destruct (N.ltb_spec hb 64) as [Hhb|Hhb].
  - assert (Hq : q.1 < 64). { destruct (N.lt_ge_cases q.1 64) as [|Hge]; [done|]. destruct (Khigh Hge) as [-> _]. lia. }
    destruct (Klow Hq) as [-> Hnorm]. rewrite orb_true_r. cbn [wp]. split; [done|].
    apply s_longest_split in Hx as (res & -> & Hp). rewrite Hnorm in Hp. apply Hgoal. by apply pl_low.
  - assert (Hq : 64 <= q.1). { destruct (N.lt_ge_cases q.1 64) as [Hlt|]; [|done]. destruct (Klow Hlt) as [-> _]. lia. }
    destruct (Khigh Hq) as (-> & Hlb & Hnhi & Hnlo & Hhk2). clear Klow Khigh. rewrite orb_false_r.
    rewrite Hnhi in Hx. destruct (sub_at _ _ _ _ _ I2 (hi q).2) as (s & Hs & Hm).
    assert (Hcut : forall (p : pfx) v, vals m p = Some v -> covers p (hi q) -> (p = hi q /\ v = VSub s /\ ss (hi q).2 <> ∅) \/ (p.1 < 64 /\ plain v)).
    { intros p v Hv Hc. apply vals_some in Hv as [k Hv]. destruct (N.eq_dec p.1 64) as [E|E].
      - left. assert (Ep : p = hi q) by (eapply covers_same_len; [exact Hc|apply covers_refl|done]). split; [done|].
        rewrite Ep in Hv. destruct (m !! (64, (hi q).2)) as [[k' v']|] eqn:Em; [|by pose proof (eq_trans (eq_sym Em) Hv)].
        destruct Hm as [Hm Hne]. cbn [snd] in Hm. pose proof (eq_trans (eq_sym Em) Hv) as [= _ <-]. done.
      - right. split; [|by eapply I2]. destruct Hc as [Hc _]. unfold hi in Hc. cbn [fst] in Hc. lia. }
    assert (Hsome : forall k v, m !! (64, (hi q).2) = Some (k, v) -> vals m (hi q) = Some v).
    { intros k v H. apply vals_some. exists k. exact H. }
    destruct Hx as [(p & k & v & H1 & H2 & -> & H3)|[-> Hno]]; cbn [negb fst snd].
    2: { cbn [wp]. split; [done|]. apply (Hgoal None). apply pl_above; [done| |].
         - intros l v Hl Hc. apply vals_some in Hl as [k Hl]. destruct (sub_present _ _ _ _ _ _ _ _ _ I2 Hl) as (k1 & s1 & Hm1 & _). eapply Hno; [exact Hm1|apply covers_refl].
         - intros p v. destruct (N.ltb_spec p.1 64); [|done]. intros Hv. apply vals_some in Hv as [k Hv]. by eapply Hno. }
    destruct (Hcut p v) as [(-> & -> & Hne)|[Hp Hpl]]; [apply vals_some; by exists k|done| |].
    + (* a subtree *)
      apply wp_bind. eapply wp_mono; [apply (n_match_in _ c64_ok h _ s (ss (hi q).2) lk (Z.of_N lb)); [done|by eapply ntree_in_at]|]. cbn beta.
      intros x h' WS2 (Hx & -> & _). change (cW c64) with 64 in *. rewrite adj_of in Hx by done. rewrite Hnlo in Hx.
      apply s_longest_split in Hx as (res & -> & Hres). destruct res as [v|]; cbn [ret_of fst snd].
      * cbn [wp]. split; [done|]. apply (Hgoal (Some v)). apply pl_sub; [done|done|]. intros l k1 v1 Hl. eapply top_le; [by eapply ntree_in_at|exact Hl].
      * eapply wp_mono; [apply (n_match_in _ c64_ok h _ r6 m hk 63); [done|done]|]. cbn beta. intros x h' WS3 (Hx & -> & _). split; [done|].
        change (cW c64) with 64 in *. change (adj 64 63) with 63 in Hx. apply s_longest_split in Hx as (res & -> & Hres2). apply Hgoal.
        apply pl_above; [done|done|]. rewrite <- Hnhi. by apply pl_63.
    + (* a network above the boundary, and no subtree *)
      assert (Hem : ss (hi q).2 = ∅).
      { destruct (m !! (64, (hi q).2)) as [[k' v']|] eqn:Em; [|apply Hm]. exfalso. assert (64 <= p.1) by (eapply (H3 (hi q)); [exact Em|apply covers_refl]). lia. }
      assert (Hfin : pl (six m ss) q (Some v)).
      { apply pl_above; [done| |].
        - intros l v' Hl _. rewrite Hem in Hl. unfold vals in Hl. by rewrite lookup_empty in Hl.
        - exists p. destruct (N.ltb_spec p.1 64); [|lia]. split_and!; [apply vals_some; by exists k|done|].
          intros p' v'. destruct (N.ltb_spec p'.1 64); [|done]. intros Hv Hc. apply vals_some in Hv as [k' Hv]. by eapply H3. }
      destruct v; try done; cbn [wp]; (split; [done|]); apply (Hgoal (Some _)), Hfin.
Qed.
End ip.
