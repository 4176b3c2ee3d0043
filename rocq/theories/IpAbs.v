(** * iptree on memory: what a tree contains. *)
From Verif Require Import Prog NumModel NumBits NumFun NumSim NumSpec NumAbs NumFoot IpModel IpSpec IpBits.
From Coq Require Import ZifyBool ZifyNat ZifyN.
Open Scope N_scope.

Section ip.
Context {U : Type}.
Local Notation heap := (heap U).
Local Notation value := (value U).
Local Notation nmap := (@gmap pfx (@prod_eq_dec N N_eq_dec N N_eq_dec) (@prod_countable N N_eq_dec N_countable N N_eq_dec N_countable) (prod N value)).
Local Notation prog := (prog U).

Definition vals (m : nmap) (q : pfx) : option value := snd <$> m !! q.
Lemma vals_ins (W : N) (m : nmap) k b v q : vals (s_insert W m k b v) q = if decide (norm W k b = q) then Some v else vals m q.
Proof.
  unfold vals, s_insert. destruct (decide (norm W k b = q)) as [<-|Hn]; [by rewrite lookup_insert|]. by rewrite lookup_insert_ne.
Qed.
Lemma lookup_del (W : N) (m : nmap) k b q : s_delete W m k b !! q = if decide (covers (norm W k b) q) then None else m !! q.
Proof.
  unfold s_delete. destruct (decide (covers (norm W k b) q)) as [Hc|Hc].
  - apply map_filter_lookup_None. right. intros x _. simpl. by intros Hn.
  - destruct (m !! q) as [x|] eqn:E; [by apply map_filter_lookup_Some|]. apply map_filter_lookup_None. by left.
Qed.
Lemma vals_del (W : N) (m : nmap) k b q : vals (s_delete W m k b) q = if decide (covers (norm W k b) q) then None else vals m q.
Proof. unfold vals. rewrite lookup_del. by destruct (decide _). Qed.
Lemma vals_some (m : nmap) q v : vals m q = Some v <-> exists k, m !! q = Some (k, v).
Proof.
  unfold vals. destruct (m !! q) as [[k v']|]; simpl; split.
  - intros [= ->]. by exists k.
  - by intros [k' [= -> ->]].
  - done.
  - by intros [k ?].
Qed.
Lemma adj_of W b : b <= W -> adj W (Z.of_N b) = b.
Proof. unfold adj. lia. Qed.

Definition plain_map (m : nmap) : Prop := forall q k v, m !! q = Some (k, v) -> plain v.
Lemma plain_ins (W : N) (m : nmap) k b v : plain_map m -> plain v -> plain_map (s_insert W m k b v).
Proof.
  intros Hm Hv q k' v'. unfold s_insert. destruct (decide (norm W k b = q)) as [<-|Hn].
  - rewrite lookup_insert. by intros [= <- <-].
  - rewrite lookup_insert_ne by done. apply Hm.
Qed.
Lemma plain_del (W : N) (m : nmap) k b : plain_map m -> plain_map (s_delete W m k b).
Proof. intros Hm q k' v'. rewrite lookup_del. destruct (decide _); [done|]. apply Hm. Qed.

(** ** IPv4: one radix tree. *)
Definition tree4 (h : heap) (F : gset loc) (p : ptr) (g : pfx -> option value) : Prop :=
  exists m, ntree_in c32 h F p m /\ plain_map m /\ forall q, g q = vals m q.

(** ** IPv6: a radix tree for the upper halves; the values of its 64-bit entries
    are radix trees for the lower halves. *)
Definition six (m : nmap) (ss : N -> nmap) (q : pfx) : option value :=
  if q.1 <? 64 then vals m q else vals (ss (hi q).2) (lo q).
Record subs (h : heap) (m : nmap) (ss : N -> nmap) (F0 : gset loc) (Fs : N -> gset loc) : Prop := {
  sub_at : forall x, exists s, ntree_in c64 h (Fs x) s (ss x) /\
     match m !! (64, x) with Some kv => kv.2 = VSub s /\ ss x <> ∅ | None => s = None /\ ss x = ∅ /\ Fs x = ∅ end;
  sub_plain : forall q k v, m !! q = Some (k, v) -> q.1 <> 64 -> plain v;
  sub_plain' : forall x, plain_map (ss x);
  sub_disj0 : forall x, Fs x ## F0;
  sub_disj : forall x y, x <> y -> Fs x ## Fs y }.
Definition tree6 (h : heap) (F : gset loc) (p : ptr) (g : pfx -> option value) : Prop :=
  exists m ss F0 Fs, ntree_in c64 h F0 p m /\ subs h m ss F0 Fs /\ F0 ⊆ F /\ (forall x, Fs x ⊆ F) /\ F ⊆ dom h /\
    forall q, g q = six m ss q.

Lemma subs_mono (h h' : heap) m ss F0 Fs : h ⊆ h' -> subs h m ss F0 Fs -> subs h' m ss F0 Fs.
Proof.
  intros Hs [H1 H2 H3 H4 H5]. split; try done. intros x. destruct (H1 x) as (s & Hs' & Hx). exists s. split; [by eapply ntree_in_mono|done].
Qed.
Lemma tree4_mono (h h' : heap) F p g : h ⊆ h' -> tree4 h F p g -> tree4 h' F p g.
Proof. intros Hs (m & H1 & H2). exists m. split; [by eapply ntree_in_mono|done]. Qed.
Lemma tree6_mono (h h' : heap) F p g : h ⊆ h' -> tree6 h F p g -> tree6 h' F p g.
Proof.
  intros Hs (m & ss & F0 & Fs & H1 & H2 & H3 & H4 & H5 & H6). exists m, ss, F0, Fs. split_and!; try done.
  - by eapply ntree_in_mono.
  - by eapply subs_mono.
  - apply subseteq_dom in Hs. by etrans.
Qed.
Lemma tree4_untouched (h h' : heap) (WS F : gset loc) p g : untouched WS h h' -> F ## WS -> tree4 h F p g -> tree4 h' F p g.
Proof. intros Hs Hd (m & H1 & H2). exists m. split; [by eapply ntree_in_untouched|done]. Qed.
Lemma tree6_untouched (h h' : heap) (WS F : gset loc) p g : untouched WS h h' -> dom h ⊆ dom h' -> F ## WS -> tree6 h F p g -> tree6 h' F p g.
Proof.
  intros Hu Hdd Hd (m & ss & F0 & Fs & H1 & H2 & H3 & H4 & H5 & H6). exists m, ss, F0, Fs. split_and!; try done.
  - eapply ntree_in_untouched; [done| |done]. clear -H3 Hd. set_solver.
  - destruct H2 as [S1 S2 S3 S4 S5]. split; try done. intros x. destruct (S1 x) as (s & Hs' & Hx). exists s. split; [|done].
    eapply ntree_in_untouched; [done| |done]. specialize (H4 x). clear -H4 Hd. set_solver.
  - by etrans.
Qed.
Lemma tree4_dom (h : heap) F p g : tree4 h F p g -> F ⊆ dom h.
Proof. intros (m & H & _). by eapply ntree_in_dom. Qed.
Lemma tree6_dom (h : heap) F p g : tree6 h F p g -> F ⊆ dom h.
Proof. by intros (m & ss & F0 & Fs & H1 & H2 & H3 & H4 & H5 & H6). Qed.
Lemma tree4_nil (h : heap) g : (forall q, g q = None) -> tree4 h ∅ None g.
Proof. intros H. exists ∅. split_and!; [apply ntree_in_nil|by intros ???|]. intros q. rewrite H. done. Qed.
Lemma tree6_nil (h : heap) g : (forall q, g q = None) -> tree6 h ∅ None g.
Proof.
  intros H. exists ∅, (fun _ => ∅), ∅, (fun _ => ∅). split_and!; try (clear; set_solver).
  - apply ntree_in_nil.
  - split; try done. intros x. exists None. rewrite lookup_empty. split; [apply ntree_in_nil|done].
  - intros q. rewrite H. unfold six, vals. rewrite !lookup_empty. by destruct (q.1 <? 64).
Qed.

(** The entries with 64 bits. *)
Lemma top64 (h : heap) p m x k v : ntree_at c64 h p m -> m !! (64, x) = Some (k, v) -> k = x.
Proof.
  intros Ht H. apply (ntree_at_key _ _ _ _ _ _ _ Ht) in H as (H & _). unfold norm in H. cbn [fst snd] in H. change (cW c64) with 64 in H.
  injection H as H. change (2 ^ (64 - 64)) with 1 in H. by rewrite N.div_1_r in H.
Qed.
Lemma top_le (h : heap) p m q k v : ntree_at c64 h p m -> m !! q = Some (k, v) -> valid_pfx 64 q.
Proof.
  intros Ht H. apply (ntree_at_key _ _ _ _ _ _ _ Ht) in H as (-> & Hk & Hq). by apply norm_valid.
Qed.

(** Writing the subtree of the upper half [x]. *)
Lemma tree6_set (h h' : heap) m ss F0 Fs (x : N) (p' s' : ptr) (mx : nmap) (F0' Fx : gset loc) (k : N) :
  subs h m ss F0 Fs ->
  ntree_in c64 h' F0' p' (<[(64, x) := (k, VSub s')]> m) -> ntree_in c64 h' Fx s' mx -> mx <> ∅ -> plain_map mx ->
  (forall y s, y <> x -> ntree_in c64 h (Fs y) s (ss y) -> ntree_in c64 h' (Fs y) s (ss y)) ->
  Fx ## F0' -> (forall y, y <> x -> Fs y ## F0' /\ Fs y ## Fx) ->
  subs h' (<[(64, x) := (k, VSub s')]> m) (fun y => if y =? x then mx else ss y) F0' (fun y => if y =? x then Fx else Fs y).
Proof.
  intros [S1 S2 S3 S4 S5] Hp Hx Hne Hpl Hother Hd Hd'. split.
  - intros y. destruct (N.eqb_spec y x) as [->|Hy].
    + exists s'. rewrite lookup_insert. done.
    + destruct (S1 y) as (s & Hs & Hm). exists s. rewrite lookup_insert_ne by congruence. split; [by apply Hother|done].
  - intros q k0 v0. destruct (decide ((64, x) = q)) as [<-|Hq]; [by intros _ H|]. rewrite lookup_insert_ne by done. apply S2.
  - intros y. by destruct (y =? x).
  - intros y. destruct (N.eqb_spec y x) as [->|Hy]; [done|]. by apply Hd'.
  - intros y z Hyz. destruct (N.eqb_spec y x) as [->|Hy], (N.eqb_spec z x) as [->|Hz]; try done.
    + symmetry. by apply Hd'.
    + by apply Hd'.
    + by apply S5.
Qed.
Lemma six_set (m : nmap) (ss : N -> nmap) (x k : N) (s : ptr) (mx : nmap) q :
  six (<[(64, x) := (k, VSub s)]> m) (fun y => if y =? x then mx else ss y) q =
  if q.1 <? 64 then six m ss q else if (hi q).2 =? x then vals mx (lo q) else six m ss q.
Proof.
  unfold six. destruct (N.ltb_spec q.1 64) as [Hq|Hq].
  - unfold vals. rewrite lookup_insert_ne; [done|]. intros <-. cbn [fst] in Hq. lia.
  - by destruct ((hi q).2 =? x).
Qed.

Definition g_ins (q0 : pfx) (v : value) (g : pfx -> option value) (q : pfx) : option value := if decide (q0 = q) then Some v else g q.
Definition g_del (q0 : pfx) (g : pfx -> option value) (q : pfx) : option value := if decide (covers q0 q) then None else g q.

Lemma set_ins (m : nmap) (ss : N -> nmap) (q0 : pfx) (k : N) (s : ptr) (lk lb : N) v q : 64 <= q0.1 -> norm 64 lk lb = lo q0 ->
  six (<[(64, (hi q0).2) := (k, VSub s)]> m) (fun y => if y =? (hi q0).2 then s_insert 64 (ss (hi q0).2) lk lb v else ss y) q =
  g_ins q0 v (six m ss) q.
Proof.
  intros Hq0 Hlo. rewrite six_set. unfold g_ins. destruct (N.ltb_spec q.1 64) as [Hq|Hq].
  - destruct (decide (q0 = q)) as [<-|]; [lia|done].
  - destruct (N.eqb_spec (hi q).2 (hi q0).2) as [E|E].
    + rewrite vals_ins, Hlo. unfold six. destruct (N.ltb_spec q.1 64); [lia|]. rewrite E.
      destruct (decide (lo q0 = lo q)) as [E'|E'], (decide (q0 = q)) as [->|E'']; try done.
      exfalso. apply E''. apply hi_lo_inj; try done. unfold hi in *. cbn [snd] in E. congruence.
    + destruct (decide (q0 = q)) as [->|]; done.
Qed.
Lemma sub_ins_ne (W : N) (m : nmap) k b v : s_insert W m k b v <> ∅.
Proof. unfold s_insert. apply insert_non_empty. Qed.
Lemma ins64 (m : nmap) (hk x : N) v : norm 64 hk 64 = (64, x) -> s_insert 64 m hk 64 v = <[(64, x) := (hk, v)]> m.
Proof. intros E. unfold s_insert. by rewrite E. Qed.

Lemma exact64 (m : nmap) (hk x : N) : norm 64 hk 64 = (64, x) ->
  s_exact 64 m hk 64 = match m !! (64, x) with Some kv => (kv.2, true) | None => (VNil, false) end.
Proof. intros E. unfold s_exact. by rewrite E. Qed.

(** Inserting above the boundary. *)
Lemma subs_low (h h' : heap) m m' ss F0 F0' Fs q k v : subs h m ss F0 Fs -> q.1 < 64 -> m' = <[q := (k, v)]> m -> plain v ->
  (forall x s, ntree_in c64 h (Fs x) s (ss x) -> ntree_in c64 h' (Fs x) s (ss x)) -> (forall x, Fs x ## F0') ->
  subs h' m' ss F0' Fs.
Proof.
  intros [S1 S2 S3 S4 S5] Hq -> Hv Hin Hd. split; try done.
  - intros x. destruct (S1 x) as (s & Hs & Hm). exists s. rewrite lookup_insert_ne by (intros ->; cbn [fst] in Hq; lia). split; [by apply Hin|done].
  - intros q' k' v'. destruct (decide (q = q')) as [<-|Hne].
    + rewrite lookup_insert. by intros [= <- <-].
    + rewrite lookup_insert_ne by done. apply S2.
Qed.
Lemma six_low (m : nmap) (ss : N -> nmap) (q0 : pfx) (k : N) v q : q0.1 < 64 -> six (<[q0 := (k, v)]> m) ss q = g_ins q0 v (six m ss) q.
Proof.
  intros H. unfold six, g_ins. destruct (N.ltb_spec q.1 64) as [Hq|Hq].
  - unfold vals. destruct (decide (q0 = q)) as [<-|Hn]; [by rewrite lookup_insert|]. by rewrite lookup_insert_ne.
  - destruct (decide (q0 = q)) as [<-|Hn]; [lia|done].
Qed.

(** ** Whole trees. *)
Definition itree (h : heap) (t : ptr) (G : net -> option value) : Prop :=
  match t with
  | None => forall q, G q = None
  | Some a => exists r4 r6 F4 F6, h !! a = Some (CIp r4 r6) /\
      tree4 h F4 r4 (fun q => G (false, q)) /\ tree6 h F6 r6 (fun q => G (true, q)) /\ F4 ## F6 /\ a ∉ F4 /\ a ∉ F6
  end.
Lemma itree_mono (h h' : heap) t G : h ⊆ h' -> itree h t G -> itree h' t G.
Proof.
  intros Hs. destruct t as [a|]; [|done]. intros (r4 & r6 & F4 & F6 & Ha & H4 & H6 & Hd). exists r4, r6, F4, F6. split_and!; try apply Hd.
  - by eapply lookup_weaken.
  - by eapply tree4_mono.
  - by eapply tree6_mono.
Qed.
Lemma tree4_ext (h : heap) F p g g' : (forall q, g q = g' q) -> tree4 h F p g -> tree4 h F p g'.
Proof. intros H (m & H1 & H2 & H3). exists m. split_and!; [done|done|]. intros q. by rewrite <- H. Qed.
Lemma tree6_ext (h : heap) F p g g' : (forall q, g q = g' q) -> tree6 h F p g -> tree6 h F p g'.
Proof.
  intros H (m & ss & F0 & Fs & H1 & H2 & H3 & H4 & H5 & H6). exists m, ss, F0, Fs. split_and!; try done. intros q. by rewrite <- H.
Qed.
Lemma itree_ext (h : heap) t G G' : (forall q, G q = G' q) -> itree h t G -> itree h t G'.
Proof.
  intros H. destruct t as [a|]; [|by intros H' q; rewrite <- H]. intros (r4 & r6 & F4 & F6 & Ha & H4 & H6 & Hd). exists r4, r6, F4, F6. split_and!; try apply Hd; try done.
  - eapply tree4_ext; [|exact H4]. intros q. apply H.
  - eapply tree6_ext; [|exact H6]. intros q. apply H.
Qed.
Lemma itree_nil (h : heap) : itree h None (fun _ => None).
Proof. done. Qed.
Lemma itree_roots (h : heap) WS t G (Q : ptr * ptr -> heap -> gset loc -> Prop) : itree h t G ->
  (forall r4 r6 F4 F6, tree4 h F4 r4 (fun q => G (false, q)) -> tree6 h F6 r6 (fun q => G (true, q)) -> F4 ## F6 -> Q (r4, r6) h WS) ->
  wp (ip_roots t) h WS Q.
Proof.
  intros Ht HQ. destruct t as [a|].
  - destruct Ht as (r4 & r6 & F4 & F6 & Ha & H4 & H6 & Hd & _). eapply wp_ld_ip; [exact Ha|]. by eapply HQ.
  - cbn [ip_roots wp]. apply (HQ None None ∅ ∅); [by apply tree4_nil|by apply tree6_nil|]. clear. set_solver.
Qed.
Lemma itree_alloc (h : heap) WS r4 r6 F4 F6 G : tree4 h F4 r4 (fun q => G (false, q)) -> tree6 h F6 r6 (fun q => G (true, q)) -> F4 ## F6 ->
  wp (l <- alloc (CIp r4 r6) ;; Ret (Some l)) h WS (fun r h' _ => itree h' r G /\ h ⊆ h').
Proof.
  intros H4 H6 Hd. apply wp_bind, wp_alloc. intros a Ha. cbn [wp].
  assert (Hs : h ⊆ <[a := CIp r4 r6]> h) by (by apply insert_subseteq). split; [|done].
  assert (Ha' : a ∉ dom h) by (by apply not_elem_of_dom). apply tree4_dom in H4 as D4. apply tree6_dom in H6 as D6.
  exists r4, r6, F4, F6. split_and!; [by rewrite lookup_insert|by eapply tree4_mono|by eapply tree6_mono|done|clear -Ha' D4; set_solver|clear -Ha' D6; set_solver].
Qed.

(** *** Insert. *)
Lemma tree4_ins_step (h : heap) WS F p g k b v : k < 2 ^ 32 -> b <= 32 -> plain v -> tree4 h F p g ->
  wp (n_insert c32 p k (Z.of_N b) v) h WS (fun r h' WS' => (exists F', tree4 h' F' r (g_ins (norm 32 k b) v g) /\ fresh_or h F F') /\ h ⊆ h' /\ WS ⊆ WS').
Proof.
  intros Hk Hb Hv (m & H1 & H2 & H3). eapply wp_mono; [by apply (n_insert_in _ c32_ok h WS F)|]. cbn beta.
  intros r h' WS' ((F' & Ht & Hf) & Hs & HW). split_and!; [|done|done]. exists F'. split; [|done].
  change (cW c32) with 32 in *. rewrite adj_of in Ht by done. eexists. split_and!; [exact Ht|by apply plain_ins|].
  intros q. rewrite vals_ins. unfold g_ins. by rewrite H3.
Qed.

Definition g_upd (r : option net) (f : pfx -> (pfx -> option value) -> pfx -> option value) (G : net -> option value) (q : net) : option value :=
  match r with Some p => if Bool.eqb p.1 q.1 then f p.2 (fun x => G (q.1, x)) q.2 else G q | None => G q end.
Definition isnet (n : ipnet) (r : option net) : Prop := match r with Some q => net_is n q | None => forall q, ~ net_is n q end.

Lemma ip_insert_at (h : heap) t G n r v : itree h t G -> plain v -> isnet n r ->
  wp (ip_insert_net t n v) h ∅ (fun t' h' _ => itree h' t' (g_upd r (fun q => g_ins q v) G)).
Proof.
  intros Ht Hv Hr. destruct n as [n|]; [|destruct r as [q|]; [by inversion Hr|by apply Ht]]. unfold ip_insert_net.
  pose proof (ip4_key_spec n) as K4. destruct (ip4_key n) as [[k b]|].
  { destruct K4 as (Hn & Hk & Hb). assert (r = Some (false, norm 32 k b)) as ->.
    { destruct r as [q|]; [|by apply Hr in Hn]. f_equal. by eapply net_is_fun. }
    apply wp_bind. eapply itree_roots; [exact Ht|]. intros r4 r6 F4 F6 H4 H6 Hd. cbn [fst snd].
    apply wp_bind. eapply wp_mono; [by apply tree4_ins_step|]. cbn beta. intros x h' WS' ((F' & H4' & Hf) & Hs & _).
    eapply wp_mono; [eapply (itree_alloc _ _ _ _ F' F6 (g_upd (Some (false, norm 32 k b)) (fun q => g_ins q v) G)); [| |]|].
    - exact H4'.
    - eapply tree6_mono; [exact Hs|exact H6].
    - intros l Hl Hl6. destruct (Hf l Hl) as [H|H]; [by eapply Hd|]. apply tree6_dom in H6. apply H6 in Hl6. by apply not_elem_of_dom in H.
    - cbn beta. intros t' h2 _ [Ht' _]. exact Ht'. }
  pose proof (ip6_key_spec n) as K6. destruct (ip6_key n) as [[[[hk hb] lk] lb]|].
  2: { assert (r = None) as ->; [|by apply Ht]. destruct r as [[[] q]|]; [by apply K6 in Hr|by apply K4 in Hr|done]. }
  destruct K6 as (q & Hn & Hhk & Hlk & Hvq & Klow & Khigh). assert (r = Some (true, q)) as ->.
  { destruct r as [q'|]; [|by apply Hr in Hn]. f_equal. by eapply net_is_fun. }
  apply wp_bind. eapply itree_roots; [exact Ht|]. intros r4 r6 F4 F6 H4 H6 Hd. cbn [fst snd].
  pose proof H6 as (m & ss & F0 & Fs & I1 & I2 & I3 & I4 & I5 & I6).
  destruct (N.ltb_spec hb 64) as [Hhb|Hhb].
  - assert (Hq : q.1 < 64). { destruct (N.lt_ge_cases q.1 64) as [|Hge]; [done|]. destruct (Khigh Hge) as [-> _]. lia. }
    destruct (Klow Hq) as [-> Hnorm]. apply wp_bind.
    eapply wp_mono; [by apply (n_insert_in _ c64_ok h _ F0 r6 m hk (Z.of_N q.1) v)|]. cbn beta.
    intros x h' WS' ((F0' & Hx & Hf) & Hs & _). change (cW c64) with 64 in *. rewrite adj_of in Hx by lia.
    unfold s_insert in Hx. rewrite Hnorm in Hx.
    assert (Hfd : forall F, F ⊆ dom h -> F ## F0 -> F ## F0').
    { intros F HF HF0 l Hl Hl0. destruct (Hf l Hl0) as [H|H]; [by eapply HF0|]. apply HF in Hl. by apply not_elem_of_dom in H. }
    assert (Hsub : subs h' (<[q := (hk, v)]> m) ss F0' Fs).
    { eapply subs_low; [exact I2|exact Hq|done|done| |].
      - intros y s Hy. by eapply ntree_in_mono.
      - intros y. apply Hfd; [|apply I2]. etrans; [apply I4|done]. }
    eapply wp_mono; [eapply (itree_alloc _ _ _ _ F4 (F0' ∪ F6) (g_upd (Some (true, q)) (fun q => g_ins q v) G)); [| |]|].
    + eapply tree4_mono; [exact Hs|exact H4].
    + exists (<[q := (hk, v)]> m), ss, F0', Fs. split_and!; [done|done|clear; set_solver| | |].
      * intros y. specialize (I4 y). clear -I4. set_solver.
      * apply union_least; [by eapply ntree_in_dom|]. etrans; [exact I5|by apply subseteq_dom].
      * intros q'. cbn [g_upd fst snd Bool.eqb]. rewrite six_low by done. unfold g_ins. by rewrite I6.
    + apply tree4_dom in H4 as D4. assert (F4 ## F0') by (apply Hfd; [done|]; clear -Hd I3; set_solver). clear -H Hd. set_solver.
    + cbn beta. intros t' h2 _ [Ht' _]. exact Ht'.
  - assert (Hq : 64 <= q.1). { destruct (N.lt_ge_cases q.1 64) as [Hlt|]; [|done]. destruct (Klow Hlt) as [-> _]. lia. }
    destruct (Khigh Hq) as (-> & Hlb & Hnhi & Hnlo & Hhk2). set (x := (hi q).2) in *.
    assert (Enorm : norm 64 hk 64 = (64, x)) by (rewrite Hnhi; done). clear Klow Khigh.
    apply wp_bind. eapply wp_mono; [apply (n_exact_in _ c64_ok h _ r6 m hk (Z.of_N 64)); [done|by eapply ntree_in_at]|]. cbn beta.
    intros e h1 WS1 (He & -> & _). change (cW c64) with 64 in He. change (adj 64 (Z.of_N 64)) with 64 in He.
    destruct (sub_at _ _ _ _ _ I2 x) as (s & Hs & Hm).
    apply wp_bind. assert (Hse : wp (if e.2 then as_sub e.1 else Ret None) h WS1 (fun a h' WS' => a = s /\ h' = h)).
    { rewrite He, (exact64 _ _ _ Enorm). destruct (m !! (64, x)) as [[k' v']|].
      - destruct Hm as [Hm _]. cbn [snd fst] in *. rewrite Hm. done.
      - destruct Hm as [-> _]. done. }
    eapply wp_mono; [exact Hse|]. clear Hse He. cbn beta. intros ? ? WS2 [-> ->].
    apply wp_bind. eapply wp_mono; [by apply (n_insert_in _ c64_ok h _ (Fs x) s (ss x) lk (Z.of_N lb) v)|]. cbn beta.
    intros s' h1 WS3 ((Fx & Hs' & Hfx) & Hs1 & _). change (cW c64) with 64 in *. rewrite adj_of in Hs' by done.
    apply wp_bind. eapply wp_mono; [apply (n_insert_in _ c64_ok h1 _ F0 r6 m hk (Z.of_N 64) (VSub s')); [done|by eapply ntree_in_mono]|]. cbn beta.
    intros x' h2 WS4 ((F0' & Hx' & Hf0) & Hs2 & _). change (cW c64) with 64 in *. change (adj 64 (Z.of_N 64)) with 64 in Hx'.
    rewrite (ins64 _ _ _ _ Enorm) in Hx'.
    assert (Hh2 : h ⊆ h2) by (by etrans).
    assert (Dx : Fx ⊆ dom h1) by (by eapply ntree_in_dom).
    assert (D0 : F0 ⊆ dom h) by (by eapply ntree_in_dom).
    assert (D1 : dom h ⊆ dom h1) by (by apply subseteq_dom).
    assert (Hfx' : forall F, F ⊆ dom h -> F ## Fs x -> F ## Fx).
    { intros F HF HF0 l Hl Hl0. destruct (Hfx l Hl0) as [H|H]; [by eapply HF0|]. apply HF in Hl. by apply not_elem_of_dom in H. }
    assert (Hf0' : forall F, F ⊆ dom h1 -> F ## F0 -> F ## F0').
    { intros F HF HF0 l Hl Hl0. destruct (Hf0 l Hl0) as [H|H]; [by eapply HF0|]. apply HF in Hl. by apply not_elem_of_dom in H. }
    assert (Hsub : subs h2 (<[(64, x) := (hk, VSub s')]> m) (fun y => if y =? x then s_insert 64 (ss x) lk lb v else ss y) F0' (fun y => if y =? x then Fx else Fs y)).
    { eapply tree6_set; [exact I2|exact Hx'| | | | | |].
      - eapply ntree_in_mono; [exact Hs2|exact Hs'].
      - apply sub_ins_ne.
      - apply plain_ins; [apply I2|done].
      - intros y sy _ Hy. by eapply ntree_in_mono.
      - apply Hf0'; [done|]. symmetry. apply Hfx'; [done|]. symmetry. apply I2.
      - intros y Hy. split; [apply Hf0'; [|apply I2]|apply Hfx'; [|by apply I2]].
        + etrans; [apply I4|]. by etrans.
        + by etrans; [apply I4|]. }
    eapply wp_mono; [eapply (itree_alloc _ _ _ _ F4 (F0' ∪ (Fx ∪ F6)) (g_upd (Some (true, q)) (fun q => g_ins q v) G)); [| |]|].
    + eapply tree4_mono; [exact Hh2|exact H4].
    + exists (<[(64, x) := (hk, VSub s')]> m), (fun y => if y =? x then s_insert 64 (ss x) lk lb v else ss y), F0', (fun y => if y =? x then Fx else Fs y). split_and!; [done|done|clear; set_solver| | |].
      * intros y. specialize (I4 y). destruct (y =? x); clear -I4; set_solver.
      * apply union_least; [by eapply ntree_in_dom|]. apply union_least; [|etrans; [exact I5|by apply subseteq_dom]].
        apply subseteq_dom in Hs2. by etrans.
      * intros q'. cbn [g_upd fst snd Bool.eqb]. unfold x. rewrite (set_ins _ _ q) by done. unfold g_ins. by rewrite I6.
    + apply tree4_dom in H4 as D4.
      assert (F4 ## F0') by (apply Hf0'; [by etrans|]; clear -Hd I3; set_solver).
      assert (F4 ## Fx) by (apply Hfx'; [done|]; specialize (I4 x); clear -Hd I4; set_solver). clear -H H0 Hd. set_solver.
    + cbn beta. intros t' h3 _ [Ht' _]. exact Ht'.
Qed.
End ip.
