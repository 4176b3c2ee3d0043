(** * iptree on memory: exactly which values an update changes. *)
From Verif Require Import Prog History NumSpec NumModel NumFun NumAbs NumFoot NumBits NumSim NumInplace NumNavSpec NumNavProofs NumLoc NumShare NumExact StampSpec StampProofs StampTree.
From Verif Require Import IpModel IpSpec IpUpdSpec IpBits IpAbs IpAbs2 IpAbs3 IpAbs4 IpEnum IpHist IpPropProofs IpUpd IpUpd2 IpUpd3 IpUpd4 IpUpdProofs IpKinds IpKinds2 IpKinds3 IpVersSpec CallProofs WorkProofs ShareProofs IpAllSpec IpStampSpec IpStamp IpRenewSpec.
From Coq Require Import ZifyBool ZifyNat ZifyN.
Open Scope N_scope.

Section kind.
Context {U : Type} (c : cfg) (Hc : cfg_ok c).
Local Notation heap := (heap U).
Local Notation value := (value U).
Local Notation nmap := (gmap pfx (N * value)).
Local Notation ver := (ver U).
Local Notation item := (loc * numnode U)%type.
Local Notation W := (cW c).
Implicit Types (h : heap) (L : gset loc) (K : loc -> nat).

(** The nodes of a version with its entries. *)
Definition seen h L K (p : ptr) (g : ver) (xs : list item) : Prop :=
  exists F, F ⊆ L /\ tr c h F p xs /\ s_enum W (content g) (map as_entry xs) /\ forall a X, a ∈ F -> place c h a X -> K a = since g X.
Lemma set_seen h L K p g : in_set c h L K p g -> exists xs, seen h L K p g xs.
Proof using Hc.
  intros (F & HF & t & A1 & A2 & A3 & A4). assert (Hd : F ⊆ dom h) by (by eapply (orep_dom c Hc)).
  pose proof (orep_hr h t p F F A2 (reflexivity _)) as Hr. destruct (nrep_lrep _ _ _ Hr) as [xs Hxs]. exists xs, F. split_and!; [done| |by rewrite (lrep_enum _ _ _ _ Hxs); apply nabs_enum|done].
  exists (hr h F), t. split_and!; [apply hr_sub|by apply hr_dom|done|done].
Qed.
Lemma vrel_place h h' a X : vrel h h' -> is_Some (h !! a) -> place c h' a X -> place c h a X.
Proof.
  intros Hv [z Hz] (nn & E & HX). specialize (Hv a). rewrite Hz in Hv. destruct z; try (by rewrite Hv in E).
  destruct Hv as (v & _ & E2). rewrite E2 in E. injection E as <-. exists n. split; [done|exact HX].
Qed.
Lemma seen_set h L K p g xs : seen h L K p g xs -> in_set c h L K p g.
Proof using Hc.
  intros (F & HF & (h0 & t & Hs & Hd & Hw & Hl) & He & HK). destruct (orep_of_nrep c h0 t p Hw (lrep_nrep _ _ _ _ Hl)) as (F' & Ho & _).
  assert (HF' : F' ⊆ F) by (rewrite <- Hd; by eapply (orep_dom c Hc)). exists F'. split; [clear -HF HF'; set_solver|]. exists t. split_and!; [done|by eapply (orep_mono c Hc)| |].
  - intros q k v. destruct He as [_ He]. rewrite He. by rewrite (lrep_enum _ _ _ _ Hl).
  - intros a X Ha. apply HK. by apply HF'.
Qed.
Lemma seen_vrel h h' L K p g xs : vrel h h' -> seen h L K p g xs -> exists m', seen h' L K p (Ver m' (since g)) (map (reload h') xs).
Proof using Hc.
  intros Hv (F & HF & Ht & He & HK). pose proof (tr_vrel c h h' F p xs Hv Ht) as Ht'. destruct (tr_ntree_in c Hc _ _ _ _ Ht') as (m' & _ & Hm'). exists m', F. split_and!; [done|done|done|].
  intros a X Ha HX. apply HK; [done|]. eapply vrel_place; [exact Hv| |exact HX]. pose proof (tr_in_dom c _ _ _ _ Ht) as Hd. apply elem_of_dom. by apply Hd.
Qed.
Lemma seen_at h L K p g xs q kv : seen h L K p g xs -> content g !! q = Some kv -> exists x, x ∈ xs /\ h !! x.1 = Some (CNum x.2) /\ x.1 ∈ L /\ place c h x.1 q /\ K x.1 = since g q /\ kv = (nn_key x.2, nn_val x.2) /\ valid_pfx W q.
Proof using Hc.
  intros (F & HF & Ht & (_ & He) & HK) E. destruct kv as [k v]. apply He in E as [E Eq]. apply elem_of_list_fmap in E as (x & [= -> Eb ->] & Hx). destruct (tr_cells c _ _ _ _ Ht x Hx) as (C1 & C2 & C3).
  assert (Hp : place c h x.1 q) by (exists x.2; split; [done|]; by rewrite <- Eb, <- Eq). exists x. split_and!; [done|done|by apply HF|done|by apply HK|done|]. destruct (tr_valid c Hc _ _ _ _ _ Ht Hx) as [V1 V2]. rewrite Eq, Eb. by apply norm_valid.
Qed.
Lemma seen_in h L K p g xs x : seen h L K p g xs -> x ∈ xs -> exists q, place c h x.1 q /\ K x.1 = since g q /\ content g !! q = Some (nn_key x.2, nn_val x.2) /\ x.1 ∈ L.
Proof using Hc.
  intros (F & HF & Ht & He & HK) Hx. destruct (tr_cells c _ _ _ _ Ht x Hx) as (C1 & C2 & C3). exists (norm W (nn_key x.2) (nn_bits x.2)).
  assert (Hp : place c h x.1 (norm W (nn_key x.2) (nn_bits x.2))) by (by exists x.2). split_and!; [done|by apply HK|by apply (s_enum_vals W _ xs)|by apply HF].
Qed.
(** Each entry of the new content. *)
Lemma seen_new h h' L K p g xs m' q : vrel h h' -> seen h L K p g xs -> seen h' L K p (Ver m' (since g)) (map (reload h') xs) ->
  match content g !! q with
  | None => m' !! q = None
  | Some kv => exists x, x ∈ xs /\ x.1 ∈ L /\ place c h x.1 q /\ K x.1 = since g q /\ val_at h x.1 = kv.2 /\ m' !! q = Some (kv.1, val_at h' x.1) /\ valid_pfx W q
  end.
Proof using Hc.
  intros Hv Hs Hs'. destruct (content g !! q) as [kv|] eqn:E.
  - destruct (seen_at _ _ _ _ _ _ _ _ Hs E) as (x & X1 & X2 & X3 & X4 & X5 & -> & X6). destruct (vrel_cell _ _ _ _ Hv X2) as (v & E2 & _). exists x. split_and!; try done; [unfold val_at; by rewrite X2|].
    assert (Hr : (x.1, set_val x.2 v) ∈ map (reload h') xs). { apply elem_of_list_fmap. exists x. split; [|done]. unfold reload. by rewrite E2. }
    destruct (seen_in _ _ _ _ _ _ _ Hs' Hr) as (q' & Y1 & _ & Y3 & _). cbn [fst snd content] in *. assert (q' = q) as ->.
    { eapply (place_fun c); [|exact X4]. eapply vrel_place; [exact Hv|by eexists|exact Y1]. }
    unfold val_at. rewrite E2. by rewrite Y3.
  - destruct (m' !! q) as [kv|] eqn:E'; [|done]. exfalso. destruct (seen_at _ _ _ _ _ _ q kv Hs' E') as (x & X1 & X2 & X3 & X4 & _). apply elem_of_list_fmap in X1 as (y & -> & Hy).
    destruct (seen_in _ _ _ _ _ _ _ Hs Hy) as (q' & Y1 & _ & Y3 & _). rewrite reload_fst in X4. assert (q' = q) as ->; [|congruence].
    eapply (place_fun c); [exact Y1|]. eapply vrel_place; [exact Hv| |exact X4]. destruct Y1 as (nn & E2 & _). by eexists.
Qed.
(** Values change from plain to plain ones only. *)
Definition moved (m m' : nmap) : Prop := forall q : pfx, match m !! q with None => m' !! q = None | Some kv => exists v, m' !! q = Some (kv.1, v) /\ (v = kv.2 \/ plain kv.2 /\ plain v) end.
Lemma seen_moved h h' L K p g xs m' : vrel h h' -> seen h L K p g xs -> seen h' L K p (Ver m' (since g)) (map (reload h') xs) -> moved (content g) m'.
Proof using Hc.
  intros Hv Hs Hs' q. pose proof (seen_new _ _ _ _ _ _ _ _ q Hv Hs Hs') as Hn. destruct (content g !! q) as [kv|]; [|exact Hn]. destruct Hn as (x & X1 & X2 & (nn & E & _) & X4 & X5 & X6 & X7).
  eexists. split; [exact X6|]. destruct (vrel_cell _ _ _ _ Hv E) as (v & E2 & H). unfold val_at in *. rewrite E in X5. rewrite E2. rewrite <- X5. cbn [nn_val set_val]. destruct H as [->|(_ & H1 & H2)]; [by left|by right].
Qed.
(** What becomes of a version when only nodes of version [gi] are written. *)
Lemma renew h h' L K n (Wr : list loc) pi gi xi mi' p g xs : vrel h h' -> labels c h L K n -> seen h L K pi gi xi -> seen h' L K pi (Ver mi' (since gi)) (map (reload h') xi) ->
  (forall l, l ∈ L -> l ∈ Wr -> l ∈ map fst xi) -> (forall l, l ∈ dom h -> l ∉ Wr -> val_at h' l = val_at h l) -> seen h L K p g xs ->
  exists m' : nmap, in_set c h' L K p (Ver m' (since g)) /\ moved (content g) m' /\
   forall q : pfx, match content g !! q with
     | None => m' !! q = None
     | Some kv => valid_pfx W q /\ m' !! q = Some (kv.1, if decide (common gi g q) then default kv.2 (vals mi' q) else kv.2)
     end.
Proof using Hc.
  intros Hv (L1 & L2 & L3) Hi Hi' HWr Hkeep Hs. destruct (seen_vrel _ h' _ _ _ _ _ Hv Hs) as [m' Hs']. exists m'. split_and!; [by eapply seen_set|by eapply seen_moved|]. intros q.
  pose proof (seen_new _ _ _ _ _ _ _ _ q Hv Hs Hs') as Hn. destruct (content g !! q) as [kv|]; [|exact Hn]. destruct Hn as (x & X1 & X2 & X3 & X4 & X5 & X6 & X7). split; [done|]. rewrite X6. do 2 f_equal.
  destruct (decide (common gi g q)) as [[Hc1 Hc2]|Hno].
  - pose proof (seen_new _ _ _ _ _ _ _ _ q Hv Hi Hi') as Hni. destruct Hc1 as [kv' Ekv]. rewrite Ekv in Hni. destruct Hni as (y & Y1 & Y2 & Y3 & Y4 & Y5 & Y6 & _).
    assert (x.1 = y.1) as -> by (apply (L3 _ _ q); [done|done|done|done|congruence]). unfold vals. by rewrite Y6.
  - rewrite <- X5. apply Hkeep; [by apply L1|]. intros Hw. apply HWr in Hw; [|done]. apply elem_of_list_fmap in Hw as (y & Ey & Hy).
    destruct (seen_in _ _ _ _ _ _ _ Hi Hy) as (q' & Y1 & Y2 & Y3 & _). apply Hno. rewrite <- Ey in Y1, Y2. pose proof (place_fun c _ _ _ _ X3 Y1) as <-. split; [by eexists|congruence].
Qed.
Lemma labels_vrel h h' L K n : vrel h h' -> labels c h L K n -> labels c h' L K n.
Proof using Hc.
  intros Hv (L1 & L2 & L3). split_and!; [etrans; [exact L1|by apply vrel_dom]|done|]. intros a a' X Ha Ha' P P'. apply (L3 a a' X Ha Ha'); (eapply vrel_place; [exact Hv| |done]); apply elem_of_dom; by apply L1.
Qed.
End kind.

Section all.
Context {U : Type}.
Local Notation heap := (heap U).
Local Notation value := (value U).
Local Notation nmap := (gmap pfx (N * value)).
Local Notation kinds := (kd -> gset loc).
Local Notation ver := (ver U).
Local Notation iver := (iver U).
Local Notation item := (loc * numnode U)%type.
Implicit Types (h : heap) (L : kinds) (K : loc -> nat).

Lemma moved_like (m m' : nmap) : moved m m' -> like m m'.
Proof. intros H q. specialize (H q). destruct (m !! q) as [kv|]; [|done]. destruct H as (v & -> & _). done. Qed.
Lemma moved_plain (m m' : nmap) (q : pfx) k v : moved m m' -> (forall k v, m !! q = Some (k, v) -> plain v) -> m' !! q = Some (k, v) -> plain v.
Proof.
  intros H Hp E. specialize (H q). destruct (m !! q) as [[k0 v0]|]; [|congruence]. destruct H as (v' & E' & H). assert (v = v') as -> by congruence. destruct H as [->|[_ H]]; [by eapply Hp|done].
Qed.
Lemma moved_sub (m m' : nmap) (q : pfx) kv s : moved m m' -> m !! q = Some kv -> kv.2 = VSub s -> m' !! q = Some kv.
Proof.
  intros H E Es. specialize (H q). rewrite E in H. destruct H as (v & -> & [->|[H _]]); [by destruct kv|]. rewrite Es in H. done.
Qed.
Lemma moved_empty (m m' : nmap) : moved m m' -> m = ∅ <-> m' = ∅.
Proof. intros H. pose proof (moved_like _ _ H) as Hl. split; intros ->; apply map_empty; intros q; apply Hl, lookup_empty. Qed.
Lemma choose (P : N -> nmap -> Prop) (D : list N) : (forall x, exists m, P x m) -> (forall x, x ∉ D -> P x ∅) -> exists ss : N -> nmap, forall x, P x (ss x).
Proof.
  intros H Hn. assert (HD : exists ss : N -> nmap, forall x, x ∈ D -> P x (ss x)).
  { clear Hn. induction D as [|y D [ss IH]]; [exists (fun _ => ∅); by intros x ?%elem_of_nil|]. destruct (H y) as [m Hm]. exists (fun x => if decide (x = y) then m else ss x). intros x Hx.
    destruct (decide (x = y)) as [->|Hne]; [done|]. apply IH. by apply elem_of_cons in Hx as [?|?]. }
  destruct HD as [ss HD]. exists (fun x => if decide (x ∈ D) then ss x else ∅). intros x. destruct (decide (x ∈ D)); auto.
Qed.
Lemma choose64 (m : nmap) (P : N -> nmap -> Prop) : (forall x, exists ms, P x ms) -> (forall x, m !! (64, x) = None -> P x ∅) -> exists ss : N -> nmap, forall x, P x (ss x).
Proof.
  intros H Hn. apply (choose P (map snd (elements (dom m)))); [done|]. intros x Hx. apply Hn. destruct (m !! (64, x)) eqn:E; [|done]. exfalso. apply Hx. apply elem_of_list_fmap. exists (64, x). split; [done|]. apply elem_of_elements. by eapply elem_of_dom_2.
Qed.

(** *** The nodes of the updated version. *)
Record gone h h' L K (a : loc) (gi : iver) (Wr : list loc) (m4 m6 : nmap) (ss : N -> nmap) : Prop := {
  go_4 : exists p xs m, seen c32 h (L K4) K p (Ver m (since (four gi))) xs /\ seen c32 h' (L K4) K p (Ver m4 (since (four gi))) (map (reload h') xs) /\ like m (content (four gi)) /\ (forall l, l ∈ L K4 -> l ∈ Wr -> l ∈ map fst xs);
  go_6 : exists p xs m, seen c64 h (L KTop) K p (Ver m (since (upper gi))) xs /\ seen c64 h' (L KTop) K p (Ver m6 (since (upper gi))) (map (reload h') xs) /\ like m (content (upper gi)) /\ (forall l, l ∈ L KTop -> l ∈ Wr -> l ∈ map fst xs);
  go_s : forall x, exists p xs m, seen c64 h (L (KSub x)) K p (Ver m (since (inside gi x))) xs /\ seen c64 h' (L (KSub x)) K p (Ver (ss x) (since (inside gi x))) (map (reload h') xs) /\ like m (content (inside gi x)) /\ (forall l, l ∈ L (KSub x) -> l ∈ Wr -> l ∈ map fst xs) }.
Definition made (gi : iver) (m4 m6 : nmap) (ss : N -> nmap) : iver :=
  IVer (obj gi) (Ver m4 (since (four gi))) (Ver m6 (since (upper gi))) (fun x => Ver (ss x) (since (inside gi x))).

Lemma seen_nil c (Hc : cfg_ok c) h (F : gset loc) K g xs : seen c h F K None g xs -> xs = [] /\ content g = ∅.
Proof.
  intros (F' & _ & Ht & He & _). destruct Ht as (h0 & t & _ & _ & _ & Hl). destruct t as [|k b lf v l r]; [|destruct Hl as (? & ? & ? & ? & ? & ? & _); done].
  destruct Hl as [_ ->]. split; [done|]. apply map_empty. intros q. destruct (content g !! q) as [[k v]|] eqn:E; [|done]. destruct He as [_ He]. apply He in E as [E _]. by apply elem_of_nil in E.
Qed.
Lemma seen_locs c (Hc : cfg_ok c) h (F : gset loc) K p g xs l : seen c h F K p g xs -> l ∈ map fst xs -> l ∈ F.
Proof. intros Hs Hl. apply elem_of_list_fmap in Hl as (x & -> & Hx). by destruct (seen_in c Hc _ _ _ _ _ _ _ Hs Hx) as (q & _ & _ & _ & ?). Qed.

Lemma gone_ok h h' L K a gi xs yz Wr : kgood h L -> itl h a xs yz -> irel h L K (Some a) gi -> vrel h h' -> (forall l, l ∈ Wr -> l ∈ map fst (le xs yz)) ->
  exists m4 m6 ss, gone h h' L K a gi Wr m4 m6 ss /\ irel h' L K (Some a) (made gi m4 m6 ss).
Proof.
  intros [_ HG] Hi (Ha & Ho & p4 & p6 & Hcell & (m4 & A1 & A2 & A3) & (m6 & ss & (B1 & B2 & B3 & B4) & C)) Hv HWr.
  destruct (il_trees _ _ _ _ Hi) as (r4 & r6 & F4 & F0 & Fs & Hcell2 & T4 & T6 & Ts & _).
  assert (Er : r4 = p4 /\ r6 = p6) by (rewrite Hcell in Hcell2; by injection Hcell2 as -> ->). destruct Er as [-> ->].
  destruct (set_seen c32 c32_ok _ _ _ _ _ A1) as [x4 S4]. assert (E4 : x4 = xs) by (destruct S4 as (F & _ & T & _); by eapply tr_det). subst x4.
  destruct (set_seen c64 c64_ok _ _ _ _ _ B1) as [x6 S6]. assert (E6 : x6 = map fst yz) by (destruct S6 as (F & _ & T & _); by eapply tr_det). subst x6.
  assert (CL : forall l, l ∈ Wr -> (l ∈ map fst xs /\ l ∈ L K4) \/ (l ∈ map fst (map fst yz) /\ l ∈ L KTop) \/
     exists x kv s z F, m6 !! (64, x) = Some kv /\ kv.2 = VSub s /\ tr c64 h F s z /\ l ∈ map fst z /\ l ∈ L (KSub x)).
  { intros l Hl. apply HWr in Hl. apply elem_of_list_fmap in Hl as (w & -> & Hw). unfold le in Hw. apply elem_of_app in Hw as [Hw|Hw].
    - left. apply elem_of_list_fmap in Hw as (z & -> & Hz). apply (elem_of_list_fmap_1 fst) in Hz. split; [exact Hz|]. by eapply (seen_locs c32 c32_ok).
    - right. apply elem_of_list_In, in_concat in Hw as (ws & Hws & Hw). apply elem_of_list_In in Hws. apply elem_of_list_In in Hw. apply elem_of_list_fmap in Hws as ([y z] & -> & Hyz). unfold lp6 in Hw. cbn [fst snd] in Hw.
      assert (Hy : y ∈ map fst yz) by (by apply (elem_of_list_fmap_1 fst) in Hyz).
      destruct (vsub_dec (nn_val y.2)) as [Hp|[s2 Es]].
      + left. assert (w.1 = y.1) as -> by (destruct (nn_val y.2); try done; apply elem_of_list_singleton in Hw as ->; done). apply (elem_of_list_fmap_1 fst) in Hy. split; [exact Hy|]. by eapply (seen_locs c64 c64_ok).
      + right. rewrite Es in Hw. apply elem_of_list_fmap in Hw as (z0 & -> & Hz0). cbn [fst lp6s] in *.
        destruct (il_sub _ _ _ _ Hi y z s2 Hyz Es) as [Eb _]. destruct (seen_in c64 c64_ok _ _ _ _ _ _ _ S6 Hy) as (q & (nn & En & Eq) & _ & Em & _).
        destruct (tr_cells c64 _ _ _ _ T6 y Hy) as (Cy & _). rewrite Cy in En. injection En as <-. change (cW c64) with 64 in Eq. rewrite Eb, norm64 in Eq. subst q.
        change (m6 !! (64, nn_key y.2) = Some (nn_key y.2, nn_val y.2)) in Em.
        destruct (C (nn_key y.2)) as (s' & D1 & _ & _ & D4). rewrite Em in D4. destruct D4 as [D4 _]. cbn [snd] in D4. rewrite Es in D4. injection D4 as <-.
        destruct (set_seen c64 c64_ok _ _ _ _ _ D1) as [z' Sz]. assert (Tz : tr c64 h (Fs (nn_key y.2)) s2 z) by (by apply (Ts y z s2)). assert (z' = z) as -> by (destruct Sz as (F & _ & T & _); by eapply tr_det).
        apply (elem_of_list_fmap_1 fst) in Hz0. exists (nn_key y.2), (nn_key y.2, nn_val y.2), s2, z, (Fs (nn_key y.2)). split_and!; [done|done|done|exact Hz0|]. by eapply (seen_locs c64 c64_ok). }
  destruct (seen_vrel c32 c32_ok _ h' _ _ _ _ _ Hv S4) as [m4' S4']. destruct (seen_vrel c64 c64_ok _ h' _ _ _ _ _ Hv S6) as [m6' S6'].
  destruct (choose64 m6 (fun x ms => exists s zs, seen c64 h (L (KSub x)) K s (Ver (ss x) (since (inside gi x))) zs /\ seen c64 h' (L (KSub x)) K s (Ver ms (since (inside gi x))) (map (reload h') zs) /\
     match m6 !! (64, x) with Some kv => kv.2 = VSub s /\ ss x <> ∅ | None => s = None /\ ss x = ∅ end)) as [ss' Hss].
  { intros x. destruct (C x) as (s & D1 & _ & _ & D4). destruct (set_seen c64 c64_ok _ _ _ _ _ D1) as [zs Sz]. destruct (seen_vrel c64 c64_ok _ h' _ _ _ _ _ Hv Sz) as [ms Sz']. by exists ms, s, zs. }
  { intros x E. destruct (C x) as (s & D1 & _ & _ & D4). rewrite E in *. destruct D4 as [-> D4]. destruct (set_seen c64 c64_ok _ _ _ _ _ D1) as [zs Sz]. destruct (seen_vrel c64 c64_ok _ h' _ _ _ _ _ Hv Sz) as [ms Sz'].
    exists None, zs. split_and!; [done| |done|done]. by destruct (seen_nil c64 c64_ok _ _ _ _ _ Sz') as [_ <-]. }
  pose proof (seen_moved c32 c32_ok _ _ _ _ _ _ _ _ Hv S4 S4') as M4. pose proof (seen_moved c64 c64_ok _ _ _ _ _ _ _ _ Hv S6 S6') as M6. cbn [content] in M4, M6.
  exists m4', m6', ss'. split.
  - split.
    + exists p4, xs, m4. split_and!; [done|done|by apply vals_like|]. intros l Hl Hw. destruct (CL l Hw) as [[? _]|[[_ Hx]|(x & ? & ? & ? & ? & _ & _ & _ & _ & Hx)]]; [done|exfalso..]; [by apply (HG K4 KTop ltac:(done) l)|by apply (HG K4 (KSub x) ltac:(done) l)].
    + exists p6, (map fst yz), m6. split_and!; [done|done|done|]. intros l Hl Hw. destruct (CL l Hw) as [[_ Hx]|[[? _]|(x & ? & ? & ? & ? & _ & _ & _ & _ & Hx)]]; [exfalso|done|exfalso]; [by apply (HG K4 KTop ltac:(done) l)|by apply (HG KTop (KSub x) ltac:(done) l)].
    + intros x. destruct (Hss x) as (s & zs & Z1 & Z2 & Z3). exists s, zs, (ss x). split_and!; [done|done|destruct (C x) as (_ & _ & _ & D3 & _); by apply vals_like|].
      intros l Hl Hw. destruct (CL l Hw) as [[_ Hx]|[[_ Hx]|(y & kv & s2 & z & F & Y1 & Y2 & Y3 & Y4 & Y5)]]; [exfalso; by apply (HG K4 (KSub x) ltac:(done) l)|exfalso; by apply (HG KTop (KSub x) ltac:(done) l)|].
      destruct (decide (x = y)) as [->|Hne]; [|exfalso; by apply (HG (KSub x) (KSub y) ltac:(congruence) l)]. rewrite Y1 in Z3. destruct Z3 as [Z3 _]. assert (s2 = s) as -> by congruence. destruct Z1 as (F1 & _ & T & _). assert (zs = z) as -> by (by eapply tr_det). done.
  - split_and!; [done|done|]. exists p4, p6. split; [specialize (Hv a); by rewrite Hcell in Hv|]. split.
    + exists m4'. cbn [four made]. split_and!; [by eapply (seen_set c32 c32_ok)| |done]. intros q k v. by eapply moved_plain, A2.
    + exists m6', ss'. cbn [upper inside made]. split.
      * split_and!; [by eapply (seen_set c64 c64_ok)|done|done|]. intros q k v E Hq. eapply moved_plain; [exact M6| |exact E]. intros k0 v0 E0. by eapply B4.
      * intros x. destruct (Hss x) as (s & zs & Z1 & Z2 & Z3). destruct (C x) as (_ & _ & D2 & _). pose proof (seen_moved c64 c64_ok _ _ _ _ _ _ _ _ Hv Z1 Z2) as Mx. cbn [content] in Mx.
        assert (E' : m6' !! (64, x) = m6 !! (64, x)).
        { destruct (m6 !! (64, x)) as [kv|] eqn:E; [eapply moved_sub; [exact M6|exact E|apply Z3]|]. exact (proj1 (moved_like _ _ M6 (64, x)) E). }
        assert (Hr : rsub h' L K x (m6 !! (64, x)) (ss' x) (Ver (ss' x) (since (inside gi x)))).
        { exists s. split_and!; [by eapply (seen_set c64 c64_ok)| |done|].
          - intros q k v. by eapply moved_plain, D2.
          - destruct (m6 !! (64, x)) as [kv|]; (split; [apply Z3|]); [rewrite <- (moved_empty _ _ Mx); apply Z3|apply (moved_empty _ _ Mx), Z3]. }
        rewrite <- E' in Hr. exact Hr.
Qed.

(** *** The other versions. *)
Lemma vals_renewed (f : pfx -> option value) (g1 g : ver) (q : pfx) : vals (content (renewed f g1 g)) q = (fun v => if decide (common g1 g q) then default v (f q) else v) <$> vals (content g) q.
Proof. unfold vals, renewed. cbn [content]. rewrite map_lookup_imap. by destruct (content g !! q) as [kv|]. Qed.
Lemma like_renewed (f : pfx -> option value) (g1 g : ver) (m : nmap) : like m (content g) -> like m (content (renewed f g1 g)).
Proof. intros H q. rewrite (H q). rewrite <- !vals_none, vals_renewed. by destruct (vals (content g) q). Qed.
Lemma renew_part c (Hc : cfg_ok c) h h' (F : gset loc) K (n : nat) (Wr : list loc) (pi : ptr) (gi : ver) (xi : list item) (mi mi' : nmap) (f : pfx -> option value) (p : ptr) (g : ver) (m : nmap) : vrel h h' -> labels c h F K n ->
  seen c h F K pi (Ver mi (since gi)) xi -> seen c h' F K pi (Ver mi' (since gi)) (map (reload h') xi) -> like mi (content gi) ->
  (forall l, l ∈ F -> l ∈ Wr -> l ∈ map fst xi) -> (forall l, l ∈ dom h -> l ∉ Wr -> val_at h' l = val_at h l) -> in_set c h F K p (Ver m (since g)) ->
  exists m' : nmap, in_set c h' F K p (Ver m' (since g)) /\ moved m m' /\
    forall q : pfx, vals m q = vals (content g) q -> (valid_pfx (cW c) q -> f q = vals mi' q) -> vals m' q = vals (content (renewed f gi g)) q.
Proof.
  intros Hv HL S1 S2 Hl HW Hk Hs. destruct (set_seen c Hc _ _ _ _ _ Hs) as [xs Sx]. destruct (renew c Hc h h' F K n Wr pi _ xi mi' p _ xs Hv HL S1 S2 HW Hk Sx) as (m' & R1 & R2 & R3). cbn [content since] in *.
  exists m'. split_and!; [done|done|]. intros q Eq Hf. rewrite vals_renewed, <- Eq. specialize (R3 q). unfold vals. destruct (m !! q) as [kv|]; [|by rewrite R3]. destruct R3 as [Hq ->]. cbn [fmap option_fmap option_map snd]. f_equal.
  rewrite (Hf Hq). unfold common. cbn [content since]. 
  destruct (decide (is_Some (mi !! q) /\ since gi q = since g q)) as [[D1 D2]|D]; destruct (decide (is_Some (content gi !! q) /\ since gi q = since g q)) as [[D3 D4]|D']; try done; exfalso.
  - apply D'. split; [|done]. by apply (like_some _ _ q Hl).
  - apply D. split; [|done]. by apply (like_some _ _ q Hl).
Qed.
Lemma followed_ok h h' L K (n : nat) (a : loc) (gi : iver) (Wr : list loc) (m4 m6 : nmap) (ss : N -> nmap) (t : ptr) (g : iver) : kgood h L -> klab h L K n -> vrel h h' -> gone h h' L K a gi Wr m4 m6 ss -> (forall l, l ∈ dom h -> l ∉ Wr -> val_at h' l = val_at h l) ->
  irel h L K t g -> irel h' L K t (followed (holds (made gi m4 m6 ss)) gi g).
Proof.
  intros HG HL Hv [(q4 & x4 & i4 & A1 & A2 & A3 & A4) (q6 & x6 & i6 & B1 & B2 & B3 & B4) C] Hk Ht. destruct t as [b|].
  2: { destruct Ht as (T1 & T2 & T3 & T4). split_and!; [done|..]; [| |intros x]; cbn [four upper inside followed renewed content]; apply map_empty; intros q; rewrite map_lookup_imap; by rewrite ?T2, ?T3, ?T4, lookup_empty. }
  destruct Ht as (T1 & T2 & p4 & p6 & T3 & (m & D1 & D2 & D3) & (mu & su & (E1 & E2 & E3 & E4) & E5)). split_and!; [done|done|]. exists p4, p6. split; [specialize (Hv b); by rewrite T3 in Hv|]. split.
  - destruct (renew_part c32 c32_ok h h' (L K4) K n Wr q4 (four gi) x4 i4 m4 (fun q => holds (made gi m4 m6 ss) (false, q)) p4 (four g) m Hv (HL K4 ltac:(done)) A1 A2 A3 A4 Hk D1) as (m' & R1 & R2 & R3).
    exists m'. cbn [four followed]. split_and!; [exact R1|intros q k v; by eapply moved_plain, D2|]. intros q. apply R3; [done|]. intros _. done.
  - destruct (renew_part c64 c64_ok h h' (L KTop) K n Wr q6 (upper gi) x6 i6 m6 (fun q => if q.1 <? 64 then holds (made gi m4 m6 ss) (true, q) else None) p6 (upper g) mu Hv (HL KTop ltac:(done)) B1 B2 B3 B4 Hk E1) as (m' & R1 & R2 & R3).
    assert (Hch : exists su' : N -> nmap, forall x, rsub h' L K x (mu !! (64, x)) (su' x) (inside (followed (holds (made gi m4 m6 ss)) gi g) x)).
    { assert (Hx : forall x, exists ms, rsub h' L K x (mu !! (64, x)) ms (inside (followed (holds (made gi m4 m6 ss)) gi g) x)).
      { intros x. destruct (E5 x) as (s & F1 & F2 & F3 & F4). destruct (C x) as (qx & xx & ix & C1 & C2 & C3 & C4).
        destruct (renew_part c64 c64_ok h h' (L (KSub x)) K n Wr qx (inside gi x) xx ix (ss x) (fun q => holds (made gi m4 m6 ss) (true, (q.1 + 64, x * 2 ^ q.1 + q.2))) s (inside g x) (su x) Hv (HL (KSub x) ltac:(done)) C1 C2 C3 C4 Hk F1) as (ms & X1 & X2 & X3).
        exists ms, s. cbn [inside followed]. split_and!; [exact X1|intros q k v; by eapply moved_plain, F2| |].
        - intros q. apply X3; [done|]. intros [V1 V2]. unfold holds. cbn [fst snd made inside upper]. change (q.1 + 64, x * 2 ^ q.1 + q.2) with (join x q). change (half (join x q)) with (hi (join x q)).2. change (rest (join x q)) with (lo (join x q)).
          rewrite hi_join, lo_join by done. cbn [snd content]. destruct (N.ltb_spec (q.1 + 64) 64); [lia|done].
        - destruct (mu !! (64, x)) as [kv|]; (split; [apply F4|]); [rewrite <- (moved_empty _ _ X2); apply F4|apply (moved_empty _ _ X2), F4]. }
      apply (choose64 mu (fun x ms => rsub h' L K x (mu !! (64, x)) ms (inside (followed (holds (made gi m4 m6 ss)) gi g) x))); [exact Hx|].
      intros x E. destruct (Hx x) as [ms Hms]. pose proof Hms as (s & _ & _ & _ & Hs). assert (ms = ∅) as <-; [|done]. destruct (mu !! (64, x)); [done|]. by destruct Hs. }
    destruct Hch as [su' Hsu]. exists m', su'. split.
    + split_and!; [exact R1| | |].
      * intros q Hq. apply R3; [by apply E2|]. intros [V1 V2]. change (cW c64) with 64 in V1. unfold holds. cbn [fst snd made upper]. destruct (N.ltb_spec q.1 64); [done|lia].
      * cbn [upper followed]. apply like_renewed. intros q. rewrite <- (moved_like _ _ R2 q). apply E3.
      * intros q k v E Hq. eapply moved_plain; [exact R2| |exact E]. intros k0 v0 E0. by eapply E4.
    + intros x. assert (E' : m' !! (64, x) = mu !! (64, x)).
      { destruct (E5 x) as (s & _ & _ & _ & F4). destruct (mu !! (64, x)) as [kv|] eqn:E; [eapply moved_sub; [exact R2|exact E|apply F4]|]. exact (proj1 (moved_like _ _ R2 (64, x)) E). }
      pose proof (Hsu x) as Hr. rewrite <- E' in Hr. exact Hr.
Qed.
Lemma linv_vrel h h' L K n : vrel h h' -> linv h L K n -> linv h' L K n.
Proof.
  intros Hv ([G1 G2] & A & B). split_and!; [split; [intros i; etrans; [apply G1|by apply vrel_dom]|done]| |done]. intros i Hi. eapply (labels_vrel _ (cof_ok i)); [exact Hv|]. by apply A.
Qed.
End all.
