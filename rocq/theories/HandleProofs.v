(** * Proofs: nodes of a radix tree that a client keeps. *)
From Verif Require Import Prog History NumSpec NumModel NumFun NumAbs NumFoot NumBits NumSim NumInplace NumNavSpec NumNavProofs NumLoc VersSpec NumShare VersProofs NumExact StampSpec StampProofs WorkProofs IpUpd3 HandleSpec.
Open Scope nat_scope.

(** The client: [vs] are its trees, [ns] the nodes it keeps. Reading and writing the fields
    of a node (numtree/node32.go:26-37) is its own code; it does so only if the node is not nil. *)
Section client.
Context {U : Type} (c : cfg).
Definition y_exec (vs ns : list ptr) (o : yop U) : prog U (list ptr * list ptr * nout U) :=
  match o with
  | YCall o => r <- v_exec c vs o ;; Ret (r.1, ns, r.2)
  | YFind i key bits => p <- n_find_node c (nth i vs None) key bits ;; Ret (vs, ns ++ [p], OBool (if p then true else false))
  | YEnum i => l <- n_enumerate c (nth i vs None) ;; Ret (vs, ns ++ map (fun x => Some x.1) l, OList (map as_entry l))
  | YGet j => match nth j ns None with None => Ret (vs, ns, ONone) | Some a => nn <- ld_num (Some a) ;; Ret (vs, ns, OList [(nn_key nn, nn_bits nn, nn_val nn)]) end
  | YSet j v => match nth j ns None with
                | None => Ret (vs, ns, ONone)
                | Some a => nn <- ld_num (Some a) ;; st_num (Some a) (NumN (nn_key nn) (nn_bits nn) (nn_leaf nn) v (nn_c0 nn) (nn_c1 nn)) ;;; Ret (vs, ns, ONone)
                end
  end.
Fixpoint y_hist (ops : list (yop U)) (vs ns : list ptr) : prog U (list (nout U)) :=
  match ops with
  | [] => Ret []
  | o :: ops => r <- y_exec vs ns o ;; x <- y_hist ops r.1.1 r.1.2 ;; Ret (r.2 :: x)
  end.
End client.

Section handle.
Context {U : Type} (c : cfg) (Hc : cfg_ok c).
Local Notation heap := (heap U).
Local Notation nmap := (gmap pfx (N * value U)).
Local Notation ver := (ver U).
Local Notation ver0 := (ver0 U).
Local Notation W := (cW c).
Implicit Types (h : heap) (L : gset loc) (K : loc -> nat).

Lemma orep_leaf h t : forall p F (k b : N) (v : value U), orep h p t F -> (k, b, v) ∈ f_enum t <-> exists a c0 c1, a ∈ F /\ h !! a = Some (CNum (NumN k b true v c0 c1)).
Proof.
  induction t as [|k' b' lf' v' l IHl r IHr]; intros p F k b v Ho.
  - destruct Ho as [_ ->]. cbn [f_enum]. split; [by intros ?%elem_of_nil|]. intros (a & c0 & c1 & Ha & _). by apply not_elem_of_empty in Ha.
  - destruct Ho as (a & c0 & c1 & F0 & F1 & -> & Ha & Hc0 & Hc1 & _ & _ & _ & ->). cbn [f_enum]. rewrite !elem_of_app, (IHl _ _ _ _ _ Hc0), (IHr _ _ _ _ _ Hc1). split.
    + intros [H|[(a1 & d0 & d1 & H1 & H2)|(a1 & d0 & d1 & H1 & H2)]].
      * destruct lf'; [|by apply elem_of_nil in H]. apply elem_of_list_singleton in H. injection H as -> -> ->. exists a, c0, c1. split; [clear; set_solver|done].
      * exists a1, d0, d1. split; [clear -H1; set_solver|done].
      * exists a1, d0, d1. split; [clear -H1; set_solver|done].
    + intros (a1 & d0 & d1 & H1 & H2). apply elem_of_union in H1 as [H1|H1].
      * apply elem_of_singleton in H1 as ->. rewrite Ha in H2. injection H2 as -> -> -> -> _ _. left. apply elem_of_list_singleton. done.
      * right. apply elem_of_union in H1 as [H1|H1]; [left|right]; by exists a1, d0, d1.
Qed.
Lemma at_content h (t : ntree U) (p : ptr) (F : gset loc) (m : nmap) (q : pfx) (k : N) (v : value U) : orep h p t F -> nabs c t m -> m !! q = Some (k, v) <-> exists a c0 c1, a ∈ F /\ h !! a = Some (CNum (NumN k q.1 true v c0 c1)) /\ q = norm W k q.1.
Proof.
  intros Ho Ha. rewrite (Ha q k v), (orep_leaf _ _ _ _ _ _ _ Ho). split.
  - intros [(a & c0 & c1 & H1 & H2) H3]. by exists a, c0, c1.
  - intros (a & c0 & c1 & H1 & H2 & H3). split; [by exists a, c0, c1|done].
Qed.

(** A kept node is still the one at its prefix in the version in which it was found. *)
Definition kept h L K (gs : list ver) (p : ptr) (f : option (nat * pfx)) : Prop :=
  match f with
  | None => p = None
  | Some (i, q) => exists a, p = Some a /\ a ∈ L /\ place c h a q /\ K a = since (nth i gs ver0) q /\ is_Some (content (nth i gs ver0) !! q)
  end.
Lemma kept_cell h L K (n : nat) (vs : list ptr) (gs : list ver) (i : nat) (q : pfx) (a : loc) (k : N) (v : value U) : inv c h L K n vs gs -> a ∈ L -> place c h a q -> K a = since (nth i gs ver0) q -> content (nth i gs ver0) !! q = Some (k, v) ->
  exists c0 c1, h !! a = Some (CNum (NumN k q.1 true v c0 c1)) /\ q = norm W k q.1.
Proof using Hc.
  intros HI Ha Hp HK E. destruct (inv_nth c _ _ _ _ _ _ i HI) as (F & HF & t & Hw & Ho & Hn & HKF). pose proof (proj1 (at_content _ _ _ _ _ _ _ _ Ho Hn) E) as (x & c0 & c1 & X1 & X2 & X3).
  assert (Hx : place c h x q) by (exists (NumN k q.1 true v c0 c1); split; [done|by symmetry]).
  assert (x = a) as ->; [|by exists c0, c1]. destruct HI as [(_ & _ & Hinj) _]. apply (Hinj x a q); [by apply HF|done|done|done|]. rewrite HK. by apply HKF.
Qed.
Lemma sstep_kept (n : nat) (gs : list ver) o gs' x (i : nat) (q : pfx) : sstep W n gs o gs' x -> is_Some (content (nth i gs ver0) !! q) ->
  is_Some (content (nth i gs' ver0) !! q) /\ since (nth i gs' ver0) q = since (nth i gs ver0) q.
Proof.
  intros H Hs. assert (Hi : i < length gs). { destruct (Nat.lt_ge_cases i (length gs)) as [?|Hi]; [done|]. rewrite nth_overflow in Hs by done. cbn [content ver0] in Hs. rewrite lookup_empty in Hs. by destruct Hs. }
  assert (Happ : forall g, is_Some (content (nth i (gs ++ [g]) ver0) !! q) /\ since (nth i (gs ++ [g]) ver0) q = since (nth i gs ver0) q) by (intros g; by rewrite app_nth1).
  inversion H as [| | | | | |i0 key bits v gs2 Hl A]; subst; try done; try apply Happ. destruct (A i Hi) as [A1 A2].
  destruct (decide (i = i0 \/ sharing (nth i0 gs ver0) (nth i gs ver0) (norm W key (adj W bits)))) as [D|D].
  - rewrite A1 by done. cbn [content since updated]. unfold s_insert. split; [|rewrite decide_True; [done|by left]]. destruct (decide (norm W key (adj W bits) = q)) as [->|Hne]; [by rewrite lookup_insert|by rewrite lookup_insert_ne].
  - rewrite A2; [done|tauto|tauto].
Qed.
Lemma kept_step h h' L L' K K' (n : nat) (gs : list ver) o gs' x (p : ptr) f : sstep W n gs o gs' x -> StampProofs.keeps c h h' L L' K K' -> kept h L K gs p f -> kept h' L' K' gs' p f.
Proof.
  intros Hs (K1 & K2 & K3). destruct f as [[i q]|]; [|done]. intros (a & -> & A1 & A2 & A3 & A4). destruct (sstep_kept _ _ _ _ _ i q Hs A4) as [B1 B2].
  exists a. split_and!; [done|by apply K1|by apply K3|rewrite K2 by done; congruence|done].
Qed.

(** Writing the value of a kept node. *)
Lemma set_inv h L K (n : nat) (vs : list ptr) (gs : list ver) (i : nat) (q : pfx) (a : loc) (k : N) (v0 v : value U) (c0 c1 : ptr) : inv c h L K n vs gs -> a ∈ L -> K a = since (nth i gs ver0) q -> content (nth i gs ver0) !! q = Some (k, v0) ->
  h !! a = Some (CNum (NumN k q.1 true v0 c0 c1)) -> q = norm W k q.1 -> 
  let h' := <[a := CNum (NumN k q.1 true v c0 c1)]> h in
  inv c h' L K n vs (map (fun g => if decide (both (nth i gs ver0) g q) then valued g q v else g) gs) /\ forall y Y, place c h' y Y <-> place c h y Y.
Proof using Hc.
  intros HI HaL HKa Hcon Ha Hq h'. pose proof HI as [HL HR]. assert (HLd : L ⊆ dom h) by apply HL.
  assert (Hpl : forall y Y, place c h' y Y <-> place c h y Y).
  { intros y Y. unfold place, h'. destruct (decide (y = a)) as [->|Hne]; [|by rewrite lookup_insert_ne]. rewrite lookup_insert, Ha. split; intros (nn & [= <-] & E); (eexists; split; [done|exact E]). }
  split; [|done]. assert (Haq : place c h a q) by (exists (NumN k q.1 true v0 c0 c1); split; [done|by symmetry]).
  destruct (inv_nth c _ _ _ _ _ _ i HI) as (F & HF & t & Hw & Ho & Hn & HKF).
  assert (Hb : (k < 2 ^ W)%N /\ (q.1 <= W)%N).
  { apply Hn in Hcon as [Hin _]. by apply (enum_wf c t k q.1 v0 Hw). }
  destruct Hb as [Hk Hb].
  assert (Hh : hitx c h h' a ∅ k q.1 v).
  { exists k, q.1, true, v0, c0, c1. split_and!; [done|intros y _ Hy; unfold h'; by rewrite lookup_insert_ne|apply agree_refl|done|intros y Hy; by apply not_elem_of_empty in Hy|]. left. split_and!; [done|done|]. unfold h'. by rewrite lookup_insert. }
  destruct (share_exact c Hc _ _ _ _ _ _ _ Hh Hk Hb) as (xn & _ & _ & _ & _ & Hall).
  split.
  - destruct HL as (L1 & L2 & L3). split_and!; [etrans; [exact L1|]; unfold h'; rewrite dom_insert_L; clear; set_solver|done|]. intros y y' Y Hy Hy' P P'. apply (L3 y y' Y Hy Hy'); by apply Hpl.
  - apply Forall2_fmap_r. eapply Forall2_impl; [exact HR|]. cbn beta. intros p g (F2 & HF2 & t2 & Hw2 & Ho2 & Ha2 & HK2). destruct (Hall _ _ _ Hw2 Ho2) as [Hout Hin].
    assert (HaF : a ∈ F2 <-> both (nth i gs ver0) g q).
    { split.
      - intros Hin2. split_and!; [by eexists| |rewrite <- HKa; by apply HK2]. exists (k, v0). apply (at_content _ _ _ _ _ _ _ _ Ho2 Ha2). by exists a, c0, c1.
      - intros (_ & [[k2 v2] E2] & Es). pose proof (proj1 (at_content _ _ _ _ _ _ _ _ Ho2 Ha2) E2) as (x & d0 & d1 & X1 & X2 & X3). assert (Hx : place c h x q) by (exists (NumN k2 q.1 true v2 d0 d1); split; [done|by symmetry]).
        assert (x = a) as <-; [|done]. destruct HL as (_ & _ & L3). apply (L3 x a q); [by apply HF2|done|done|done|]. rewrite (HK2 x q X1 Hx). congruence. }
    unfold compose. destruct (decide (both (nth i gs ver0) g q)) as [D|D].
    + assert (Hin2 : a ∈ F2) by (by apply HaF). destruct (Hin Hin2) as [Ho' _]. exists F2. split; [done|]. exists (f_ins c t2 k q.1 v). split_and!.
      * by apply ins_wf.
      * eapply orep_eq; [|exact Ho']. clear; set_solver.
      * assert (E : content (valued g q v) = s_insert W (content g) k q.1 v); [|rewrite E; by apply nabs_ins].
        assert (E2 : content g !! q = Some (k, v0)) by (apply (at_content _ _ _ _ _ _ _ _ Ho2 Ha2); by exists a, c0, c1).
        cbn [valued content]. unfold s_insert. rewrite <- Hq. apply map_eq. intros r. destruct (decide (q = r)) as [<-|Hne]; [by rewrite lookup_alter, lookup_insert, E2|by rewrite lookup_alter_ne, lookup_insert_ne].
      * intros y Y Hy HY. cbn [valued since]. apply HK2; [done|by apply Hpl].
    + exists F2. split; [done|]. exists t2. split_and!; [done|apply Hout; by rewrite HaF|done|]. intros y Y Hy HY. apply HK2; [done|by apply Hpl].
Qed.
Lemma set_kept (gs : list ver) (i : nat) (q : pfx) (v : value U) (i1 : nat) (q1 : pfx) : is_Some (content (nth i1 gs ver0) !! q1) ->
  let gs' := map (fun g => if decide (both (nth i gs ver0) g q) then valued g q v else g) gs in
  is_Some (content (nth i1 gs' ver0) !! q1) /\ since (nth i1 gs' ver0) q1 = since (nth i1 gs ver0) q1.
Proof.
  intros Hs gs'. assert (Hi : i1 < length gs). { destruct (Nat.lt_ge_cases i1 (length gs)) as [?|Hi]; [done|]. rewrite nth_overflow in Hs by done. cbn [content ver0] in Hs. rewrite lookup_empty in Hs. by destruct Hs. }
  unfold gs'. set (f := fun g => if decide (both (nth i gs ver0) g q) then valued g q v else g). rewrite (nth_indep _ ver0 (f ver0)) by (by rewrite map_length). rewrite map_nth. unfold f.
  destruct (decide _); [|done]. cbn [valued content since]. split; [|done]. rewrite lookup_alter_is_Some. done.
Qed.

(** FindNode. *)
Lemma find_in h (F : gset loc) (t : ntree U) (p : ptr) (m : nmap) (k : N) (bits : Z) (WS : gset loc) : wf c t -> orep h p t F -> nabs c t m -> (k < 2 ^ W)%N ->
  wp (n_find_node c p k bits) h WS (fun r h' WS' => h' = h /\ WS ⊆ WS' /\
    match r with None => m !! norm W k (adj W bits) = None | Some a => a ∈ F /\ place c h a (norm W k (adj W bits)) /\ is_Some (m !! norm W k (adj W bits)) end).
Proof using Hc.
  intros Hw Ho Hn Hk. assert (Hb : (adj W bits <= W)%N) by (rewrite <- (clamp_adj c); apply clamp_le).
  assert (E : n_find_node (U := U) c p k bits = n_find_node c p k (Z.of_N (adj W bits))).
  { unfold n_find_node. assert (clamp c (Z.of_N (adj W bits)) = clamp c bits) as ->; [|done]. rewrite !clamp_adj. unfold adj in *. lia. }
  rewrite E. clear E. set (b := adj W bits) in *.
  assert (Hd : F ⊆ dom h) by (by eapply (orep_dom c Hc)).
  pose proof (orep_hr h t p F F Ho (reflexivity _)) as Hr. destruct (nrep_lrep _ _ _ Hr) as [xs Hxs].
  assert (Ht : tr c h F p xs) by (exists (hr h F), t; split_and!; [apply hr_sub|by apply hr_dom|done|done]).
  eapply wp_mono; [apply (tr_find c Hc h F p xs k b WS Ht Hk Hb)|]. cbn beta. intros r h' WS' (-> & HW & Hcase). split_and!; [done|done|]. destruct r as [a|].
  - destruct Hcase as (nn & ys & A & B & FT & _ & Exs & Hpre & _). assert (Hin : (a, nn) ∈ xs) by (rewrite Exs; clear; set_solver). destruct (tr_cells c _ _ _ _ Ht (a, nn) Hin) as (C1 & C2 & C3). cbn [fst snd] in *.
    unfold pre in Hpre. cbn [snd] in Hpre. split_and!; [done|by exists nn|]. rewrite <- Hpre. exists (nn_key nn, nn_val nn). apply (at_content _ _ _ _ _ _ _ _ Ho Hn). destruct nn as [nk nb nl nv n0 n1]. cbn [nn_key nn_bits nn_val nn_leaf] in *. subst nl. by exists a, n0, n1.
  - destruct (m !! norm W k b) as [[k2 v2]|] eqn:E; [exfalso|done]. pose proof (proj1 (at_content _ _ _ _ _ _ _ _ Ho Hn) E) as (x & d0 & d1 & X1 & X2 & X3).
    assert (Hin : (k2, (norm W k b).1, v2) ∈ map as_entry xs). { rewrite (lrep_enum _ _ _ _ Hxs). apply (orep_leaf _ _ _ _ _ _ _ Ho). by exists x, d0, d1. }
    apply elem_of_list_fmap in Hin as (y & [= E1 E2 E3] & Hy). apply (Hcase y Hy). unfold pre. rewrite <- E1, <- E2. by symmetry.
Qed.

(** Enumerate. *)
Lemma enum_in h (F : gset loc) (t : ntree U) (p : ptr) (m : nmap) (WS : gset loc) : wf c t -> orep h p t F -> nabs c t m ->
  wp (n_enumerate c p) h WS (fun r h' WS' => h' = h /\ WS ⊆ WS' /\ s_enum W m (map as_entry r) /\
    forall x, x ∈ r -> let q := norm W (nn_key x.2) (nn_bits x.2) in x.1 ∈ F /\ place c h x.1 q /\ is_Some (m !! q)).
Proof using Hc.
  intros Hw Ho Hn. assert (Hd : F ⊆ dom h) by (by eapply (orep_dom c Hc)).
  pose proof (orep_hr h t p F F Ho (reflexivity _)) as Hr. destruct (nrep_lrep _ _ _ Hr) as [xs Hxs].
  assert (Ht : tr c h F p xs) by (exists (hr h F), t; split_and!; [apply hr_sub|by apply hr_dom|done|done]).
  eapply wp_mono; [apply (tr_enumerate c Hc h F p xs WS Ht)|]. cbn beta. intros r h' WS' (-> & -> & HW). split_and!; [done|done| |].
  - rewrite (lrep_enum _ _ _ _ Hxs). by apply nabs_enum.
  - intros [a nn] Hin q. destruct (tr_cells c _ _ _ _ Ht (a, nn) Hin) as (C1 & C2 & C3). cbn [fst snd] in *.
    split_and!; [done|by exists nn|]. exists (nn_key nn, nn_val nn). apply (at_content _ _ _ _ _ _ _ _ Ho Hn). destruct nn as [nk nb nl nv n0 n1]. cbn [nn_key nn_bits nn_val nn_leaf] in *. subst nl. by exists a, n0, n1.
Qed.

Lemma y_exec_exact h (WS : gset loc) L K (n : nat) (vs ns : list ptr) (gs : list ver) hs o : dom h ⊆ WS -> inv c h L K n vs gs -> Forall2 (kept h L K gs) ns hs -> yop_ok W o ->
  wp (y_exec c vs ns o) h WS (fun r h' WS' => dom h' ⊆ WS' /\ exists L' K' gs' hs', ystep W n gs hs o gs' hs' r.2 /\ inv c h' L' K' (S n) r.1.1 gs' /\ Forall2 (kept h' L' K' gs') r.1.2 hs').
Proof using Hc.
  intros HWS HI HH Hok. pose proof HI as [HL HR].
  assert (Hnext : inv c h L K (S n) vs gs) by (split; [by apply labels_next|done]).
  assert (Hnth : forall j, kept h L K gs (nth j ns None) (nth j hs None)).
  { intros j. clear -HH. revert j. induction HH as [|p f ns hs Hp HH IH]; intros [|j]; cbn [nth]; [done|done|done|apply IH]. }
  destruct o as [o|i k bits|i|j|j v]; cbn [y_exec yop_ok] in *.
  - apply wp_bind. eapply wp_mono; [by apply (v_exec_exact c Hc h WS L K n vs gs o)|]. cbn beta. intros r h1 W1 (D & L1 & K1 & gs1 & A1 & A2 & A3). cbn [wp fst snd]. split; [done|].
    exists L1, K1, gs1, hs. split_and!; [by constructor|done|]. eapply Forall2_impl; [exact HH|]. cbn beta. intros p f. by eapply kept_step.
  - destruct (inv_nth c _ _ _ _ _ _ i HI) as (F & HF & t & Hw & Ho & Hn & HKF). apply wp_bind. eapply wp_mono; [by apply (find_in h F t _ _ k bits WS Hw Ho Hn)|]. cbn beta. intros r h' WS' (-> & HW & Hcase). cbn [wp fst snd].
    split; [etrans; done|]. set (q := norm W k (adj W bits)) in *. exists L, K, gs, (hs ++ [found (nth i gs ver0) i q]). split_and!; [|done|].
    + replace (OBool (if r then true else false)) with (OBool (U := U) (if found (nth i gs ver0) i q then true else false)); [by constructor|]. unfold found. destruct r as [a|]; [destruct Hcase as (_ & _ & [? ->]); done|by rewrite Hcase].
    + apply Forall2_app; [done|]. constructor; [|constructor]. unfold found. destruct r as [a|]; [|by rewrite Hcase]. destruct Hcase as (C1 & C2 & C3). pose proof C3 as [kv ->]. exists a. split_and!; [done|by apply HF|done|by apply HKF|done].
  - destruct (inv_nth c _ _ _ _ _ _ i HI) as (F & HF & t & Hw & Ho & Hn & HKF). apply wp_bind. eapply wp_mono; [by apply (enum_in h F t _ _ WS Hw Ho Hn)|]. cbn beta. intros r h' WS' (-> & HW & Hs & Hall). cbn [wp fst snd].
    split; [etrans; done|]. exists L, K, gs, (hs ++ map (fun e => Some (i, norm W e.1.1 e.1.2)) (map as_entry r)). split_and!; [by constructor|done|].
    apply Forall2_app; [done|]. rewrite map_map. clear Hs. induction r as [|x r IH]; [constructor|]. constructor; [|apply IH; intros y Hy; apply Hall; by right].
    destruct (Hall x ltac:(by left)) as (C1 & C2 & C3). exists x.1. split_and!; [done|by apply HF|done|by apply HKF|done].
  - pose proof (Hnth j) as Hj. unfold kept in Hj. destruct (nth j hs None) as [[i q]|] eqn:Ej.
    + destruct Hj as (a & -> & A1 & A2 & A3 & [[k v] A4]). destruct (kept_cell _ _ _ _ _ _ _ _ _ _ _ HI A1 A2 A3 A4) as (c0 & c1 & E & Eq). apply wp_bind. eapply wp_ld_num; [exact E|]. cbn [wp fst snd nn_key nn_bits nn_val]. split; [done|]. exists L, K, gs, hs. split_and!; [by eapply ys_get|done|done].
    + rewrite Hj. cbn [wp fst snd]. split; [done|]. exists L, K, gs, hs. split_and!; [by constructor|done|done].
  - pose proof (Hnth j) as Hj. unfold kept in Hj. destruct (nth j hs None) as [[i q]|] eqn:Ej.
    + destruct Hj as (a & -> & A1 & A2 & A3 & [[k v0] A4]). destruct (kept_cell _ _ _ _ _ _ _ _ _ _ _ HI A1 A2 A3 A4) as (c0 & c1 & E & Eq). apply wp_bind. eapply wp_ld_num; [exact E|]. apply wp_bind. cbn [nn_key nn_bits nn_leaf nn_c0 nn_c1].
      assert (Had : a ∈ dom h) by (by eapply elem_of_dom_2). eapply wp_st_num; [by apply HWS|by eexists|]. cbn [wp fst snd]. split; [rewrite dom_insert_L; clear -HWS Had; set_solver|].
      destruct (set_inv h L K n vs gs i q a k v0 v c0 c1 HI A1 A3 A4 E Eq) as [B1 B2]. exists L, K, (map (fun g => if decide (both (nth i gs ver0) g q) then valued g q v else g) gs), hs. split_and!; [by constructor|split; [apply labels_next; apply B1|apply B1]|].
      eapply Forall2_impl; [exact HH|]. cbn beta. intros p [[i1 q1]|]; [|done]. intros (a1 & -> & C1 & C2 & C3 & C4). destruct (set_kept gs i q v i1 q1 C4) as [D1 D2]. exists a1. split_and!; [done|done|by apply B2|congruence|done].
    + rewrite Hj. cbn [wp fst snd]. split; [done|]. exists L, K, gs, hs. split_and!; [by constructor|done|done].
Qed.
Lemma y_hist_exact ops : forall h (WS : gset loc) L K (n : nat) (vs ns : list ptr) (gs : list ver) hs, dom h ⊆ WS -> inv c h L K n vs gs -> Forall2 (kept h L K gs) ns hs -> Forall (yop_ok W) ops ->
  wp (y_hist c ops vs ns) h WS (fun r _ _ => exists gs' hs', yrun W n ops gs hs gs' hs' r).
Proof using Hc.
  induction ops as [|o ops IH]; intros h WS L K n vs ns gs hs HWS HI HH Hok; cbn [y_hist].
  - cbn [wp yrun]. by exists gs, hs.
  - inversion Hok as [|? ? Ho Hops]; subst. apply wp_bind. eapply wp_mono; [by apply (y_exec_exact h WS L K n vs ns gs hs o)|]. cbn beta. intros r h1 W1 (D & L1 & K1 & gs1 & hs1 & A1 & A2 & A3).
    apply wp_bind. eapply wp_mono; [by apply (IH h1 W1 L1 K1 (S n) r.1.1 r.1.2 gs1 hs1)|]. cbn beta. intros r2 h2 W2 (gs' & hs' & B). cbn [wp]. exists gs', hs'. cbn [yrun]. by exists gs1, hs1.
Qed.
Lemma pf_handle_exact h ops : Forall (yop_ok W) ops ->
  wp (y_hist c ops [None] []) h ∅ (fun r h' _ => h ⊆ h' /\ exists gs hs, yrun W 1 ops [ver0] [] gs hs r).
Proof using Hc.
  intros Hok. assert (Hw := y_hist_exact ops ∅ ∅ ∅ (fun _ => 0) 1 [None] [] [ver0] [] ltac:(by rewrite dom_empty_L)).
  assert (H0 : inv c ∅ ∅ (fun _ => 0) 1 [None] [ver0]).
  { split; [split_and!; [apply empty_subseteq| |]|].
    - intros a Ha. by apply not_elem_of_empty in Ha.
    - intros a a' X Ha. by apply not_elem_of_empty in Ha.
    - constructor; [|constructor]. exists ∅. split; [apply empty_subseteq|]. exists NE. split_and!; [done|done|apply nabs_empty|]. intros a X Ha. by apply not_elem_of_empty in Ha. }
  specialize (Hw H0 (List.Forall2_nil _) Hok).
  eapply wp_mono; [apply (wp_part _ ∅ h ∅ ∅ _ (map_empty_subseteq h) (reflexivity _) Hw)|]. cbn beta. intros r h' _ (hp & W1 & _ & H & H3). split; [|done].
  apply map_subseteq_spec. intros l x Hl. destruct (H3 l) as [_ E2]; [by eapply elem_of_dom_2|by rewrite dom_empty_L; apply not_elem_of_empty|]. by rewrite E2.
Qed.
End handle.
