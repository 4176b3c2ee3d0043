(** * Proofs: which versions of a radix tree an in-place insertion reaches. *)
From Verif Require Import Prog History NumSpec NumModel NumFun NumAbs NumFoot NumBits NumSim NumInplace NumNavSpec NumNavProofs VersSpec NumShare VersProofs NumExact StampSpec WorkProofs IpUpd3 IpUpdProofs NumPropProofs IpPropProofs.
Open Scope nat_scope.

Section stamp.
Context {U : Type} (c : cfg) (Hc : cfg_ok c).
Local Notation heap := (heap U).
Local Notation nmap := (gmap pfx (N * value U)).
Local Notation ver := (ver U).
Local Notation ver0 := (ver0 U).
Local Notation W := (cW c).
Implicit Types h : heap.

(** [K]: for each node the number of the call that made it. *)
Definition vrep h (K : loc -> nat) (p : ptr) (g : ver) (F : gset loc) : Prop := exists t,
  wf c t /\ orep h p t F /\ nabs c t (content g) /\ forall a X, a ∈ F -> place c h a X -> K a = since g X.
Definition labels h (L : gset loc) (K : loc -> nat) (n : nat) : Prop :=
  L ⊆ dom h /\ (forall a, a ∈ L -> K a < n) /\
  forall a a' X, a ∈ L -> a' ∈ L -> place c h a X -> place c h a' X -> K a = K a' -> a = a'.
Definition in_set h (L : gset loc) (K : loc -> nat) (p : ptr) (g : ver) : Prop := exists F, F ⊆ L /\ vrep h K p g F.
Definition inv h (L : gset loc) (K : loc -> nat) (n : nat) (vs : list ptr) (gs : list ver) : Prop :=
  labels h L K n /\ Forall2 (in_set h L K) vs gs.
(** What was there keeps its place and its number. *)
Definition keeps h h' (L L' : gset loc) (K K' : loc -> nat) : Prop :=
  L ⊆ L' /\ (forall a, a ∈ L -> K' a = K a) /\ forall a X, a ∈ L -> place c h a X -> place c h' a X.
Definition mark (K : loc -> nat) (N : gset loc) (n : nat) (a : loc) : nat := if decide (a ∈ N) then n else K a.

Lemma labels_grow h h' L K n (N : gset loc) : labels h L K n -> dom h ⊆ dom h' -> (forall a X, a ∈ L -> place c h' a X -> place c h a X) ->
  (forall a, a ∈ N -> h !! a = None) -> N ⊆ dom h' -> (forall a a' X, a ∈ N -> a' ∈ N -> place c h' a X -> place c h' a' X -> a = a') ->
  labels h' (L ∪ N) (mark K N n) (S n).
Proof.
  intros (A1 & A2 & A3) Hd Hp HN Hnd Hinj.
  assert (HLN : forall a, a ∈ L -> a ∉ N). { intros a Ha Hn. apply A1, elem_of_dom in Ha as [? Ha]. rewrite HN in Ha; done. }
  split_and!.
  - clear -A1 Hd Hnd. set_solver.
  - intros a Ha. unfold mark. destruct (decide (a ∈ N)); [lia|]. apply elem_of_union in Ha as [Ha|?]; [|done]. specialize (A2 a Ha). lia.
  - intros a a' X Ha Ha' P P'. unfold mark. apply elem_of_union in Ha as [Ha|Ha], Ha' as [Ha'|Ha'].
    + rewrite !decide_False by auto. eauto.
    + rewrite decide_False by auto. rewrite decide_True by done. intros E. specialize (A2 a Ha). lia.
    + rewrite decide_True by done. rewrite decide_False by auto. intros E. specialize (A2 a' Ha'). lia.
    + eauto.
Qed.
Lemma labels_next h L K n : labels h L K n -> labels h L K (S n).
Proof. intros (A1 & A2 & A3). split_and!; [done| |done]. intros a Ha. specialize (A2 a Ha). lia. Qed.

Lemma place_mono h h' a X : h ⊆ h' -> place c h a X -> place c h' a X.
Proof. intros Hs (nn & E & H). exists nn. split; [by eapply lookup_weaken|done]. Qed.
Lemma place_back h h' a X : h ⊆ h' -> is_Some (h !! a) -> place c h' a X -> place c h a X.
Proof. intros Hs [z Hz] (nn & E & H). exists nn. split; [|done]. rewrite Hz. rewrite <- E. symmetry. by eapply lookup_weaken. Qed.
Lemma vrep_mono h h' K K' p g F : h ⊆ h' -> (forall a, a ∈ F -> K' a = K a) -> vrep h K p g F -> vrep h' K' p g F.
Proof using Hc.
  intros Hs HK (t & A1 & A2 & A3 & A4). exists t. split_and!; [done|by eapply (orep_mono c Hc)|done|]. intros a X Ha HX. rewrite HK by done.
  apply A4; [done|]. eapply place_back; [exact Hs| |exact HX]. by eapply (orep_alloc c Hc).
Qed.
Lemma in_set_mono h h' L K K' N p g : h ⊆ h' -> (forall a, a ∈ L -> K' a = K a) -> in_set h L K p g -> in_set h' (L ∪ N) K' p g.
Proof using Hc.
  intros Hs HK (F & A & B). exists F. split; [clear -A; set_solver|]. eapply vrep_mono; [exact Hs| |exact B]. auto.
Qed.
Lemma mark_old h L K n (N : gset loc) : L ⊆ dom h -> (forall a, a ∈ N -> h !! a = None) -> forall a, a ∈ L -> mark K N n a = K a.
Proof. intros HL HN a Ha. unfold mark. rewrite decide_False; [done|]. intros Hn. apply HL, elem_of_dom in Ha as [? Ha]. rewrite HN in Ha; done. Qed.

(** Above the key, or not. *)
Lemma over_covers h t p F a X k b : wf c t -> orep h p t F -> a ∈ F -> place c h a X -> (k < 2 ^ W)%N -> (b <= W)%N -> over c h a k b <-> covers X (norm W k b).
Proof using Hc.
  intros Hw Ho Ha (nn & E & <-) Hk Hb. destruct (orep_bound c Hc _ _ _ _ _ Hw Ho Ha) as (n2 & E2 & B1 & B2). rewrite E in E2. injection E2 as <-.
  rewrite covers_norm by done. split.
  - intros (n3 & E3 & C1 & C2). rewrite E in E3. injection E3 as <-. split; [done|by apply agree_sym].
  - intros [C1 C2]. exists nn. split_and!; [done|done|by apply agree_sym].
Qed.
Lemma aside_covers h t p F a X k b : wf c t -> orep h p t F -> a ∈ F -> place c h a X -> (k < 2 ^ W)%N -> (b <= W)%N -> aside c h a k b -> ~ covers X (norm W k b).
Proof using Hc.
  intros Hw Ho Ha HX Hk Hb (nn & E & Hn) Hcv. eapply over_covers in Hcv; [|done..]. destruct Hcv as (n2 & E2 & C). rewrite E in E2. by injection E2 as <-.
Qed.
Lemma branching_place h t p F m X : wf c t -> orep h p t F -> nabs c t m -> branching m X <-> exists a, a ∈ F /\ place c h a X.
Proof using Hc. intros Hw Ho Ha. rewrite <- (f_at_branching c Hc t m X Hw Ha). by eapply (orep_place c Hc). Qed.
Lemma orep_dom h t p F : orep h p t F -> F ⊆ dom h.
Proof using Hc. intros Ho a Ha. apply elem_of_dom. by eapply (orep_alloc c Hc). Qed.

Lemma inv_nth h L K n vs gs i : inv h L K n vs gs -> exists F, F ⊆ L /\ vrep h K (nth i vs None) (nth i gs ver0) F.
Proof.
  intros [_ H]. revert i. induction H as [|p g vs gs Hp H IH]; intros i.
  - exists ∅. split; [apply empty_subseteq|]. destruct i; (exists NE; split_and!; [done|done|apply nabs_empty|intros a X Ha; by apply not_elem_of_empty in Ha]).
  - destruct i as [|i]; cbn [nth]; [done|apply IH].
Qed.
Lemma inv_at h L K n vs gs i : inv h L K n vs gs -> ntree_at c h (nth i vs None) (content (nth i gs ver0)).
Proof. intros H. destruct (inv_nth _ _ _ _ _ _ i H) as (F & _ & t & A1 & A2 & A3 & _). exists t. split_and!; [done|by eapply orep_nrep|done]. Qed.

(** A version with its parts around the key made anew. *)
Lemma copied_inv h h' L K n vs gs i F t r t' m' k b : inv h L K n vs gs -> h ⊆ h' -> F ⊆ L -> wf c t -> orep h (nth i vs None) t F ->
  (forall a X, a ∈ F -> place c h a X -> K a = since (nth i gs ver0) X) -> wf c t' -> nabs c t' m' -> (k < 2 ^ W)%N -> (b <= W)%N ->
  copied c h h' F (fun _ => False) r t' k b ->
  exists L' K', inv h' L' K' (S n) (vs ++ [r]) (gs ++ [remade n (nth i gs ver0) (norm W k b) m']) /\ keeps h h' L L' K K'.
Proof using Hc.
  intros [HL HR] Hs HF Hw Ho HK Hw' Ha' Hk Hb (F1 & N & A1 & A2 & A3 & A4 & A5).
  assert (HN : forall a, a ∈ N -> h !! a = None) by (intros a Ha; by destruct (A3 a Ha)).
  assert (HLd : L ⊆ dom h) by apply HL.
  pose proof (mark_old h L K n N HLd HN) as Hmark.
  exists (L ∪ N), (mark K N n). split; [|split_and!; [clear; set_solver|done|intros a X _; by apply place_mono]]. split.
  - eapply labels_grow; [exact HL|by apply subseteq_dom| |done| |].
    + intros a X Ha. apply place_back; [done|]. apply elem_of_dom. auto.
    + intros a Ha. apply (orep_dom _ _ _ _ A1). clear -Ha; set_solver.
    + intros a a' X Ha Hb'. eapply (orep_place_inj c Hc); [exact Hw'|exact A1|clear -Ha; set_solver|clear -Hb'; set_solver].
  - apply Forall2_app; [eapply Forall2_impl; [exact HR|]; intros p g Hp; by eapply in_set_mono|]. constructor; [|constructor].
    exists (F1 ∪ N). split; [clear -A2 HF; set_solver|]. exists t'. split_and!; [done|done|done|].
    intros a X Ha HX. unfold remade. cbn [since]. pose proof Ha as Ha2. apply elem_of_union in Ha2 as [Ha2|Ha2].
    + assert (HaF : a ∈ F) by auto. rewrite Hmark by auto.
      assert (HX' : place c h a X) by (eapply place_back; [exact Hs| |exact HX]; by eapply (orep_alloc c Hc)).
      rewrite decide_False; [by apply HK|]. eapply aside_covers; [exact Hw|exact Ho|exact HaF|done..|by apply A5].
    + unfold mark. rewrite decide_True by done. rewrite decide_True; [done|]. eapply over_covers; [exact Hw'|exact A1|exact Ha|done..|by apply A4].
Qed.

(** A version reached by in-place insertion. *)
Lemma updated_vrep h h' K n (N F : gset loc) p p' g t k b v : wf c t -> orep h p t F -> nabs c t (content g) -> (forall a X, a ∈ F -> place c h a X -> K a = since g X) ->
  (k < 2 ^ W)%N -> (b <= W)%N -> (forall a, a ∈ N -> h !! a = None) -> (forall a X, a ∈ F -> place c h' a X <-> place c h a X) ->
  orep h' p' (f_ins c t k b v) (F ∪ N) -> vrep h' (mark K N n) p' (updated W n g k b v) (F ∪ N).
Proof using Hc.
  intros Hw Ho Ha HK Hk Hb HN Hp Ho'. exists (f_ins c t k b v). pose proof (ins_wf c t k b v Hw Hk Hb) as Hw'.
  split_and!; [done|done|by apply nabs_ins|]. intros a X Hin HX. unfold updated. cbn [since].
  assert (HFN : forall a, a ∈ F -> a ∉ N). { intros y Hy Hn. apply HN in Hn. apply (orep_dom _ _ _ _ Ho), elem_of_dom in Hy as [? ?]. congruence. }
  apply elem_of_union in Hin as [Hin|Hin]; unfold mark.
  - rewrite decide_False by auto. rewrite decide_True; [apply HK; [done|by apply Hp]|]. eapply branching_place; [exact Hw|exact Ho|exact Ha|]. exists a. split; [done|by apply Hp].
  - rewrite decide_True by done. rewrite decide_False; [done|]. intros Hbr. eapply branching_place in Hbr; [|exact Hw|exact Ho|exact Ha]. destruct Hbr as (y & Hy & HY).
    assert (y = a) as ->; [|by eapply HFN]. eapply (orep_place_inj c Hc); [exact Hw'|exact Ho'|clear -Hy; set_solver|clear -Hin; set_solver|by apply Hp|exact HX].
Qed.

Lemma nth_F2 {A B} (R : A -> B -> Prop) (l : list A) (l' : list B) d d' j : Forall2 R l l' -> j < length l -> R (nth j l d) (nth j l' d').
Proof. intros H. revert j. induction H as [|x y l l' Hx H IH]; intros [|j] Hj; cbn [length nth] in *; [lia|lia|done|]. apply IH. lia. Qed.
Lemma pick2 {A B} (P P' : A -> B -> Prop) (R : B -> B -> Prop) (l : list A) (l' : list B) : Forall2 P l l' -> (forall x y, P x y -> exists y', P' x y' /\ R y y') ->
  exists l2, Forall2 P' l l2 /\ Forall2 R l' l2.
Proof. intros H Hf. induction H as [|x y l l' Hx H (l2 & A1 & A2)]; [exists []; split; constructor|]. destruct (Hf _ _ Hx) as (y' & B1 & B2). exists (y' :: l2). split; by constructor. Qed.
Lemma nth_insert_eq {A} (l : list A) i d : <[i := nth i l d]> l = l.
Proof. revert i. induction l as [|x l IH]; intros [|i]; cbn [insert list_insert nth]; [done|done|done|]. by rewrite IH. Qed.

Lemma v_exec_exact h (WS : gset loc) L K n vs gs o : dom h ⊆ WS -> inv h L K n vs gs -> vop_ok W o ->
  wp (v_exec c vs o) h WS (fun r h' WS' => dom h' ⊆ WS' /\ exists L' K' gs', sstep W n gs o gs' r.2 /\ inv h' L' K' (S n) r.1 gs' /\ keeps h h' L L' K K').
Proof using Hc.
  intros HWS HI Hok. pose proof HI as [HL HR]. assert (HLd : L ⊆ dom h) by apply HL.
  assert (Hread : forall A (m : prog U A) (f : A -> nout U) (Q : A -> Prop), wp m h ∅ (fun a h' _ => Q a /\ h' = h) ->
     (forall a, Q a -> sstep W n gs o gs (f a)) ->
     wp (a <- m ;; Ret (vs, f a)) h WS (fun r h' WS' => dom h' ⊆ WS' /\ exists L' K' gs', sstep W n gs o gs' r.2 /\ inv h' L' K' (S n) r.1 gs' /\ keeps h h' L L' K K')).
  { intros A m f Q Hm Hf. apply wp_bind. eapply wp_mono; [apply (wp_dom (St := unit) (fun _ _ => True)); [exact HWS|]; eapply (wp_call _ _ ∅); [exact Hm|apply empty_subseteq]|].
    cbn beta. intros a h' WS' [[(W1 & (A1 & ->) & _) _] D]. cbn [wp fst snd]. split; [done|]. exists L, K, gs. split; [by apply Hf|]. split; [|done]. split; [by apply labels_next|done]. }
  destruct o as [o|i k bits v]; cbn [v_exec vop_ok] in *.
  - destruct o as [i k bits v|i k bits|i k bits|i k bits|i]; cbn [n_exec nop_ok] in *; pose proof (inv_at _ _ _ _ _ _ i HI) as Hat; destruct (inv_nth _ _ _ _ _ _ i HI) as (F & HF & t & Hw & Ho & Ha & HK).
    + apply wp_bind. eapply wp_mono; [apply (wp_dom (St := unit) (fun _ _ => True)); [exact HWS|]; eapply (wp_call _ _ ∅); [by apply (n_insert_exact c Hc h _ t F k bits v)|apply empty_subseteq]|].
      cbn beta. intros r h' WS' [[(W1 & (A1 & A2) & _) _] D]. cbn [wp fst snd]. split; [done|]. rewrite (clamp_adj c) in A1. assert (Hb : (adj W bits <= W)%N) by (rewrite <- (clamp_adj c); apply clamp_le).
      eapply (copied_inv _ _ _ _ _ _ _ i _ _ _ _ (s_insert W (content (nth i gs ver0)) k (adj W bits) v)) in A1; [|done|done|exact HF|exact Hw|exact Ho|exact HK|by apply ins_wf|by apply nabs_ins|done|done].
      destruct A1 as (L' & K' & A1 & A1'). exists L', K'. eexists. split; [constructor|]. split; [exact A1|exact A1'].
    + apply wp_bind. eapply wp_mono; [apply (wp_dom (St := unit) (fun _ _ => True)); [exact HWS|]; eapply (wp_call _ _ ∅); [by apply (n_delete_exact c Hc h _ t F k bits)|apply empty_subseteq]|].
      cbn beta. intros [r ok] h' WS' [[(W1 & (A1 & A2 & A3 & A4) & _) _] D]. cbn [wp fst snd] in *. split; [done|]. rewrite (clamp_adj c) in *. assert (Hb : (adj W bits <= W)%N) by (rewrite <- (clamp_adj c); apply clamp_le).
      pose proof (nabs_deleted c t _ k (adj W bits) Hw Hok Hb Ha) as Hdel. rewrite <- A2 in Hdel. destruct ok.
      * specialize (A4 eq_refl). eapply (copied_inv _ _ _ _ _ _ _ i _ _ _ _ (s_delete W (content (nth i gs ver0)) k (adj W bits))) in A4; [|done|done|exact HF|exact Hw|exact Ho|exact HK|by apply del_wf|by apply nabs_del|done|done].
        destruct A4 as (L' & K' & A4' & A5'). exists L', K'. eexists. split; [by constructor|]. split; [exact A4'|exact A5'].
      * destruct (A3 eq_refl) as [-> _]. exists (L ∪ ∅), K, (gs ++ [nth i gs ver0]). split; [by constructor|]. split; [|split_and!; [clear; set_solver|done|intros a X _; by apply place_mono]]. split.
        -- destruct HL as (B1 & B2 & B3). replace (L ∪ ∅) with L by set_solver. split_and!.
           ++ etrans; [exact B1|]. by apply subseteq_dom.
           ++ intros a Hin. specialize (B2 a Hin). lia.
           ++ intros a a' X Hin Hin' P P'. apply B3 with X; [done|done| |]; (eapply place_back; [exact A1| |done]; apply elem_of_dom; auto).
        -- assert (Hm : forall p g, in_set h L K p g -> in_set h' (L ∪ ∅) K p g) by (intros p g Hp; by eapply in_set_mono).
           apply Forall2_app; [eapply Forall2_impl; [exact HR|exact Hm]|]. constructor; [|constructor]. apply Hm. exists F. split; [done|]. by exists t.
    + eapply (Hread _ _ OVal); [by eapply (n_match_at c Hc)|]. intros a Q. by constructor.
    + eapply (Hread _ _ OVal); [by eapply (n_exact_at c Hc)|]. intros a ->. constructor.
    + eapply (Hread _ _ (fun l => OList (map as_entry l)) (fun l => s_enum W (content (nth i gs ver0)) (map as_entry l))); [|intros a Q; by constructor].
      eapply wp_mono; [by eapply (n_enumerate_at c)|]. cbn beta. intros l h' _ (A1 & _ & ->). done.
  - destruct (inv_nth _ _ _ _ _ _ i HI) as (F & HF & t & Hw & Ho & Ha & HK).
    apply wp_bind. eapply wp_mono; [apply (wp_dom (St := unit) (fun _ _ => True)); [exact HWS|]; apply wp_frame; by apply (n_inplace_exact c Hc h WS _ t F k bits v)|].
    cbn beta. intros r h' WS' [((N & HN & Hcase) & _ & (_ & Hdom & _)) D]. cbn [wp fst snd]. split; [done|]. rewrite (clamp_adj c) in Hcase. assert (Hb : (adj W bits <= W)%N) by (rewrite <- (clamp_adj c); apply clamp_le).
    set (b := adj W bits) in *. set (q := norm W k b).
    pose proof (mark_old h L K n N HLd HN) as Hmark. pose proof (Forall2_length _ _ _ HR) as Hlen.
    destruct Hcase as [(Hs & Hor & Has)|(-> & x & HxF & Hh)].
    + assert (Hpl : forall a X, a ∈ L -> place c h' a X <-> place c h a X).
      { intros a X Hin. split; [|by apply place_mono]. apply place_back; [done|]. apply elem_of_dom. auto. }
      exists (L ∪ N), (mark K N n), (<[i := updated W n (nth i gs ver0) k b v]> gs). split; [|split; [|split_and!; [clear; set_solver|done|intros a X Hin; by apply Hpl]]].
      * constructor; [by rewrite insert_length|]. intros j Hj. rewrite nth_set.
        assert (Hno : forall g2, ~ sharing (nth i gs ver0) g2 q).
        { intros g2 (X & (B1 & B2 & _) & _). eapply branching_place in B1; [|exact Hw|exact Ho|exact Ha]. destruct B1 as (a & Hin & HX). eapply aside_covers; [exact Hw|exact Ho|exact Hin|exact HX|exact Hok|exact Hb|by apply Has|exact B2]. }
        split.
        -- intros [->|Hsh]; [by rewrite decide_True|]. by destruct (Hno _ Hsh).
        -- intros Hne _. rewrite decide_False; [done|]. intros [? _]. congruence.
      * split.
        -- eapply labels_grow; [exact HL|done|intros a X Hin; by apply Hpl|done| |].
           ++ intros a Hin. apply (orep_dom _ _ _ _ Hor). clear -Hin; set_solver.
           ++ intros a a' X Hin Hin'. eapply (orep_place_inj c Hc); [by apply (ins_wf c t k b v)|exact Hor|clear -Hin; set_solver|clear -Hin'; set_solver].
        -- apply Forall2_insert; [eapply Forall2_impl; [exact HR|]; intros p g Hp; by eapply in_set_mono|].
           exists (F ∪ N). split; [clear -HF; set_solver|]. eapply updated_vrep; [exact Hw|exact Ho|exact Ha|exact HK|done|done|done| |exact Hor]. intros a X Hin. apply Hpl. auto.
    + destruct (share_exact c Hc _ _ _ _ _ _ _ Hh Hok Hb) as (xn & Ex & X1 & X2 & (xn' & Ex' & X3 & X4) & Hall).
      set (X := norm W (nn_key xn) (nn_bits xn)).
      assert (HxX : place c h x X) by (by exists xn).
      destruct (orep_bound c Hc _ _ _ _ _ Hw Ho HxF) as (xn2 & E2 & Bx1 & Bx2). rewrite Ex in E2. injection E2 as <-.
      destruct (Hall _ _ _ Hw Ho) as [_ Hi]. destruct (Hi HxF) as [Hor Hlow]. clear Hi. pose proof (ins_wf c t k b v Hw Hok Hb) as Hw'.
      assert (HxX' : place c h' x X).
      { exists xn'. split; [done|]. unfold X. rewrite X3. apply norm_agree; [|done..].
        assert (Hin : x ∈ F ∪ N) by (clear -HxF; set_solver). destruct (orep_bound c Hc _ _ _ _ _ Hw' Hor Hin) as (xn3 & E3 & B3 & _). rewrite Ex' in E3. by injection E3 as <-. }
      assert (Hkeep : forall y, y ∈ dom h -> y <> x -> h' !! y = h !! y) by (destruct Hh as (? & ? & ? & ? & ? & ? & _ & Hk & _); exact Hk).
      assert (Hpl : forall a Y, a ∈ L -> place c h' a Y <-> place c h a Y).
      { intros a Y Hin. destruct (decide (a = x)) as [->|Hne].
        - split; intros HY; [by rewrite (place_fun c _ _ _ _ HY HxX')|by rewrite (place_fun c _ _ _ _ HY HxX)].
        - unfold place. rewrite Hkeep by auto. done. }
      assert (Hlowest : lowest (content (nth i gs ver0)) q X).
      { split_and!.
        - eapply branching_place; [exact Hw|exact Ho|exact Ha|]. by exists x.
        - eapply over_covers; [exact Hw|exact Ho|exact HxF|done..|]. by exists xn.
        - intros Y HY Hcv. eapply branching_place in HY; [|exact Hw|exact Ho|exact Ha]. destruct HY as (y & Hy & HY).
          pose proof HY as HY2. eapply over_covers in Hcv as Hov; [|exact Hw|exact Ho|exact Hy|exact HY|done|done]. destruct Hov as (yn & Ey & Y1 & Y2).
          assert (HYX : covers X q) by (eapply over_covers; [exact Hw|exact Ho|exact HxF|done..|]; by exists xn).
          eapply covers_total; [exact Hcv|exact HYX|]. destruct HY as (yn2 & Ey2 & <-). rewrite Ey in Ey2. injection Ey2 as <-. unfold X, norm. cbn [fst]. by eapply Hlow. }
      set (A := fun g : ver => branching (content g) X /\ since (nth i gs ver0) X = since g X).
      destruct (pick2 (in_set h L K) (in_set h' (L ∪ N) (mark K N n)) (fun g g' => (A g /\ g' = updated W n g k b v) \/ (~ A g /\ g' = g)) vs gs HR) as (gs' & C1 & C2).
      { intros p g (F2 & HF2 & t2 & Hw2 & Ho2 & Ha2 & HK2). destruct (Hall _ _ _ Hw2 Ho2) as [Hout Hin]. destruct (decide (x ∈ F2)) as [Hx2|Hx2].
        - exists (updated W n g k b v). split.
          + exists (F2 ∪ N). split; [clear -HF2; set_solver|]. eapply updated_vrep; [exact Hw2|exact Ho2|exact Ha2|exact HK2|done|done|done|intros a Y Hin2; apply Hpl; auto|by apply Hin].
          + left. split; [|done]. split; [eapply branching_place; [exact Hw2|exact Ho2|exact Ha2|]; by exists x|]. rewrite <- (HK x X), <- (HK2 x X); done.
        - exists g. split.
          + exists F2. split; [clear -HF2; set_solver|]. exists t2. split_and!; [done|by apply Hout|done|]. intros a Y Hin2 HY. rewrite Hmark by auto. apply HK2; [done|]. apply Hpl; auto.
          + right. split; [|done]. intros [B1 B2]. eapply branching_place in B1; [|exact Hw2|exact Ho2|exact Ha2]. destruct B1 as (y & Hy & HY).
            apply Hx2. destruct HL as (_ & _ & Hinj). rewrite (Hinj x y X); [done|auto|auto|done|done|]. rewrite (HK x X), (HK2 y X); done. }
      exists (L ∪ N), (mark K N n), gs'. split; [|split; [|split_and!; [clear; set_solver|done|intros a Y Hin; by apply Hpl]]].
      * pose proof (Forall2_length _ _ _ C2) as Hlen2. constructor; [done|]. intros j Hj. pose proof (nth_F2 _ _ _ ver0 ver0 j C2 Hj) as Hj2. cbn beta in Hj2.
        assert (HA : A (nth j gs ver0) <-> sharing (nth i gs ver0) (nth j gs ver0) q).
        { split; [intros [B1 B2]; by exists X|]. intros (Y & (B1 & B2 & B3) & B4 & B5).
          assert (Y = X) as ->; [|done]. apply covers_antisym; [by apply Hlowest|]. apply B3; apply Hlowest. }
        split.
        -- intros Hor2. destruct Hj2 as [[_ ->]|[HnA ->]]; [done|]. exfalso. apply HnA. destruct Hor2 as [->|Hsh]; [split; [apply Hlowest|done]|by apply HA].
        -- intros _ Hn. destruct Hj2 as [[H1 _]|[_ ->]]; [by apply HA in H1|done].
      * split.
        -- eapply labels_grow; [exact HL|done|intros a Y Hin; by apply Hpl|done| |].
           ++ intros a Hin. apply (orep_dom _ _ _ _ Hor). clear -Hin; set_solver.
           ++ intros a a' Y Hin Hin'. eapply (orep_place_inj c Hc); [exact Hw'|exact Hor|clear -Hin; set_solver|clear -Hin'; set_solver].
        -- rewrite nth_insert_eq. exact C1.
Qed.
Lemma v_hist_exact ops : forall h (WS : gset loc) L K n vs gs, dom h ⊆ WS -> inv h L K n vs gs -> Forall (vop_ok W) ops ->
  wp (run_hist (v_exec c) ops vs) h WS (fun r _ _ => exists gs', srun W n ops gs gs' r.2).
Proof using Hc.
  induction ops as [|o ops IH]; intros h WS L K n vs gs HWS HR Hok; cbn [run_hist].
  - cbn [wp snd srun]. by exists gs.
  - inversion Hok as [|? ? Ho Hops]; subst. apply wp_bind. eapply wp_mono; [by apply (v_exec_exact h WS L K n vs gs o)|]. cbn beta. intros r h1 W1 (D & L1 & K1 & gs1 & A1 & A2 & _).
    apply wp_bind. eapply wp_mono; [by apply (IH h1 W1 L1 K1 (S n) r.1 gs1)|]. cbn beta. intros r2 h2 W2 (gs' & B). cbn [wp snd]. exists gs'. cbn [srun]. by exists gs1.
Qed.
Lemma pf_exact h ops : Forall (vop_ok W) ops ->
  wp (run_hist (v_exec c) ops [None]) h ∅ (fun r h' _ => h ⊆ h' /\ exists gs, srun W 1 ops [ver0] gs r.2).
Proof using Hc.
  intros Hok. assert (Hw := v_hist_exact ops ∅ ∅ ∅ (fun _ => 0) 1 [None] [ver0] ltac:(by rewrite dom_empty_L)).
  assert (H0 : inv ∅ ∅ (fun _ => 0) 1 [None] [ver0]).
  { split; [split_and!; [apply empty_subseteq| |]|].
    - intros a Ha. by apply not_elem_of_empty in Ha.
    - intros a a' X Ha. by apply not_elem_of_empty in Ha.
    - constructor; [|constructor]. exists ∅. split; [apply empty_subseteq|]. exists NE. split_and!; [done|done|apply nabs_empty|]. intros a X Ha. by apply not_elem_of_empty in Ha. }
  specialize (Hw H0 Hok).
  eapply wp_mono; [apply (wp_part _ ∅ h ∅ ∅ _ (map_empty_subseteq h) (reflexivity _) Hw)|]. cbn beta. intros r h' _ (hp & W1 & _ & H & H3). split; [|done].
  apply map_subseteq_spec. intros l x Hl. destruct (H3 l) as [_ E2]; [by eapply elem_of_dom_2|by rewrite dom_empty_L; apply not_elem_of_empty|]. by rewrite E2.
Qed.
End stamp.

(** ** The specification leaves no choice. *)
Section determined.
Context {U : Type} (W : N).
Local Notation ver := (ver U).
Local Notation ver0 := (ver0 U).
Local Notation nmap := (gmap pfx (N * value U)).

Definition heads (q : pfx) : list pfx := map (fun l => (N.of_nat l, q.2 / 2 ^ (q.1 - N.of_nat l))%N) (seq 0 (S (N.to_nat q.1))).
Lemma heads_spec q X : X ∈ heads q <-> covers X q.
Proof.
  unfold heads. rewrite elem_of_list_fmap. split.
  - intros (l & -> & Hl). apply elem_of_seq in Hl. split; cbn [fst snd]; [lia|done].
  - intros [H1 H2]. exists (N.to_nat X.1). rewrite N2Nat.id. split; [by destruct X; simpl in *; subst|]. apply elem_of_seq. lia.
Qed.
Global Instance lowest_dec (m : nmap) q X : Decision (lowest m q X).
Proof.
  destruct (decide (branching m X /\ covers X q /\ Forall (fun Y => branching m Y -> covers Y X) (heads q))) as [(A & B & D)|H]; [left|right].
  - split_and!; [done|done|]. intros Y HY Hc. rewrite Forall_forall in D. apply D; [by apply heads_spec|done].
  - intros (A & B & D). apply H. split_and!; [done|done|]. apply Forall_forall. intros Y HY Hb. apply D; [done|by apply heads_spec].
Defined.
Global Instance sharing_dec (g1 g2 : ver) q : Decision (sharing g1 g2 q).
Proof.
  destruct (decide (Exists (fun X => lowest (content g1) q X /\ branching (content g2) X /\ since g1 X = since g2 X) (heads q))) as [H|H]; [left|right].
  - apply Exists_exists in H as (X & _ & H). by exists X.
  - intros (X & HX). apply H, Exists_exists. exists X. split; [|done]. apply heads_spec. apply HX.
Qed.
Lemma s_longest_fun (m : nmap) q r1 r2 : s_longest m q r1 -> s_longest m q r2 -> r1 = r2.
Proof.
  intros [(p1 & k1 & v1 & E1 & C1 & -> & M1)|[-> N1]] [(p2 & k2 & v2 & E2 & C2 & -> & M2)|[-> N2]]; [|by destruct (N2 _ _ E1)|by destruct (N1 _ _ E2)|done].
  assert (p1 = p2) as ->; [|congruence]. pose proof (M1 _ _ E2 C2). pose proof (M2 _ _ E1 C1).
  apply covers_antisym; (eapply covers_total; [done|done|lia]).
Qed.
Lemma s_enum_fun (m : nmap) l1 l2 : s_enum W m l1 -> s_enum W m l2 -> l1 = l2.
Proof.
  intros [S1 M1] [S2 M2]. eapply sorted_unique; [| |exact S1|exact S2|].
  - intros x [H|[_ H]]; lia.
  - intros x y z [H|[E H]] [H'|[E' H']]; unfold nentry_lt; [left; lia|left; lia|left; lia|right; lia].
  - intros [[k b] v]. pose proof (M1 (norm W k b) k v) as A. pose proof (M2 (norm W k b) k v) as B. cbn [norm fst] in A, B. tauto.
Qed.
Lemma s_deleted_fun (m : nmap) k b : s_deleted W m k b true -> s_deleted W m k b false -> False.
Proof. unfold s_deleted. intros [A _] [_ B]. by specialize (B (A eq_refl)). Qed.
Lemma nth_list_eq {A} (l1 l2 : list A) d : length l1 = length l2 -> (forall j, j < length l1 -> nth j l1 d = nth j l2 d) -> l1 = l2.
Proof.
  revert l2. induction l1 as [|x l1 IH]; intros [|y l2] Hl H; [done|done|done|]. f_equal; [by apply (H 0); cbn [length]; lia|].
  apply IH; [by injection Hl|]. intros j Hj. apply (H (S j)). cbn [length]. lia.
Qed.
Lemma sstep_inplace n (gs : list ver) i key bits v gs' x : sstep W n gs (VInplace i key bits v) gs' x -> x = ONone /\ length gs' = length gs /\
  forall j, j < length gs -> (j = i \/ sharing (nth i gs ver0) (nth j gs ver0) (norm W key (adj W bits)) -> nth j gs' ver0 = updated W n (nth j gs ver0) key (adj W bits) v) /\
       (j <> i -> ~ sharing (nth i gs ver0) (nth j gs ver0) (norm W key (adj W bits)) -> nth j gs' ver0 = nth j gs ver0).
Proof. by inversion 1. Qed.
Lemma sstep_fun n (gs : list ver) o gs1 x1 gs2 x2 : sstep W n gs o gs1 x1 -> sstep W n gs o gs2 x2 -> gs1 = gs2 /\ x1 = x2.
Proof.
  intros H1 H2. destruct o as [o|i key bits v].
  - inversion H1; subst; inversion H2; subst; try done; try (exfalso; by eapply s_deleted_fun).
    + split; [done|]. f_equal. by eapply s_longest_fun.
    + split; [done|]. f_equal. by eapply s_enum_fun.
  - apply sstep_inplace in H1 as (-> & L1 & A1), H2 as (-> & L2 & A2). split; [|done]. apply nth_list_eq with ver0; [congruence|]. intros j Hj. rewrite L1 in Hj. destruct (A1 j Hj) as [B1 B2]. destruct (A2 j Hj) as [C1 C2].
    destruct (decide (j = i)) as [E|E]; [rewrite B1, C1 by (by left); done|]. destruct (decide (sharing (nth i gs ver0) (nth j gs ver0) (norm W key (adj W bits)))) as [E2|E2].
    + rewrite B1, C1 by (by right). done.
    + rewrite B2, C2 by done. done.
Qed.
Lemma pf_determined ops : forall n (gs : list ver) gs1 x1 gs2 x2, srun W n ops gs gs1 x1 -> srun W n ops gs gs2 x2 -> gs1 = gs2 /\ x1 = x2.
Proof.
  induction ops as [|o ops IH]; intros n gs gs1 [|y1 x1] gs2 [|y2 x2]; cbn [srun]; try done; [by intros -> ->|].
  intros (g1 & A1 & A2) (g2 & B1 & B2). destruct (sstep_fun _ _ _ _ _ _ _ A1 B1) as [-> ->]. destruct (IH _ _ _ _ _ _ A2 B2) as [-> ->]. done.
Qed.

(** ** A version and the one made from it by one insertion. *)
Lemma sstep_since n (gs : list ver) o gs' x : sstep W n gs o gs' x -> Forall (fun g => forall X, since g X < n) gs -> Forall (fun g => forall X, since g X < S n) gs'.
Proof.
  intros H HF. assert (HF' : Forall (fun g : ver => forall X, since g X < S n) gs) by (eapply Forall_impl; [exact HF|]; intros g Hg X; specialize (Hg X); lia).
  assert (Hnth : 0 < n -> forall i X, since (nth i gs ver0) X < n).
  { intros Hn i X. destruct (Nat.lt_ge_cases i (length gs)) as [Hi|Hi].
    - rewrite Forall_forall in HF. apply HF. apply elem_of_list_In, nth_In. done.
    - rewrite nth_overflow by done. done. }
  assert (Hnth' : forall i X, since (nth i gs ver0) X < S n).
  { intros i X. destruct (Nat.lt_ge_cases i (length gs)) as [Hi|Hi].
    - rewrite Forall_forall in HF'. apply HF'. apply elem_of_list_In, nth_In. done.
    - rewrite nth_overflow by done. cbn [since ver0]. lia. }
  inversion H as [| | | | | |i key bits v gs2 L A]; subst; try done; try (apply Forall_app; split; [done|]; constructor; [|constructor]; intros X; cbn [remade since]; try (destruct (decide _); [lia|]); apply Hnth').
  apply Forall_forall. intros g Hg X. apply elem_of_list_In, (In_nth _ _ ver0) in Hg as (j & Hj & <-). rewrite L in Hj. destruct (A j Hj) as [B1 B2].
  destruct (decide (j = i \/ sharing (nth i gs ver0) (nth j gs ver0) (norm W key (adj W bits)))) as [E|E].
  - rewrite B1 by done. cbn [updated since]. destruct (decide _); [apply Hnth'|lia].
  - rewrite B2; [apply Hnth'|auto|auto].
Qed.
Lemma srun_since ops : forall n (gs : list ver) gs' x, srun W n ops gs gs' x -> Forall (fun g => forall X, since g X < n) gs -> Forall (fun g => forall X, since g X < n + length ops) gs'.
Proof.
  induction ops as [|o ops IH]; intros n gs gs' [|y x]; cbn [srun length]; try done; [intros ->; by rewrite Nat.add_0_r|].
  intros (g1 & A1 & A2) HF. rewrite Nat.add_succ_r, <- Nat.add_succ_l. eapply IH; [exact A2|]. by eapply sstep_since.
Qed.
Lemma branching_before (m : nmap) k b v X : branching (s_insert W m k b v) X -> ~ covers X (norm W k b) -> branching m X.
Proof.
  intros H Hn. unfold s_insert in H.
  assert (Hocc : forall d, occupied (<[norm W k b := (k, v)]> m) (ext X d) -> occupied m (ext X d)).
  { intros d (p & x & E & Hc). destruct (decide (norm W k b = p)) as [<-|Hne].
    - exfalso. apply Hn. eapply covers_trans; [apply covers_ext|exact Hc].
    - rewrite lookup_insert_ne in E by done. by exists p, x. }
  destruct H as [[x E]|[H0 H1]]; [left|right; auto].
  rewrite lookup_insert_ne in E; [by exists x|]. intros <-. apply Hn, covers_refl.
Qed.
Lemma pf_parent ops (gs gs' : list ver) outs outs' i k1 b1 v1 k2 b2 v2 : srun W 1 ops [ver0] gs outs -> i < length gs ->
  srun W (S (length ops)) [VCall (NInsert i k1 b1 v1); VInplace (length gs) k2 b2 v2] gs gs' outs' ->
  let m := content (nth i gs ver0) in
  let m1 := s_insert W m k1 (adj W b1) v1 in
  let between := exists X, lowest m1 (norm W k2 (adj W b2)) X /\ ~ covers X (norm W k1 (adj W b1)) in
  (between -> content (nth i gs' ver0) = s_insert W m k2 (adj W b2) v2) /\ (~ between -> content (nth i gs' ver0) = m).
Proof.
  intros Hrun Hi Hops m m1 between. destruct outs' as [|y1 [|y2 [|? ?]]]; cbn [srun] in Hops; [done|by destruct Hops as (? & _ & [])| |by destruct Hops as (? & _ & ? & _ & [])].
  destruct Hops as (g1 & S1 & g2 & S2 & ->). inversion S1; subst. inversion S2 as [| | | | | |? ? ? ? ? L A]; subst.
  pose proof (srun_since _ _ _ _ _ Hrun) as Hs. assert (HF : Forall (fun g : ver => forall X, since g X < 1 + length ops) gs) by (apply Hs; constructor; [intros X; cbn; lia|constructor]). clear Hs.
  rewrite app_length in A. destruct (A i ltac:(lia)) as [B1 B2]. clear A.
  rewrite (app_nth2 gs _ ver0 (n := length gs)) in B1, B2 by lia. rewrite (app_nth1 gs _ ver0 Hi) in B1, B2. rewrite Nat.sub_diag in B1, B2. cbn [nth] in B1, B2.
  assert (Hsh : sharing (remade (S (length ops)) (nth i gs ver0) (norm W k1 (adj W b1)) m1) (nth i gs ver0) (norm W k2 (adj W b2)) <-> between).
  { split.
    - intros (X & A1 & A2 & A3). exists X. split; [exact A1|]. intros Hcv. cbn [remade since] in A3. rewrite decide_True in A3 by done.
      rewrite Forall_forall in HF. specialize (HF (nth i gs ver0) ltac:(by apply elem_of_list_In, nth_In) X). lia.
    - intros (X & A1 & A2). exists X. split; [exact A1|]. split; [eapply branching_before; [apply A1|done]|]. cbn [remade since]. by rewrite decide_False. }
  split.
  - intros H. rewrite B1; [done|]. right. by apply Hsh.
  - intros H. rewrite B2; [done|lia|]. intros Hs2. apply H, Hsh, Hs2.
Qed.
End determined.

(** The results depend on the calls alone. *)
Lemma pf_results {U} (c : cfg) (ops : list (vop U)) : cfg_ok c -> Forall (vop_ok (cW c)) ops ->
  exists outs gs, srun (cW c) 1 ops [ver0 U] gs outs /\ forall h : heap U, wp (run_hist (v_exec c) ops [None]) h ∅ (fun r _ _ => r.2 = outs).
Proof.
  intros Hc Hok. pose proof (pf_exact c Hc ∅ ops Hok) as Hw.
  eapply (wp_run _ _ _ _ 1%positive) in Hw; [|intros l _; apply lookup_empty].
  destruct Hw as (a & h' & next' & W' & _ & (_ & gs & Hs) & _). exists a.2, gs. split; [done|]. intros h.
  eapply wp_mono; [by apply (pf_exact c Hc h ops)|]. cbn beta. intros r h2 _ (_ & gs2 & Hs2). by destruct (pf_determined _ _ _ _ _ _ _ _ Hs Hs2).
Qed.
