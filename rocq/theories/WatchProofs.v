(** * Proofs: versions of a radix tree that are read while a client goes on. *)
From Verif Require Import Prog History NumSpec NumModel NumFun NumAbs NumFoot NumBits NumSim NumInplace NumNavSpec NumNavProofs NumLoc VersSpec NumShare VersProofs NumExact StampSpec StampProofs WorkProofs IpUpd3 HandleSpec HandleProofs HandleProofs2 LoopProofs ApartSpec WatchSpec.
From Verif Require Import Concurrent ChanUpdProofs ApartProofs.
Open Scope nat_scope.

Lemma wp_out {U A} (m : prog U A) (G : gset loc) : forall (h : heap U) (W : gset loc) Q, dom h ∖ G ⊆ W -> wp m h W Q -> wp m h W (fun a h' W' => Q a h' W' /\ dom h' ∖ G ⊆ W').
Proof.
  induction m as [a|e|c k IH|l k IH|l c k IH]; intros h W Q HW; cbn [wp]; [done|done|..].
  - intros H l Hl. apply IH; [|by apply H]. rewrite dom_insert_L. clear -HW. set_solver.
  - intros (c & E & H). exists c. split; [done|]. by apply IH.
  - intros (Hl & [z Hz] & H). split_and!; [done|by eexists|]. apply IH; [|done]. rewrite dom_insert_L. clear -HW Hl. set_solver.
Qed.
Lemma ro_still {U A} (m : prog U A) : ro m -> forall (h : heap U) (W : gset loc) Q, wp m h W Q -> wp m h W (fun a h' W' => Q a h W /\ h' = h /\ W' = W).
Proof. intros Hm h W Q. induction Hm as [a|e|l k Hk IH]; cbn [wp]; [done|done|]. intros (c & E & H). exists c. split; [done|]. by apply IH. Qed.
Lemma ro_look {U} c (vs ns : list ptr) (o : yop U) : looks o -> ro (y_exec c vs ns o).
Proof.
  intros Ho. destruct o as [[[i k bits v|i k bits|i k bits|i k bits|i]|i k bits v]|i k bits|i|m|m v]; try done.
  - by apply (ro_read c vs ns [] i).
  - by apply (ro_read c vs ns [] i).
  - by apply (ro_read c vs ns [] i).
  - by apply (ro_read c vs ns [] i).
  - by apply (ro_read c vs ns [] i).
  - apply (ro_read c vs ns [] 0). cbn [reads]. by destruct m.
Qed.
(** The trees that are there stay what they are. *)
Lemma y_vs {U} c (vs ns : list ptr) (o : yop U) h W Q : wp (y_exec c vs ns o) h W Q -> wp (y_exec c vs ns o) h W (fun r h' W' => Q r h' W' /\ length vs <= length r.1.1 /\
  forall j, j < length vs -> match o with YCall (VInplace i _ _ _) => i <> j | _ => True end -> nth j r.1.1 None = nth j vs None).
Proof.
  assert (Happ : forall (r : ptr) j, j < length vs -> nth j (vs ++ [r]) None = nth j vs None) by (intros; by apply app_nth1).
  destruct o as [[[i k bits v|i k bits|i k bits|i k bits|i]|i k bits v]|i k bits|i|m|m v]; cbn [y_exec v_exec n_exec]; intros H.
  1-6: apply wp_bind_inv, wp_bind_inv in H; apply wp_bind, wp_bind; eapply wp_mono; [exact H|]; cbn beta; intros a h' W' Ha; cbn [wp fst snd] in *.
  - split_and!; [done|rewrite app_length; lia|]. intros j Hj _. by apply Happ.
  - split_and!; [done|rewrite app_length; lia|]. intros j Hj _. by apply Happ.
  - done.
  - done.
  - done.
  - split_and!; [done|rewrite insert_length; lia|]. intros j Hj Hne. rewrite !nth_lookup. by rewrite list_lookup_insert_ne.
  - apply wp_bind_inv in H. apply wp_bind. eapply wp_mono; [exact H|]. cbn beta. intros a h' W' Ha. cbn [wp fst snd] in *. done.
  - apply wp_bind_inv in H. apply wp_bind. eapply wp_mono; [exact H|]. cbn beta. intros a h' W' Ha. cbn [wp fst snd] in *. done.
  - destruct (nth m ns None) as [a|]; [|done]. apply wp_bind_inv in H. apply wp_bind. eapply wp_mono; [exact H|]. cbn beta. intros b h' W' Hb. cbn [wp fst snd] in *. done.
  - destruct (nth m ns None) as [a|]; [|done]. apply wp_bind_inv in H. apply wp_bind. eapply wp_mono; [exact H|]. cbn beta. intros b h' W' Hb. apply wp_bind_inv in Hb. apply wp_bind. eapply wp_mono; [exact Hb|]. cbn beta. intros b2 h2 W2 Hb2. cbn [wp fst snd] in *. done.
Qed.

Section watch.
Context {U : Type} (c : NumModel.cfg) (Hc : cfg_ok c) (J : list nat).
Local Notation heap := (heap U).
Local Notation ver := (ver U).
Local Notation ver0 := (ver0 U).
Local Notation W := (cW c).
Implicit Types h : heap.

(** [G]: nodes of the versions that are read. *)
Definition held h (vs : list ptr) (G : gset loc) : Prop := forall x, x ∈ G -> exists j t F, j ∈ J /\ x ∈ F /\ F ⊆ G /\ orep h (nth j vs None) t F.

Lemma held_limited h L K (n : nat) (vs ns : list ptr) (gs : list ver) hs o (G : gset loc) : StampProofs.inv c h L K n vs gs -> Forall2 (kept c h L K gs) ns hs -> yop_ok W o ->
  spares W J gs hs o -> held h vs G -> wp (y_exec c vs ns o) h (dom h ∖ G) (fun _ _ _ => True).
Proof using Hc.
  intros HI HH Hok Hsp Hheld.
  assert (H : exists G2 : gset loc, wp (y_exec c vs ns o) h (dom h ∖ G2) (fun _ _ _ => True) /\ forall j, j ∈ J -> exists t F, F ⊆ G2 /\ orep h (nth j vs None) t F).
  { clear Hheld G. induction J as [|j J' IH].
    - exists ∅. split; [|intros j Hj; by apply elem_of_nil in Hj]. eapply wp_mono; [apply (y_exec_exact c Hc h _ L K n vs ns gs hs o); [clear; set_solver|done..]|done].
    - destruct IH as (G & Hwp & Hin); [intros i Hi; apply Hsp; by right|]. destruct (inv_nth c _ _ _ _ _ _ j HI) as (F & HF & t & Hw & Hor & Hn & HKF). exists (F ∪ G). split.
      + eapply (wp_cap _ _ (dom h ∖ F) (dom h ∖ G)); [clear; set_solver| |exact Hwp]. eapply (y_limited c Hc); try done. by apply Hsp; left.
      + intros i [->|Hi]%elem_of_cons; [exists t, F; split; [clear; set_solver|done]|]. destruct (Hin i Hi) as (t2 & F2 & B1 & B2). exists t2, F2. split; [clear -B1; set_solver|done]. }
  destruct H as (G2 & Hwp & Hin). eapply (wp_cap _ _ (dom h ∖ G2) (dom h ∖ G2)); [|exact Hwp|exact Hwp].
  assert (HG : G ⊆ G2); [|clear -HG; set_solver]. intros x Hx. destruct (Hheld x Hx) as (j & t & F & Hj & HxF & _ & Ho). destruct (Hin j Hj) as (t2 & F2 & B1 & B2).
  pose proof (nrep_det _ _ _ _ (orep_nrep _ _ _ _ Ho) (orep_nrep _ _ _ _ B2)) as ->. pose proof (orep_fun _ _ _ _ _ Ho B2) as ->. by apply B1.
Qed.

Lemma held_step h (WS : gset loc) L K (n : nat) (vs ns : list ptr) (gs : list ver) hs o (G : gset loc) : dom h ∖ G ⊆ WS -> StampProofs.inv c h L K n vs gs -> Forall2 (kept c h L K gs) ns hs -> yop_ok W o ->
  spares W J gs hs o -> held h vs G -> (forall j, j ∈ J -> j < length vs) ->
  wp (y_exec c vs ns o) h WS (fun r h' WS' => dom h' ∖ G ⊆ WS' /\ held h' r.1.1 G /\ (forall j, j ∈ J -> j < length r.1.1) /\
    exists L' K' gs' hs', ystep W n gs hs o gs' hs' r.2 /\ StampProofs.inv c h' L' K' (S n) r.1.1 gs' /\ Forall2 (kept c h' L' K' gs') r.1.2 hs').
Proof using Hc.
  intros HWS HI HH Hok Hsp Hheld HJ.
  assert (H1 : wp (y_exec c vs ns o) h (dom h) (fun r h' _ => exists L' K' gs' hs', ystep W n gs hs o gs' hs' r.2 /\ StampProofs.inv c h' L' K' (S n) r.1.1 gs' /\ Forall2 (kept c h' L' K' gs') r.1.2 hs')).
  { eapply wp_mono; [by apply (y_exec_exact c Hc h (dom h) L K n vs ns gs hs o)|]. cbn beta. intros x h2 W2 (_ & H). exact H. }
  pose proof (wp_and _ _ (dom h) (dom h ∖ G) _ H1 (held_limited _ _ _ _ _ _ _ _ _ _ HI HH Hok Hsp Hheld)) as H2.
  apply wp_frame, y_vs in H2. eapply wp_weaken_W in H2; [|exact HWS]. apply (wp_out _ G) in H2; [|exact HWS].
  eapply wp_mono; [exact H2|]. cbn beta. intros r h' WS' [(W1 & ((B1 & B2 & _) & B3 & B4) & _) B5]. split_and!; [done| |intros j Hj; specialize (HJ j Hj); lia|done].
  intros x Hx. destruct (Hheld x Hx) as (j & t & F & Hj & HxF & HFG & Ho). exists j, t, F. split_and!; [done|done|done|]. rewrite B4 by (auto; destruct (Hsp j Hj) as [_ ?]; done).
  eapply (orep_agree c Hc h); [|exact Ho]. intros y Hy. destruct (orep_alloc c Hc _ _ _ _ _ Ho Hy) as [z Hz]. rewrite Hz. apply B2; [done|]. apply HFG in Hy. clear -Hy. set_solver.
Qed.
Lemma held_run ops : forall h (WS : gset loc) L K (n : nat) (vs ns : list ptr) (gs : list ver) hs (G : gset loc), dom h ∖ G ⊆ WS -> StampProofs.inv c h L K n vs gs -> Forall2 (kept c h L K gs) ns hs -> Forall (yop_ok W) ops ->
  spares_all W J n gs hs ops -> held h vs G -> (forall j, j ∈ J -> j < length vs) ->
  wp (y_all c ops vs ns) h WS (fun r h' _ => exists L' K' gs' hs', yrun W n ops gs hs gs' hs' r.2 /\ StampProofs.inv c h' L' K' (n + length ops) r.1.1 gs' /\ Forall2 (kept c h' L' K' gs') r.1.2 hs').
Proof using Hc.
  induction ops as [|o ops IH]; intros h WS L K n vs ns gs hs G HWS HI HH Hok Hsp Hheld HJ; cbn [y_all].
  - cbn [wp yrun fst snd length]. rewrite Nat.add_0_r. by exists L, K, gs, hs.
  - inversion Hok as [|? ? Ho Hops]; subst. destruct Hsp as [Hs1 Hs2]. apply wp_bind. eapply wp_mono; [by apply (held_step h WS L K n vs ns gs hs o G)|]. cbn beta. intros r h1 W1 (D & Hheld1 & HJ1 & L1 & K1 & gs1 & hs1 & A1 & A2 & A3).
    apply wp_bind. eapply wp_mono; [apply (IH h1 W1 L1 K1 (S n) r.1.1 r.1.2 gs1 hs1 G); try done; by eapply Hs2|]. cbn beta. intros r2 h2 W2 (L2 & K2 & gs' & hs' & B1 & B2 & B3). cbn [wp fst snd].
    exists L2, K2, gs', hs'. split_and!; [cbn [yrun]; by exists gs1, hs1| |done]. cbn [length]. by replace (n + S (length ops)) with (S n + length ops) by lia.
Qed.

(** The nodes of the versions [J]. *)
Definition grabbed h (L : gset loc) (K : loc -> nat) (vs : list ptr) (gs : list ver) (G : gset loc) : Prop := forall j, j ∈ J -> exists t F, F ⊆ G /\ F ⊆ L /\ wf c t /\ orep h (nth j vs None) t F /\ nabs c t (content (nth j gs ver0)) /\ (forall a X, a ∈ F -> place c h a X -> K a = since (nth j gs ver0) X).
End watch.
Section watch2.
Context {U : Type} (c : NumModel.cfg) (Hc : cfg_ok c).
Local Notation heap := (heap U).
Local Notation ver := (ver U).
Local Notation ver0 := (ver0 U).
Local Notation W := (cW c).
Implicit Types h : heap.
Lemma grab (J : list nat) h L K (n : nat) (vs : list ptr) (gs : list ver) : StampProofs.inv c h L K n vs gs -> exists G : gset loc, G ⊆ dom h /\ held J h vs G /\ grabbed c J h L K vs gs G.
Proof using Hc.
  intros HI. induction J as [|j J (G & A1 & A2 & A3)].
  - exists ∅. split_and!; [apply empty_subseteq|intros x Hx; by apply not_elem_of_empty in Hx|intros j Hj; by apply elem_of_nil in Hj].
  - destruct (inv_nth c _ _ _ _ _ _ j HI) as (F & HF & t & Hw & Hor & Hn & HKF). assert (HFd : F ⊆ dom h) by (by eapply (orep_dom c Hc)). exists (F ∪ G). split_and!; [clear -A1 HFd; set_solver| |].
    + intros x [Hx|Hx]%elem_of_union; [exists j, t, F; split_and!; [by left|done|clear; set_solver|done]|]. destruct (A2 x Hx) as (i & t2 & F2 & B1 & B2 & B3 & B4). exists i, t2, F2. split_and!; [by right|done|clear -B3; set_solver|done].
    + intros i [->|Hi]%elem_of_cons; [exists t, F; split_and!; try done; clear; set_solver|]. destruct (A3 i Hi) as (t2 & F2 & B1 & B2). exists t2, F2. split; [clear -B1; set_solver|done].
Qed.
Lemma reads_run (J : list nat) rds : forall h L K (n : nat) (vs ns : list ptr) (gs : list ver) hs (G : gset loc), StampProofs.inv c h L K n vs gs -> Forall2 (kept c h L K gs) ns hs -> Forall (yop_ok W) rds -> reads_all W J gs hs rds ->
  grabbed c J h L K vs gs G -> wp (y_hist c rds vs ns) (hr h G) ∅ (fun x _ _ => exists hs', yrun W n rds gs hs gs hs' x).
Proof using Hc.
  induction rds as [|o rds IH]; intros h L K n vs ns gs hs G HI HH Hok Hrd HG; cbn [y_hist].
  - cbn [wp yrun]. by exists hs.
  - inversion Hok as [|? ? Ho Hops]; subst. destruct Hrd as ((j & Hj & Hr1) & Hlk & Hr2). destruct (HG j Hj) as (t & F & B1 & B2 & B3 & B4 & B5 & B6).
    apply wp_bind. eapply wp_mono; [apply ro_still; [by apply ro_look|]; by eapply (read_wp c Hc h L K n vs ns gs hs j o F G t)|]. cbn beta. intros r h' W' ((hs1 & C1 & C2 & C3) & -> & ->). rewrite C2.
    apply wp_bind. eapply wp_mono; [apply (IH h L K (S n) vs r.1.2 gs hs1 G); try done; [destruct HI as [HL ?]; split; [by apply labels_next|done]|by eapply Hr2]|]. cbn beta. intros r2 h2 W2 (hs' & D). cbn [wp]. exists hs'. cbn [yrun]. by exists gs, hs1.
Qed.
Lemma ro_hist (rds : list (yop U)) : forall vs ns, Forall looks rds -> ro (y_hist c rds vs ns).
Proof. induction rds as [|o rds IH]; intros vs ns H; cbn [y_hist]; [constructor|]. inversion H; subst. apply ro_bind; [by apply ro_look|]. intros r. apply ro_bind; [by apply IH|]. intros x. constructor. Qed.

Lemma pf_watch h ops : Forall (yop_ok W) ops ->
  wp (y_all c ops [None] []) h (dom h) (fun r h1 _ => exists gs hs, yrun W 1 ops [ver0] [] gs hs r.2 /\
    forall ops2 J rss, Forall (yop_ok W) ops2 -> (forall j, j ∈ J -> j < length gs) -> spares_all W J (S (length ops)) gs hs ops2 ->
    Forall (fun rds => Forall (fun o => yop_ok W o /\ looks o) rds /\ reads_all W J gs hs rds) rss ->
    forall st, rtc astep (h1, y_all c ops2 r.1.1 r.1.2, map (fun rds => y_hist c rds r.1.1 r.1.2) rss) st -> asafe st /\
      (forall m x, st.2 !! m = Some (Ret x) -> exists rds hs', rss !! m = Some rds /\ yrun W (S (length ops)) rds gs hs gs hs' x) /\
      (forall x, st.1.2 = Ret x -> exists gs1 hs1, yrun W (S (length ops)) ops2 gs hs gs1 hs1 x.2 /\
         forall ops3, Forall (yop_ok W) ops3 -> wp (y_hist c ops3 x.1.1 x.1.2) st.1.1 (dom st.1.1) (fun r3 _ _ => exists gs' hs', yrun W (S (length ops) + length ops2) ops3 gs1 hs1 gs' hs' r3))).
Proof using Hc.
  intros Hok. assert (H0 : StampProofs.inv c h ∅ (fun _ => 0) 1 [None] [ver0]).
  { split; [split_and!; [apply empty_subseteq| |]|].
    - intros a Ha. by apply not_elem_of_empty in Ha.
    - intros a a' X Ha. by apply not_elem_of_empty in Ha.
    - constructor; [|constructor]. exists ∅. split; [apply empty_subseteq|]. exists NE. split_and!; [done|done|apply nabs_empty|]. intros a X Ha. by apply not_elem_of_empty in Ha. }
  eapply wp_mono; [apply (y_all_exact c Hc ops h (dom h) ∅ (fun _ => 0) 1 [None] [] [ver0] [] (reflexivity _) H0 (List.Forall2_nil _) Hok)|].
  cbn beta. intros r h1 W1 (_ & L & K & gs & hs & A1 & A2 & A3). exists gs, hs. split; [done|]. intros ops2 J rss Ho HJ Hsp Hrss st Hrun.
  set (n := S (length ops)) in *. change (1 + length ops) with n in *. destruct (grab J _ _ _ _ _ _ A2) as (G & HGd & Hheld & Hgr).
  assert (Hlen : length r.1.1 = length gs) by (eapply Forall2_length; apply A2).
  set (Q := fun (x : list ptr * list ptr * list (nout U)) (h' : heap) => exists L' K' gs' hs', yrun W n ops2 gs hs gs' hs' x.2 /\ StampProofs.inv c h' L' K' (n + length ops2) x.1.1 gs' /\ Forall2 (kept c h' L' K' gs') x.1.2 hs').
  set (Qr := fun (m : nat) (x : list (nout U)) => exists rds hs', rss !! m = Some rds /\ yrun W n rds gs hs gs hs' x).
  assert (Hinv : ainv (hr h1 G) Q Qr st).
  { eapply ainv_run; [exact Hrun|]. exists (dom h1 ∖ G). cbn [fst snd]. split_and!.
    - rewrite hr_dom by done. clear. set_solver.
    - apply hr_sub.
    - eapply (held_run c Hc J ops2 h1 _ L K n _ _ gs hs G); try done. intros j Hj. rewrite Hlen. by apply HJ.
    - intros m p Em. apply list_lookup_fmap_inv in Em as (rds & -> & Em). pose proof (proj1 (Forall_lookup _ _) Hrss _ _ Em) as [B1 B2]. apply Forall_and in B1 as [B0 B1]. split; [by apply ro_hist|].
      eapply wp_mono; [by eapply (reads_run J rds h1 L K n _ _ gs hs G)|]. cbn beta. intros x h2 W2 [hs' B]. by exists rds, hs'. }
  split; [by eapply ainv_safe|]. destruct Hinv as (WS & _ & _ & Hwr & Hrd). split.
  - intros m x Em. destruct (Hrd _ _ Em) as [_ H]. exact H.
  - intros x Ex. rewrite Ex in Hwr. cbn [wp] in Hwr. destruct Hwr as (L' & K' & gs1 & hs1 & B1 & B2 & B3). exists gs1, hs1. split; [done|]. intros ops3 Hok3.
    by apply (y_hist_exact c Hc ops3 _ _ L' K' (n + length ops2) _ _ _ _ (reflexivity _) B2 B3).
Qed.
End watch2.

Section pat.
Context {U : Type} (W : N) (J : list nat).
Local Notation ver := (ver U).
Local Notation ver0 := (ver0 U).
Lemma pf_persists (ops : list (yop U)) : Forall persists ops -> forall n (gs : list ver) hs, spares_all W J n gs hs ops.
Proof.
  induction ops as [|o ops IH]; intros H n gs hs; cbn [spares_all]; [done|]. inversion H as [|? ? Ho Hops]; subst. split; [|intros gs' hs' x _; by apply IH].
  intros j _. by destruct o as [[[]|]| | | |].
Qed.
Lemma yrun_snoc (ops : list (yop U)) o : forall n (gs : list ver) hs gs1 hs1 outs gs2 hs2 x, yrun W n ops gs hs gs1 hs1 outs -> ystep W (n + length ops) gs1 hs1 o gs2 hs2 x -> yrun W n (ops ++ [o]) gs hs gs2 hs2 (outs ++ [x]).
Proof.
  induction ops as [|o1 ops IH]; intros n gs hs gs1 hs1 outs gs2 hs2 x; destruct outs as [|y outs]; cbn [yrun app]; try done.
  - intros [-> ->] H. cbn [length] in H. rewrite Nat.add_0_r in H. by exists gs2, hs2.
  - intros (g & k & H1 & H2) H. exists g, k. split; [done|]. eapply IH; [done|]. cbn [length] in H. by replace (S n + length ops) with (n + S (length ops)) by lia.
Qed.
Lemma pf_pairs l : forall ops (gs : list ver) hs outs, yrun W 1 ops [ver0] [] gs hs outs -> (forall j, j ∈ J -> j < length gs) -> spares_all W J (S (length ops)) gs hs (pairs (length gs) l).
Proof.
  induction l as [|[[[[i k] b] v] w] l IH]; intros ops gs hs outs Hr HJ; cbn [pairs spares_all]; [done|]. split; [done|]. intros gs1 hs1 x S1. split.
  - intros j Hj. specialize (HJ j Hj). split; [by eapply pf_own|lia].
  - intros gs2 hs2 x2 S2. pose proof (yrun_snoc _ _ _ _ _ _ _ _ _ _ _ Hr S1) as R1. assert (S2' : ystep W (1 + length (ops ++ [YCall (VCall (NInsert i k b v))])) gs1 hs1 (YCall (VInplace (length gs) k b w)) gs2 hs2 x2).
    { rewrite app_length. cbn [length]. by replace (1 + (length ops + 1)) with (S (S (length ops))) by lia. }
    pose proof (yrun_snoc _ _ _ _ _ _ _ _ _ _ _ R1 S2') as R2. clear S2'.
    inversion S1 as [? ? ? T1| | | | | |]; subst. inversion T1; subst. inversion S2 as [? ? ? T2| | | | | |]; subst. inversion T2 as [| | | | | |? ? ? ? ? E]; subst. rewrite app_length in E. cbn [length] in E.
    replace (S (length gs)) with (length gs2) by lia. specialize (IH _ _ _ _ R2). rewrite !app_length in IH. cbn [length] in IH. replace (S (S (S (length ops)))) with (S (length ops + 1 + 1)) by lia. apply IH. intros j Hj. specialize (HJ j Hj). lia.
Qed.
Definition homed (k : nat) (hs : list (option (nat * pfx))) : Prop := k <= length hs /\ forall m i q, k <= m -> nth m hs None = Some (i, q) -> i ∈ J.
Lemma homed_app k hs l : homed k hs -> Forall (fun f => forall i q, f = Some (i, q) -> i ∈ J) l -> homed k (hs ++ l).
Proof.
  intros [H1 H2] Hl. split; [rewrite app_length; lia|]. intros m i q Hm E. destruct (decide (m < length hs)) as [Hlt|Hge].
  - rewrite app_nth1 in E by done. by eapply H2.
  - rewrite app_nth2 in E by lia. rewrite nth_lookup in E. destruct (l !! (m - length hs)) as [f|] eqn:El; [|done]. by apply (proj1 (Forall_lookup _ _) Hl _ _ El i q).
Qed.
Lemma inside_all rds : forall k (gs : list ver) hs, J <> [] -> homed k hs -> Forall (inside J k) rds -> reads_all W J gs hs rds.
Proof.
  induction rds as [|o rds IH]; intros k gs hs HJ Hh Hr; cbn [reads_all]; [done|]. inversion Hr as [|? ? Ho Hrds]; subst.
  destruct o as [[[i key bits v|i key bits|i key bits|i key bits|i]|i key bits v]|i key bits|i|m|m v]; try done; cbn [inside] in Ho.
  1-3: split; [by exists i|]; split; [done|]; intros n hs' x S; inversion S; subst; by eapply IH.
  - split; [by exists i|]. split; [done|]. intros n hs' x S. inversion S; subst. eapply IH; [done| |done]. apply homed_app; [done|]. constructor; [|constructor]. intros i2 q. unfold found. destruct (content _ !! _); [|done]. by intros [= <- _].
  - split; [by exists i|]. split; [done|]. intros n hs' x S. inversion S; subst. eapply IH; [done| |done]. apply homed_app; [done|]. apply Forall_forall. intros f Hf i2 q ->. apply elem_of_list_fmap in Hf as (e & [= -> _] & _). done.
  - split.
    { destruct (nth m hs None) as [[i q]|] eqn:E; [exists i; split; [by eapply Hh|]; cbn [reads]; by rewrite E|]. destruct J as [|j J']; [done|]. exists j. split; [by left|]. cbn [reads]. by rewrite E. }
    split; [done|]. intros n hs' x S. inversion S; subst; by eapply IH.
Qed.
Lemma pf_reader (gs : list ver) hs rds : J <> [] -> Forall (inside J (length hs)) rds -> Forall looks rds /\ reads_all W J gs hs rds.
Proof.
  intros HJ H. split; [eapply Forall_impl; [exact H|]; intros o; by destruct o as [[[]|]| | | |]|]. eapply inside_all; [done| |done]. split; [done|]. intros m i q Hm E. by rewrite nth_overflow in E.
Qed.
End pat.
