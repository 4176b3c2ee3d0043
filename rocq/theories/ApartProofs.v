(** * Proofs: reading one version of a radix tree while another is changed. *)
From Verif Require Import Prog History NumSpec NumModel NumFun NumAbs NumFoot NumBits NumSim NumInplace NumNavSpec NumNavProofs NumLoc VersSpec NumShare VersProofs NumExact StampSpec StampProofs WorkProofs IpUpd3 HandleSpec HandleProofs HandleProofs2 LoopProofs ApartSpec.
From Verif Require Import Concurrent ChanUpdProofs.
Open Scope nat_scope.

(** ** One goroutine that writes and any number that read, interleaved at single memory
    accesses ([mstep], Concurrent.v). No Go source is modelled here. *)
Section machine.
Context {U A B : Type}.
Local Notation heap := (heap U).
Inductive astep : heap * prog U A * list (prog U B) -> heap * prog U A * list (prog U B) -> Prop :=
| as_writer h w rs h' w' : mstep (w, h) (w', h') -> astep (h, w, rs) (h', w', rs)
| as_reader h w rs k r h' r' : rs !! k = Some r -> mstep (r, h) (r', h') -> astep (h, w, rs) (h', w, <[k := r']> rs).
(** Two goroutines about to access the same cell, one of them writing it. *)
Definition arace (st : heap * prog U A * list (prog U B)) : Prop :=
  (exists k r l, st.2 !! k = Some r /\ ((Concurrent.writes st.1.2 l /\ accesses r l) \/ (accesses st.1.2 l /\ Concurrent.writes r l))) \/
  exists k1 k2 r1 r2 l, k1 <> k2 /\ st.2 !! k1 = Some r1 /\ st.2 !! k2 = Some r2 /\ Concurrent.writes r1 l /\ accesses r2 l.
Definition goes {T} (m : prog U T) (h : heap) : Prop := (exists x, m = Ret x) \/ exists y, mstep (m, h) y.
Definition asafe (st : heap * prog U A * list (prog U B)) : Prop :=
  ~ arace st /\ goes st.1.2 st.1.1 /\ forall k r, st.2 !! k = Some r -> goes r st.1.1.

Lemma wp_goes {T} (m : prog U T) h hv W Q : hv ⊆ h -> wp m hv W Q -> (forall c k, m <> Alloc c k) \/ hv = h -> goes m h.
Proof.
  intros Hs H Hm. destruct m as [x|e|c k|l k|l c k]; cbn [wp] in H; [left; eauto|done| | |]; right.
  - assert (hv = h) as -> by (destruct Hm as [Hm|?]; [by destruct (Hm c k)|done]). eexists. apply (ms_alloc c k h (fresh (dom h))). apply not_elem_of_dom, is_fresh.
  - destruct H as (c & E & _). eexists. apply (ms_load l k h c). by eapply lookup_weaken.
  - destruct H as (_ & [x E] & _). eexists. apply (ms_store l c k h). exists x. by eapply lookup_weaken.
Qed.

Section run.
Context (hr0 : heap) (Q : A -> heap -> Prop) (Qr : nat -> B -> Prop).
Definition ainv (st : heap * prog U A * list (prog U B)) : Prop := exists WS : gset loc,
  WS ## dom hr0 /\ hr0 ⊆ st.1.1 /\ wp st.1.2 st.1.1 WS (fun a h _ => Q a h) /\
  forall k r, st.2 !! k = Some r -> ro r /\ wp r hr0 ∅ (fun b _ _ => Qr k b).
Lemma ainv_step st st' : astep st st' -> ainv st -> ainv st'.
Proof.
  intros Hs (WS & D & Hsub & Hw & Hr). destruct Hs as [h w rs h' w' Hm|h w rs k r h' r' Ek Hm]; cbn [fst snd] in *.
  - inversion Hm as [c k h0 l E|l k h0 c E|l c k h0 E]; subst; cbn [wp] in Hw.
    + exists ({[l]} ∪ WS). assert (l ∉ dom hr0). { intros [x Ex]%elem_of_dom. pose proof (lookup_weaken _ _ _ _ Ex Hsub). congruence. } split_and!; cbn [fst snd]; [clear -D H; set_solver| |by apply Hw|done].
      etrans; [exact Hsub|]. by apply insert_subseteq.
    + destruct Hw as (c2 & E2 & Hw). rewrite E in E2. injection E2 as <-. by exists WS.
    + destruct Hw as (Hl & _ & Hw). exists WS. split_and!; cbn [fst snd]; [done| |done|done].
      apply map_subseteq_spec. intros x y Ex. rewrite lookup_insert_ne; [by eapply lookup_weaken|]. intros ->. apply (D x Hl). by eapply elem_of_dom_2.
  - destruct (Hr _ _ Ek) as [Hro Hwp]. inversion Hro as [b|e|l f Hf]; subst; inversion Hm as [|? ? ? cc E|]; subst.
    cbn [wp] in Hwp. destruct Hwp as (c2 & E2 & Hwp). pose proof (lookup_weaken _ _ _ _ E2 Hsub) as E3. rewrite E in E3. injection E3 as ->.
    exists WS. split_and!; cbn [fst snd]; [done|done|done|]. intros k2 r2 E4. apply list_lookup_insert_Some in E4 as [(<- & <- & _)|(_ & E4)]; [split; [apply Hf|done]|by apply Hr].
Qed.
Lemma ainv_run st st' : rtc astep st st' -> ainv st -> ainv st'.
Proof. intros H. induction H as [|x y z Hxy H IH]; [done|]. intros Hi. apply IH. by eapply ainv_step. Qed.
Lemma ainv_safe st : ainv st -> asafe st.
Proof.
  intros (WS & D & Hsub & Hw & Hr). split_and!.
  - intros [(k & r & l & Ek & Hc)|(k1 & k2 & r1 & r2 & l & _ & Ek & _ & Hc & _)].
    + destruct (Hr _ _ Ek) as [Hro Hwp]. destruct Hro as [b|e|x f Hf]; cbn [Concurrent.writes accesses] in Hc; [clear -Hc; tauto|clear -Hc; tauto|]. destruct Hc as [[C1 ->]|[_ []]].
      cbn [wp] in Hwp. destruct Hwp as (c2 & E2 & _). destruct (st.1.2) as [| | | |l2 c3 k3]; cbn [Concurrent.writes] in C1; try done. subst l2. cbn [wp] in Hw. destruct Hw as (Hl & _). apply (D l Hl). by eapply elem_of_dom_2.
    + destruct (Hr _ _ Ek) as [Hro _]. by destruct Hro.
  - eapply wp_goes; [reflexivity|exact Hw|by right].
  - intros k r Ek. destruct (Hr _ _ Ek) as [Hro Hwp]. eapply wp_goes; [exact Hsub|exact Hwp|]. left. intros cc kk ->. inversion Hro.
Qed.
End run.

(** No run goes on for ever. *)
Inductive sub {T} : prog U T -> prog U T -> Prop :=
| sub_alloc c k l : sub (k l) (Alloc c k)
| sub_load l k c : sub (k c) (Load l k)
| sub_store l c k : sub k (Store l c k).
Lemma sub_acc {T} (m : prog U T) : Acc sub m.
Proof. induction m as [x|e|c k IH|l k IH|l c k IH]; constructor; intros y Hy; inversion Hy; subst; auto. Qed.
Lemma mstep_sub {T} (m m' : prog U T) h h' : mstep (m, h) (m', h') -> sub m' m.
Proof. intros H. inversion H; subst; constructor. Qed.
Definition ostep (rs' rs : list (prog U B)) : Prop := exists k r r', rs !! k = Some r /\ sub r' r /\ rs' = <[k := r']> rs.
Lemma ostep_acc rs : Acc ostep rs.
Proof.
  induction rs as [|r rs IH]; [constructor; intros y (k & r & r' & E & _); done|].
  revert rs IH. induction (sub_acc r) as [r _ IHr]. intros rs Hrs. induction Hrs as [rs Hrs IH]. constructor. intros y ([|k] & r1 & r' & E & Hs & ->); cbn in E |- *.
  - injection E as ->. apply IHr; [done|by constructor].
  - apply IH. by exists k, r1, r'.
Qed.
Lemma astep_acc st : Acc (fun y x => astep x y) st.
Proof.
  destruct st as [[h w] rs]. revert h rs. induction (sub_acc w) as [w _ IHw]. intros h rs. revert h. induction (ostep_acc rs) as [rs _ IH]. intros h. constructor. intros y Hy. inversion Hy as [? ? ? ? ? Hm|? ? ? k r ? r' E Hm]; subst.
  - apply IHw. by eapply mstep_sub.
  - apply IH. exists k, r, r'. split_and!; [done|by eapply mstep_sub|done].
Qed.

(** Choosing the steps: [None] is the writer; [l] is the address handed out, if any. *)
Definition adv {T} (m : prog U T) (h : heap) (l : loc) : option (prog U T * heap) :=
  match m with
  | Alloc c k => match h !! l with None => Some (k l, <[l := c]> h) | Some _ => None end
  | Load l k => match h !! l with Some c => Some (k c, h) | None => None end
  | Store l c k => match h !! l with Some _ => Some (k, <[l := c]> h) | None => None end
  | _ => None
  end.
Lemma adv_sound {T} (m : prog U T) h l y : adv m h l = Some y -> mstep (m, h) y.
Proof. destruct m as [x|e|c k|a k|a c k]; cbn [adv]; try done; (destruct (h !! _) eqn:E; [|done || idtac]); intros [= <-] || idtac; try done; constructor; eauto. Qed.
Definition choose (st : heap * prog U A * list (prog U B)) (x : option nat * loc) : heap * prog U A * list (prog U B) :=
  match x.1 with
  | None => match adv st.1.2 st.1.1 x.2 with Some y => (y.2, y.1, st.2) | None => st end
  | Some k => match st.2 !! k with
              | Some r => match adv r st.1.1 x.2 with Some y => (y.2, st.1.2, <[k := y.1]> st.2) | None => st end
              | None => st
              end
  end.
Lemma choose_sound xs : forall st, rtc astep st (fold_left choose xs st).
Proof.
  induction xs as [|x xs IH]; intros [[h w] rs]; [done|]. cbn [fold_left]. destruct x as [[k|] l]; unfold choose at 2; cbn [fst snd].
  - destruct (rs !! k) as [r|] eqn:Ek; [|apply IH]. destruct (adv r h l) as [[r' h']|] eqn:E; [|apply IH]. eapply rtc_l; [|apply IH]. by eapply as_reader; [exact Ek|apply (adv_sound _ _ l)].
  - destruct (adv w h l) as [[w' h']|] eqn:E; [|apply IH]. eapply rtc_l; [|apply IH]. apply as_writer. by apply (adv_sound _ _ l).
Qed.
(** The writer is about to write the cell that reader [k] is about to read. *)
Definition clash (st : heap * prog U A * list (prog U B)) (k : nat) : bool :=
  match st.1.2, st.2 !! k with Store l _ _, Some (Load l' _) => bool_decide (l = l') | _, _ => false end.
Lemma clash_sound st k : clash st k = true -> arace st.
Proof.
  unfold clash. destruct st as [[h w] rs]; cbn [fst snd]. destruct w as [| | | |l c w]; try done. destruct (rs !! k) as [r|] eqn:Ek; [|done]. destruct r as [| | |l' f|]; try done.
  intros H. apply bool_decide_eq_true in H as <-. left. exists k, (Load l f), l. split; [done|]. by left.
Qed.
End machine.

Lemma wp_and {U A} (m : prog U A) : forall (h : heap U) (W1 W2 : gset loc) (Q : A -> heap U -> Prop), wp m h W1 (fun a h' _ => Q a h') -> wp m h W2 (fun _ _ _ => True) -> wp m h W2 (fun a h' _ => Q a h').
Proof.
  induction m as [x|e|c k IH|l k IH|l c k IH]; intros h W1 W2 Q H1 H2; cbn [wp] in *; [done|done| | |].
  - intros l E. eapply IH; [by apply H1|by apply H2].
  - destruct H1 as (c1 & E1 & H1), H2 as (c2 & E2 & H2). exists c1. split; [done|]. rewrite E1 in E2. injection E2 as <-. by eapply IH.
  - destruct H1 as (_ & _ & H1), H2 as (B1 & B2 & H2). split_and!; [done|done|]. by eapply IH.
Qed.

Lemma wp_cap {U A} (m : prog U A) : forall (h : heap U) (W1 W2 W3 : gset loc), W1 ∩ W2 ⊆ W3 -> wp m h W1 (fun _ _ _ => True) -> wp m h W2 (fun _ _ _ => True) -> wp m h W3 (fun _ _ _ => True).
Proof.
  induction m as [x|e|c k IH|l k IH|l c k IH]; intros h W1 W2 W3 HW H1 H2; cbn [wp] in *; [done|done| | |].
  - intros l E. eapply IH; [|by apply H1|by apply H2]. clear -HW. set_solver.
  - destruct H1 as (c1 & E1 & H1), H2 as (c2 & E2 & H2). exists c1. split; [done|]. rewrite E1 in E2. injection E2 as <-. by eapply IH.
  - destruct H1 as (A1 & _ & H1), H2 as (B1 & B2 & H2). split_and!; [clear -HW A1 B1; set_solver|done|]. by eapply IH.
Qed.

Section ro.
Context {U : Type}.
Lemma ro_match c fuel : forall p k b, ro (match_ (U := U) c fuel p k b).
Proof.
  induction fuel as [|fuel IH]; intros p k b; cbn [match_]; [constructor|]. apply ro_bind; [apply ro_ld_num|]. intros nn.
  destruct (N.ltb b (nn_bits nn)); [constructor|]. destruct (N.eqb (nn_bits nn) b).
  - apply ro_bind; [unfold leaf_and_same; destruct (nn_leaf nn); [apply ro_same|constructor]|]. intros []; constructor.
  - apply ro_bind; [apply ro_same|]. intros [|]; cbn [negb]; [|constructor]. apply ro_bind; [destruct (chld nn (bbit c k (nn_bits nn))); [apply IH|constructor]|].
    intros []; [constructor|]. destruct (nn_leaf nn); constructor.
Qed.
Lemma ro_enumerate c fuel : forall p, ro (enumerate_ (U := U) c fuel p).
Proof.
  induction fuel as [|fuel IH]; intros [l|]; cbn [enumerate_]; [constructor|constructor| |constructor]. apply ro_bind; [apply (ro_ld_num (Some l))|]. intros nn.
  apply ro_bind; [destruct (nn_c0 nn); [apply IH|constructor]|]. intros xs. apply ro_bind; [destruct (nn_c1 nn); [apply IH|constructor]|]. intros ys. constructor.
Qed.
Lemma ro_n_enumerate c p : ro (n_enumerate (U := U) c p).
Proof. unfold n_enumerate. destruct p; [apply ro_enumerate|constructor]. Qed.
Lemma ro_read c (vs ns : list ptr) hs j (o : yop U) : reads hs j o -> ro (y_exec c vs ns o).
Proof.
  destruct o as [[[i k bits v|i k bits|i k bits|i k bits|i]|i k bits v]|i k bits|i|m|m v]; cbn [reads y_exec v_exec n_exec]; try done; intros _.
  - apply ro_bind; [|intros; constructor]. apply ro_bind; [|intros; constructor]. unfold n_match. destruct (nth i vs None); [|constructor]. apply ro_bind; [apply ro_match|]. intros []; [|constructor]. apply ro_bind; [apply ro_ld_num|intros; constructor].
  - apply ro_bind; [|intros; constructor]. apply ro_bind; [|intros; constructor]. unfold n_exact. apply ro_bind; [apply ro_find|]. intros []; [|constructor]. apply ro_bind; [apply ro_ld_num|intros; constructor].
  - apply ro_bind; [|intros; constructor]. apply ro_bind; [|intros; constructor]. apply ro_n_enumerate.
  - apply ro_bind; [apply ro_find|intros; constructor].
  - apply ro_bind; [apply ro_n_enumerate|intros; constructor].
  - destruct (nth m ns None) as [a|]; [|constructor]. apply ro_bind; [apply (ro_ld_num (Some a))|intros; constructor].
Qed.
End ro.

(** ** InplaceInsert writes one old node at most. *)
Section limited.
Context {U : Type} (c : NumModel.cfg) (Hc : cfg_ok c).
Local Notation heap := (heap U).
Local Notation value := (value U).
Local Notation ver := (ver U).
Local Notation ver0 := (ver0 U).
Local Notation W := (cW c).
Implicit Types h : heap.
Open Scope N_scope.
Lemma inplace_limited t : forall fuel h n F k b v pa pk pb pl pv p0 p1 br r WS,
  wf c t -> (depth t < fuel)%nat -> k < 2 ^ W -> b <= W -> orep h n t F -> (forall x h2 N, x = pa \/ x ∈ F -> hitx c h h2 x N k b v -> x ∈ WS) -> h !! pa = Some (CNum (NumN pk pb pl pv p0 p1)) -> pa ∉ F ->
  n = (if bitat W k pb then p1 else p0) -> br = bbit c k pb -> pb < b -> agree W pb pk k ->
  wp (inplace_loop c fuel k b v (Some pa) br n r) h WS (fun _ _ _ => True).
Proof using Hc.
  induction t as [|k' b' lf' v' l IHl r IHr]; intros fuel h n F k b v pa pk pb pl pv p0 p1 br ret WS Hw Hfuel Hk Hb Hrep HWS Hpa HpaF Hn Hbr Hpb Hag.
  - destruct fuel as [|fuel]; [simpl in Hfuel; lia|]. destruct Hrep as [En ->]. rewrite En. cbn [inplace_loop]. unfold new_node. apply wp_bind, wp_bind, wp_alloc. intros a Ha. cbn [wp bind].
    assert (Hne : a <> pa) by (intros ->; congruence).
    apply wp_bind. eapply wp_set_chld; [rewrite lookup_insert_ne by done; exact Hpa| |done].
    apply elem_of_union_r. eapply (HWS pa (<[pa := CNum (with_chld (NumN pk pb pl pv p0 p1) br (Some a))]> (<[a := CNum (NumN k b true v None None)]> h)) {[a]}); [by left|]. exists pk, pb, pl, pv, p0, p1. split_and!; [done| |done|lia| |].
    + intros y Hy Hne2. rewrite lookup_insert_ne by done. apply lookup_insert_ne. intros ->. apply elem_of_dom in Hy as [? Hy]. congruence.
    + intros y Hy. apply elem_of_singleton in Hy. by subst y.
    + right. split; [done|]. exists (Some a), NE, ∅. split_and!.
      * rewrite <- Hn. split; done.
      * cbn [f_ins orep]. exists a, None, None, ∅, ∅. split_and!; try done; [|clear; set_solver].
        rewrite lookup_insert_ne by done. by rewrite lookup_insert.
      * intros y Hy. by apply not_elem_of_empty in Hy.
      * rewrite lookup_insert, Hbr, with_bbit by (done || lia). by destruct (bitat W k pb).
  - destruct fuel as [|fuel]; [simpl in Hfuel; lia|].
    pose proof Hw as (Hk' & Hb' & Hl & Hr & Hwl & Hwr & Hf).
    pose proof Hrep as (a & c0 & c1 & F0 & F1 & En & Ha & Hc0 & Hc1 & Ha0 & Ha1 & Hd & EF). rewrite En.
    cbn [inplace_loop]. apply wp_bind. eapply wp_ld_num; [exact Ha|].
    cbn [nn_key nn_bits nn_leaf nn_val nn_c0 nn_c1].
    rewrite ncsb_eq by done. cbn [bind].
    destruct (pcsb_spec c k' b' k b Hk' Hk Hb' Hb) as (Hn1 & Hn2 & Hn3 & Hn4).
    remember (pcsb c k' b' k b) as nc eqn:Enc0.
    destruct (N.ltb_spec nc b').
    + apply wp_bind_ret. eapply wp_mono.
      { eapply (wp_call _ _ ∅); [|apply empty_subseteq].
        eapply (split_wp c Hc h (Some a) _ _ k' b' lf' v' l r k b v nc); [reflexivity|by rewrite <- En|done..]. }
      cbn beta. intros m h1 WS' [(WS1 & Ho & HWS1 & (_ & _ & Hg1)) [Hun (Hg2 & _ & _)]].
      assert (Hpa' : h1 !! pa = Some (CNum (NumN pk pb pl pv p0 p1))) by (apply Hun; [done|apply not_elem_of_empty]).
      apply wp_bind. eapply wp_set_chld; [exact Hpa'| |done].
      apply Hg2. eapply (HWS pa (<[pa := CNum (with_chld (NumN pk pb pl pv p0 p1) br m)]> h1) WS1); [by left|]. exists pk, pb, pl, pv, p0, p1.
      assert (HW0 : forall y, y ∈ WS1 -> h !! y = None).
      { intros y Hy. destruct (Hg1 _ Hy) as [Hin2|?]; [by apply not_elem_of_empty in Hin2|done]. }
      assert (HpaW : pa ∉ WS1) by (intros Hin; apply HW0 in Hin; congruence).
      split_and!; [done| |done|lia|done|].
      * intros y Hy Hne2. rewrite lookup_insert_ne by done. apply elem_of_dom in Hy as [cy Hy]. rewrite Hy. apply Hun; [done|apply not_elem_of_empty].
      * right. split; [done|]. exists m, (NT k' b' lf' v' l r), F. split_and!.
        -- by rewrite <- Hn.
        -- eapply (orep_agree c Hc h1).
           ++ intros y Hy. apply lookup_insert_ne. intros <-. apply elem_of_union in Hy as [?|?]; done.
           ++ cbn [f_ins]. rewrite <- Enc0. destruct (N.ltb_spec nc b'); [|lia]. eapply orep_eq; [|exact Ho]. clear; set_solver.
        -- intros y Hy. eapply root_aside; [exact Hc|exact Hw|exact Hrep|exact Hy|]. destruct (N.eq_dec nc b) as [->|]; [by left|right]. exists nc. split; [done|]. apply Hn4; [done|lia].
        -- rewrite lookup_insert, Hbr, with_bbit by (done || lia). by destruct (bitat W k pb).
    + assert (Enc : nc = b') by lia. destruct (N.eqb_spec b b') as [Eb|Eb].
      * apply wp_bind. eapply wp_st_num; [|by eexists|done].
        eapply (HWS a (<[a := CNum (NumN k b true v c0 c1)]> h) ∅); [right; rewrite EF; by apply elem_of_union_l, elem_of_singleton|]. exists k', b', lf', v', c0, c1. split_and!; [done| |rewrite <- Enc; done|lia| |].
        -- intros y Hy Hne2. by rewrite lookup_insert_ne.
        -- intros y Hy. by apply not_elem_of_empty in Hy.
        -- left. split_and!; [done|done|]. rewrite lookup_insert. by rewrite Eb.
      * rewrite chld_bbit by (done || lia). cbn [nn_c0 nn_c1]. rewrite Enc.
        simpl in Hfuel. rewrite Enc in Hn3. destruct (bitat W k b') eqn:Ebit.
        -- eapply (IHr fuel h c1 F1 k b v a k' b' lf' v' c0 c1); try done; [lia| |by rewrite Ebit|lia]. intros x h2 N Hx. apply HWS. right. rewrite EF. clear -Hx. set_solver.
        -- eapply (IHl fuel h c0 F0 k b v a k' b' lf' v' c0 c1); try done; [lia| |by rewrite Ebit|lia]. intros x h2 N Hx. apply HWS. right. rewrite EF. clear -Hx. set_solver.
Qed.
Lemma n_inplace_limited h WS p t F k bits v : k < 2 ^ W -> (forall x h2 N, x ∈ F -> hitx c h h2 x N k (clamp c bits) v -> x ∈ WS) -> wf c t -> orep h p t F ->
  wp (n_inplace_insert c p k bits v) h WS (fun _ _ _ => True).
Proof using Hc.
  intros Hk HWS Hw Hrep. unfold n_inplace_insert. pose proof (clamp_le c bits) as Hb. set (b := clamp c bits) in *. clearbody b.
  unfold nfuel. replace (N.to_nat W + 2)%nat with (S (N.to_nat W + 1)) by lia. pose proof (depth_fuel c t Hw) as Hd. unfold nfuel in Hd.
  destruct t as [|k' b' lf' v' l r].
  - destruct Hrep as [-> ->]. cbn [inplace_loop]. unfold new_node. apply wp_bind, wp_bind, wp_alloc. intros a Ha. cbn [wp bind]. done.
  - pose proof Hw as (Hk' & Hb' & Hl & Hr & Hwl & Hwr & Hf). pose proof Hrep as (a & c0 & c1 & F0 & F1 & -> & Ha & Hc0 & Hc1 & Ha0 & Ha1 & Hdj & EF).
    cbn [inplace_loop]. apply wp_bind. eapply wp_ld_num; [exact Ha|]. cbn [nn_key nn_bits nn_leaf nn_val nn_c0 nn_c1]. rewrite ncsb_eq by done. cbn [bind].
    destruct (pcsb_spec c k' b' k b Hk' Hk Hb' Hb) as (Hn1 & Hn2 & Hn3 & Hn4). remember (pcsb c k' b' k b) as nc eqn:Enc0.
    destruct (N.ltb_spec nc b').
    + apply wp_bind_ret. eapply wp_mono.
      { eapply (wp_call _ _ ∅); [|apply empty_subseteq]. eapply (split_wp c Hc h (Some a) _ _ k' b' lf' v' l r k b v nc); [reflexivity|exact Hrep|done..]. }
      cbn beta. intros m2 h1 WS' _. cbn [wp]. done.
    + assert (Enc : nc = b') by lia. destruct (N.eqb_spec b b') as [Eb|Eb].
      * apply wp_bind. eapply wp_st_num; [|by eexists|done].
        eapply (HWS a (<[a := CNum (NumN k b true v c0 c1)]> h) ∅); [rewrite EF; clear; set_solver|].
        exists k', b', lf', v', c0, c1. split_and!; [done|intros; by rewrite lookup_insert_ne|by rewrite <- Enc|lia|intros y Hy; by apply not_elem_of_empty in Hy|]. left. split_and!; [done|done|]. rewrite lookup_insert. by rewrite Eb.
      * rewrite Enc. rewrite chld_bbit by (done || lia). cbn [nn_c0 nn_c1]. simpl in Hd. rewrite Enc in Hn3.
        destruct (bitat W k b') eqn:Ebit.
        -- eapply (inplace_limited r _ h c1 F1 k b v a k' b' lf' v' c0 c1); try done; [lia| |by rewrite Ebit|lia]. intros x h2 N Hx. apply HWS. rewrite EF. clear -Hx. set_solver.
        -- eapply (inplace_limited l _ h c0 F0 k b v a k' b' lf' v' c0 c1); try done; [lia| |by rewrite Ebit|lia]. intros x h2 N Hx. apply HWS. rewrite EF. clear -Hx. set_solver.
Qed.
Open Scope nat_scope.
(** The node that InplaceInsert writes is one that the other version has only if the two share
    the part around the prefix. *)
Lemma hit_sharing h L K (n : nat) (vs : list ptr) (gs : list ver) i (F : gset loc) t (F2 : gset loc) t2 p2 (g2 : ver) h2 x N k b v : labels c h L K n ->
  F ⊆ L -> wf c t -> orep h (nth i vs None) t F -> nabs c t (content (nth i gs ver0)) -> (forall a X, a ∈ F -> place c h a X -> K a = since (nth i gs ver0) X) ->
  F2 ⊆ L -> wf c t2 -> orep h p2 t2 F2 -> nabs c t2 (content g2) -> (forall a X, a ∈ F2 -> place c h a X -> K a = since g2 X) ->
  (k < 2 ^ W)%N -> (b <= W)%N -> x ∈ F -> x ∈ F2 -> hitx c h h2 x N k b v -> sharing (nth i gs ver0) g2 (norm W k b).
Proof using Hc.
  intros HL HF Hw Ho Ha HK HF2 Hw2 Ho2 Ha2 HK2 Hk Hb HxF HxF2 Hh.
  destruct (share_exact c Hc _ _ _ _ _ _ _ Hh Hk Hb) as (xn & Ex & X1 & X2 & _ & Hall).
  set (X := norm W (nn_key xn) (nn_bits xn)). set (q := norm W k b).
  assert (HxX : place c h x X) by (by exists xn).
  destruct (Hall _ _ _ Hw Ho) as [_ Hi]. destruct (Hi HxF) as [_ Hlow]. clear Hi.
  exists X. split; [split; [|split]|split].
  - eapply branching_place; [exact Hc|exact Hw|exact Ho|exact Ha|]. by exists x.
  - eapply over_covers; [exact Hc|exact Hw|exact Ho|exact HxF|done..|]. by exists xn.
  - intros Y HY Hcv. eapply branching_place in HY; [|exact Hc|exact Hw|exact Ho|exact Ha]. destruct HY as (y & Hy & HY).
    eapply over_covers in Hcv as Hov; [|exact Hc|exact Hw|exact Ho|exact Hy|exact HY|done|done]. destruct Hov as (yn & Ey & Y1 & Y2).
    assert (HYX : covers X q) by (eapply over_covers; [exact Hc|exact Hw|exact Ho|exact HxF|done..|]; by exists xn).
    eapply covers_total; [exact Hcv|exact HYX|]. destruct HY as (yn2 & Ey2 & <-). rewrite Ey in Ey2. injection Ey2 as <-. unfold X, norm. cbn [fst]. by eapply Hlow.
  - eapply branching_place; [exact Hc|exact Hw2|exact Ho2|exact Ha2|]. by exists x.
  - rewrite <- (HK x X), <- (HK2 x X); done.
Qed.

Lemma y_limited h L K (n : nat) (vs ns : list ptr) (gs : list ver) hs o j (F2 : gset loc) t2 : StampProofs.inv c h L K n vs gs -> Forall2 (kept c h L K gs) ns hs -> yop_ok W o -> apart W gs hs j o ->
  F2 ⊆ L -> wf c t2 -> orep h (nth j vs None) t2 F2 -> nabs c t2 (content (nth j gs ver0)) -> (forall a X, a ∈ F2 -> place c h a X -> K a = since (nth j gs ver0) X) ->
  wp (y_exec c vs ns o) h (dom h ∖ F2) (fun _ _ _ => True).
Proof using Hc.
  intros HI HH Hok Hap HF2 Hw2 Ho2 Ha2 HK2. pose proof HI as [HL HR].
  assert (Hnth : forall j, kept c h L K gs (nth j ns None) (nth j hs None)).
  { intros j0. clear -HH. revert j0. induction HH as [|p f ns hs Hp HH IH]; intros [|j0]; cbn [nth]; [done|done|done|apply IH]. }
  destruct o as [[o|i k bits v]|i k bits|i|m|m v]; cbn [y_exec yop_ok vop_ok v_exec apart] in *.
  - apply wp_bind. eapply wp_mono; [eapply (wp_call _ _ ∅); [|apply empty_subseteq]|done].
    eapply (n_exec_ok c Hc h vs (map content gs)); [|exact Hok]. clear -HR. induction HR as [|p g vs gs Hp HR IH]; cbn [map]; [constructor|]. constructor; [|done]. destruct Hp as (F & _ & t & B1 & B2 & B3 & _). exists t. split_and!; [done|by eapply orep_nrep|done].
  - destruct (inv_nth c _ _ _ _ _ _ i HI) as (F & HF & t & Hw & Ho & Hn & HKF). apply wp_bind, wp_bind. eapply wp_mono; [eapply (n_inplace_limited h _ _ t F k bits v Hok); [|done|done]|done].
    intros x h2 N Hx Hh. apply elem_of_difference. split; [by apply (orep_dom c Hc _ _ _ _ Ho)|]. intros Hx2. apply Hap. rewrite <- (clamp_adj c).
    eapply (hit_sharing h L K n vs gs i F t F2 t2); try done. apply clamp_le.
  - destruct (inv_nth c _ _ _ _ _ _ i HI) as (F & HF & t & Hw & Ho & Hn & HKF). apply wp_bind. eapply wp_mono; [by apply (find_in c Hc h F t _ _ k bits _ Hw Ho Hn)|done].
  - destruct (inv_nth c _ _ _ _ _ _ i HI) as (F & HF & t & Hw & Ho & Hn & HKF). apply wp_bind. eapply wp_mono; [by apply (enum_in c Hc h F t _ _ _ Hw Ho Hn)|done].
  - pose proof (Hnth m) as Hj. unfold kept in Hj. destruct (nth m hs None) as [[i q]|] eqn:Ej; [|by rewrite Hj].
    destruct Hj as (a & -> & A1 & A2 & A3 & [[k v] A4]). destruct (kept_cell c Hc _ _ _ _ _ _ _ _ _ _ _ HI A1 A2 A3 A4) as (c0 & c1 & E & Eq). apply wp_bind. eapply wp_ld_num; [exact E|]. done.
  - pose proof (Hnth m) as Hj. unfold kept in Hj. destruct (nth m hs None) as [[i q]|] eqn:Ej; [|by rewrite Hj].
    destruct Hj as (a & -> & A1 & A2 & A3 & [[k v0] A4]). destruct (kept_cell c Hc _ _ _ _ _ _ _ _ _ _ _ HI A1 A2 A3 A4) as (c0 & c1 & E & Eq). apply wp_bind. eapply wp_ld_num; [exact E|]. apply wp_bind.
    eapply wp_st_num; [|by eexists|done]. apply elem_of_difference. split; [by eapply elem_of_dom_2|]. intros Ha. apply Hap. split_and!; [by eexists| |by rewrite <- A3; apply HK2].
    exists (k, v0). apply (at_content c _ _ _ _ _ _ _ _ Ho2 Ha2). by exists a, c0, c1.
Qed.

Lemma read_wp h L K (n : nat) (vs ns : list ptr) (gs : list ver) hs j rd (F G : gset loc) t : StampProofs.inv c h L K n vs gs -> Forall2 (kept c h L K gs) ns hs -> yop_ok W rd -> reads hs j rd ->
  F ⊆ G -> F ⊆ L -> wf c t -> orep h (nth j vs None) t F -> nabs c t (content (nth j gs ver0)) -> (forall a X, a ∈ F -> place c h a X -> K a = since (nth j gs ver0) X) ->
  wp (y_exec c vs ns rd) (hr h G) ∅ (fun x _ _ => exists hs', ystep W n gs hs rd gs hs' x.2 /\ x.1.1 = vs /\ Forall2 (kept c h L K gs) x.1.2 hs').
Proof using Hc.
  intros HI HH Hok Hrd HFG HFL Hw Ho Hn HK. pose proof HI as [HL HR].
  assert (Hnth : forall j, kept c h L K gs (nth j ns None) (nth j hs None)).
  { intros j0. clear -HH. revert j0. induction HH as [|p f ns hs Hp HH IH]; intros [|j0]; cbn [nth]; [done|done|done|apply IH]. }
  assert (Hag : forall a, a ∈ F -> hr h G !! a = h !! a).
  { intros a Ha. destruct (orep_alloc c Hc _ _ _ _ _ Ho Ha) as [z Hz]. rewrite Hz. unfold hr. apply map_filter_lookup_Some. split; [done|]. cbn. auto. }
  assert (Hr : orep (hr h G) (nth j vs None) t F) by (eapply (orep_agree c Hc h); [exact Hag|exact Ho]).
  assert (Hpl : forall a X, place c (hr h G) a X -> place c h a X) by (intros a X; apply place_mono, hr_sub).
  assert (Hat : ntree_at c (hr h G) (nth j vs None) (content (nth j gs ver0))) by (exists t; split_and!; [done|by eapply orep_nrep|done]).
  destruct rd as [[[i k bits v|i k bits|i k bits|i k bits|i]|i k bits v]|i k bits|i|m|m v]; cbn [reads y_exec v_exec n_exec yop_ok vop_ok nop_ok] in *; try done.
  - subst i. apply wp_bind, wp_bind. eapply wp_mono; [by eapply (n_match_at c Hc)|]. cbn beta. intros x h2 W2 [B1 _]. cbn [wp]. exists hs. split; [|done]. constructor. by constructor.
  - subst i. apply wp_bind, wp_bind. eapply wp_mono; [by eapply (n_exact_at c Hc)|]. cbn beta. intros x h2 W2 [-> _]. cbn [wp]. exists hs. split; [|done]. constructor. constructor.
  - subst i. apply wp_bind, wp_bind. eapply wp_mono; [by eapply (n_enumerate_at c)|]. cbn beta. intros x h2 W2 [B1 _]. cbn [wp]. exists hs. split; [|done]. constructor. by constructor.
  - subst i. apply wp_bind. eapply wp_mono; [by apply (find_in c Hc (hr h G) F t _ _ k bits ∅ Hw Hr Hn)|]. cbn beta. intros r h' WS' (_ & _ & Hcase). cbn [wp fst snd]. set (q := norm W k (adj W bits)) in *. exists (hs ++ [found (nth j gs ver0) j q]).
    split; [|split; [done|]; apply Forall2_app; [done|]; constructor; [|constructor]; unfold found; destruct r as [a|]; [|by rewrite Hcase]; destruct Hcase as (C1 & C2 & C3); pose proof C3 as [kv ->]; exists a; split_and!; [done|by apply HFL|by apply Hpl|apply HK; [done|by apply Hpl]|done]].
    replace (OBool (if r then true else false)) with (OBool (U := U) (if found (nth j gs ver0) j q then true else false)); [by constructor|]. unfold found. destruct r as [a|]; [destruct Hcase as (_ & _ & [? ->]); done|by rewrite Hcase].
  - subst i. apply wp_bind. eapply wp_mono; [by apply (enum_in c Hc (hr h G) F t _ _ ∅ Hw Hr Hn)|]. cbn beta. intros r h' WS' (_ & _ & Hs & Hall). cbn [wp fst snd]. exists (hs ++ map (fun e => Some (j, norm W e.1.1 e.1.2)) (map as_entry r)). split; [by constructor|]. split; [done|].
    apply Forall2_app; [done|]. rewrite map_map. clear Hs. induction r as [|x r IH]; [constructor|]. constructor; [|apply IH; intros y Hy; apply Hall; by right].
    destruct (Hall x ltac:(by left)) as (C1 & C2 & C3). exists x.1. split_and!; [done|by apply HFL|by apply Hpl|apply HK; [done|by apply Hpl]|done].
  - pose proof (Hnth m) as Hj. unfold kept in Hj. destruct (nth m hs None) as [[i q]|] eqn:Ej; [|rewrite Hj; cbn [wp snd]; exists hs; split; [by constructor|done]]. subst i.
    destruct Hj as (a & -> & A1 & A2 & A3 & [[k v] A4]). pose proof (proj1 (at_content c _ _ _ _ _ _ _ _ Ho Hn) A4) as (a' & c0 & c1 & X1 & X2 & X3).
    assert (HP : place c h a' q) by (eexists; split; [exact X2|by symmetry]).
    assert (a = a') as ->. { destruct HL as (_ & _ & Hinj). apply (Hinj a a' q); [done|auto|done|done|]. rewrite A3. symmetry. by apply HK. }
    apply wp_bind. eapply wp_ld_num; [rewrite Hag by done; exact X2|]. cbn [wp fst snd nn_key nn_bits nn_val]. exists hs. split; [by eapply ys_get|done].
Qed.
Lemma all_limited h L K (n : nat) (vs ns : list ptr) (gs : list ver) hs o (rds : list (yop U)) : StampProofs.inv c h L K n vs gs -> Forall2 (kept c h L K gs) ns hs -> yop_ok W o ->
  Forall (fun x => yop_ok W x /\ exists j, reads hs j x /\ apart W gs hs j o) rds ->
  exists G : gset loc, G ⊆ dom h /\ wp (y_exec c vs ns o) h (dom h ∖ G) (fun _ _ _ => True) /\
    forall rd, rd ∈ rds -> ro (y_exec c vs ns rd) /\ wp (y_exec c vs ns rd) (hr h G) ∅ (fun x _ _ => exists hs', ystep W n gs hs rd gs hs' x.2).
Proof using Hc.
  intros HI HH Hok Hall.
  assert (H : exists G : gset loc, G ⊆ dom h /\ wp (y_exec c vs ns o) h (dom h ∖ G) (fun _ _ _ => True) /\
    forall rd, rd ∈ rds -> exists j t F, yop_ok W rd /\ reads hs j rd /\ F ⊆ G /\ F ⊆ L /\ wf c t /\ orep h (nth j vs None) t F /\ nabs c t (content (nth j gs ver0)) /\ (forall a X, a ∈ F -> place c h a X -> K a = since (nth j gs ver0) X)).
  { induction Hall as [|rd rds (A1 & j & A2 & A3) Hall (G & HG & Hwp & Hin)].
    - exists ∅. split_and!; [apply empty_subseteq| |intros rd Hrd; by apply elem_of_nil in Hrd]. eapply wp_mono; [apply (y_exec_exact c Hc h _ L K n vs ns gs hs o); [clear; set_solver|done..]|done].
    - destruct (inv_nth c _ _ _ _ _ _ j HI) as (F & HF & t & Hw & Hor & Hn & HKF). assert (HFd : F ⊆ dom h) by (by eapply (orep_dom c Hc)). exists (F ∪ G). split_and!; [clear -HG HFd; set_solver| |].
      + eapply (wp_cap _ _ (dom h ∖ F) (dom h ∖ G)); [clear; set_solver|by eapply y_limited|exact Hwp].
      + intros rd2 [->|Hrd]%elem_of_cons.
        * exists j, t, F. split_and!; try done. clear; set_solver.
        * destruct (Hin _ Hrd) as (j2 & t2 & F2 & B1 & B2 & B3 & B4). exists j2, t2, F2. split; [done|]. split; [done|]. split; [clear -B3; set_solver|done]. }
  destruct H as (G & HG & Hwp & Hin). exists G. split_and!; [done|done|]. intros rd Hrd. destruct (Hin _ Hrd) as (j & t & F & B1 & B2 & B3 & B4 & B5 & B6 & B7 & B8). split; [by eapply ro_read|].
  eapply wp_mono; [by eapply read_wp|]. cbn beta. intros x h2 W2 (hs' & D & _). by exists hs'.
Qed.

Lemma pf_apart h ops : Forall (yop_ok W) ops ->
  wp (y_all c ops [None] []) h (dom h) (fun r h1 _ => exists gs hs, yrun W 1 ops [ver0] [] gs hs r.2 /\
    forall o rds, yop_ok W o -> Forall (fun x => yop_ok W x /\ exists j, reads hs j x /\ apart W gs hs j o) rds ->
    forall st, rtc astep (h1, y_exec c r.1.1 r.1.2 o, map (y_exec c r.1.1 r.1.2) rds) st -> asafe st /\
      (forall m x, st.2 !! m = Some (Ret x) -> exists rd hs', rds !! m = Some rd /\ ystep W (S (length ops)) gs hs rd gs hs' x.2) /\
      (forall x, st.1.2 = Ret x -> exists gs1 hs1, ystep W (S (length ops)) gs hs o gs1 hs1 x.2 /\
         forall ops2, Forall (yop_ok W) ops2 -> wp (y_hist c ops2 x.1.1 x.1.2) st.1.1 (dom st.1.1) (fun r2 _ _ => exists gs' hs', yrun W (S (S (length ops))) ops2 gs1 hs1 gs' hs' r2))).
Proof using Hc.
  intros Hok. assert (H0 : StampProofs.inv c h ∅ (fun _ => 0) 1 [None] [ver0]).
  { split; [split_and!; [apply empty_subseteq| |]|].
    - intros a Ha. by apply not_elem_of_empty in Ha.
    - intros a a' X Ha. by apply not_elem_of_empty in Ha.
    - constructor; [|constructor]. exists ∅. split; [apply empty_subseteq|]. exists NE. split_and!; [done|done|apply nabs_empty|]. intros a X Ha. by apply not_elem_of_empty in Ha. }
  eapply wp_mono; [apply (y_all_exact c Hc ops h (dom h) ∅ (fun _ => 0) 1 [None] [] [ver0] [] (reflexivity _) H0 (List.Forall2_nil _) Hok)|].
  cbn beta. intros r h1 W1 (_ & L & K & gs & hs & A1 & A2 & A3). exists gs, hs. split; [done|]. intros o rds Ho Hrds st Hrun.
  set (n := S (length ops)) in *. change (1 + length ops) with n in *. destruct (all_limited _ _ _ _ _ _ _ _ _ _ A2 A3 Ho Hrds) as (F & HFd & Hlim & Hrd0).
  set (Q := fun (x : list ptr * list ptr * nout U) (h' : heap) => exists L' K' gs' hs', ystep W n gs hs o gs' hs' x.2 /\ StampProofs.inv c h' L' K' (S n) x.1.1 gs' /\ Forall2 (kept c h' L' K' gs') x.1.2 hs').
  set (Qr := fun (m : nat) (x : list ptr * list ptr * nout U) => exists rd hs', rds !! m = Some rd /\ ystep W n gs hs rd gs hs' x.2).
  assert (Hinv : ainv (hr h1 F) Q Qr st).
  { eapply ainv_run; [exact Hrun|]. exists (dom h1 ∖ F). cbn [fst snd]. split_and!.
    - rewrite hr_dom by done. clear. set_solver.
    - apply hr_sub.
    - apply (wp_and _ _ (dom h1)); [|exact Hlim].
      eapply wp_mono; [by apply (y_exec_exact c Hc h1 (dom h1) L K n r.1.1 r.1.2 gs hs o)|]. cbn beta. intros x h2 W2 (_ & H). exact H.
    - intros m p Em. apply list_lookup_fmap_inv in Em as (rd & -> & Em). destruct (Hrd0 rd) as [B1 B2]; [by eapply elem_of_list_lookup_2|]. split; [done|].
      eapply wp_mono; [exact B2|]. cbn beta. intros x h2 W2 [hs' B]. by exists rd, hs'. }
  split; [by eapply ainv_safe|]. destruct Hinv as (WS & _ & _ & Hwr & Hrd). split.
  - intros m x Em. destruct (Hrd _ _ Em) as [_ H]. exact H.
  - intros x Ex. rewrite Ex in Hwr. cbn [wp] in Hwr. destruct Hwr as (L' & K' & gs1 & hs1 & B1 & B2 & B3). exists gs1, hs1. split; [done|]. intros ops2 Hok2.
    by apply (y_hist_exact c Hc ops2 _ _ L' K' (S n) _ _ _ _ (reflexivity _) B2 B3).
Qed.
End limited.

(** A version just made by Insert may be changed again at the same prefix. *)
Section own.
Context {U : Type} (W : N).
Local Notation ver0 := (ver0 U).
Lemma pf_own ops (gs gs1 : list (ver U)) hs hs1 outs x i key bits v v' j : yrun W 1 ops [ver0] [] gs hs outs -> ystep W (S (length ops)) gs hs (YCall (VCall (NInsert i key bits v))) gs1 hs1 x ->
  j < length gs -> apart W gs1 hs1 j (YCall (VInplace (length gs) key bits v')).
Proof.
  intros Hr Hs Hj. inversion Hs as [? ? ? S1| | | | | |]; subst. inversion S1; subst. cbn [apart]. intros (X & (_ & B2 & _) & _ & B5).
  assert (HF : Forall (fun g : ver U => forall X, since g X < 1 + length ops) gs). { eapply yrun_since; [exact Hr|]. constructor; [|constructor]. intros Y. cbn. lia. }
  rewrite (app_nth1 gs _ ver0 Hj) in B5. rewrite app_nth2 in B5 by lia. rewrite Nat.sub_diag in B5. cbn [nth remade since] in B5. rewrite decide_True in B5 by done.
  assert (Ej : gs !! j = Some (nth j gs ver0)). { destruct (nth_lookup_or_length gs j ver0) as [E|E]; [done|lia]. }
  pose proof (proj1 (Forall_lookup _ _) HF j _ Ej X) as Hl. lia.
Qed.
Lemma pf_own_value ops (gs gs1 : list (ver U)) hs hs1 outs x i key bits v v' m i0 q : yrun W 1 ops [ver0] [] gs hs outs -> ystep W (S (length ops)) gs hs (YCall (VCall (NInsert i key bits v))) gs1 hs1 x ->
  nth m hs None = Some (i0, q) -> covers q (norm W key (adj W bits)) -> apart W gs1 hs1 (length gs) (YSet m v').
Proof.
  intros Hr Hs Hm Hcv. pose proof (pf_handle_alive W ops gs hs outs m i0 q Hr Hm) as Hal.
  assert (Hj : i0 < length gs). { destruct (Nat.lt_ge_cases i0 (length gs)) as [?|Hi]; [done|]. rewrite nth_overflow in Hal by done. cbn [content ver0] in Hal. rewrite lookup_empty in Hal. by destruct Hal. }
  inversion Hs as [? ? ? S1| | | | | |]; subst. inversion S1; subst. cbn [apart]. rewrite Hm. intros (_ & _ & B5).
  assert (HF : Forall (fun g : ver U => forall X, since g X < 1 + length ops) gs). { eapply yrun_since; [exact Hr|]. constructor; [|constructor]. intros Y. cbn. lia. }
  rewrite (app_nth1 gs _ ver0 Hj) in B5. rewrite app_nth2 in B5 by lia. rewrite Nat.sub_diag in B5. cbn [nth remade since] in B5. rewrite decide_True in B5 by done.
  assert (Ej : gs !! i0 = Some (nth i0 gs ver0)). { destruct (nth_lookup_or_length gs i0 ver0) as [E|E]; [done|lia]. }
  pose proof (proj1 (Forall_lookup _ _) HF i0 _ Ej q) as Hl. lia.
Qed.
End own.
