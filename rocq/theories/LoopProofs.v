(** * Proofs: a loop over the nodes of a radix tree that sets their values. *)
From Verif Require Import Prog History NumSpec NumModel NumFun NumAbs NumFoot NumBits NumSim NumInplace NumNavSpec NumNavProofs NumLoc VersSpec NumShare VersProofs NumExact StampSpec StampProofs WorkProofs IpUpd3 HandleSpec HandleProofs HandleProofs2 LoopSpec.
From Verif Require Import Channel ChanUpdModel ChanUpdProofs.
Open Scope nat_scope.

(** The client of HandleProofs.v; here its trees and the nodes it keeps are results, too. *)
Fixpoint y_all {U} (c : cfg) (ops : list (yop U)) (vs ns : list ptr) : prog U (list ptr * list ptr * list (nout U)) :=
  match ops with
  | [] => Ret (vs, ns, [])
  | o :: ops => r <- y_exec c vs ns o ;; x <- y_all c ops r.1.1 r.1.2 ;; Ret (x.1, r.2 :: x.2)
  end.

Section code.
Context {U St : Type} (c : cfg).
Variable f : St -> nentry (U := U) -> St * option (value U).
(** "s, v, ok = f(s, n.Key, n.Bits, n.Value); if ok { n.Value = v }" for the node at [l]: the
    body of the client's loop. *)
Definition body (s : St) (l : loc) : prog U St :=
  nn <- ld_num (Some l) ;;
  match (f s (nn_key nn, nn_bits nn, nn_val nn)).2 with
  | Some v => st_num (Some l) (NumN (nn_key nn) (nn_bits nn) (nn_leaf nn) v (nn_c0 nn) (nn_c1 nn)) ;;; Ret (f s (nn_key nn, nn_bits nn, nn_val nn)).1
  | None => Ret (f s (nn_key nn, nn_bits nn, nn_val nn)).1
  end.
(** "for n := range tree.Enumerate() { body }": Enumerate (numtree/node32.go:88-104) starts a
    goroutine that walks the tree (307-320, [s_n_ptrs] in ChanUpdModel.v) and sends its nodes
    while the loop writes to them. *)
Definition c_loop (tree : ptr) (s : St) : act U St := ARange (s_n_ptrs c tree) None s (fun s l => ado (body s l) ARet) ARet.

(** The nodes collected first. *)
Fixpoint seq_loop (s : St) (ls : list loc) : prog U St :=
  match ls with [] => Ret s | l :: ls => s <- body s l ;; seq_loop s ls end.

Lemma does_body (h0 : heap U) s l : does h0 (ado (body s l) ARet) (body s l).
Proof.
  intros h W Q Hl H. unfold body in *. cbn [ld_num load bind] in H |- *. cbn [wp] in H. destruct H as (x & E & H).
  cbn [ado exec]. rewrite E. destruct x as [|nn| | | |]; try (cbn in H; done). cbn [bind] in *.
  destruct (f s _) as [s1 [v|]]; cbn [fst snd] in *.
  - cbn [st_num bind store wp ado exec] in *. destruct H as (_ & _ & H). rewrite E. eexists _, _, _, _. split; [done|]. split; [exact H|].
    destruct (like_get _ _ _ _ Hl E) as (x0 & E0 & Hx). eapply like_insert; [done|exact E0|]. destruct x0; try (cbn in Hx; done).
  - cbn [wp ado exec] in *. eexists _, _, _, _. split; [done|]. split; [exact H|done].
Qed.
Lemma ok_body (h0 : heap U) s l : okact h0 (ado (body s l) ARet).
Proof.
  unfold body. cbn [ld_num load bind ado]. constructor. intros x x0 E0 Hx. destruct x as [|nn| | | |]; try constructor. cbn [bind].
  destruct (f s _) as [s1 [v|]]; cbn [fst snd]; [|constructor]. cbn [st_num bind store ado]. econstructor; [exact E0| |constructor].
  destruct x0; try (cbn in Hx; done).
Qed.
Lemma loop_always h tree s W Q : wp (xs <- n_enumerate c tree ;; seq_loop s (map fst xs)) h W Q ->
  exists h' s' W', Q s' h' W' /\ always h (c_loop tree s) h' s' /\ like h' h.
Proof.
  intros H. destruct (does_all h c tree s (fun s l => ado (body s l) ARet) body seq_loop (fun _ => eq_refl) (fun _ _ _ _ _ _ x => x) (does_body h) h W Q (like_refl h) H) as (h' & s' & k & W' & E & HQ & Hl).
  exists h', s', W'. split; [done|]. split; [|done]. eapply exec_always; [|exact E]. apply ok_loop. apply ok_body.
Qed.

Context (Hc : cfg_ok c).
Local Notation ver := (ver U).
Local Notation ver0 := (ver0 U).
Local Notation W := (cW c).
Implicit Types (h : heap U) (L : gset loc) (K : loc -> nat).

Lemma y_all_exact ops : forall h (WS : gset loc) L K (n : nat) (vs ns : list ptr) (gs : list ver) hs, dom h ⊆ WS -> inv c h L K n vs gs -> Forall2 (kept c h L K gs) ns hs -> Forall (yop_ok W) ops ->
  wp (y_all c ops vs ns) h WS (fun r h' WS' => dom h' ⊆ WS' /\ exists L' K' gs' hs', yrun W n ops gs hs gs' hs' r.2 /\ inv c h' L' K' (n + length ops) r.1.1 gs' /\ Forall2 (kept c h' L' K' gs') r.1.2 hs').
Proof using Hc.
  induction ops as [|o ops IH]; intros h WS L K n vs ns gs hs HWS HI HH Hok; cbn [y_all].
  - cbn [wp yrun fst snd length]. split; [done|]. rewrite Nat.add_0_r. by exists L, K, gs, hs.
  - inversion Hok as [|? ? Ho Hops]; subst. apply wp_bind. eapply wp_mono; [by apply (y_exec_exact c Hc h WS L K n vs ns gs hs o)|]. cbn beta. intros r h1 W1 (D & L1 & K1 & gs1 & hs1 & A1 & A2 & A3).
    apply wp_bind. eapply wp_mono; [by apply (IH h1 W1 L1 K1 (S n) r.1.1 r.1.2 gs1 hs1)|]. cbn beta. intros r2 h2 W2 (D2 & L2 & K2 & gs' & hs' & B1 & B2 & B3). cbn [wp fst snd]. split; [done|].
    exists L2, K2, gs', hs'. split_and!; [cbn [yrun]; by exists gs1, hs1| |done]. cbn [length]. by replace (n + S (length ops)) with (S n + length ops) by lia.
Qed.

(** The sequential loop. *)
Lemma seq_loop_exact (xs : list (loc * numnode U)) : forall h (WS : gset loc) L K (n i : nat) (vs ns : list ptr) (gs : list ver) hs s, dom h ⊆ WS -> inv c h L K n vs gs -> Forall2 (kept c h L K gs) ns hs ->
  NoDup (map (fun x => norm W (nn_key x.2) (nn_bits x.2)) xs) ->
  (forall x, x ∈ xs -> let q := norm W (nn_key x.2) (nn_bits x.2) in x.1 ∈ L /\ place c h x.1 q /\ K x.1 = since (nth i gs ver0) q /\ content (nth i gs ver0) !! q = Some (nn_key x.2, nn_val x.2)) ->
  wp (seq_loop s (map fst xs)) h WS (fun s' h' WS' => dom h' ⊆ WS' /\
    let y := calls f s (map as_entry xs) in let gs' := written W i (map as_entry xs) y.2 gs in
    s' = y.1 /\ inv c h' L K n vs gs' /\ Forall2 (kept c h' L K gs') ns hs).
Proof using Hc.
  induction xs as [|x xs IH]; intros h WS L K n i vs ns gs hs s HWS HI HH Hnd Hall; cbn [map seq_loop calls written fst snd].
  - cbn [wp]. by split.
  - cbn [map] in Hnd. apply NoDup_cons in Hnd as [Hx Hnd]. destruct (Hall x ltac:(by left)) as (A1 & A2 & A3 & A4). set (q := norm W (nn_key x.2) (nn_bits x.2)) in *.
    destruct (kept_cell c Hc _ _ _ _ _ _ _ _ _ _ _ HI A1 A2 A3 A4) as (c0 & c1 & E & Eq). assert (Eb : q.1 = nn_bits x.2) by done. rewrite Eb in E.
    apply wp_bind. unfold body. apply wp_bind. eapply wp_ld_num; [exact E|]. cbn [nn_key nn_bits nn_leaf nn_val nn_c0 nn_c1]. change (as_entry x) with (nn_key x.2, nn_bits x.2, nn_val x.2).
    destruct (f s (nn_key x.2, nn_bits x.2, nn_val x.2)) as [s1 [v|]] eqn:Ef; cbn [fst snd].
    + apply wp_bind. assert (Had : x.1 ∈ dom h) by (by eapply elem_of_dom_2). eapply wp_st_num; [by apply HWS|by eexists|]. cbn [wp].
      rewrite <- Eb in E |- *. destruct (set_inv c Hc h L K n vs gs i q x.1 (nn_key x.2) (nn_val x.2) v c0 c1 HI A1 A3 A4 E Eq) as [B1 B2].
      fold (write i q v gs) in B1. eapply wp_mono; [apply (IH _ _ L K n i vs ns (write i q v gs) hs s1)|].
      * rewrite dom_insert_L. clear -HWS Had. set_solver.
      * exact B1.
      * eapply Forall2_impl; [exact HH|]. cbn beta. intros p [[i1 q1]|]; [|done]. intros (a1 & -> & C1 & C2 & C3 & C4). destruct (set_kept gs i q v i1 q1 C4) as [D1 D2]. exists a1. split_and!; [done|done|by apply B2|unfold write; congruence|done].
      * done.
      * intros y Hy. destruct (Hall y ltac:(by right)) as (C1 & C2 & C3 & C4). set (r := norm W (nn_key y.2) (nn_bits y.2)) in *. assert (Hne : r <> q) by (intros E1; apply Hx; rewrite <- E1; apply elem_of_list_fmap; by exists y).
        assert (Hsome : is_Some (content (nth i gs ver0) !! r)) by (rewrite C4; by eexists). destruct (set_kept gs i q v i r Hsome) as [D1 D2].
        cbn beta zeta. fold r. split_and!; [done|by apply B2|unfold write; congruence|]. rewrite <- C4. unfold write.
        set (g := fun g0 : ver => if decide (both (nth i gs ver0) g0 q) then valued g0 q v else g0).
        assert (Hi : i < length gs). { destruct (Nat.lt_ge_cases i (length gs)) as [?|Hi]; [done|]. rewrite nth_overflow in C4 by done. cbn [content ver0] in C4. by rewrite lookup_empty in C4. }
        rewrite (nth_indep _ ver0 (g ver0)) by (by rewrite map_length). rewrite map_nth. unfold g. destruct (decide _); [|done]. cbn [valued content]. by apply lookup_alter_ne.
      * cbn beta. intros s' h' WS' H. exact H.
    + cbn [wp]. eapply wp_mono; [apply (IH h WS L K n i vs ns gs hs s1)|]; [done|done|done|done|intros y Hy; apply Hall; by right|]. cbn beta. intros s' h' WS' H. exact H.
Qed.

Lemma pf_loop h ops : Forall (yop_ok W) ops ->
  wp (y_all c ops [None] []) h (dom h) (fun r h1 _ => exists gs hs, yrun W 1 ops [ver0] [] gs hs r.2 /\
    forall i s, exists l h2, s_enum W (content (nth i gs ver0)) l /\ let y := calls f s l in
      always h1 (c_loop (nth i r.1.1 None) s) h2 y.1 /\ like h2 h1 /\
      forall ops2, Forall (yop_ok W) ops2 -> wp (y_hist c ops2 r.1.1 r.1.2) h2 (dom h2) (fun r2 _ _ => exists gs' hs', yrun W (S (length ops)) ops2 (written W i l y.2 gs) hs gs' hs' r2)).
Proof using Hc.
  intros Hok. assert (H0 : inv c h ∅ (fun _ => 0) 1 [None] [ver0]).
  { split; [split_and!; [apply empty_subseteq| |]|].
    - intros a Ha. by apply not_elem_of_empty in Ha.
    - intros a a' X Ha. by apply not_elem_of_empty in Ha.
    - constructor; [|constructor]. exists ∅. split; [apply empty_subseteq|]. exists NE. split_and!; [done|done|apply nabs_empty|]. intros a X Ha. by apply not_elem_of_empty in Ha. }
  eapply wp_mono; [apply (y_all_exact ops h (dom h) ∅ (fun _ => 0) 1 [None] [] [ver0] [] (reflexivity _) H0 (List.Forall2_nil _) Hok)|].
  cbn beta. intros r h1 W1 (_ & L & K & gs & hs & A1 & A2 & A3). exists gs, hs. split; [done|]. intros i s.
  destruct (inv_nth c _ _ _ _ _ _ i A2) as (F & HF & t & Hw & Ho & Hn & HKF).
  pose proof (enum_in c Hc h1 F t _ _ (dom h1) Hw Ho Hn) as He.
  assert (Hseq : wp (xs <- n_enumerate c (nth i r.1.1 None) ;; seq_loop s (map fst xs)) h1 (dom h1) (fun s' h' WS' => exists l, s_enum W (content (nth i gs ver0)) l /\
    let y := calls f s l in s' = y.1 /\ inv c h' L K (1 + length ops) r.1.1 (written W i l y.2 gs) /\ Forall2 (kept c h' L K (written W i l y.2 gs)) r.1.2 hs)).
  { apply wp_bind. eapply wp_mono; [exact He|]. cbn beta. intros xs h' WS' (-> & HW & Hs & Hall). eapply wp_mono; [apply (seq_loop_exact xs h1 WS' L K (1 + length ops) i r.1.1 r.1.2 gs hs s HW A2 A3)|].
    - pose proof (enum_nodup _ _ _ Hs) as Hnd. rewrite map_map in Hnd. exact Hnd.
    - intros x Hx q. destruct (Hall x Hx) as (C1 & C2 & _). fold q in C2. split_and!; [by apply HF|done|by apply HKF|].
      destruct Hs as [_ Hs]. apply (Hs q). split; [|done]. apply elem_of_list_fmap. by exists x.
    - cbn beta. intros s' h2 WS2 (_ & B). by exists (map as_entry xs). }
  destruct (loop_always _ _ _ _ _ Hseq) as (h2 & s2 & W2 & (l & Hl & -> & B2 & B3) & Hal & Hlike). exists l, h2. split; [done|]. cbn zeta. split_and!; [done|done|].
  intros ops2 Hok2. by apply (y_hist_exact c Hc ops2 h2 (dom h2) L K (S (length ops)) _ _ _ _ (reflexivity _) B2 B3).
Qed.
End code.

(** What the loop makes of the versions. *)
Section spec.
Context {U : Type} (W : N).
Local Notation ver := (ver U).
Local Notation ver0 := (ver0 U).
Lemma written_eff (l : list (nentry (U := U))) : forall (rs : list (option (value U))) (i : nat) (gs : list ver), NoDup (map (fun e : nentry => norm W e.1.1 e.1.2) l) -> length rs = length l ->
  forall j, let g := nth j gs ver0 in let g' := nth j (written W i l rs gs) ver0 in
  (forall p e o, l !! p = Some e -> rs !! p = Some o -> both (nth i gs ver0) g (norm W e.1.1 e.1.2) -> content g' !! norm W e.1.1 e.1.2 = (fun kv => (kv.1, default kv.2 o)) <$> content g !! norm W e.1.1 e.1.2) /\
  (forall r, r ∉ map (fun e : nentry => norm W e.1.1 e.1.2) l \/ ~ both (nth i gs ver0) g r -> content g' !! r = content g !! r) /\ since g' = since g.
Proof.
  induction l as [|e l IH]; intros [|o rs] i gs Hnd Hlen j; try done; cbn zeta.
  cbn [map] in Hnd |- *. apply NoDup_cons in Hnd as [Hq1 Hnd]. set (q := norm W e.1.1 e.1.2) in *.
  destruct o as [v|]; cbn [written].
  - fold q. unfold write. set (f := fun g => if decide (both (nth i gs ver0) g q) then valued g q v else g).
    assert (Hf : forall j, nth j (map f gs) ver0 = f (nth j gs ver0)).
    { intros j0. rewrite <- (map_nth f). f_equal. unfold f. rewrite decide_False; [done|]. intros (_ & H & _). cbn [content ver0] in H. rewrite lookup_empty in H. by destruct H. }
    assert (Hs : forall g r, is_Some (content (f g) !! r) <-> is_Some (content g !! r)) by (intros g r; unfold f; destruct (decide _); [cbn [valued content]; apply lookup_alter_is_Some|done]).
    assert (Hw : forall g, since (f g) = since g) by (intros g; unfold f; by destruct (decide _)).
    assert (Hb : forall j r, both (nth i (map f gs) ver0) (nth j (map f gs) ver0) r <-> both (nth i gs ver0) (nth j gs ver0) r) by (intros j0 r; rewrite !Hf; unfold both; by rewrite !Hs, !Hw).
    assert (Hq : forall g r, r <> q -> content (f g) !! r = content g !! r) by (intros g r Hne; unfold f; destruct (decide _); [cbn [valued content]; by apply lookup_alter_ne|done]).
    destruct (IH rs i (map f gs) Hnd ltac:(by injection Hlen) j) as (B1 & B2 & B3). split_and!.
    + intros [|p] e1 o1 E1 E2 Hbo; cbn [lookup list_lookup] in E1, E2.
      * injection E1 as <-. injection E2 as <-. fold q in Hbo |- *. rewrite B2 by (by left). rewrite Hf. unfold f. rewrite decide_True by done. cbn [valued content]. by rewrite lookup_alter.
      * rewrite (B1 p e1 o1 E1 E2 ltac:(by apply Hb)). rewrite Hf, Hq; [done|]. intros Ee. apply Hq1. rewrite <- Ee. apply elem_of_list_fmap. exists e1. split; [done|]. by eapply elem_of_list_lookup_2.
    + intros r Hr. rewrite B2; [|rewrite Hb; destruct Hr as [Hr|Hr]; [left; by apply not_elem_of_cons in Hr as [_ ?]|by right]]. rewrite Hf. destruct Hr as [Hr|Hr].
      * apply Hq. intros ->. apply Hr. by left.
      * destruct (decide (r = q)) as [->|Hne]; [|by apply Hq]. unfold f. by rewrite decide_False.
    + by rewrite B3, Hf.
  - destruct (IH rs i gs Hnd ltac:(by injection Hlen) j) as (B1 & B2 & B3). split_and!; [| |done].
    + intros [|p] e1 o1 E1 E2 Hbo; cbn [lookup list_lookup] in E1, E2.
      * injection E1 as <-. injection E2 as <-. fold q. rewrite B2 by (by left). destruct (content (nth j gs ver0) !! q) as [[? ?]|]; done.
      * by apply (B1 p).
    + intros r Hr. apply B2. destruct Hr as [Hr|Hr]; [left; by apply not_elem_of_cons in Hr as [_ ?]|by right].
Qed.
Lemma calls_length {St} (f : St -> nentry (U := U) -> St * option (value U)) l : forall s, length (calls f s l).2 = length l.
Proof. induction l as [|e l IH]; intros s; cbn [calls snd length]; [done|]. by rewrite IH. Qed.
Lemma pf_written {St} (f : St -> nentry (U := U) -> St * option (value U)) s (i : nat) (gs : list ver) l : s_enum W (content (nth i gs ver0)) l ->
  let rs := (calls f s l).2 in
  forall j, let g := nth j gs ver0 in let g' := nth j (written W i l rs gs) ver0 in
  (forall r, both (nth i gs ver0) g r -> exists p k v0 o kv, l !! p = Some (k, r.1, v0) /\ r = norm W k r.1 /\ rs !! p = Some o /\ content g !! r = Some kv /\ content g' !! r = Some (kv.1, default kv.2 o)) /\
  (forall r, ~ both (nth i gs ver0) g r -> content g' !! r = content g !! r) /\ since g' = since g.
Proof.
  intros Hl rs j g g'. destruct (written_eff l rs i gs (enum_nodup _ _ _ Hl) (calls_length f l s) j) as (B1 & B2 & B3). split_and!; [|intros r Hr; apply B2; by right|done].
  intros r Hr. pose proof Hr as ([[k v0] E1] & [kv E2] & _). destruct Hl as [_ Hl]. pose proof (proj1 (Hl _ _ _) E1) as [Hin Hq]. apply elem_of_list_lookup in Hin as [p Hp].
  destruct (lookup_lt_is_Some_2 rs p) as [o Ho]; [unfold rs; rewrite calls_length; by eapply lookup_lt_Some|]. exists p, k, v0, o, kv. split_and!; [done|done|done|done|].
  pose proof (B1 p (k, r.1, v0) o Hp Ho) as B. cbn [fst snd] in B. rewrite <- Hq in B. unfold g', g in *. by rewrite B, E2.
Qed.
Lemma pf_itself {St} (f : St -> nentry (U := U) -> St * option (value U)) s (i : nat) (gs : list ver) l : s_enum W (content (nth i gs ver0)) l ->
  let rs := (calls f s l).2 in s_enum W (content (nth i (written W i l rs gs) ver0)) (zip_with (fun e o => (e.1, default e.2 o)) l rs).
Proof.
  intros Hl rs. destruct (written_eff l rs i gs (enum_nodup _ _ _ Hl) (calls_length f l s) i) as (B1 & B2 & _). assert (Hlen : length rs = length l) by apply calls_length.
  destruct Hl as [Hs Hl]. clearbody rs. split.
  - clear -Hs. revert rs. induction Hs as [|e l Hs IH HF]; intros [|o rs]; cbn [zip_with]; [constructor|constructor|constructor|]. constructor; [apply IH|].
    clear -HF. revert rs. induction HF as [|e1 l H HF IH]; intros [|o1 rs]; cbn [zip_with]; constructor; [exact H|apply IH].
  - assert (Hb : forall r, is_Some (content (nth i gs ver0) !! r) -> both (nth i gs ver0) (nth i gs ver0) r) by (by intros r ?).
    assert (Hput : forall p k b v0 o, l !! p = Some (k, b, v0) -> rs !! p = Some o -> content (nth i (written W i l rs gs) ver0) !! norm W k b = Some (k, default v0 o)).
    { intros p k b v0 o Hp Ho. assert (E : content (nth i gs ver0) !! norm W k b = Some (k, v0)) by (apply (Hl (norm W k b)); split; [by eapply elem_of_list_lookup_2|done]).
      pose proof (B1 p (k, b, v0) o Hp Ho) as B. cbn [fst snd] in B. rewrite B, E; [done|]. apply Hb. by eexists. }
    intros q k v. split.
    + intros E. assert (Hsome : both (nth i gs ver0) (nth i gs ver0) q).
      { destruct (decide (both (nth i gs ver0) (nth i gs ver0) q)) as [Hs1|Hnb]; [exact Hs1|]. apply Hb. destruct (B2 q (or_intror Hnb)). by eexists. }
      destruct Hsome as ([[k0 v0] E0] & _). pose proof (proj1 (Hl _ _ _) E0) as [Hin Hq]. apply elem_of_list_lookup in Hin as [p Hp].
      destruct (lookup_lt_is_Some_2 rs p) as [o Ho]; [rewrite Hlen; by eapply lookup_lt_Some|]. pose proof (Hput p _ _ _ _ Hp Ho) as E1. rewrite <- Hq in E1. pose proof (eq_trans (eq_sym E) E1) as E2. injection E2 as -> ->. split; [|done].
      apply elem_of_list_lookup. exists p. rewrite lookup_zip_with, Hp. cbn [mbind option_bind]. by rewrite Ho.
    + intros [Hin Hq]. apply elem_of_list_lookup in Hin as [p Hp]. apply lookup_zip_with_Some in Hp as ([[k0 b0] v0] & o & [= -> <- ->] & Hp & Ho). rewrite Hq at 1. by apply (Hput p).
Qed.
End spec.
