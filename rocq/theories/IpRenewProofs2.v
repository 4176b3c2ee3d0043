(** * Proofs for Properties_ip_renew.v: what follows from the specification. *)
From Verif Require Import Prog History NumModel NumSpec NumAbs NumFoot NumBits NumNavSpec NumNavProofs NumShare IpModel IpSpec IpUpdSpec IpBits IpAbs IpAbs2 IpAbs3 IpAbs4 IpEnum IpHist IpPropProofs IpUpdProofs WorkProofs.
From Verif Require Import StampSpec StampProofs StampTree IpVersSpec IpVersProofs IpAllSpec IpAllProofs IpDeriveProofs IpStampSpec IpStampProofs IpRenewSpec IpRenew IpRenewProofs.
From Coq Require Import ZifyBool ZifyNat ZifyN.
Open Scope nat_scope.

Section spec.
Context {U St : Type}.
Local Notation value := (value U).
Local Notation ver := (ver U).
Local Notation ver0 := (ver0 U).
Local Notation iver := (iver U).
Local Notation iver0 := (iver0 U).
Local Notation inside := IpStampSpec.inside.
Implicit Types (n : nat) (v : value) (g : iver).

(** ** The updated version holds what the update says. *)
Lemma lists_pairs (G : net -> option value) e : lists G e -> forall p v, G p = Some v <-> exists ip m, (ip, m, v) ∈ e /\ canonical ip m p.
Proof.
  intros (ps & _ & Hps & Hf) p v. rewrite <- Hps. split.
  - intros H. apply elem_of_list_lookup in H as [i Hi]. destruct (Forall2_lookup_r _ _ _ _ _ Hf Hi) as ([[ip m] v'] & Hx & Ev & Hc). cbn [fst snd] in *. subst v'. apply elem_of_list_lookup_2 in Hx. by exists ip, m.
  - intros (ip & m & H & Hc). apply elem_of_list_lookup in H as [i Hi]. destruct (Forall2_lookup_l _ _ _ _ _ Hf Hi) as ([q v'] & Hx & Ev & Hc2). cbn [fst snd] in *. subst v'. apply elem_of_list_lookup_2 in Hx. by rewrite (canonical_fun _ _ _ _ Hc Hc2).
Qed.
Lemma lists_values (G G' : net -> option value) e : lists G e -> lists G' e -> forall q, G q = G' q.
Proof. intros H H' q. apply option_eq. intros v. by rewrite (lists_pairs _ _ H), (lists_pairs _ _ H'). Qed.
Lemma uwalk_nets (cb : St -> bytes * bytes * value -> St * option value) p s e s' e' : uwalk cb p s e s' e' -> map fst e' = map fst e.
Proof. induction 1 as [| ? ? ? ? ? ? ? ? ? ? ? ? ? ? ? IH| ? ? ? ? ? ? ? ? ? ? ? IH]; cbn [map fst]; congruence. Qed.
Lemma lists_none (G G' : net -> option value) e e' : lists G e -> lists G' e' -> map fst e' = map fst e -> forall q, G q = None <-> G' q = None.
Proof.
  intros H H' E q. assert (Hone : forall (G G' : net -> option value) e e', lists G e -> lists G' e' -> map fst e' = map fst e -> G q <> None -> G' q <> None).
  { clear. intros G G' e e' H H' E Hq. destruct (G q) as [v|] eqn:Eq; [|done]. apply (lists_pairs _ _ H) in Eq as (ip & m & Hin & Hc). apply (elem_of_list_fmap_1 fst) in Hin. cbn [fst] in Hin. change (fst <$> e) with (map fst e) in Hin. rewrite <- E in Hin.
    apply elem_of_list_fmap in Hin as ([im v'] & Ex & Hin). cbn [fst] in Ex. subst im. rewrite (proj2 (lists_pairs _ _ H' q v')); [done|by exists ip, m]. }
  pose proof (Hone G G' e e' H H' E). pose proof (Hone G' G e' e H' H (eq_sym E)). destruct (G q), (G' q); naive_solver.
Qed.
Lemma shared_refl g q : shared g g q <-> holds g q <> None.
Proof.
  unfold shared. split; [by intros [? _]|]. intros H. split; [done|]. unfold holds, common in *. destruct q as [[] q]; cbn [fst snd] in *; [destruct (q.1 <? 64)%N|]; (split; [|done]); apply not_eq_None_Some; intros E; by rewrite E in H.
Qed.
Lemma pf_renew_itself (cb : St -> bytes * bytes * value -> St * option value) p s s' e e' (G : net -> option value) g : lists (holds g) e -> uwalk cb p s e s' e' -> lists G e' -> forall q, holds (followed G g g) q = G q.
Proof.
  intros H Hw H' q. rewrite pf_renew_holds. pose proof (lists_none _ _ _ _ H H' (uwalk_nets _ _ _ _ _ _ Hw) q) as Hn. destruct (decide (shared g g q)) as [Hs|Hs].
  - apply shared_refl in Hs. destruct (G q); [done|]. by destruct Hs; apply Hn.
  - rewrite shared_refl in Hs. assert (E : holds g q = None) by (destruct (holds g q); [by destruct Hs|done]). rewrite E. symmetry. by apply Hn.
Qed.

(** ** The results are determined. *)
Lemma same_refl g : same g g.
Proof. done. Qed.
Lemma same_sym g g' : same g g' -> same g' g.
Proof. intros (A & B & C & D). by split_and!. Qed.
Lemma same_nth (gs gs' : list iver) i : Forall2 same gs gs' -> same (nth i gs iver0) (nth i gs' iver0).
Proof. intros H. revert i. induction H as [|g g' gs gs' Hg H IH]; intros [|i]; cbn [nth]; [done|done|done|apply IH]. Qed.
Lemma same_holds g g' : same g g' -> forall q, holds g q = holds g' q.
Proof. intros (A & B & C & D) q. unfold holds. by rewrite B, C, D. Qed.
Lemma same_inserted n g g' p v : same g g' -> same (inserted n g p v) (inserted n g' p v).
Proof.
  intros (A & B & C & D). unfold inserted. destruct p.1; [destruct (p.2.1 <? 64)%N|]; split_and!; cbn [obj four upper IpStampSpec.inside]; try done; try congruence. intros x. unfold at_half. destruct (decide _); [by rewrite D|done].
Qed.
Lemma same_deleted n g g' p : same g g' -> same (deleted n g p) (deleted n g' p).
Proof.
  intros (A & B & C & D). unfold deleted. destruct p.1; [destruct (p.2.1 <? 64)%N|]; split_and!; cbn [obj four upper IpStampSpec.inside]; try done; try congruence; rewrite ?C, ?D; try done; intros x; unfold at_half; destruct (decide _); by rewrite ?D.
Qed.
Lemma same_affected n g g' p v : same g g' -> same (affected n g p v) (affected n g' p v).
Proof.
  intros (A & B & C & D). unfold affected. destruct p.1; [destruct (p.2.1 <? 64)%N|]; split_and!; cbn [obj four upper IpStampSpec.inside]; try done; try congruence. intros x. unfold at_half. destruct (decide _); [by rewrite D|done].
Qed.
Lemma same_reached g1 g1' g g' p : same g1 g1' -> same g g' -> reached g1 g p <-> reached g1' g' p.
Proof. intros (A & B & C & D) (A' & B' & C' & D'). unfold reached. by rewrite A, A', B, B', C, C', D, D'. Qed.
Lemma renewed_ext (f f' : pfx -> option value) (g1 g : ver) : (forall q, f q = f' q) -> renewed f g1 g = renewed f' g1 g.
Proof. intros H. unfold renewed. f_equal. apply map_imap_ext. intros q. by rewrite H. Qed.
Lemma same_followed (G G' : net -> option value) g1 g1' g g' : (forall q, G q = G' q) -> same g1 g1' -> same g g' -> same (followed G g1 g) (followed G' g1' g').
Proof.
  intros HG (A & B & C & D) (A' & B' & C' & D'). unfold followed. split_and!; cbn [obj four upper IpStampSpec.inside]; [done|rewrite B, B'|rewrite C, C'|intros x; rewrite D, D']; apply renewed_ext; intros q; [|destruct (q.1 <? 64)%N|]; auto.
Qed.
Lemma closest_ext (G G' : net -> option value) q r : (forall q, G q = G' q) -> closest G q r -> closest G' q r.
Proof.
  intros H. destruct r as [v|]; cbn [closest].
  - intros (p & A & B & C). exists p. split_and!; [by rewrite <- H|done|]. intros p' v' E. apply (C p' v'). by rewrite H.
  - intros C p v E. apply (C p v). by rewrite H.
Qed.
Lemma lists_ext (G G' : net -> option value) e : (forall q, G q = G' q) -> lists G e -> lists G' e.
Proof. intros H (ps & A & B & C). exists ps. split_and!; [done| |done]. intros p v. by rewrite B, H. Qed.
Lemma target_ext g g' nt p : same g g' -> target g nt p -> target g' nt p.
Proof.
  intros H. pose proof (same_holds _ _ H) as E. unfold target. intros [[v Hv]|[A B]]; [left; exists v; by rewrite <- E|right]. split; [done|].
  eapply (around_ext _ (fun q => exists v, holds g q = Some v)); [|exact B]. intros q. by rewrite E.
Qed.
Lemma istep_same n (gs gs2 : list iver) o gs1 x : istep n gs o gs1 x -> Forall2 same gs gs2 -> exists gs3, istep n gs2 o gs3 x /\ Forall2 same gs1 gs3.
Proof.
  intros H HF. assert (Hsnoc : forall g g', same g g' -> Forall2 same (gs ++ [g]) (gs2 ++ [g'])) by (intros g g' Hg; apply Forall2_app; [done|by constructor]).
  inversion H as [|i k v p Hk|i k v Hk|i k p Hk (q & v & C1 & C2)|i k r Hk Hn|i k p res Hk Hc|i k Hk|i e He|i k v p gs' Hk Ho F|i k v Hno]; subst; pose proof (same_nth _ gs2 i HF) as Hs || idtac.
  - eexists. split; [constructor|]. by apply Hsnoc.
  - eexists. split; [by econstructor|]. by apply Hsnoc, same_inserted.
  - eexists. split; [by constructor|]. by apply Hsnoc.
  - eexists. split; [apply is_delete; [done|]; exists q, v; by rewrite <- (same_holds _ _ Hs)|]. by apply Hsnoc, same_deleted.
  - eexists. split; [apply (is_delete_not _ _ _ _ r); [done|]; intros p q v E; rewrite <- (same_holds _ _ Hs); by apply Hn|]. by apply Hsnoc.
  - exists gs2. split; [|done]. econstructor; [done|]. eapply closest_ext; [|exact Hc]. by apply same_holds.
  - exists gs2. split; [by constructor|done].
  - exists gs2. split; [|done]. constructor. eapply lists_ext; [|exact He]. by apply same_holds.
  - assert (Hx : exists gs3, Forall2 (fun g g' => (reached (nth i gs2 iver0) g p -> g' = affected n g p v) /\ (~ reached (nth i gs2 iver0) g p -> g' = g)) gs2 gs3 /\ Forall2 same gs1 gs3).
    { clear H Ho Hsnoc. revert Hs F. generalize (nth i gs iver0) (nth i gs2 iver0). intros g0 g0' Hs. revert gs1. induction HF as [|g g' gs gs2 Hg HF IH]; intros gs1 F; inversion F as [|? y ? gs1' [A B] F']; subst; [exists []; by split|].
      destruct (IH gs1' F') as (gs3 & I1 & I2). destruct (decide (reached g0 g p)) as [D|D].
      - exists (affected n g' p v :: gs3). split; (constructor; [|done]); [|rewrite (A D); by apply same_affected]. split; [done|]. intros D'. destruct D'. by apply (same_reached g0 g0' g g' p Hs Hg).
      - exists (g' :: gs3). split; (constructor; [|done]); [|by rewrite (B D)]. split; [|done]. intros D'. destruct D. by apply (same_reached g0 g0' g g' p Hs Hg). }
    destruct Hx as (gs3 & X1 & X2). exists gs3. split; [|done]. econstructor; [done| |done]. destruct Hs as (E & _). congruence.
  - exists gs2. split; [|done]. constructor. destruct Hno as [?|?]; [by left|right]. destruct Hs as (E & _). congruence.
Qed.
Lemma rstep_fun n (gs gs' : list iver) (o : aop value St) gs1 x1 gs2 x2 : Forall2 same gs gs' -> rstep n gs o gs1 x1 -> rstep n gs' o gs2 x2 -> Forall2 same gs1 gs2 /\ x1 = x2.
Proof.
  intros HF H1 H2. destruct o as [o|i nt cb s].
  { inversion H1 as [? ? ? I1| | |]; subst. inversion H2 as [? ? ? I2| | |]; subst. destruct (istep_same _ _ _ _ _ _ I1 HF) as (gs3 & I3 & HF3). destruct (istep_fun _ _ _ _ _ _ _ I2 I3) as [-> ->]. done. }
  pose proof (same_nth gs gs' i HF) as Hs. pose proof (same_holds _ _ Hs) as Hh.
  inversion H1 as [|? ? ? ? N1|? ? p ? ? P1 T1|? ? p ? ? s1 e1 e1' G1 O1 P1 T1 E1 W1 L1]; subst; inversion H2 as [|? ? ? ? N2|? ? p2 ? ? P2 T2|? ? p2 ? ? s2 e2 e2' G2 O2 P2 T2 E2 W2 L2]; subst; try done.
  - exfalso. destruct N1 as [N1|N1]; [|by apply (N1 p2)]. destruct Hs as (E & _). congruence.
  - exfalso. pose proof (net_is_fun _ _ _ P1 P2) as ->. apply T1. eapply target_ext; [apply same_sym; exact Hs|done].
  - exfalso. destruct N2 as [N2|N2]; [|by apply (N2 p)]. destruct Hs as (E & _). congruence.
  - exfalso. pose proof (net_is_fun _ _ _ P1 P2) as ->. apply T2. by eapply target_ext.
  - pose proof (net_is_fun _ _ _ P1 P2) as ->. assert (e1 = e2) as -> by (eapply lists_fun; [|exact E2]; by eapply lists_ext). destruct (uwalk_fun cb _ _ _ _ _ _ _ W1 W2) as [-> ->]. split; [|done].
    apply Forall2_fmap. eapply Forall2_impl; [exact HF|]. intros g g' Hg. apply same_followed; [by eapply lists_values|done|done].
Qed.
Lemma pf_renew_determined (ops : list (aop value St)) : forall n (gs gs' : list iver) gs1 x1 gs2 x2, Forall2 same gs gs' -> rrun n ops gs gs1 x1 -> rrun n ops gs' gs2 x2 -> Forall2 same gs1 gs2 /\ x1 = x2.
Proof.
  induction ops as [|o ops IH]; intros n gs gs' gs1 [|y1 x1] gs2 [|y2 x2] HF; cbn [rrun]; try done; [by intros -> ->|].
  intros (g1 & A1 & A2) (g2 & B1 & B2). destruct (rstep_fun _ _ _ _ _ _ _ _ HF A1 B1) as [HF2 ->]. destruct (IH _ _ _ _ _ _ _ HF2 A2 B2) as [? ->]. done.
Qed.
Lemma pf_renew_results (ops : list (aop value St)) : Forall aop_ok ops -> Forall aop_single ops ->
  exists outs gs, rrun 1 ops [] gs outs /\ forall h, wp (run_hist a_exec ops []) h ∅ (fun r _ _ => r.2 = outs).
Proof.
  intros Hok Hsin. pose proof (pf_renew_exact ∅ ops Hok Hsin) as Hw.
  eapply (wp_run _ _ _ _ 1%positive) in Hw; [|intros l _; apply lookup_empty].
  destruct Hw as (a & h' & next' & W' & _ & (_ & gs & Hs) & _). exists a.2, gs. split; [done|]. intros h.
  eapply wp_mono; [by apply (pf_renew_exact h ops)|]. cbn beta. intros r h2 _ (_ & gs2 & Hs2). by destruct (pf_renew_determined _ _ _ _ _ _ _ _ (List.Forall2_nil same) Hs Hs2).
Qed.

(** ** A version and the one made from it by an insertion. *)
Definition aged n g : Prop := (forall X, since (four g) X < n) /\ (forall X, since (upper g) X < n) /\ forall x X, since (inside g x) X < n.
Definition young n (g : ver) : Prop := forall X, since g X < n.
Lemma remade_young n (g : ver) q m : young n g -> young (S n) (remade n g q m).
Proof. intros H X. cbn [since remade]. destruct (decide _); [lia|]. specialize (H X). lia. Qed.
Lemma grown_young n (g : ver) q v : young n g -> young (S n) (grown n g q v).
Proof. intros H X. cbn [since grown]. destruct (decide _); [specialize (H X); lia|lia]. Qed.
Lemma young_S n (g : ver) : young n g -> young (S n) g.
Proof. intros H X. specialize (H X). lia. Qed.
Lemma aged_S n g : aged n g -> aged (S n) g.
Proof. intros (A & B & C). split_and!; [exact (young_S _ _ A)|exact (young_S _ _ B)|exact (fun x => young_S _ _ (C x))]. Qed.
Lemma aged0 n : 0 < n -> aged n iver0.
Proof. intros H. by split_and!. Qed.
Lemma aged_nth n (gs : list iver) i : 0 < n -> Forall (aged n) gs -> aged n (nth i gs iver0).
Proof. intros Hn H. revert i. induction H as [|g gs Hg H IH]; intros [|i]; cbn [nth]; [by apply aged0|by apply aged0|done|apply IH]. Qed.
Lemma aged_inserted n g p v : aged n g -> aged (S n) (inserted n g p v).
Proof.
  intros (A & B & C). assert (A' := young_S _ _ A). assert (B' := young_S _ _ B). assert (C' := fun x => young_S _ _ (C x)).
  unfold inserted. destruct p.1; [destruct (p.2.1 <? 64)%N|]; split_and!; cbn [four upper IpStampSpec.inside]; try done; try (by apply remade_young). intros x. unfold at_half. destruct (decide _); [exact (remade_young _ _ _ _ (C _))|exact (C' _)].
Qed.
Lemma aged_deleted n g p : aged n g -> aged (S n) (deleted n g p).
Proof.
  intros (A & B & C). assert (A' := young_S _ _ A). assert (B' := young_S _ _ B). assert (C' := fun x => young_S _ _ (C x)).
  unfold deleted. destruct p.1; [destruct (p.2.1 <? 64)%N|]; split_and!; cbn [four upper IpStampSpec.inside]; try done; try (by apply remade_young); intros x; unfold at_half; destruct (decide _); try exact (C' _); [intros X; cbn; lia|exact (remade_young _ _ _ _ (C _))].
Qed.
Lemma aged_affected n g p v : aged n g -> aged (S n) (affected n g p v).
Proof.
  intros (A & B & C). assert (A' := young_S _ _ A). assert (B' := young_S _ _ B). assert (C' := fun x => young_S _ _ (C x)).
  unfold affected. destruct p.1; [destruct (p.2.1 <? 64)%N|]; split_and!; cbn [four upper IpStampSpec.inside]; try done; try (by apply grown_young). intros x. unfold at_half. destruct (decide _); [exact (grown_young _ _ _ _ (C _))|exact (C' _)].
Qed.
Lemma istep_aged n (gs : list iver) o gs' x : 0 < n -> istep n gs o gs' x -> Forall (aged n) gs -> Forall (aged (S n)) gs'.
Proof.
  intros Hn H HF. assert (HS : Forall (aged (S n)) gs) by (eapply Forall_impl; [exact HF|]; intros g; apply aged_S).
  assert (Hi := fun i => aged_nth n gs i Hn HF). assert (Hsnoc : forall g, aged (S n) g -> Forall (aged (S n)) (gs ++ [g])) by (intros g Hg; apply Forall_app; split; [done|by constructor]).
  inversion H as [|i k v p|i k v|i k p|i k|i k|i k|i|i k v p gs2 _ _ F|]; subst; try done; try (apply Hsnoc).
  - split_and!; cbn; intros; lia.
  - by apply aged_inserted.
  - by apply aged_S.
  - by apply aged_deleted.
  - by apply aged_S.
  - clear -F HF. generalize dependent (nth i gs iver0). intros g0 F. induction F as [|g g' gs gs' [A B] F IH]; [constructor|]. inversion HF as [|? ? H1 H2]; subst. constructor; [|by apply IH].
    destruct (decide (reached g0 g p)) as [E|E]; [rewrite (A E); by apply aged_affected|rewrite (B E); by apply aged_S].
Qed.
Lemma rstep_aged n (gs : list iver) (o : aop value St) gs' x : 0 < n -> rstep n gs o gs' x -> Forall (aged n) gs -> Forall (aged (S n)) gs'.
Proof.
  intros Hn H HF. assert (HS : Forall (aged (S n)) gs) by (eapply Forall_impl; [exact HF|]; intros g; apply aged_S).
  inversion H as [o' gs1 y Hi| | |]; subst; [by eapply istep_aged|done|done|]. apply Forall_fmap. eapply Forall_impl; [exact HS|]. intros g Hg. exact Hg.
Qed.
Lemma rrun_aged (ops : list (aop value St)) : forall n (gs : list iver) gs' x, 0 < n -> rrun n ops gs gs' x -> Forall (aged n) gs -> Forall (aged (n + length ops)) gs'.
Proof.
  induction ops as [|o ops IH]; intros n gs gs' [|y x] Hn; cbn [rrun length]; try done; [intros ->; by rewrite Nat.add_0_r|].
  intros (g1 & A1 & A2) HF. rewrite Nat.add_succ_r, <- Nat.add_succ_l. eapply IH; [lia|exact A2|]. by eapply rstep_aged.
Qed.
Lemma common_remade n (g : ver) q v X : young n g -> common (remade n g q (IpStampSpec.put (content g) q v)) g X <-> is_Some (content g !! X) /\ ~ covers X q.
Proof.
  intros Hy. unfold common. cbn [content since remade]. specialize (Hy X). rewrite (IpStamp.lookup_put (content g) q v X). destruct (decide (covers X q)) as [Hc|Hc].
  - split; [intros [_ ?]; lia|by intros [_ ?]].
  - rewrite decide_False; [tauto|]. intros ->. apply Hc. apply covers_refl.
Qed.
Lemma common_self (g : ver) X : common g g X <-> is_Some (content g !! X).
Proof. unfold common. tauto. Qed.
Lemma holds_some g q : holds g q <> None <-> is_Some (if q.1 then if (q.2.1 <? 64)%N then content (upper g) !! q.2 else content (inside g (half q.2)) !! rest q.2 else content (four g) !! q.2).
Proof. unfold holds. destruct (if q.1 then _ else _); split; intros H; first [done|by eexists|by destruct H]. Qed.
Lemma shared_child n g p v q : aged n g -> shared (inserted n g p v) g q <-> holds g q <> None /\ ~ ncovers q p.
Proof.
  intros (A & B & C). unfold shared. rewrite (holds_some g q). unfold inserted, ncovers. destruct p as [[] p], q as [[] q]; cbn [fst snd].
  - destruct (N.ltb_spec p.1 64) as [Hp|Hp], (N.ltb_spec q.1 64) as [Hq|Hq]; cbn [upper IpStampSpec.inside].
    + rewrite common_remade by exact B. tauto.
    + rewrite common_self. assert (~ covers q p) by (intros [H _]; lia). tauto.
    + rewrite common_remade by exact B. rewrite (cov_low q p) by lia. change (hi p) with (64%N, half p). tauto.
    + unfold at_half. destruct (decide (half q = half p)) as [E|E].
      * rewrite E. rewrite common_remade by exact (C _). rewrite (cov_high q p Hq Hp). change (hi p) with (64%N, half p). change (hi q) with (64%N, half q). rewrite E. change (lo p) with (rest p). change (lo q) with (rest q). tauto.
      * rewrite common_self. assert (~ covers q p). { rewrite (cov_high q p Hq Hp). intros [H _]. apply E. by injection H. } tauto.
  - assert (Hn : ~ (false = true /\ covers q p)) by (intros [H _]; discriminate H). destruct (p.1 <? 64)%N; cbn [four]; rewrite common_self; tauto.
  - assert (Hn : ~ (true = false /\ covers q p)) by (intros [H _]; discriminate H). cbn [upper IpStampSpec.inside]. destruct (q.1 <? 64)%N; rewrite common_self; tauto.
  - cbn [four]. rewrite common_remade by exact A. tauto.
Qed.
Lemma common_cut n (g : ver) q X : young n g -> common (remade n g q (cut (content g) q)) g X <-> is_Some (content g !! X) /\ ~ covers X q /\ ~ covers q X.
Proof.
  intros Hy. unfold common. cbn [content since remade]. specialize (Hy X). rewrite (IpStamp.lookup_cut (content g) q X). destruct (decide (covers X q)) as [Hc|Hc].
  - split; [intros [_ ?]; lia|by intros (_ & ? & _)].
  - destruct (decide (covers q X)) as [Hd|Hd]; [split; [by intros [[? ?] _]|by intros (_ & _ & ?)]|tauto].
Qed.
Lemma shared_deleted n g p q : aged n g -> shared (deleted n g p) g q <-> holds g q <> None /\ ~ ncovers q p /\ ~ ncovers p q.
Proof.
  intros (A & B & C). unfold shared. rewrite (holds_some g q). unfold deleted, ncovers. destruct p as [[] p], q as [[] q]; cbn [fst snd].
  - destruct (N.ltb_spec p.1 64) as [Hp|Hp], (N.ltb_spec q.1 64) as [Hq|Hq]; cbn [upper IpStampSpec.inside].
    + rewrite common_cut by exact B. tauto.
    + assert (~ covers q p) by (intros [H _]; lia). rewrite (cov_low p q) by lia. change (hi q) with (64%N, half q). destruct (decide (covers p (64%N, half q))) as [D|D]; [|rewrite common_self; tauto].
      split; [|tauto]. intros [_ [[? E] _]]. cbn [content ver0] in E. by rewrite lookup_empty in E.
    + assert (~ covers p q) by (intros [H _]; lia). rewrite (cov_low q p) by lia. change (hi p) with (64%N, half p). pose proof (B q) as Hy.
      assert (Hne : ~ covers (64%N, half p) q) by (intros [H1 _]; cbn [fst] in H1; lia).
      destruct (decide (cut (content (inside g (half p))) (rest p) = ∅)); [rewrite common_cut by exact B; tauto|].
      unfold common. cbn [content since remade]. destruct (decide (covers q (64%N, half p))) as [D|D]; [split; [intros (_ & _ & E); lia|tauto]|tauto].
    + unfold at_half. rewrite (cov_high q p Hq Hp), (cov_high p q Hp Hq). change (hi p) with (64%N, half p). change (hi q) with (64%N, half q). change (lo p) with (rest p). change (lo q) with (rest q). destruct (decide (half q = half p)) as [E|E].
      * rewrite E. rewrite common_cut by exact (C _). tauto.
      * rewrite common_self. assert ((64%N, half q) <> (64%N, half p)) by congruence. assert ((64%N, half p) <> (64%N, half q)) by congruence. tauto.
  - assert (Hn : ~ (false = true)) by done. assert (Hn' : ~ (true = false)) by done. destruct (p.1 <? 64)%N; cbn [four]; rewrite common_self; tauto.
  - assert (Hn : ~ (false = true)) by done. assert (Hn' : ~ (true = false)) by done. cbn [upper IpStampSpec.inside]. destruct (q.1 <? 64)%N; rewrite common_self; tauto.
  - cbn [four]. rewrite common_cut by exact A. tauto.
Qed.
Lemma pf_renew_sym g g' q : shared g g' q <-> shared g' g q.
Proof.
  assert (H : forall g g', shared g g' q -> shared g' g q); [|split; apply H]. clear. intros g g'. unfold shared. rewrite (holds_some g q), (holds_some g' q). unfold common. destruct q as [[] q]; cbn [fst snd]; [destruct (q.1 <? 64)%N|]; intros (A & B & C); by split_and!.
Qed.
Lemma rrun_one n (ops : list (aop value St)) (gs : list iver) outs i : rrun 1 ops [] gs outs -> aged (S (length ops)) (nth i gs iver0).
Proof. intros H. apply aged_nth; [lia|]. apply (rrun_aged ops 1 [] gs outs); [lia|done|constructor]. Qed.
Lemma pf_renew_inserted (ops : list (aop value St)) (gs : list iver) outs i p v q : rrun 1 ops [] gs outs ->
  shared (inserted (S (length ops)) (nth i gs iver0) p v) (nth i gs iver0) q <-> holds (nth i gs iver0) q <> None /\ ~ ncovers q p.
Proof. intros H. eapply shared_child, rrun_one; [exact 0|exact H]. Qed.
Lemma pf_renew_deleted (ops : list (aop value St)) (gs : list iver) outs i p q : rrun 1 ops [] gs outs ->
  shared (deleted (S (length ops)) (nth i gs iver0) p) (nth i gs iver0) q <-> holds (nth i gs iver0) q <> None /\ ~ ncovers q p /\ ~ ncovers p q.
Proof. intros H. eapply shared_deleted, rrun_one; [exact 0|exact H]. Qed.

Lemma rstep_update n (gs gs' : list iver) j nt (cb : St -> bytes * bytes * value -> St * option value) s (x : aout value St) : rstep n gs (AUpdate j nt cb s) gs' x ->
  gs' = gs \/ exists p s' e e' G, lists (holds (nth j gs iver0)) e /\ uwalk cb p s e s' e' /\ lists G e' /\ gs' = map (followed G (nth j gs iver0)) gs.
Proof. intros H. inversion H; subst; [by left..|]. right. do 5 eexists. split_and!; [eassumption|eassumption|eassumption|reflexivity]. Qed.
(** UpdateDescendants on the new version, as seen in the old one, and the other way round. *)
Lemma pf_renew_child (ops : list (aop value St)) (gs gs' : list iver) outs (x1 x2 : aout value St) i k v p j nt (cb : St -> bytes * bytes * value -> St * option value) s : rrun 1 ops [] gs outs -> i < length gs -> ikey_is k (Some p) ->
  (j = i \/ j = length gs) -> rrun (S (length ops)) [AOp (WCall (IInsert i k v)); AUpdate j nt cb s] gs gs' [x1; x2] ->
  let parent := nth i gs iver0 in let parent' := nth i gs' iver0 in let child' := nth (length gs) gs' iver0 in
  forall q, if decide (holds parent q <> None /\ ~ ncovers q p) then holds child' q = holds parent' q
    else if decide (j = i) then holds child' q = if decide (p = q) then Some v else holds parent q else holds parent' q = holds parent q.
Proof.
  intros Hrun Hi Hk Hj (g1 & S1 & g2 & S2 & ->) parent parent' child' q. inversion S1 as [? ? y I1| | |]; subst. destruct (istep_fun _ _ _ _ _ _ _ I1 (is_insert _ gs i k v _ Hk)) as [-> _]. clear S1 I1.
  pose proof (pf_renew_inserted ops gs outs i p v q Hrun) as Hsh. fold parent in Hsh. set (child := inserted (S (length ops)) parent p v) in *.
  assert (Hc : nth (length gs) (gs ++ [child]) iver0 = child) by (rewrite app_nth2 by lia; by rewrite Nat.sub_diag).
  assert (Hg : nth i (gs ++ [child]) iver0 = parent) by (by rewrite app_nth1).
  assert (Hst : forall (f : iver -> iver) j, j < length (gs ++ [child]) -> nth j (map f (gs ++ [child])) iver0 = f (nth j (gs ++ [child]) iver0)) by (intros f j0 Hj0; rewrite (nth_indep _ iver0 (f iver0)) by (by rewrite map_length); apply map_nth).
  assert (Hch : holds child q = if decide (p = q) then Some v else holds parent q) by apply pf_ip_holds_inserted.
  assert (Hin : ~ ncovers q p -> holds child q = holds parent q) by (intros H2; rewrite Hch, decide_False; [done|]; intros ->; apply H2; split; [done|apply covers_refl]).
  assert (Hkeep : if decide (holds parent q <> None /\ ~ ncovers q p) then holds child q = holds parent q else if decide (j = i) then holds child q = (if decide (p = q) then Some v else holds parent q) else holds parent q = holds parent q).
  { destruct (decide (holds parent q <> None /\ ~ ncovers q p)) as [[H1 H2]|H]; [by apply Hin|]. by destruct (decide (j = i)). }
  change (inserted (S (length ops)) (nth i gs iver0) p v) with child in S2. destruct (rstep_update _ _ _ _ _ _ _ _ S2) as [->|(p' & s' & e & e' & G & E1 & W1 & L1 & ->)]; [unfold parent', child'; by rewrite Hg, Hc|].
  unfold parent', child'. rewrite !Hst by (rewrite app_length; cbn [length]; lia). rewrite Hg, Hc.
  pose proof (uwalk_nets _ _ _ _ _ _ W1) as Hk2. destruct Hj as [->| ->].
  - rewrite Hg in *. rewrite (pf_renew_itself _ _ _ _ _ _ _ _ E1 W1 L1), pf_renew_holds. pose proof (lists_none _ _ _ _ E1 L1 Hk2 q) as Hn. rewrite pf_renew_sym in Hsh.
    destruct (decide (holds parent q <> None /\ ~ ncovers q p)) as [D|D].
    + rewrite decide_True by (by apply Hsh). destruct (G q); [done|]. exfalso. destruct D as [D1 D2]. apply D1. by apply Hn.
    + rewrite (decide_True (P := i = i)) by done. rewrite decide_False by (by rewrite Hsh). exact Hch.
  - rewrite Hc in *. rewrite (pf_renew_itself _ _ _ _ _ _ _ _ E1 W1 L1), pf_renew_holds. pose proof (lists_none _ _ _ _ E1 L1 Hk2 q) as Hn.
    destruct (decide (holds parent q <> None /\ ~ ncovers q p)) as [D|D].
    + rewrite decide_True by (by apply Hsh). destruct (G q); [done|]. exfalso. destruct D as [D1 D2]. apply D1. rewrite <- (Hin D2). by apply Hn.
    + rewrite (decide_False (P := length gs = i)) by lia. by rewrite decide_False by (by rewrite Hsh).
Qed.
Lemma pf_renew_pair (ops : list (aop value St)) (gs gs' : list iver) outs (x1 x2 : aout value St) i k v p j nt (cb : St -> bytes * bytes * value -> St * option value) s : rrun 1 ops [] gs outs -> i < length gs -> ikey_is k (Some p) ->
  (j = i \/ j = length gs) -> rrun (S (length ops)) [AOp (WCall (IInsert i k v)); AUpdate j nt cb s] gs gs' [x1; x2] ->
  let a := nth i gs iver0 in let a' := nth i gs' iver0 in let b' := nth (length gs) gs' iver0 in
  forall q, (holds a q <> None /\ ~ ncovers q p -> holds b' q = holds a' q) /\
    (holds a q = None \/ ncovers q p -> (j = length gs -> holds a' q = holds a q) /\ (j = i -> holds b' q = if decide (p = q) then Some v else holds a q)).
Proof.
  intros H1 H2 H3 H4 H5 a a' b' q. pose proof (pf_renew_child _ _ _ _ _ _ _ _ _ _ _ _ _ _ H1 H2 H3 H4 H5 q) as H. cbv zeta in H. fold a a' b' in H. destruct (decide (holds a q <> None /\ ~ ncovers q p)) as [D|D].
  - split; [done|]. intros [E|E]; exfalso; tauto.
  - split; [tauto|]. intros _. destruct (decide (j = i)); split; intros; try lia; exact H.
Qed.
End spec.
