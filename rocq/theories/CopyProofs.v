(** * Proofs for Properties_working.v: the callback that copies. *)
From Verif Require Import Prog History NumModel NumSpec IpModel IpSpec IpUpdSpec IpBits IpAbs IpAbs4 IpEnum IpHist IpPropProofs IpUpd IpUpd2 IpUpd3 IpUpd4 IpUpdProofs.
From Verif Require Import CallProofs WorkModel WorkSpec WorkProofs.
Open Scope nat_scope.

Section pf.
Context {U : Type}.
Local Notation heap := (heap U).
Local Notation value := (value U).
Local Notation pair_ := (pair_ (U := U)).
Implicit Types h : heap.

Lemma canon_net ip m q : canonical ip m q -> net_is (Some (ip, m)) q.
Proof.
  intros (H1 & H2 & H3 & H4). destruct q as [six p]. unfold nlen in *. cbn [fst snd] in *. assert (Hw : (p.1 <= width six)%N) by (destruct H3 as [H3 _]; unfold nlen in H3; lia).
  rewrite <- (norm_start (width six) p Hw), <- H4. destruct six; cbn [width] in *; constructor; try done; lia.
Qed.
Lemma copy_plain s (x : pair_) : plain x.2 -> work_plain (copy s x).
Proof. intros H. constructor; [done|]. intros y _. by constructor. Qed.
Definition isin (p : net) (y : net * value) : Prop := ncovers p y.1 /\ p <> y.1.
Global Instance isin_dec p y : Decision (isin p y).
Proof. unfold isin. apply _. Defined.
Definition entry (y : net * value) : ilop value := ILIns y.1 y.2.
Lemma copied_log (ps : list (net * value)) l q v : NoDup (map fst ps) ->
  ilog_get (rev (map entry ps) ++ l) q = Some v <-> (q, v) ∈ ps \/ (q ∉ map fst ps /\ ilog_get l q = Some v).
Proof.
  revert l. induction ps as [|[q0 v0] ps IH]; intros l Hn; cbn [map rev Datatypes.app].
  { split; [intros H; right; split; [by intros ?%elem_of_nil|done]|]. intros [H%elem_of_nil|[_ H]]; done. }
  inversion Hn as [|? ? N1 N2]; subst. rewrite <- app_assoc. cbn [Datatypes.app]. rewrite IH by done. cbn [ilog_get entry fst snd].
  rewrite elem_of_cons, not_elem_of_cons. destruct (decide (q0 = q)) as [->|Hne].
  - split; [intros [H|[H [= ->]]]; [by left; right|by left; left]|]. intros [[[= ->]|H]|[[H _] _]]; [right; split; [exact N1|done]|by left|done].
  - split; [intros [H|[H1 H2]]; [by left; right|right; split; [split; [congruence|done]|done]]|]. intros [[[= -> ->]|H]|[[_ H1] H2]]; [done|by left|by right].
Qed.
Lemma copy_walk p d s e s' e' : uwalk_by (worked (U := U) copy) p d s e s' e' -> forall rops ps, Forall2 iresolves s.2 rops -> length (ilogs rops []) = s.1 ->
  Forall2 (fun x y => x.2 = y.2 /\ canonical x.1.1 x.1.2 y.1) e ps ->
  e' = d ++ e /\ exists rops', Forall2 iresolves s'.2 rops' /\ iver rops' (pred s'.1) = rev (map entry (filter (isin p) ps)) ++ iver rops (pred s.1).
Proof.
  induction 1 as [d s|d s ip m q v s1 r e s2 e' Hc Hin Hne Hcall H IH|d s ip m q v e s2 e' Hc Hout H IH]; intros rops ps Hr Hl Hf.
  - inversion Hf; subst. split; [by rewrite app_nil_r|]. by exists rops.
  - inversion Hf as [|? [q' v'] ? ps' [Ev Hc'] Hf']; subst. cbn [fst snd] in *. subst v'. pose proof (is_net_fun (U := U) (1%positive, (ip, m, v)) q q' Hc Hc') as <-.
    assert (Hk : iresolves (IInsert (pred s.1) (KNet (Some (ip, m))) v) (IInsert (pred s.1) (Some q) v)) by (constructor; constructor; by apply canon_net).
    assert (Hw : works (d ++ (ip, m, v) :: e) s.2 (copy s.1 (ip, m, v)) (s.2 ++ [IInsert (pred s.1) (KNet (Some (ip, m))) v]) (S s.1, None)).
    { eapply (works_own _ _ _ IONone); [exact Hr|exact Hk|done|]. constructor. }
    destruct (works_fun _ _ _ _ _ _ _ Hcall Hw) as [Hs2 Hs1]. cbn [fst snd] in Hs1, Hs2. injection Hs1 as Hs1 ->.
    destruct (IH (rops ++ [IInsert (pred s.1) (Some q) v]) ps') as (-> & rops' & R1 & R2).
    + rewrite Hs2. apply Forall2_app; [done|]. by constructor.
    + rewrite ilogs_app. cbn [ilogs ilog_step]. rewrite app_length, Hl, Hs1. cbn [length]. lia.
    + done.
    + cbn [default]. split; [by rewrite <- app_assoc|]. exists rops'. split; [done|]. rewrite R2. rewrite filter_cons_True by (by split). cbn [map rev]. rewrite <- app_assoc. f_equal.
      unfold iver. rewrite ilogs_app, Hs1. cbn [ilogs ilog_step pred]. rewrite app_nth2 by lia. rewrite Hl, Nat.sub_diag. cbn [nth]. done.
  - inversion Hf as [|? [q' v'] ? ps' [Ev Hc'] Hf']; subst. cbn [fst snd] in *. subst v'. pose proof (is_net_fun (U := U) (1%positive, (ip, m, v)) q q' Hc Hc') as <-.
    destruct (IH rops ps' Hr Hl Hf') as (-> & rops' & R1 & R2). split; [by rewrite <- app_assoc|]. exists rops'. split; [done|]. rewrite R2, filter_cons_False; [done|]. exact Hout.
Qed.
Lemma pf_copy h ops rops : Forall2 iresolves ops rops -> Forall iop_ok ops ->
  wp (run_hist ip_exec ops []) h ∅ (fun vs h1 _ => forall ver n p, nth ver vs.1 None <> None -> net_is n p ->
    let t := nth ver vs.1 None in let l := iver rops ver in is_target l n p ->
    wp (d <- ip_update_by (work_cb t copy) t n (Desk 0 [] []) ;; e <- ip_enumerate t ;; c <- ip_enumerate (nth (pred (dk_st d)) (dk_own d) None) ;; Ret (e, c)) h1 (dom h1)
      (fun y h' _ => nenumerates l y.1 /\ exists lc, nenumerates lc y.2 /\ forall q v, ilog_get lc q = Some v <-> ilog_get l q = Some v /\ ncovers p q /\ p <> q)).
Proof.
  intros Hops Hok. eapply wp_mono; [by apply ip_history|]. cbn beta. intros vs h1 _ (_ & _ & H) ver n p Hne Hn. cbn zeta. specialize (H ver). intros Htg.
  destruct (nth ver vs.1 None) as [a|]; [|done].
  apply wp_bind. eapply wp_mono; [apply (ip_update_by_at _ (calls copy) (keeps h1) h1 a (iver rops ver) n p (Desk 0 [] []) (dom h1)); [done|apply work_acts, copy_plain| |done|done]|].
  { exists ∅, []. split_and!; [apply map_empty_subseteq|rewrite dom_empty_L; apply disjoint_empty_l|constructor..]. }
  cbn beta. intros d h2 W2 (e & e' & l' & H1 & _ & _ & _ & H2 & H3 & _ & _ & (hp & rops' & K1 & _ & K3 & _ & K5)).
  apply wp_bind. eapply wp_mono; [apply H2|]. cbn beta. intros e2 h3 W3 [-> ->].
  pose proof (ipR_mono _ _ _ _ K1 (ipR_nth _ _ _ (pred (dk_st d)) K5)) as Hp.
  apply wp_bind. eapply wp_mono; [apply (ienum_at _ _ _ _ Hp)|]. cbn beta. intros c h3 W4 [-> Hc]. cbn [wp fst snd].
  destruct H1 as (ps & P1 & P2 & P3). destruct (copy_walk _ _ _ _ _ _ (uwalk_rec copy p e [] (Desk 0 [] []) d e' (H3 Htg)) [] ps) as (-> & rops2 & R1 & R2); [constructor|done|done|].
  pose proof (resolves_fun _ _ K3 _ R1) as <-. split; [by exists ps|]. eexists. split; [exact Hc|]. intros q v. cbn [rec fst snd] in R2. 
  assert (E : nth (pred (dk_st d)) (ilogs rops' []) [] = rev (map entry (filter (isin p) ps)) ++ []) by exact R2. rewrite E.
  assert (Hnd : NoDup (map fst ps)).
  { clear -P1. induction P1 as [|x ps Hs IH Hf]; cbn [map]; [constructor|]. constructor; [|done]. intros Hx. apply elem_of_list_fmap in Hx as (y & E & Hy). rewrite Forall_forall in Hf. specialize (Hf y Hy). rewrite E in Hf. by apply nlt_irrefl in Hf. }
  rewrite copied_log.
  - rewrite elem_of_list_filter, P2. unfold isin. cbn [fst ilog_get]. naive_solver.
  - clear -Hnd. induction ps as [|x ps IH]; [constructor|]. cbn [map] in Hnd. inversion Hnd as [|? ? N1 N2]; subst. rewrite filter_cons. case_decide; [|by apply IH]. cbn [map]. constructor; [|by apply IH].
    intros Hx. apply N1. apply elem_of_list_fmap in Hx as (y & -> & Hy). apply elem_of_list_filter in Hy as [_ Hy]. by apply elem_of_list_fmap_1.
Qed.
End pf.
