(** * Proofs of the statements of Properties_num.v. *)
From Verif Require Import Prog History NumModel NumBits NumSpec NumFun NumSim NumInplace NumAbs.
Open Scope N_scope.

Definition num_cfg (c : cfg) : Prop := c = c32 \/ c = c64.
Lemma num_cfg_ok c : num_cfg c -> cfg_ok c.
Proof. intros [-> | ->]; [apply c32_ok|apply c64_ok]. Qed.

(** Only the outputs of a history run. *)
Definition bindres {U A B} (x : ((A * B) + err) * heap U * loc) : (B + err) * heap U * loc :=
  match x with (inl (_, b), h, n) => (inl b, h, n) | (inr e, h, n) => (inr e, h, n) end.

Section proofs.
Context {U : Type}.
Local Notation heap := (heap U).
Implicit Types h : heap.

Lemma pf_match c h ops ver key bits :
  num_cfg c -> Forall (nop_ok (cW c)) ops -> key < 2 ^ cW c ->
  wp (r <- run_hist (n_exec c) ops [None] ;; n_match c (nth ver r.1 None) key bits) h ∅
     (fun res h' _ => h ⊆ h' /\
        s_longest (nth ver (n_contents (cW c) ops [∅]) ∅) (norm (cW c) key (adj (cW c) bits)) res).
Proof.
  intros Hc Hops Hk. apply num_cfg_ok in Hc.
  eapply wp_mono; [apply (n_after (U:=U) c Hc) with (body := fun p => n_match c p key bits) (Q := fun (m : nmap U) res _ _ => s_longest m (norm (cW c) key (adj (cW c) bits)) res); [done|]|].
  - intros h' p m _ Hat. eapply wp_mono; [by apply n_match_at|]. cbn beta. tauto.
  - cbn beta. intros res h' _ [? [_ ?]]. done.
Qed.

Lemma pf_exact c h ops ver key bits :
  num_cfg c -> Forall (nop_ok (cW c)) ops -> key < 2 ^ cW c ->
  wp (r <- run_hist (n_exec c) ops [None] ;; n_exact c (nth ver r.1 None) key bits) h ∅
     (fun res h' _ => h ⊆ h' /\
        res = s_exact (cW c) (nth ver (n_contents (cW c) ops [∅]) ∅) key (adj (cW c) bits)).
Proof.
  intros Hc Hops Hk. apply num_cfg_ok in Hc.
  eapply wp_mono; [apply (n_after (U:=U) c Hc) with (body := fun p => n_exact c p key bits) (Q := fun (m : nmap U) res _ _ => res = s_exact (cW c) m key (adj (cW c) bits)); [done|]|].
  - intros h' p m _ Hat. eapply wp_mono; [by apply n_exact_at|]. cbn beta. tauto.
  - cbn beta. intros res h' _ [? [_ ?]]. done.
Qed.

Lemma pf_find c h ops ver key bits :
  num_cfg c -> Forall (nop_ok (cW c)) ops -> key < 2 ^ cW c ->
  wp (r <- run_hist (n_exec c) ops [None] ;; n_find_node c (nth ver r.1 None) key bits) h ∅
     (fun res h' _ => h ⊆ h' /\
        match nth ver (n_contents (cW c) ops [∅]) ∅ !! norm (cW c) key (adj (cW c) bits) with
        | None => res = None
        | Some (k, v) => exists a c0 c1, res = Some a /\
            h' !! a = Some (CNum (NumN k (adj (cW c) bits) true v c0 c1))
        end).
Proof.
  intros Hc Hops Hk. apply num_cfg_ok in Hc.
  eapply wp_mono; [apply (n_after (U:=U) c Hc) with (body := fun p => n_find_node c p key bits) (Q := fun (m : nmap U) res h' _ =>
    match m !! norm (cW c) key (adj (cW c) bits) with
        | None => res = None
        | Some (k, v) => exists a c0 c1, res = Some a /\
            h' !! a = Some (CNum (NumN k (adj (cW c) bits) true v c0 c1))
        end); [done|]|].
  - intros h' p m _ (t & Hw & Hr & Ha). eapply wp_mono; [by eapply n_find_node_wp|].
    cbn beta. intros res h2 _ [-> Hn]. pose proof (clamp_adj c bits) as Hadj.
    pose proof (clamp_le c bits) as Hle.
    pose proof (nabs_exact c t m key (clamp c bits) Hw Hk Hle Ha) as E. unfold s_exact in E.
    destruct (f_exact c t key (clamp c bits)) as [[[k1 b1] v1]|] eqn:Ef.
    + apply exact_spec in Ef as (Hin & Eb & Hag); [|done..]. simpl in Eb, Hag. subst b1.
      pose proof Hin as Hin'. apply (enum_wf c) in Hin' as [? ?]; [|done].
      apply (nabs_elem c t m _ _ _ Ha) in Hin.
      rewrite <- Hadj. replace (norm (cW c) key (clamp c bits)) with (norm (cW c) k1 (clamp c bits)) by (by apply norm_agree).
      rewrite Hin. exact Hn.
    + rewrite <- Hadj. destruct (m !! norm (cW c) key (clamp c bits)) as [[? ?]|]; [done|]. exact Hn.
  - cbn beta. intros res h' _ [? [_ ?]]. done.
Qed.

Lemma pf_history c h ops :
  num_cfg c -> Forall (nop_ok (cW c)) ops ->
  wp (run_hist (n_exec c) ops [None]) h ∅
     (fun r h' _ => h ⊆ h' /\ exists ms, spec_run (nstep (cW c)) ops [∅] ms r.2).
Proof.
  intros Hc Hops. apply num_cfg_ok in Hc. eapply wp_mono.
  - apply (wp_cow _ _ ∅ (fun r h' => exists ms, spec_run (nstep (cW c)) ops [∅] ms r.2)).
    eapply wp_mono; [by apply n_history|]. cbn beta. naive_solver.
  - cbn beta. tauto.
Qed.

(** A history starting from given versions. *)
Lemma history_from c h ops vs ms :
  cfg_ok c -> Forall (nop_ok (cW c)) ops -> Forall2 (ntree_at c h) vs ms ->
  wp (run_hist (n_exec c) ops vs) h ∅
     (fun r h' _ => h ⊆ h' /\ exists ms', spec_run (nstep (cW c)) ops ms ms' r.2 /\ Forall2 (ntree_at c h') r.1 ms').
Proof.
  intros Hc Hops HR. eapply wp_mono.
  - apply (wp_cow _ _ ∅ (fun r h' => exists ms', spec_run (nstep (cW c)) ops ms ms' r.2 /\ Forall2 (ntree_at c h') r.1 ms')).
    eapply run_hist_wp with (okop := nop_ok (cW c)); [|done|done]. intros. by apply n_exec_ok.
  - cbn beta. tauto.
Qed.

Lemma wp_any {A} (m : prog U A) h W (Q : A -> heap -> Prop) :
  wp m h ∅ (fun a h' _ => Q a h') -> wp m h W (fun a h' _ => Q a h').
Proof.
  intros H. eapply wp_mono; [by apply (wp_cow m h W Q)|]. cbn beta. tauto.
Qed.

Lemma pf_delete c h ops ver key bits after_ops :
  num_cfg c -> Forall (nop_ok (cW c)) ops -> Forall (nop_ok (cW c)) after_ops -> key < 2 ^ cW c ->
  wp (r <- run_hist (n_exec c) ops [None] ;;
      d <- n_delete c (nth ver r.1 None) key bits ;;
      r2 <- run_hist (n_exec c) after_ops (r.1 ++ [d.1]) ;;
      Ret (nth ver r.1 None, d, r2.2)) h ∅
     (fun '(t, (t', flag), outs) h' _ => h ⊆ h' /\
        let ms := n_contents (cW c) ops [∅] in
        s_deleted (cW c) (nth ver ms ∅) key (adj (cW c) bits) flag /\
        (flag = false -> t' = t) /\
        exists ms', spec_run (nstep (cW c)) after_ops
          (ms ++ [s_delete (cW c) (nth ver ms ∅) key (adj (cW c) bits)]) ms' outs).
Proof.
  intros Hc Hops Haops Hk. apply num_cfg_ok in Hc. apply wp_bind. eapply wp_mono.
  { eapply (history_from c h ops [None] [∅]); [done|done|]. repeat constructor. apply ntree_at_nil. }
  cbn beta. intros [vs outs] h1 W1 (Hs1 & ms & Hsp & HR). simpl fst in *. simpl snd in *.
  apply spec_run_contents in Hsp as ->.
  apply wp_bind. eapply wp_mono.
  { apply (wp_any _ _ _ (fun r h' => ntree_at c h' r.1 (s_delete (cW c) (nth ver (n_contents (cW c) ops [∅]) ∅) key (adj (cW c) bits)) /\
        s_deleted (cW c) (nth ver (n_contents (cW c) ops [∅]) ∅) key (adj (cW c) bits) r.2 /\
        (r.2 = false -> r.1 = nth ver vs None) /\ h1 ⊆ h')).
    apply n_delete_at; [done|done|]. by apply nth_R. }
  cbn beta. intros [p flag] h2 W2 (Hp & Hd & Hf & Hs2). simpl fst in *. simpl snd in *.
  apply wp_bind. eapply wp_mono.
  { apply (wp_any _ _ _ (fun r h' => h2 ⊆ h' /\ exists ms', spec_run (nstep (cW c)) after_ops
          (n_contents (cW c) ops [∅] ++ [s_delete (cW c) (nth ver (n_contents (cW c) ops [∅]) ∅) key (adj (cW c) bits)]) ms' r.2)).
    eapply wp_mono.
    - eapply (history_from c h2 after_ops (vs ++ [p])); [done|done|].
      apply Forall2_app; [by eapply Forall2_mono_heap|]. repeat constructor. exact Hp.
    - cbn beta. intros r h' _ (? & ms' & ? & _). eauto. }
  cbn beta. intros [vs2 outs2] h3 W3 (Hs3 & ms' & Hsp'). simpl in *.
  split_and!; [by repeat (etrans; [eassumption|])|done|done|]. eauto.
Qed.

Lemma pf_enumerate c h ops ver :
  num_cfg c -> Forall (nop_ok (cW c)) ops ->
  wp (r <- run_hist (n_exec c) ops [None] ;; n_enumerate c (nth ver r.1 None)) h ∅
     (fun l h' _ => h ⊆ h' /\
        s_enum (cW c) (nth ver (n_contents (cW c) ops [∅]) ∅)
               (map (fun x => (nn_key x.2, nn_bits x.2, nn_val x.2)) l)).
Proof.
  intros Hc Hops. apply num_cfg_ok in Hc.
  eapply wp_mono; [apply (n_after (U:=U) c Hc) with (body := fun p => n_enumerate c p) (Q := fun (m : nmap U) l _ _ => s_enum (cW c) m (map as_entry l)); [done|]|].
  - intros h' p m _ Hat. eapply wp_mono; [by apply n_enumerate_at|]. cbn beta. tauto.
  - cbn beta. intros res h' _ [? [_ ?]]. done.
Qed.

Lemma pf_build c h items ops :
  num_cfg c -> Forall (fun x => x.1.1 < 2 ^ cW c) items -> Forall (nop_ok (cW c)) ops ->
  wp (p <- n_build c items None ;; run_hist (n_exec c) ops [p]) h ∅
     (fun r h' _ => h ⊆ h' /\ exists ms, spec_run (nstep (cW c)) ops [s_build c items ∅] ms r.2).
Proof.
  intros Hc Hit Hops. apply num_cfg_ok in Hc. apply wp_bind. eapply wp_mono.
  { apply (wp_cow _ _ ∅ (fun p h' => ntree_at c h' p (s_build c items ∅))).
    eapply wp_mono; [apply (n_build_at c Hc items h None ∅ ∅ Hit)|].
    - exists NE. split_and!; [done|done|apply nabs_empty].
    - cbn beta. intros r h' WS (F' & Ho & _). by eapply nowned_at. }
  cbn beta. intros p h1 W1 (Hp & Hs & _). eapply wp_mono.
  { apply (wp_any _ _ _ (fun r h' => h1 ⊆ h' /\ exists ms', spec_run (nstep (cW c)) ops [s_build c items ∅] ms' r.2)).
    eapply wp_mono.
    - eapply (history_from c h1 ops [p]); [done|done|]. repeat constructor. exact Hp.
    - cbn beta. intros r h' _ (? & ms' & ? & _). eauto. }
  cbn beta. intros r h2 W2 (? & ms & ?). split; [by etrans|]. eauto.
Qed.

Lemma pf_inplace c h h0 p m F key bits v :
  num_cfg c -> key < 2 ^ cW c -> nowned c h p m F ->
  h0 ⊆ h -> (forall x, x ∈ F -> h0 !! x = None) ->
  wp (n_inplace_insert c p key bits v) h F
     (fun r h' F1 => h0 ⊆ h' /\ (exists F', F' ⊆ F1 /\ nowned c h' r (s_insert (cW c) m key (adj (cW c) bits) v) F') /\
        wp (n_insert c p key bits v) h ∅ (fun r2 h2 _ => exists t, nrep h' r t /\ nrep h2 r2 t)).
Proof.
  intros Hc Hk Ho Hs Hd. apply num_cfg_ok in Hc.
  eapply wp_mono; [apply wp_frame; by apply n_inplace_at|].
  cbn beta. intros r h' F1 [(F' & Ho' & HF') [Hun _]]. split_and!.
  - apply map_subseteq_spec. intros x y Hx. apply Hun; [by eapply lookup_weaken|].
    intros Hin. rewrite Hd in Hx; done.
  - eauto.
  - eapply wp_mono; [apply n_insert_at; [done|done|by eapply nowned_at]|].
    cbn beta. intros r2 h2 _ [Hr2 _].
    destruct (ntree_at_unique c h' h2 r r2 _ (nowned_at c _ _ _ _ Ho') Hr2) as (t & _ & ? & ?). eauto.
Qed.

Lemma pf_compact c h ops ver :
  num_cfg c -> Forall (nop_ok (cW c)) ops ->
  wp (r <- run_hist (n_exec c) ops [None] ;; Ret (nth ver r.1 None)) h ∅
     (fun p h' _ => h ⊆ h' /\
        let m := nth ver (n_contents (cW c) ops [∅]) ∅ in
        exists t, nrep h' p t /\ compact_shape t /\ N.of_nat (depth t) <= cW c + 1 /\
          (nodes t <= 2 * size m - (if decide (m = ∅) then 0 else 1))%nat).
Proof.
  intros Hc Hops. apply num_cfg_ok in Hc.
  eapply wp_mono; [apply (n_after (U:=U) c Hc) with (body := fun p => Ret p) (Q := fun (m : nmap U) p h' _ =>
     exists t, nrep h' p t /\ compact_shape t /\ N.of_nat (depth t) <= cW c + 1 /\
          (nodes t <= 2 * size m - (if decide (m = ∅) then 0 else 1))%nat); [done|]|].
  - intros h' p m _ Hat. cbn [wp]. by apply ntree_at_compact.
  - cbn beta. intros res h' _ [? [_ ?]]. done.
Qed.

Lemma pf_canonical c h ops1 ops2 i j :
  num_cfg c -> Forall (nop_ok (cW c)) ops1 -> Forall (nop_ok (cW c)) ops2 ->
  nth i (n_contents (cW c) ops1 [∅]) ∅ = nth j (n_contents (cW c) ops2 [∅]) ∅ ->
  wp (r1 <- run_hist (n_exec c) ops1 [None] ;;
      r2 <- run_hist (n_exec c) ops2 [None] ;;
      Ret (nth i r1.1 None, nth j r2.1 None)) h ∅
     (fun '(p1, p2) h' _ => exists t, nrep h' p1 t /\ nrep h' p2 t).
Proof.
  intros Hc H1 H2 E. apply num_cfg_ok in Hc. apply wp_bind. eapply wp_mono.
  { eapply (history_from c h ops1 [None] [∅]); [done|done|]. repeat constructor. apply ntree_at_nil. }
  cbn beta. intros [vs1 outs1] h1 W1 (Hs1 & ms1 & Hsp1 & HR1). simpl fst in *. simpl snd in *.
  apply wp_bind. eapply wp_mono.
  { apply (wp_any _ _ _ (fun r h' => h1 ⊆ h' /\ exists ms', spec_run (nstep (cW c)) ops2 [∅] ms' r.2 /\ Forall2 (ntree_at c h') r.1 ms')).
    eapply (history_from c h1 ops2 [None] [∅]); [done|done|]. repeat constructor. apply ntree_at_nil. }
  cbn beta. intros [vs2 outs2] h2 W2 (Hs2 & ms2 & Hsp2 & HR2). simpl fst in *. simpl snd in *.
  apply spec_run_contents in Hsp1 as ->. apply spec_run_contents in Hsp2 as ->. cbn [wp].
  eapply Forall2_mono_heap in HR1; [|exact Hs2].
  pose proof (nth_R c _ _ _ i HR1) as A1. pose proof (nth_R c _ _ _ j HR2) as A2. rewrite E in A1.
  destruct (ntree_at_unique c _ _ _ _ _ A1 A2) as (t & _ & ? & ?). eauto.
Qed.
End proofs.
