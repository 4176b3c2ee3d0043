(** * Proofs: numtree histories with in-place insertion into any version. *)
From Verif Require Import Prog History NumSpec NumModel NumFun NumAbs NumFoot NumBits NumSim NumInplace VersSpec NumShare WorkProofs IpUpd3 IpUpdProofs NumPropProofs.
Open Scope nat_scope.
Section num.
Context {U : Type} (c : cfg) (Hc : cfg_ok c).
Local Notation heap := (heap U).
Local Notation nmap := (gmap pfx (N * value U)).
Local Notation W := (cW c).

(** One client call; in-place insertion stores the pointer it returns over the old one. *)
Definition v_exec (vs : list ptr) (o : vop U) : prog U (list ptr * nout U) :=
  match o with
  | VCall o => n_exec c vs o
  | VInplace i key bits v => r <- n_inplace_insert c (nth i vs None) key bits v ;; Ret (<[i := r]> vs, ONone)
  end.
Lemma pick (h h' : heap) (vs : list ptr) (ms : list nmap) (R : nmap -> nmap -> Prop) : Forall2 (ntree_at c h) vs ms ->
  (forall p m, ntree_at c h p m -> exists m', ntree_at c h' p m' /\ R m m') -> exists ms', Forall2 (ntree_at c h') vs ms' /\ Forall2 R ms ms'.
Proof.
  intros H Hf. induction H as [|p m vs ms Hp H (ms' & A & B)]; [exists []; split; constructor|]. destruct (Hf _ _ Hp) as (m' & C & D). exists (m' :: ms'). split; by constructor.
Qed.
Lemma F2_nth (ms ms' : list nmap) (R : nmap -> nmap -> Prop) j : Forall2 R ms ms' -> R ∅ ∅ -> R (nth j ms ∅) (nth j ms' ∅).
Proof. intros H He. revert j. induction H; intros [|j]; cbn [nth]; done. Qed.
Lemma nth_set {A} (l : list A) i x d j : nth j (<[i := x]> l) d = if decide (i = j /\ j < length l) then x else nth j l d.
Proof. revert i j. induction l as [|y l IH]; intros [|i] [|j]; cbn [insert list_insert nth length]; repeat destruct decide; try done; try lia; rewrite IH; destruct decide; try done; lia. Qed.
Lemma F2_set (h : heap) (vs : list ptr) (ms : list nmap) i r m : Forall2 (ntree_at c h) vs ms -> ntree_at c h r m -> Forall2 (ntree_at c h) (<[i := r]> vs) (<[i := m]> ms).
Proof. intros H Hr. by apply Forall2_insert. Qed.
Lemma v_exec_ok (h : heap) (WS : gset loc) (vs : list ptr) (ms : list nmap) o : dom h ⊆ WS -> Forall2 (ntree_at c h) vs ms -> vop_ok W o ->
  wp (v_exec vs o) h WS (fun r h' WS' => dom h' ⊆ WS' /\ exists ms', vstep W ms o ms' r.2 /\ Forall2 (ntree_at c h') r.1 ms').
Proof using Hc.
  intros HWS HR Hok. destruct o as [o|i k bits v]; cbn [v_exec vop_ok] in *.
  - eapply wp_mono; [apply (wp_dom (St := unit) (fun _ _ => True)); [exact HWS|]; eapply (wp_call _ _ ∅); [by apply (n_exec_ok c Hc h vs ms o)|apply empty_subseteq]|].
    cbn beta. intros r h' WS' [[(W1 & (ms' & A & B) & _) _] D]. split; [done|]. exists ms'. split; [by constructor|done].
  - apply wp_bind. pose proof (nth_R c h vs ms i HR) as Hi.
    eapply wp_mono; [apply (wp_dom (St := unit) (fun _ _ => True)); [exact HWS|]; eapply (n_inplace_all c Hc h WS (dom h) _ _ k bits v Hok HWS); by exists h|].
    cbn beta. intros r h' WS' [(_ & _ & (F' & A & _) & x & _ & _ & B) D]. cbn [wp fst snd]. split; [done|].
    apply ntree_in_at in A.
    destruct (pick h h' vs ms (fun m m' => same_or_ins c (nth i ms ∅) m m' k (adj W bits) v) HR) as (ms1 & C1 & C2).
    { intros p m Hp. specialize (B (dom h) p m ltac:(by exists h)). destruct (decide (x ∈ dom h)).
      - destruct B as (m' & B1 & B2). exists m'. split; [by eapply ntree_in_at|done].
      - exists m. split; [by eapply ntree_in_at|by left]. }
    eexists. split; [|apply F2_set; [exact C1|exact A]]. pose proof (Forall2_length _ _ _ C2) as HL. constructor.
    + rewrite insert_length. done.
    + intros Hlt. rewrite nth_set, decide_True; [done|]. split; [done|lia].
    + intros j Hj. rewrite nth_set, decide_False by (intros [? _]; congruence). destruct (F2_nth _ _ _ j C2) as [E|[E1 E2]]; [by left|by left|right].
      split; [exact E1|exact E2].
Qed.
Lemma v_hist ops : forall (h : heap) (WS : gset loc) (vs : list ptr) (ms : list nmap), dom h ⊆ WS -> Forall2 (ntree_at c h) vs ms -> Forall (vop_ok W) ops ->
  wp (run_hist v_exec ops vs) h WS (fun r _ _ => exists ms', spec_run (vstep W) ops ms ms' r.2).
Proof using Hc.
  induction ops as [|o ops IH]; intros h WS vs ms HWS HR Hok; cbn [run_hist].
  - cbn [wp snd spec_run]. by exists ms.
  - inversion Hok as [|? ? Ho Hops]; subst. apply wp_bind. eapply wp_mono; [by apply (v_exec_ok h WS vs ms o)|]. cbn beta. intros r h1 W1 (D & ms1 & A1 & A2).
    apply wp_bind. eapply wp_mono; [by apply (IH h1 W1 r.1 ms1)|]. cbn beta. intros r2 h2 W2 (ms' & B). cbn [wp snd]. exists ms'. cbn [spec_run]. by exists ms1.
Qed.
Lemma pf_versions (h : heap) ops : Forall (vop_ok W) ops ->
  wp (run_hist v_exec ops [None]) h ∅ (fun r h' _ => h ⊆ h' /\ exists ms, spec_run (vstep W) ops [∅] ms r.2).
Proof using Hc.
  intros Hok. assert (Hw := v_hist ops ∅ ∅ [None] [∅] ltac:(by rewrite dom_empty_L) ltac:(constructor; [apply ntree_at_nil|constructor]) Hok).
  eapply wp_mono; [apply (wp_part _ ∅ h ∅ ∅ _ (map_empty_subseteq h) (reflexivity _) Hw)|]. cbn beta. intros r h' _ (hp & W1 & _ & H & H3). split; [|done].
  apply map_subseteq_spec. intros l x Hl. destruct (H3 l) as [_ E2]; [by eapply elem_of_dom_2|by rewrite dom_empty_L; apply not_elem_of_empty|]. by rewrite E2.
Qed.
End num.
