(** * Proofs: what the specification of kept nodes says. *)
From Verif Require Import Prog History NumSpec NumModel NumBits NumSim NumFun NumAbs NumInplace NumNavSpec VersSpec VersProofs NumExact StampSpec StampProofs WorkProofs IpUpd3 HandleSpec HandleProofs IpBits.
Open Scope nat_scope.

Section spec.
Context {U : Type} (W : N).
Local Notation ver := (ver U).
Local Notation ver0 := (ver0 U).
Local Notation nmap := (gmap pfx (N * value U)).

Lemma ystep_inv (n : nat) (gs : list ver) hs o gs' hs' x : ystep W n gs hs o gs' hs' x ->
  match o with
  | YCall o => hs' = hs /\ sstep W n gs o gs' x
  | YFind i key bits => gs' = gs /\ hs' = hs ++ [found (nth i gs ver0) i (norm W key (adj W bits))] /\ x = OBool (if found (nth i gs ver0) i (norm W key (adj W bits)) then true else false)
  | YEnum i => gs' = gs /\ exists l, s_enum W (content (nth i gs ver0)) l /\ hs' = hs ++ map (fun e => Some (i, norm W e.1.1 e.1.2)) l /\ x = OList l
  | YGet j => gs' = gs /\ hs' = hs /\ match nth j hs None with Some (i, q) => exists k v, content (nth i gs ver0) !! q = Some (k, v) /\ x = OList [(k, q.1, v)] | None => x = ONone end
  | YSet j v => gs' = match nth j hs None with Some (i, q) => map (fun g => if decide (both (nth i gs ver0) g q) then valued g q v else g) gs | None => gs end /\ hs' = hs /\ x = ONone
  end.
Proof. destruct 1 as [|? ? ? ? ->|? l ?|? ? ? ? ? E1 E2|? E1|? ? ? ? E1|? ? E1]; rewrite ?E1; split_and!; try done; [by exists l|by exists k, v]. Qed.
Lemma ystep_fun (n : nat) (gs : list ver) hs o gs1 hs1 x1 gs2 hs2 x2 : ystep W n gs hs o gs1 hs1 x1 -> ystep W n gs hs o gs2 hs2 x2 -> gs1 = gs2 /\ hs1 = hs2 /\ x1 = x2.
Proof.
  intros H1%ystep_inv H2%ystep_inv. destruct o as [o|i k b|i|j|j v].
  - destruct H1 as [-> H1], H2 as [-> H2]. destruct (sstep_fun _ _ _ _ _ _ _ _ H1 H2) as [-> ->]. done.
  - by destruct H1 as (-> & -> & ->), H2 as (-> & -> & ->).
  - destruct H1 as (-> & l1 & S1 & -> & ->), H2 as (-> & l2 & S2 & -> & ->). by rewrite (s_enum_fun W _ _ _ S1 S2).
  - destruct H1 as (-> & -> & H1), H2 as (-> & -> & H2). split_and!; [done|done|]. destruct (nth j hs None) as [[i q]|]; [|congruence]. destruct H1 as (k1 & w1 & E1 & ->), H2 as (k2 & w2 & E2 & ->). rewrite E1 in E2. by injection E2 as -> ->.
  - by destruct H1 as (-> & -> & ->), H2 as (-> & -> & ->).
Qed.
Lemma pf_handle_determined ops : forall (n : nat) (gs : list ver) hs gs1 hs1 x1 gs2 hs2 x2, yrun W n ops gs hs gs1 hs1 x1 -> yrun W n ops gs hs gs2 hs2 x2 -> gs1 = gs2 /\ hs1 = hs2 /\ x1 = x2.
Proof.
  induction ops as [|o ops IH]; intros n gs hs gs1 hs1 [|y1 x1] gs2 hs2 [|y2 x2]; cbn [yrun]; try done; [by intros [-> ->] [-> ->]|].
  intros (g1 & k1 & A1 & A2) (g2 & k2 & B1 & B2). destruct (ystep_fun _ _ _ _ _ _ _ _ _ _ A1 B1) as (-> & -> & ->). destruct (IH _ _ _ _ _ _ _ _ _ A2 B2) as (-> & -> & ->). done.
Qed.

(** The calls are numbered from 1. *)
Lemma ystep_since (n : nat) (gs : list ver) hs o gs' hs' x : ystep W n gs hs o gs' hs' x -> Forall (fun g : ver => forall X, since g X < n) gs -> Forall (fun g : ver => forall X, since g X < S n) gs'.
Proof.
  intros H HF. assert (HF' : Forall (fun g : ver => forall X, since g X < S n) gs) by (eapply Forall_impl; [exact HF|]; intros g Hg X; specialize (Hg X); lia).
  apply ystep_inv in H. destruct o as [o|i k b|i|j|j v].
  - destruct H as [-> H]. by eapply sstep_since.
  - by destruct H as (-> & _).
  - by destruct H as (-> & _).
  - by destruct H as (-> & _).
  - destruct H as (-> & _). destruct (nth j hs None) as [[i q]|]; [|done]. apply Forall_fmap. eapply Forall_impl; [exact HF'|]. intros g Hg X. unfold compose. destruct (decide _); apply Hg.
Qed.
Lemma yrun_since ops : forall (n : nat) (gs : list ver) hs gs' hs' outs, yrun W n ops gs hs gs' hs' outs -> Forall (fun g : ver => forall X, since g X < n) gs -> Forall (fun g : ver => forall X, since g X < n + length ops) gs'.
Proof.
  induction ops as [|o ops IH]; intros n gs hs gs' hs' [|x outs]; cbn [yrun]; try done.
  - intros [-> _] HF. cbn [length]. by rewrite Nat.add_0_r.
  - intros (g1 & h1 & A1 & A2) HF. cbn [length]. replace (n + S (length ops)) with (S n + length ops) by lia. eapply IH; [exact A2|]. by eapply ystep_since.
Qed.

(** A kept node stays in the version in which it was found. *)
Definition alive (gs : list ver) (f : option (nat * pfx)) : Prop := match f with None => True | Some (i, q) => is_Some (content (nth i gs ver0) !! q) end.
Lemma yrun_alive ops : forall (n : nat) (gs : list ver) hs gs' hs' outs, yrun W n ops gs hs gs' hs' outs -> Forall (alive gs) hs -> Forall (alive gs') hs'.
Proof.
  induction ops as [|o ops IH]; intros n gs hs gs' hs' [|x outs]; cbn [yrun]; try done.
  - by intros [-> ->].
  - intros (g1 & h1 & A1 & A2) HF. eapply IH; [exact A2|]. clear A2 IH. apply ystep_inv in A1. destruct o as [o|i k b|i|j|j v].
    + destruct A1 as [-> S1]. eapply Forall_impl; [exact HF|]. intros [[i q]|]; [|done]. intros Hs. by destruct (sstep_kept (Cfg W []) _ _ _ _ _ i q S1 Hs).
    + destruct A1 as (-> & -> & _). apply Forall_app. split; [done|]. constructor; [|constructor]. unfold found. destruct (content (nth i gs ver0) !! norm W k (adj W b)) as [kv|] eqn:E; [|done]. cbn [alive]. by eexists.
    + destruct A1 as (-> & l & [_ Hl] & -> & _). apply Forall_app. split; [done|]. apply Forall_forall. intros f (e & -> & He)%elem_of_list_fmap. destruct e as [[k b] v]. cbn [alive fst snd]. exists (k, v). by apply (Hl (norm W k b)).
    + by destruct A1 as (-> & -> & _).
    + destruct A1 as (-> & -> & _). destruct (nth j hs None) as [[i q]|]; [|done]. eapply Forall_impl; [exact HF|]. intros [[i1 q1]|]; [|done]. intros Hs. by destruct (set_kept gs i q v i1 q1 Hs).
Qed.
Lemma pf_handle_alive ops (gs : list ver) hs outs j i q : yrun W 1 ops [ver0] [] gs hs outs -> nth j hs None = Some (i, q) -> is_Some (content (nth i gs ver0) !! q).
Proof.
  intros H E. pose proof (yrun_alive _ _ _ _ _ _ _ H (List.Forall_nil _)) as HF. destruct (Nat.lt_ge_cases j (length hs)) as [Hj|Hj]; [|by rewrite nth_overflow in E].
  rewrite Forall_forall in HF. specialize (HF (nth j hs None) ltac:(by apply elem_of_list_In, nth_In)). by rewrite E in HF.
Qed.

(** What [YSet] makes of a version. *)
Lemma pf_handle_valued (g : ver) q v r : content (valued g q v) !! r = if decide (q = r) then (fun kv => (kv.1, v)) <$> content g !! q else content g !! r.
Proof. cbn [valued content]. destruct (decide (q = r)) as [<-|Hne]; [apply lookup_alter|by apply lookup_alter_ne]. Qed.

(** Reading a kept node is looking its prefix up in the version in which it was found. *)
Lemma pf_handle_reads ops (gs gs' : list ver) hs hs' outs (x1 x2 : nout U) j i key bits (m : nat) : yrun W 1 ops [ver0] [] gs hs outs -> nth j hs None = Some (i, norm W key (adj W bits)) ->
  yrun W m [YGet j; YCall (VCall (NExact i key bits))] gs hs gs' hs' [x1; x2] -> exists k v, x1 = OList [(k, adj W bits, v)] /\ x2 = OVal (v, true).
Proof.
  intros H E (g1 & h1 & S1%ystep_inv & g2 & h2 & S2%ystep_inv & _). destruct S1 as (-> & -> & S1). rewrite E in S1. destruct S1 as (k & v & E2 & ->). exists k, v. split; [done|].
  destruct S2 as [_ S3]. inversion S3; subst. unfold s_exact. by rewrite E2.
Qed.

(** A node found in [a], a tree [b] made from [a] afterwards, and then a write. *)
Lemma pf_handle_child ops (gs gs' : list ver) hs hs' outs (x1 x2 x3 : nout U) i k1 b1 v1 k2 b2 v : yrun W 1 ops [ver0] [] gs hs outs -> i < length gs ->
  yrun W (S (length ops)) [YFind i k2 b2; YCall (VCall (NInsert i k1 b1 v1)); YSet (length hs) v] gs hs gs' hs' [x1; x2; x3] ->
  let q1 := norm W k1 (adj W b1) in let q2 := norm W k2 (adj W b2) in let write := alter (fun kv : N * value U => (kv.1, v)) q2 in
  let a := content (nth i gs ver0) in let b := s_insert W a k1 (adj W b1) v1 in
  is_Some (a !! q2) -> content (nth i gs' ver0) = write a /\ content (nth (length gs) gs' ver0) = if decide (covers q2 q1) then b else write b.
Proof.
  intros Hrun Hi (g1 & h1 & S1%ystep_inv & g2 & h2 & S2%ystep_inv & g3 & h3 & S3%ystep_inv & -> & ->) q1 q2 write a b Hm.
  destruct S1 as (-> & -> & _). destruct S2 as [-> S2]. inversion S2; subst. destruct S3 as (-> & _ & _). fold q1 q2.
  assert (Ef : found (nth i gs ver0) i q2 = Some (i, q2)) by (unfold found; change (content (nth i gs ver0)) with a; destruct Hm as [? Em]; by rewrite Em).
  rewrite app_nth2 by lia. rewrite Nat.sub_diag. cbn [nth]. rewrite Ef. clear Ef.
  pose proof (yrun_since _ _ _ _ _ _ _ Hrun) as Hs. assert (HF : Forall (fun g : ver => forall X, since g X < 1 + length ops) gs) by (apply Hs; constructor; [intros X; cbn; lia|constructor]). clear Hs.
  rewrite Forall_forall in HF. specialize (HF (nth i gs ver0) ltac:(by apply elem_of_list_In, nth_In) q2).
  set (n := S (length ops)) in *. set (g := remade (S n) (nth i gs ver0) q1 b). change (s_insert W (content (nth i gs ver0)) k1 (adj W b1) v1) with b. fold g.
  assert (Hst : forall (f : ver -> ver) j, j < length (gs ++ [g]) -> nth j (map f (gs ++ [g])) ver0 = f (nth j (gs ++ [g]) ver0)) by (intros f j0 Hj0; rewrite (nth_indep _ ver0 (f ver0)) by (by rewrite map_length); apply map_nth).
  assert (Hgn : nth (length gs) (gs ++ [g]) ver0 = g) by (rewrite app_nth2 by lia; by rewrite Nat.sub_diag).
  rewrite !Hst by (rewrite app_length; cbn [length]; lia). rewrite Hgn, (app_nth1 gs [g] ver0 Hi). split.
  - rewrite decide_True; [done|]. by split_and!.
  - destruct (decide (covers q2 q1)) as [D|D].
    + rewrite decide_False; [done|]. intros (_ & _ & E). cbn [g remade since] in E. rewrite decide_True in E by done. lia.
    + rewrite decide_True; [done|]. split_and!; [done| |cbn [g remade since]; by rewrite decide_False]. cbn [g remade content]. unfold b, s_insert. fold q1. rewrite lookup_insert_ne; [done|]. intros E. apply D. rewrite E. apply covers_refl.
Qed.

(** Writing the values of all nodes that Enumerate sent. *)
Lemma writes (vals : list (value U)) : forall (m d i : nat) (gs gs' : list ver) hs hs' outs (ps : list pfx), NoDup ps -> length ps = length vals -> (forall p q, ps !! p = Some q -> nth (d + p) hs None = Some (i, q)) ->
  yrun W m (imap (fun j v => YSet (d + j) v) vals) gs hs gs' hs' outs ->
  forall j, (forall p q v, ps !! p = Some q -> vals !! p = Some v -> both (nth i gs ver0) (nth j gs ver0) q -> content (nth j gs' ver0) !! q = (fun kv => (kv.1, v)) <$> content (nth j gs ver0) !! q) /\
    (forall r, r ∉ ps \/ ~ both (nth i gs ver0) (nth j gs ver0) r -> content (nth j gs' ver0) !! r = content (nth j gs ver0) !! r).
Proof.
  induction vals as [|v vals IH]; intros m d i gs gs' hs hs' outs [|q ps] Hnd Hlen Hhs; try done.
  - destruct outs; [|done]. intros [-> _] j. split; [intros p q v E; by rewrite lookup_nil in E|done].
  - rewrite imap_cons. destruct outs as [|x outs]; [done|]. intros (g1 & h1 & A1%ystep_inv & A2) j. destruct A1 as (-> & -> & _).
    rewrite (Hhs 0 q eq_refl) in A2. set (f := fun g => if decide (both (nth i gs ver0) g q) then valued g q v else g) in A2.
    assert (Hf : forall j, nth j (map f gs) ver0 = f (nth j gs ver0)).
    { intros j0. rewrite <- (map_nth f). f_equal. unfold f. rewrite decide_False; [done|]. intros (_ & H & _). cbn [content ver0] in H. rewrite lookup_empty in H. by destruct H. }
    assert (Hs : forall g r, is_Some (content (f g) !! r) <-> is_Some (content g !! r)) by (intros g r; unfold f; destruct (decide _); [cbn [valued content]; apply lookup_alter_is_Some|done]).
    assert (Hw : forall g, since (f g) = since g) by (intros g; unfold f; by destruct (decide _)).
    assert (Hb : forall j r, both (nth i (map f gs) ver0) (nth j (map f gs) ver0) r <-> both (nth i gs ver0) (nth j gs ver0) r) by (intros j0 r; rewrite !Hf; unfold both; by rewrite !Hs, !Hw).
    assert (Hq : forall g r, r <> q -> content (f g) !! r = content g !! r) by (intros g r Hne; unfold f; destruct (decide _); [cbn [valued content]; by apply lookup_alter_ne|done]).
    apply NoDup_cons in Hnd as [Hq1 Hnd]. destruct (IH (S m) (S d) i (map f gs) gs' hs hs' outs ps Hnd ltac:(by injection Hlen)) with (j := j) as [B1 B2].
    + intros p r Hr. rewrite <- (Hhs (S p) r Hr). f_equal. lia.
    + erewrite imap_ext; [exact A2|]. intros j0 w _. unfold compose. f_equal. lia.
    + split.
      * intros [|p] r w E1 E2 Hbo; cbn [lookup list_lookup] in E1, E2.
        -- injection E1 as <-. injection E2 as <-. rewrite B2 by (by left). rewrite Hf. unfold f. rewrite decide_True by done. cbn [valued content]. by rewrite lookup_alter.
        -- rewrite (B1 p r w E1 E2 ltac:(by apply Hb)). rewrite Hf, Hq; [done|]. intros ->. apply Hq1. by eapply elem_of_list_lookup_2.
      * intros r Hr. rewrite B2; [|rewrite Hb; destruct Hr as [Hr|Hr]; [left; by apply not_elem_of_cons in Hr as [_ ?]|by right]]. rewrite Hf. destruct Hr as [Hr|Hr].
        -- apply Hq. intros ->. apply Hr. by left.
        -- destruct (decide (r = q)) as [->|Hne]; [|by apply Hq]. unfold f. by rewrite decide_False.
Qed.
Lemma enum_nodup (m : nmap) l : s_enum W m l -> NoDup (map (fun e : nentry => norm W e.1.1 e.1.2) l).
Proof.
  intros [HS _]. induction HS as [|e l HS IH HF]; cbn [map]; [constructor|]. constructor; [|done]. intros (e2 & E & He)%elem_of_list_fmap. rewrite Forall_forall in HF. destruct (HF e2 He) as [H|[_ H]]; rewrite E in H || (injection E as E _; lia); lia.
Qed.
Lemma pf_handle_all (m i : nat) (gs gs' : list ver) hs hs' outs l (vals : list (value U)) : length vals = length l ->
  yrun W m (YEnum i :: imap (fun j v => YSet (length hs + j) v) vals) gs hs gs' hs' (OList l :: outs) ->
  forall j, let g := nth j gs ver0 in let g' := nth j gs' ver0 in
  (forall r, both (nth i gs ver0) g r -> exists p k v0 v kv, l !! p = Some (k, r.1, v0) /\ r = norm W k r.1 /\ vals !! p = Some v /\ content g !! r = Some kv /\ content g' !! r = Some (kv.1, v)) /\
  (forall r, ~ both (nth i gs ver0) g r -> content g' !! r = content g !! r).
Proof.
  intros Hlen (g1 & h1 & A1%ystep_inv & A2) j g g'. destruct A1 as (-> & l2 & Hl & -> & [= <-]). pose proof (enum_nodup _ _ Hl) as Hnd.
  set (ps := map (fun e : nentry => norm W e.1.1 e.1.2) l) in Hnd.
  destruct (writes vals (S m) (length hs) i gs gs' (hs ++ map (fun e : nentry => Some (i, norm W e.1.1 e.1.2)) l) hs' outs ps Hnd) with (j := j) as [B1 B2]; [unfold ps; by rewrite map_length| |exact A2|].
  - intros p q E. rewrite app_nth2 by lia. replace (length hs + p - length hs) with p by lia. apply nth_lookup_Some. unfold ps in E. rewrite list_lookup_fmap in E. rewrite list_lookup_fmap. destruct (l !! p) as [e|]; [|done]. cbn [fmap option_fmap option_map] in *. by injection E as <-.
  - split; [|intros r Hr; apply B2; by right]. intros r Hr. pose proof Hr as ([[k v0] E1] & [kv E2] & _). destruct Hl as [_ Hl]. pose proof (proj1 (Hl _ _ _) E1) as [Hin Hq]. apply elem_of_list_lookup in Hin as [p Hp].
    destruct (lookup_lt_is_Some_2 vals p) as [v Hv]; [rewrite Hlen; by eapply lookup_lt_Some|]. exists p, k, v0, v, kv. split_and!; [done|done|done|done|].
    assert (Hps : ps !! p = Some r); [|unfold g', g in *; rewrite (B1 p r v Hps Hv Hr), E2; done]. unfold ps. rewrite list_lookup_fmap. unfold nentry in *. rewrite Hp. cbn [fmap option_fmap option_map fst snd]. by rewrite <- Hq.
Qed.
End spec.

(** The results depend on the calls alone. *)
Lemma pf_handle_results {U} (c : cfg) (ops : list (yop U)) : cfg_ok c -> Forall (yop_ok (cW c)) ops ->
  exists outs gs hs, yrun (cW c) 1 ops [ver0 U] [] gs hs outs /\ forall h : heap U, wp (y_hist c ops [None] []) h ∅ (fun r _ _ => r = outs).
Proof.
  intros Hc Hok. pose proof (pf_handle_exact c Hc ∅ ops Hok) as Hw.
  eapply (wp_run _ _ _ _ 1%positive) in Hw; [|intros l _; apply lookup_empty].
  destruct Hw as (a & h' & next' & W' & _ & (_ & gs & hs & Hs) & _). exists a, gs, hs. split; [done|]. intros h.
  eapply wp_mono; [by apply (pf_handle_exact c Hc h ops)|]. cbn beta. intros r h2 _ (_ & gs2 & hs2 & Hs2). by destruct (pf_handle_determined _ _ _ _ _ _ _ _ _ _ _ Hs Hs2) as (_ & _ & ->).
Qed.
