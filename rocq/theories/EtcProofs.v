(** * Proofs for Properties_etc.v. *)
From Verif Require Import Prog EtcModel EtcSpec DomCodec.
Open Scope nat_scope.

Lemma joined_with c l : join_with c l = joined c l.
Proof. by induction l as [|p [|q l] IH]; [done|done|]; simpl in *; rewrite IH. Qed.
Lemma beqb_spec a b : reflect (a = b) (beqb a b).
Proof. unfold beqb. by destruct (List.list_eq_dec _ _ _); constructor. Qed.
Lemma split_on_nil c s : split_on c s <> [].
Proof. destruct s as [|x s]; [done|]. simpl. destruct (Byte.eqb x c); [done|]. by destruct (split_on c s). Qed.
Lemma split_on_app c a b : c ∉ a -> split_on c (a ++ c :: b) = a :: split_on c b.
Proof.
  induction a as [|x a IH]; simpl; intros H.
  - by destruct (byte_eqb_spec c c).
  - apply not_elem_of_cons in H as [H1 H2]. destruct (byte_eqb_spec x c); [congruence|]. by rewrite IH.
Qed.
Lemma split_on_one c a : c ∉ a -> split_on c a = [a].
Proof.
  induction a as [|x a IH]; simpl; intros H; [done|]. apply not_elem_of_cons in H as [H1 H2].
  destruct (byte_eqb_spec x c); [congruence|]. by rewrite IH.
Qed.
Lemma split_joined c l : l <> [] -> Forall (fun p => c ∉ p) l -> split_on c (joined c l) = l.
Proof.
  intros Hn Hl. induction Hl as [|p l Hp Hl IH]; [done|]. destruct l as [|q l]; [by apply split_on_one|].
  change (joined c (p :: q :: l)) with (p ++ c :: joined c (q :: l)). rewrite split_on_app by done. by rewrite IH.
Qed.
Lemma split_joined_tail c l s : Forall (fun p => c ∉ p) l -> l <> [] -> split_on c (joined c l ++ c :: s) = l ++ split_on c s.
Proof.
  intros Hl Hn. induction Hl as [|p l Hp Hl IH]; [done|]. destruct l as [|q l]; [by apply split_on_app|].
  change (joined c (p :: q :: l)) with (p ++ c :: joined c (q :: l)). rewrite <- app_assoc, <- app_comm_cons, split_on_app by done. by rewrite IH.
Qed.
Lemma joined_cons c p l : l <> [] -> joined c (p :: l) = p ++ c :: joined c l.
Proof. by destruct l. Qed.
Lemma split_pieces c s : pieces c s (split_on c s).
Proof.
  split; [apply split_on_nil|]. induction s as [|x s [IH1 IH2]]; [repeat constructor; set_solver|]. cbn [split_on].
  pose proof (split_on_nil c s) as Hn. destruct (byte_eqb_spec x c) as [->|Hx].
  - split; [constructor; [set_solver|done]|]. rewrite joined_cons by done. simpl. f_equal. exact IH2.
  - destruct (split_on c s) as [|p ps]; [done|]. apply Forall_cons in IH1 as [H1 H2].
    split; [constructor; [set_solver|done]|]. rewrite IH2 at 1. by destruct ps.
Qed.
Lemma pieces_split c s l : pieces c s l -> split_on c s = l.
Proof. intros (H1 & H2 & ->). by apply split_joined. Qed.
Lemma split_on_len c s : length (split_on c s) <= S (length s).
Proof. induction s as [|x s IH]; simpl; [lia|]. destruct (Byte.eqb x c); simpl; [lia|]. destruct (split_on c s); simpl in *; lia. Qed.

(** ** Clean *)
Definition good (c : bytes) : Prop := c <> [] /\ c <> here /\ slash ∉ c.
Fixpoint okst (r : bool) (st : list bytes) : Prop :=
  match st with
  | [] => True
  | x :: st' => good x /\ (x = up -> match st' with [] => r = false | y :: _ => y = up end) /\ okst r st'
  end.
Notation noslash := (Forall (fun p => slash ∉ p)).
Lemma step_cases r st c : clean_step r st c =
  if beqb c [] then st else if beqb c here then st else if beqb c up then
    match st with [] => if r then [] else [c] | x :: st' => if beqb x up then c :: st else st' end else c :: st.
Proof. unfold clean_step. destruct c; [done|]. by destruct (beqb_spec (b :: c) []). Qed.
Lemma step_ok r st c : slash ∉ c -> okst r st -> okst r (clean_step r st c).
Proof.
  intros Hc Hs. rewrite step_cases. destruct (beqb_spec c []); [done|]. destruct (beqb_spec c here); [done|].
  destruct (beqb_spec c up) as [->|Hu]; [|done].
  destruct st as [|x st]; [destruct r; [done|]; done|]. destruct (beqb_spec x up) as [->|]; [done|]. by destruct Hs as (_ & _ & ?).
Qed.
Lemma fold_ok r l : noslash l -> forall st, okst r st -> okst r (fold_left (clean_step r) l st).
Proof. induction 1 as [|c l Hc Hl IH]; intros st Hs; [done|]. simpl. by apply IH, step_ok. Qed.
Lemma okst_app r a b : okst r (a ++ b) -> okst r b.
Proof. induction a as [|x a IH]; [done|]. simpl. intros (_ & _ & ?). by apply IH. Qed.
Lemma fold_id r l : forall st, okst r (rev l ++ st) -> fold_left (clean_step r) l st = rev l ++ st.
Proof.
  induction l as [|c l IH]; intros st Hs; [done|]. simpl in *. rewrite <- app_assoc in *. simpl in *.
  assert (clean_step r st c = c :: st) as ->; [|by apply IH].
  apply okst_app in Hs. destruct Hs as ((H1 & H2 & H3) & H4 & H5). rewrite step_cases.
  destruct (beqb_spec c []); [done|]. destruct (beqb_spec c here); [done|]. destruct (beqb_spec c up) as [->|]; [|done].
  specialize (H4 eq_refl). destruct st as [|y st]; [by subst r|]. subst y. by destruct (beqb_spec up up).
Qed.
Lemma okst_good r st : okst r st -> Forall good st.
Proof. induction st as [|x st IH]; intros; [constructor|]. destruct H as (? & _ & ?). constructor; auto. Qed.
Lemma okst_noslash r l : okst r (rev l) -> noslash l.
Proof. intros H%okst_good. apply Forall_rev in H. rewrite rev_involutive in H. eapply Forall_impl; [exact H|]. by intros x (_ & _ & ?). Qed.

(** Simplification steps do not change what the fold computes, and it ends in a list without steps. *)
Lemma fold_simpler r l l' : simpler r l l' -> fold_left (clean_step r) l [] = fold_left (clean_step r) l' [].
Proof.
  intros H. destruct H as [a b|a b|a x b Hx1 Hx2 Hx3|b Hr]; rewrite ?fold_left_app; cbn [fold_left]; try done.
  - f_equal. rewrite !step_cases. destruct (beqb_spec x []); [done|]. destruct (beqb_spec x here); [done|]. destruct (beqb_spec x up); [done|].
    destruct (beqb_spec up []); [done|]. destruct (beqb_spec up here); [done|]. destruct (beqb_spec up up); [|done]. by destruct (beqb_spec x up).
  - by subst r.
Qed.
Lemma fold_reach r l : forall st, okst r st -> noslash l -> rtc (simpler r) (rev st ++ l) (rev (fold_left (clean_step r) l st)).
Proof.
  induction l as [|c l IH]; intros st Hs Hl; [rewrite app_nil_r; done|]. inversion Hl as [|? ? Hc Hl']; subst. simpl.
  etrans; [|apply IH; [by apply step_ok|done]]. rewrite step_cases.
  destruct (beqb_spec c []) as [->|]; [apply rtc_once, simpler_empty|]. destruct (beqb_spec c here) as [->|]; [apply rtc_once, simpler_here|].
  destruct (beqb_spec c up) as [->|]; [|simpl; by rewrite <- app_assoc].
  destruct st as [|x st]; simpl; [destruct r; simpl; [by apply rtc_once, simpler_root|done]|].
  destruct (beqb_spec x up) as [->|]; simpl; rewrite <- !app_assoc; [done|]. simpl. destruct Hs as ((? & ? & ?) & _ & _).
  by apply rtc_once, simpler_up.
Qed.
Lemma okst_nf r l : okst r (rev l) -> forall l', ~ simpler r l l'.
Proof.
  intros Hok l' H. pose proof (okst_good _ _ Hok) as Hg. apply Forall_rev in Hg. rewrite rev_involutive in Hg. destruct H as [a b|a b|a x b Hx1 Hx2 Hx3|b Hr].
  - apply Forall_app in Hg as [_ Hg]. inversion Hg as [|? ? (? & _) _]; subst. done.
  - apply Forall_app in Hg as [_ Hg]. inversion Hg as [|? ? (_ & ? & _) _]; subst. done.
  - rewrite rev_app_distr in Hok. simpl in Hok. rewrite <- !app_assoc in Hok. apply okst_app in Hok. destruct Hok as (_ & H & _). by specialize (H eq_refl).
  - simpl in Hok. apply okst_app in Hok. destruct Hok as (_ & H & _). specialize (H eq_refl). congruence.
Qed.
Lemma nf_okst r l : noslash l -> (forall l', ~ simpler r l l') -> okst r (rev l).
Proof.
  induction l as [|x l IH] using rev_ind; intros Hs Hn; [done|]. apply Forall_app in Hs as [Hs Hx]. inversion Hx as [|? ? Hx' _]; subst.
  rewrite rev_app_distr. simpl. split; [|split].
  - split; [intros ->; by eapply Hn, (simpler_empty r l [])|]. split; [intros ->; by eapply Hn, (simpler_here r l [])|done].
  - intros ->. destruct l as [|y l _] using rev_ind; simpl.
    + destruct r; [exfalso; by eapply Hn, simpler_root|done].
    + rewrite rev_app_distr. simpl. rewrite <- app_assoc in Hn. simpl in Hn.
      destruct (beqb_spec y up); [done|]. exfalso.
      destruct (beqb_spec y []) as [->|]; [by eapply Hn, simpler_empty|]. destruct (beqb_spec y here) as [->|]; [by eapply Hn, simpler_here|].
      by eapply Hn, simpler_up.
  - apply IH; [done|]. intros l' H. destruct H as [a b|a b|a y b H1 H2 H3|b Hr].
    + rewrite <- app_assoc in Hn. by eapply Hn, simpler_empty.
    + rewrite <- app_assoc in Hn. by eapply Hn, simpler_here.
    + rewrite <- app_assoc in Hn. by eapply Hn, simpler_up.
    + by eapply Hn, simpler_root.
Qed.
Lemma fold_names r l0 l : noslash l0 -> rtc (simpler r) l0 l -> (forall l', ~ simpler r l l') ->
  fold_left (clean_step r) l0 [] = rev l /\ okst r (rev l).
Proof.
  intros Hs Hr Hn. assert (noslash l /\ fold_left (clean_step r) l0 [] = fold_left (clean_step r) l []) as [Hs' ->].
  { clear Hn. induction Hr as [l|l0 l1 l H Hr IH]; [done|]. rewrite (fold_simpler _ _ _ H). apply IH.
    destruct H as [a b|a b|a x b _ _ _|b _]; repeat (apply Forall_app in Hs as [? Hs]); repeat (apply Forall_cons in Hs as [? Hs]); try apply Forall_app; done. }
  pose proof (nf_okst _ _ Hs' Hn) as Ho. split; [|done]. rewrite (fold_id r l []); rewrite app_nil_r; done.
Qed.
Lemma rooted_iff p : rooted p = true <-> exists p', p = slash :: p'.
Proof. destruct p as [|x p]; simpl; [naive_solver|]. destruct (byte_eqb_spec x slash); naive_solver. Qed.
Lemma names_clean p r l : names p r l -> rooted p = r /\ go_clean p = render r l /\ okst r (rev l).
Proof.
  intros (Hr & l0 & Hp & Hl & Hn). assert (rooted p = r) as Hr'.
  { apply Bool.eq_iff_eq_true. rewrite rooted_iff, Hr. done. }
  split; [done|]. unfold go_clean. rewrite Hr'. pose proof (pieces_split _ _ _ Hp) as ->. destruct Hp as (_ & Hs & _).
  destruct (fold_names r l0 l Hs Hl Hn) as [-> Ho]. by rewrite rev_involutive.
Qed.
Lemma names_exist p : exists l, names p (rooted p) l /\ length l <= S (length p).
Proof.
  destruct (split_pieces slash p) as (H1 & H2 & H3). pose proof (fold_ok (rooted p) _ H2 [] I) as Ho.
  exists (rev (fold_left (clean_step (rooted p)) (split_on slash p) [])). split.
  - split; [apply rooted_iff|]. exists (split_on slash p). split; [done|]. split; [by apply (fold_reach _ _ [])|].
    apply okst_nf. by rewrite rev_involutive.
  - rewrite rev_length. etrans; [|apply (split_on_len slash)]. clear. generalize (split_on slash p). intros l.
    assert (forall st, length (fold_left (clean_step (rooted p)) l st) <= length l + length st) as H; [|specialize (H []); simpl in H; lia].
    induction l as [|c l IH]; intros st; [done|]. simpl. etrans; [apply IH|]. rewrite step_cases.
    repeat case_match; simpl in *; lia.
Qed.
Lemma names_unique p r l l' : names p r l -> names p r l' -> l = l'.
Proof.
  intros (_ & l0 & Hp & Hl & Hn) (_ & l0' & Hp' & Hl' & Hn'). pose proof (pieces_split _ _ _ Hp). pose proof (pieces_split _ _ _ Hp'). assert (l0' = l0) as -> by congruence.
  destruct Hp as (_ & Hs & _). destruct (fold_names _ _ _ Hs Hl Hn) as [E1 _]. destruct (fold_names _ _ _ Hs Hl' Hn') as [E2 _].
  rewrite E1 in E2. apply (f_equal (@rev _)) in E2. by rewrite !rev_involutive in E2.
Qed.

(** ** Split of rendered paths *)
Definition stem (r : bool) : bytes := if r then [slash] else [].
Lemma render_nil r : render r [] = if r then [slash] else here.
Proof. by destruct r. Qed.
Lemma joined_nonnil c x l : x <> [] -> joined c (x :: l) <> [].
Proof. destruct x; [done|]. by destruct l. Qed.
Lemma render_eq r l : okst r (rev l) -> l <> [] -> render r l = stem r ++ joined slash l.
Proof.
  intros H Hn. destruct l as [|x l]; [done|]. unfold render. rewrite joined_with. pose proof (okst_good _ _ H) as Hg. apply Forall_rev in Hg. rewrite rev_involutive in Hg.
  inversion Hg as [|? ? (Hx & _) _]; subst. change (if r then [slash] else []) with (stem r). destruct (stem r ++ joined slash (x :: l)) eqn:E; [|done].
  apply app_nil in E as [_ E]. by apply joined_nonnil in E.
Qed.
Lemma joined_snoc c l x : l <> [] -> joined c (l ++ [x]) = joined c l ++ c :: x.
Proof.
  induction l as [|p l IH]; [done|]. intros _. destruct l as [|q l]; [done|].
  change (joined c ((p :: q :: l) ++ [x])) with (p ++ c :: joined c ((q :: l) ++ [x])). rewrite IH by done.
  change (joined c (p :: q :: l)) with (p ++ c :: joined c (q :: l)). by rewrite <- app_assoc.
Qed.
Lemma go_split_one f : slash ∉ f -> go_split f = ([], f).
Proof.
  induction f as [|x f IH]; intros H; [done|]. apply not_elem_of_cons in H as [H1 H2]. simpl. rewrite IH by done. simpl.
  destruct (byte_eqb_spec x slash); [congruence|done].
Qed.
Lemma go_split_app d f : slash ∉ f -> go_split (d ++ slash :: f) = (d ++ [slash], f).
Proof.
  intros H. induction d as [|x d IH]; cbn [app go_split].
  - rewrite go_split_one by done. by destruct (byte_eqb_spec slash slash).
  - rewrite IH. by destruct d.
Qed.
(** The parent directory of a rendered path as filepath.Split returns it. *)
Definition parent_of (r : bool) (l : list bytes) : bytes :=
  match l with [] => stem r | _ => render r l ++ [slash] end.
Lemma okst_snoc r l x : okst r (rev (l ++ [x])) -> okst r (rev l) /\ good x.
Proof. rewrite rev_app_distr. simpl. by intros (? & _ & ?). Qed.
Lemma split_render r l x : okst r (rev (l ++ [x])) -> go_split (render r (l ++ [x])) = (parent_of r l, x).
Proof.
  intros H. rewrite render_eq by (done || by destruct l). destruct (okst_snoc _ _ _ H) as (Ho & _ & _ & Hx). destruct l as [|p l].
  - destruct r; simpl; [by apply (go_split_app [])|by apply go_split_one].
  - rewrite joined_snoc by done. rewrite app_assoc, go_split_app by done. f_equal. unfold parent_of. by rewrite render_eq.
Qed.
Lemma rooted_render r l s : okst r (rev l) -> rooted (render r l ++ s) = r.
Proof.
  intros H. destruct l as [|x l]; [by destruct r|]. rewrite render_eq by done. destruct r; [done|].
  change (rooted (joined slash (x :: l) ++ s) = false).
  pose proof (okst_good _ _ H) as Hg. apply Forall_rev in Hg. rewrite rev_involutive in Hg. inversion Hg as [|? ? (Hx & _ & Hs) _]; subst.
  destruct x as [|b x]; [done|]. apply not_elem_of_cons in Hs as [Hs _].
  transitivity (Byte.eqb b slash); [by destruct l|].
  destruct (byte_eqb_spec b slash); [congruence|done].
Qed.
Lemma fold_render r l s : okst r (rev l) -> s = [] \/ s = [slash] -> l <> [] ->
  fold_left (clean_step r) (split_on slash (render r l ++ s)) [] = rev l.
Proof.
  intros H Hs Hn. pose proof (okst_noslash _ _ H) as Hl. rewrite render_eq by done.
  assert (fold_left (clean_step r) (split_on slash ((stem r ++ joined slash l) ++ s)) [] = fold_left (clean_step r) l []) as ->.
  { rewrite <- app_assoc. assert (forall q, fold_left (clean_step r) (split_on slash (stem r ++ q)) [] = fold_left (clean_step r) (split_on slash q) []) as ->.
    { intros q. destruct r; [|done]. done. }
    destruct Hs as [->| ->]; [rewrite app_nil_r; by rewrite split_joined|]. rewrite split_joined_tail by done. by rewrite fold_left_app. }
  rewrite (fold_id r l []); rewrite app_nil_r; done.
Qed.
Lemma clean_render r l s : okst r (rev l) -> s = [] \/ s = [slash] -> l <> [] -> go_clean (render r l ++ s) = render r l.
Proof. intros H Hs Hn. unfold go_clean. rewrite rooted_render by done. rewrite fold_render by done. by rewrite rev_involutive. Qed.
Lemma clean_parent r l : okst r (rev l) -> parent_of r l <> [] -> go_clean (parent_of r l) = render r l.
Proof. intros H Hn. destruct l as [|x l]; [by destruct r|]. unfold parent_of. apply clean_render; auto. Qed.

(** ** fullSplit *)
Lemma full_split_end fuel out i d r : i < length out ->
  go_split d = (stem r, if r then [] else here) -> full_split_loop (S fuel) out (S i) d = inl (listed r [] ++ drop (S i) out).
Proof.
  intros Hi E. cbn [full_split_loop]. destruct (Nat.ltb_spec i (length out)); [|lia]. cbn [negb]. rewrite E.
  assert (forall x, drop i (<[i := x]> out) = x :: drop (S i) out) as Hd.
  { intros x. rewrite (drop_S _ x) by (by apply list_lookup_insert). by rewrite drop_insert_gt by lia. }
  destruct r; cbn [is_nil_b stem here]; rewrite Hd; reflexivity.
Qed.
Lemma full_split_refill fuel out d : full_split_loop (S fuel) out 0 d = full_split_loop fuel (repeat [] 10 ++ out) 10 d.
Proof. done. Qed.
Lemma full_split_loop_eq r l : okst r (rev l) -> forall fuel out i, i <= length out -> 2 * length l + 4 <= fuel + min i 1 ->
  full_split_loop fuel out i (render r l) = inl (listed r l ++ drop i out).
Proof.
  induction l as [|x l IH] using rev_ind; intros Ho fuel out i Hi Hf.
  - assert (forall fuel out i, i < length out -> full_split_loop (S fuel) out (S i) (render r []) = inl (listed r [] ++ drop (S i) out)) as H.
    { intros. apply full_split_end; [done|]. by destruct r. }
    destruct i as [|i]; simpl in Hf; (destruct fuel as [|[|fuel]]; [lia..|]); [|by apply H].
    rewrite full_split_refill, H by (rewrite app_length, repeat_length; lia). done.
  - assert (forall fuel out i, i < length out -> 2 * length l + 4 <= fuel ->
      full_split_loop (S fuel) out (S i) (render r (l ++ [x])) = inl (listed r (l ++ [x]) ++ drop (S i) out)) as H.
    { clear fuel out i Hi Hf. intros fuel out i Hi Hf. cbn [full_split_loop]. destruct (Nat.ltb_spec i (length out)); [|lia]. cbn [negb].
      rewrite (split_render _ _ _ Ho). destruct (okst_snoc _ _ _ Ho) as (Ho' & Hx & _). destruct x as [|b x]; [done|]. cbn [is_nil_b].
      assert (drop i (<[i := b :: x]> out) = (b :: x) :: drop (S i) out) as Hd.
      { rewrite (drop_S _ (b :: x)) by (by apply list_lookup_insert). by rewrite drop_insert_gt by lia. }
      destruct (is_nil_b (parent_of r l)) eqn:E.
      - destruct l as [|y l]; [|simpl in E; by destruct (render r (y :: l))]. destruct r; [done|]. f_equal. exact Hd.
      - rewrite clean_parent by (done || by intros E'; rewrite E' in E).
        rewrite IH by (rewrite ?insert_length; done || lia). f_equal.
        etransitivity; [apply f_equal; exact Hd|]. destruct r; simpl; [by rewrite <- app_assoc|]. destruct l; [done|]. simpl. by rewrite <- app_assoc. }
    rewrite app_length in Hf. simpl in Hf. destruct i as [|i].
    + destruct fuel as [|[|fuel]]; simpl in Hf; [lia..|]. rewrite full_split_refill.
      rewrite H; [done|rewrite app_length, repeat_length; lia|lia].
    + destruct fuel as [|fuel]; simpl in Hf; [lia|]. apply H; lia.
Qed.
Lemma full_split_names p r l fuel : names p r l -> 2 * length p + 6 <= fuel -> full_split fuel p = inl (listed r l).
Proof.
  intros H Hf. destruct (names_exist p) as (l' & H' & Hl). destruct (names_clean _ _ _ H) as (Hr & Hc & Ho). rewrite Hr in H'.
  pose proof (names_unique _ _ _ _ H H') as <-. unfold full_split. rewrite Hc.
  rewrite (full_split_loop_eq r l Ho fuel (repeat [] pre_alloc) pre_alloc); [|done|simpl; lia].
  change (drop pre_alloc (repeat [] pre_alloc)) with (@nil bytes). by rewrite app_nil_r.
Qed.
Lemma names_fold p : names p (rooted p) (rev (fold_left (clean_step (rooted p)) (split_on slash p) [])).
Proof.
  destruct (split_pieces slash p) as (H1 & H2 & H3). pose proof (fold_ok (rooted p) _ H2 [] I) as Ho.
  split; [apply rooted_iff|]. exists (split_on slash p). split; [done|]. split; [by apply (fold_reach _ _ [])|].
  apply okst_nf. by rewrite rev_involutive.
Qed.

(** ** Absolute paths and prefixes *)
Lemma render_abs l : render true l = abs_path l.
Proof. unfold render, abs_path. by rewrite joined_with. Qed.
Lemma abs_names_abs cwd p l : rooted cwd = true -> abs_names cwd p l -> go_abs cwd p = abs_path l /\ okst true (rev l).
Proof.
  intros Hc H. rewrite <- render_abs. destruct p as [|x p]; unfold go_abs, go_join.
  - simpl in H. destruct cwd as [|y cwd]; [done|]. cbn. destruct (names_clean _ _ _ H) as (_ & ? & ?). done.
  - cbn [rooted]. unfold abs_names in H. destruct (Byte.eqb x slash); destruct (names_clean _ _ _ H) as (_ & E & ?); [done|].
    destruct cwd as [|y cwd]; [done|]. done.
Qed.
Lemma abs_names_exist cwd p : rooted cwd = true -> exists l, abs_names cwd p l.
Proof.
  intros Hc. destruct p as [|x p]; unfold abs_names.
  - pose proof (names_fold cwd) as H. rewrite Hc in H. eauto.
  - destruct (Byte.eqb x slash) eqn:E; [pose proof (names_fold (x :: p)) as H; cbn [rooted] in H; rewrite E in H; eauto|].
    pose proof (names_fold (cwd ++ slash :: x :: p)) as H. destruct cwd as [|y cwd]; [done|]. cbn [rooted app] in H, Hc. rewrite Hc in H. eauto.
Qed.
Lemma okst_notup l : okst true l -> up ∉ l.
Proof.
  induction l as [|x l IH]; [set_solver|]. intros (_ & Hu & Hl) Hin. apply elem_of_cons in Hin as [<-|Hin]; [|by apply IH].
  specialize (Hu eq_refl). destruct l as [|y l]; [done|]. subst y. apply IH; [done|]. set_solver.
Qed.
Lemma okst_proper r l items : okst r (rev l) -> Forall proper items -> okst r (rev (l ++ items)).
Proof.
  intros Hl Hi. induction items as [|x items IH] using rev_ind; [by rewrite app_nil_r|]. apply Forall_app in Hi as [Hi Hx].
  inversion Hx as [|? ? (H1 & H2 & H3 & H4) _]; subst. rewrite app_assoc, rev_app_distr. simpl. split; [done|]. split; [done|]. by apply IH.
Qed.
Lemma okst_all_proper l : okst true (rev l) -> Forall proper l.
Proof.
  intros H. pose proof (okst_good _ _ H) as Hg. apply Forall_rev in Hg. rewrite rev_involutive in Hg. pose proof (okst_notup _ H) as Hu.
  apply Forall_forall. intros x Hx. rewrite Forall_forall in Hg. destruct (Hg x Hx) as (H1 & H2 & H3). split; [done|]. split; [done|]. split; [|done].
  intros ->. apply Hu. by apply elem_of_list_In, in_rev; rewrite rev_involutive; apply elem_of_list_In.
Qed.
Lemma names_abs l : okst true (rev l) -> names (abs_path l) true l.
Proof.
  intros H. pose proof (names_fold (abs_path l)) as Hn. destruct l as [|x l]; [exact Hn|]. change (rooted (abs_path (x :: l))) with true in Hn.
  rewrite <- render_abs in *. rewrite <- (app_nil_r (render _ _)) in Hn at 2. rewrite (fold_render true) in Hn by auto. by rewrite rev_involutive in Hn.
Qed.
Lemma prefix_loop p q i : length q + i <= length p -> exists b, has_prefix_loop p q i = inl b /\ (b = true <-> q `prefix_of` drop i p).
Proof.
  revert i. induction q as [|x q IH]; intros i Hi; cbn [has_prefix_loop].
  - exists true. split; [done|]. split; [|done]. intros _. apply prefix_nil.
  - simpl in Hi. destruct (p !! i) as [y|] eqn:E; [|apply lookup_ge_None in E; lia]. rewrite (drop_S _ _ _ E).
    destruct (beqb_spec y x) as [->|Hn]; simpl.
    + destruct (IH (S i)) as (b & -> & Hb); [lia|]. exists b. split; [done|]. rewrite Hb. split; [apply prefix_cons|apply prefix_cons_inv_2].
    + exists false. split; [done|]. split; [done|]. intros H. by apply prefix_cons_inv_1 in H.
Qed.
Lemma has_prefix_spec p q : exists b, has_prefix p q = inl b /\ (b = true <-> q `prefix_of` p).
Proof.
  unfold has_prefix. destruct (Nat.ltb_spec (length p) (length q)).
  - exists false. split; [done|]. split; [done|]. intros Hp%prefix_length. lia.
  - destruct (prefix_loop p q 0) as (b & Hb); [lia|]. exists b. exact Hb.
Qed.
Lemma join_proper l : Forall proper l -> l <> [] -> go_join l = joined slash l.
Proof.
  intros Hp Hn. assert (okst false (rev l)) as Ho by (by apply (okst_proper false [])). unfold go_join.
  assert (List.filter (fun e => negb (is_nil_b e)) l = l) as ->.
  { clear Hn Ho. induction Hp as [|x l (Hx & _) Hp IH]; [done|]. simpl. destruct x; [done|]. simpl. by rewrite IH. }
  assert (forallb is_nil_b l = false) as ->.
  { destruct l as [|x l]; [done|]. inversion Hp as [|? ? (Hx & _) _]; subst. by destruct x. }
  pose proof (clean_render false l [] Ho) as Hc. rewrite app_nil_r in Hc. pose proof (render_eq false l Ho Hn) as Er.
  change (stem false ++ joined slash l) with (joined slash l) in Er. rewrite joined_with, <- Er. apply Hc; auto.
Qed.
Lemma joined_len c l : noslash l -> length l <= S (length (joined c l)).
Proof.
  intros _. induction l as [|x l IH]; [simpl; lia|]. destruct l as [|y l]; [simpl; lia|]. rewrite joined_cons by done. rewrite app_length. simpl in *. lia.
Qed.
Lemma parent_len l x : okst true (rev (l ++ [x])) -> length (parent_of true l) <= length (abs_path (l ++ [x])).
Proof.
  intros H. rewrite <- render_abs. pose proof (split_render _ _ _ H) as E. rewrite render_eq by (done || by destruct l). destruct (okst_snoc _ _ _ H) as (Ho & _).
  destruct l as [|y l]; [simpl; lia|]. unfold parent_of. rewrite render_eq by done. rewrite joined_snoc by done. rewrite !app_length. simpl. lia.
Qed.
Lemma parent_names l : okst true (rev l) -> names (parent_of true l) true l.
Proof.
  intros H. destruct l as [|y l]; [exact (names_abs [] H)|]. unfold parent_of. pose proof (names_fold (render true (y :: l) ++ [slash])) as Hn.
  rewrite rooted_render in Hn by done. rewrite fold_render in Hn by auto. by rewrite rev_involutive in Hn.
Qed.
Lemma make_prefix_root fuel cwd t : rooted cwd = true -> abs_names cwd t [] -> make_prefix fuel cwd t = inr EtcFatal.
Proof. intros Hc H. destruct (abs_names_abs _ _ _ Hc H) as [E _]. unfold make_prefix. by rewrite E. Qed.
Lemma make_prefix_names fuel cwd t l x : rooted cwd = true -> abs_names cwd t (l ++ [x]) -> 2 * length (abs_path (l ++ [x])) + 6 <= fuel ->
  make_prefix fuel cwd t = inl ([slash] :: l) /\ okst true (rev (l ++ [x])).
Proof.
  intros Hc H Hf. destruct (abs_names_abs _ _ _ Hc H) as [E Ho]. split; [|done]. unfold make_prefix. rewrite E, <- render_abs, (split_render _ _ _ Ho).
  pose proof (parent_len _ _ Ho) as Hl. destruct (okst_snoc _ _ _ Ho) as (Ho' & Hx & _). destruct x as [|b x]; [done|]. cbn [is_nil_b].
  rewrite (full_split_names _ _ _ _ (parent_names _ Ho')) by lia. done.
Qed.
Lemma rel_name fuel l x items : okst true (rev (l ++ [x])) -> Forall proper items -> 2 * length (abs_path (l ++ x :: items)) + 6 <= fuel ->
  get_rel_name fuel (abs_path (l ++ x :: items)) ([slash] :: l) = inl (joined slash (x :: items)).
Proof.
  intros Ho Hi Hf. assert (okst true (rev (l ++ x :: items))) as Ho2.
  { replace (l ++ x :: items) with ((l ++ [x]) ++ items) by (by rewrite <- app_assoc). by apply okst_proper. }
  unfold get_rel_name. rewrite (full_split_names _ _ _ _ (names_abs _ Ho2)) by done.
  destruct (has_prefix_spec (listed true (l ++ x :: items)) ([slash] :: l)) as (b & -> & Hb).
  assert (b = true) as ->. { apply Hb. cbn [listed]. apply prefix_cons, prefix_app_r. done. }
  f_equal. cbn [listed length drop]. rewrite drop_app. apply join_proper; [|done].
  apply okst_all_proper in Ho2. by apply Forall_app in Ho2 as [_ ?].
Qed.

(** ** sel *)
Lemma split2_spec c s : match split2 c s with (a, None) => s = a /\ c ∉ a | (a, Some b) => s = a ++ c :: b /\ c ∉ a end.
Proof.
  induction s as [|x s IH]; simpl; [split; [done|set_solver]|]. destruct (byte_eqb_spec x c) as [->|Hx]; [split; [done|set_solver]|].
  destruct (split2 c s) as [a [b|]]; destruct IH as [-> IH]; (split; [done|]); set_solver.
Qed.
Lemma wanted_iff s l mo : wanted s l mo <-> exists ps x, split_on dot s = ps ++ [x] /\
  ((x = [] /\ l = ps /\ mo = True) \/ (x <> [] /\ l = ps ++ [x] /\ mo = False)).
Proof.
  split; intros (ps & x & H & H'); exists ps, x; (split; [|done]); [by apply pieces_split|]. rewrite <- H. apply split_pieces.
Qed.
Lemma wanted_one a l mo : dot ∉ a -> a <> [] -> wanted a l mo <-> l = [a] /\ mo = False.
Proof.
  intros Ha Hn. rewrite wanted_iff, split_on_one by done. split.
  - intros (ps & x & H & H'). destruct ps as [|p [|q ps]]; simplify_eq/=. destruct H' as [(? & _)|(_ & -> & ->)]; done.
  - intros [-> ->]. exists [], a. split; [done|]. by right.
Qed.
Lemma wanted_nil l mo : wanted [] l mo <-> l = [] /\ mo = True.
Proof.
  rewrite wanted_iff. cbn [split_on]. split.
  - intros (ps & x & H & H'). destruct ps as [|p [|q ps]]; simplify_eq/=. destruct H' as [(_ & -> & ->)|(? & _)]; done.
  - intros [-> ->]. exists [], []. split; [done|]. by left.
Qed.
Lemma wanted_cons a s l mo : dot ∉ a -> wanted (a ++ dot :: s) l mo <-> exists l', l = a :: l' /\ wanted s l' mo.
Proof.
  intros Ha. setoid_rewrite wanted_iff. rewrite split_on_app by done. split.
  - intros (ps & x & H & H'). destruct ps as [|p ps]; simpl in H; injection H as H0 H; [by apply split_on_nil in H|]. subst p.
    destruct H' as [(-> & -> & ->)|(? & -> & ->)]; [exists ps|exists (ps ++ [x])]; (split; [done|]); exists ps; eexists; split; eauto.
  - intros (l' & -> & ps & x & H & H'). exists (a :: ps), x. rewrite H. split; [done|]. destruct H' as [(? & -> & ?)|(? & -> & ?)]; [by left|by right].
Qed.
Lemma sel_ok fuel path m v : length path < fuel ->
  sel fuel path m = inl v <-> exists l mo, wanted path l mo /\ reached (YMap m) l v /\ (mo -> is_map v).
Proof.
  revert path m. induction fuel as [|fuel IH]; intros path m Hf; [lia|]. cbn [sel]. destruct (is_nil_b path) eqn:En.
  { destruct path; [|done]. split.
    - intros [= <-]. exists [], True. rewrite wanted_nil. split; [done|]. split; [constructor|done].
    - intros (l & mo & [-> ->]%wanted_nil & H & _). inversion H; subst. done. }
  pose proof (split2_spec dot path) as Hs. destruct (split2 dot path) as [part [rest|]]; destruct Hs as [-> Hd].
  - rewrite app_length in Hf. simpl in Hf. destruct (m (KStr part)) as [[m'|k]|] eqn:E.
    + rewrite (IH rest m') by lia. split.
      * intros (l & mo & H1 & H2 & H3). exists (part :: l), mo. rewrite wanted_cons by done. split; [eauto|]. split; [by econstructor|done].
      * intros (l & mo & (l' & -> & H1)%wanted_cons & H2 & H3); [|done]. inversion H2; subst. exists l', mo. simplify_eq. done.
    + split; [done|]. intros (l & mo & (l' & -> & H1)%wanted_cons & H2 & H3); [|done]. inversion H2 as [|? ? ? ? ? E' H2']; subst. simplify_eq. inversion H2'; subst.
      apply wanted_iff in H1 as (ps & x & _ & [(_ & <- & ->)|(_ & H & _)]); [by specialize (H3 I)|by destruct ps].
    + split; [done|]. intros (l & mo & (l' & -> & H1)%wanted_cons & H2 & H3); [|done]. inversion H2; subst. congruence.
  - assert (part <> []) as Hn by (by intros ->). destruct (m (KStr part)) as [y|] eqn:E.
    + split.
      * intros [= <-]. exists [part], False. rewrite wanted_one by done. split; [done|]. split; [|done]. econstructor; [done|constructor].
      * intros (l & mo & [-> ->]%wanted_one & H2 & H3); [|done..]. inversion H2 as [|? ? ? ? ? E' H2']; subst. inversion H2'; subst. congruence.
    + split; [done|]. intros (l & mo & [-> ->]%wanted_one & H2 & H3); [|done..]. inversion H2; subst. congruence.
Qed.
Lemma sel_bad fuel path m e : length path < fuel -> sel fuel path m = inr e ->
  exists l mo part rest, wanted path (l ++ part :: rest) mo /\
  ((e = SelMissing part /\ exists m', reached (YMap m) l (YMap m') /\ m' (KStr part) = None) \/
   (e = SelDeeper part /\ (rest <> [] \/ mo = True) /\ exists k, reached (YMap m) (l ++ [part]) (YLeaf k))).
Proof.
  revert path m. induction fuel as [|fuel IH]; intros path m Hf; [lia|]. cbn [sel]. destruct (is_nil_b path) eqn:En; [done|].
  pose proof (split2_spec dot path) as Hs. destruct (split2 dot path) as [part [rest|]]; destruct Hs as [-> Hd].
  - rewrite app_length in Hf. simpl in Hf.
    assert (exists l' mo, wanted rest l' mo /\ (l' <> [] \/ mo = True)) as (l' & mo & Hw & Hor).
    { pose proof (split_on_nil dot rest) as Hnn. destruct (exists_last Hnn) as (l & z & E0). destruct z as [|b z].
      - exists l, True. rewrite wanted_iff. split; [|by right]. exists l, []. split; [done|]. by left.
      - exists (l ++ [b :: z]), False. rewrite wanted_iff. split; [|left; by destruct l]. exists l, (b :: z). split; [done|]. by right. }
    destruct (m (KStr part)) as [[m'|k]|] eqn:E.
    + intros H. destruct (IH rest m') as (l & mo' & p & rs & H1 & H2); [lia|done|]. exists (part :: l), mo', p, rs. split; [rewrite <- app_comm_cons, wanted_cons by done; eauto|].
      destruct H2 as [(-> & m2 & H2 & H3)|(-> & Hr & k & H2)]; [left; split; [done|]; exists m2; split; [by econstructor|done]|].
      right. split; [done|]. split; [done|]. exists k. rewrite <- app_comm_cons. by econstructor.
    + intros [= <-]. exists [], mo, part, l'. split; [rewrite app_nil_l, wanted_cons by done; eauto|]. right. split; [done|]. split; [done|].
      exists k. econstructor; [done|constructor].
    + intros [= <-]. exists [], mo, part, l'. split; [rewrite app_nil_l, wanted_cons by done; eauto|]. left. split; [done|]. exists m. split; [constructor|done].
  - assert (part <> []) as Hn by (by intros ->). destruct (m (KStr part)) as [y|] eqn:E; [done|]. intros [= <-].
    exists [], False, part, []. split; [by rewrite app_nil_l, wanted_one|]. left. split; [done|]. exists m. split; [constructor|done].
Qed.

(** ** execute *)
Section execute.
Variable tpl : bytes -> option bytes.
Variable tpl_file : bytes -> option (bytes * bool).
Variable cwd : bytes.
Hypothesis Hcwd : rooted cwd = true.
Notation execute := (execute tpl tpl_file cwd).
Notation done_for := (done_for tpl tpl_file).
Notation done_all := (done_all tpl tpl_file).

Lemma done_for_fun l e a ok a' ok' : done_for l e a ok -> done_for l e a' ok' -> a = a' /\ ok = ok'.
Proof. intros H H'. inversion H; inversion H'; subst; simplify_eq; done. Qed.
Lemma done_all_fun es a ok a' ok' : done_all es a ok -> done_all es a' ok' -> a = a' /\ ok = ok'.
Proof.
  intros H. revert a' ok'. induction H as [|l e es a H|l e es a b ok H Hs IH]; intros a' ok' H'; inversion H' as [|? ? ? ? K|? ? ? ? ? ? K K']; subst; [done|..].
  - by apply (done_for_fun _ _ _ _ _ _ H K).
  - by destruct (done_for_fun _ _ _ _ _ _ H K).
  - by destruct (done_for_fun _ _ _ _ _ _ H K).
  - destruct (done_for_fun _ _ _ _ _ _ H K) as [-> _]. by destruct (IH _ _ K') as [-> ->].
Qed.
Lemma done_all_app es es' a ok : done_all es a ok -> (ok = false -> done_all (es ++ es') a false) /\
  (forall a' ok', ok = true -> done_all es' a' ok' -> done_all (es ++ es') (a ++ a') ok').
Proof.
  induction 1 as [|l e es a H|l e es a b ok H Hs IH].
  - split; done.
  - split; [|done]. intros _. by apply done_stop.
  - destruct IH as [IH1 IH2]. split; [intros E; rewrite E in *; by apply done_next, IH1|]. intros a' ok' E Ha. rewrite <- app_assoc. by apply done_next, IH2.
Qed.
Lemma item_name l n : okst true (rev l) -> proper n -> abs_names cwd (go_join [abs_path l; n]) (l ++ [n]).
Proof.
  intros Ho Hn. assert (okst true (rev (l ++ [n]))) as Ho2 by (apply okst_proper; [done|by constructor]).
  assert (go_join [abs_path l; n] = abs_path (l ++ [n])) as ->.
  { destruct Hn as (Hn1 & Hn2 & Hn3 & Hn4). destruct n as [|b n]; [done|]. change (go_clean (abs_path l ++ slash :: b :: n) = abs_path (l ++ [b :: n])).
    rewrite <- (render_abs (l ++ _)). unfold go_clean. change (rooted (abs_path l ++ slash :: b :: n)) with true.
    rewrite <- (rev_involutive (l ++ _)). f_equal. f_equal. rewrite <- (app_nil_r (rev _)), <- (fold_id true) by (by rewrite app_nil_r).
    unfold abs_path. cbn [app]. change (split_on slash (slash :: ?s)) with ([] :: split_on slash s). cbn [fold_left clean_step is_nil_b orb].
    destruct l as [|x l].
    - cbn [joined app]. change (split_on slash (slash :: b :: n)) with ([] :: split_on slash (b :: n)). by rewrite split_on_one.
    - rewrite split_joined_tail; [|by apply okst_noslash in Ho|done]. by rewrite split_on_one. }
  unfold abs_names, abs_path. destruct (byte_eqb_spec slash slash); [|done]. by apply names_abs.
Qed.
Lemma execute_done : forall e l name, abs_names cwd name l -> proper_entry e ->
  done_all (catalog l e) (execute name e).1 (execute name e).2.
Proof.
  fix IH 1. intros e l name Hl He. destruct (abs_names_abs _ _ _ Hcwd Hl) as [Ea Ho].
  assert (catalog l e = (l, e) :: tail (catalog l e)) as Hcat by (by destruct e).
  assert (forall es, done_for l e [] false -> done_all ((l, e) :: es) [] false) as Hstop by (intros; by apply done_stop).
  destruct e as [content|items]; cbn [EtcModel.execute]; rewrite Ea.
  - destruct (tpl (abs_path l)) as [new|] eqn:Et; [|by apply Hstop, done_bad]. destruct (beqb_spec new (abs_path l)) as [->|Hne]; [by apply Hstop, done_same|].
    cbn [catalog]. destruct (tpl_file content) as [[text ok]|] eqn:Ef; [|by eapply Hstop, done_unread].
    cbn [fst snd]. assert (done_for l (FFile content) [ACreate new text] ok) as Hd by (by eapply done_file).
    destruct ok; [|by apply done_stop]. rewrite <- (app_nil_r [ACreate _ _]). apply done_next; [done|constructor].
  - destruct (tpl (abs_path l)) as [new|] eqn:Et; [|by rewrite Hcat; apply Hstop, done_bad]. destruct (beqb_spec new (abs_path l)) as [->|Hne]; [by rewrite Hcat; apply Hstop, done_same|].
    cbn [catalog]. cbn [proper_entry] in He.
    match goal with |- context [let '(acts, ok) := ?g items in _] => set (go := g) in * end.
    match goal with |- context [(l, FDir items) :: ?g items] => set (cat := g) in * end.
    assert (done_all (cat items) (go items).1 (go items).2) as Hi.
    { clear Hstop Hcat Hl. induction items as [|[n e] items IHi]; [constructor|]. destruct He as (Hn & He1 & He2).
      specialize (IHi He2). pose proof (IH e (l ++ [n]) (go_join [abs_path l; n]) (item_name _ _ Ho Hn) He1) as H1.
      change (cat ((n, e) :: items)) with (catalog (l ++ [n]) e ++ cat items).
      change (go ((n, e) :: items)) with (let '(a1, ok1) := execute (go_join [abs_path l; n]) e in
          if ok1 : bool then let '(a2, ok2) := go items in (a1 ++ a2, ok2) else (a1, false)).
      destruct (execute _ e) as [a1 ok1]. cbn [fst snd] in *. destruct (done_all_app _ (cat items) _ _ H1) as [K1 K2].
      destruct ok1; [|by apply K1]. destruct (go items) as [a2 ok2]. by apply K2. }
    destruct (go items) as [acts ok]. cbn [fst snd] in *. change (AMkdirAll new :: acts) with ([AMkdirAll new] ++ acts).
    apply done_next; [by eapply done_dir|done].
Qed.
Lemma execute_iff e l name a ok : abs_names cwd name l -> proper_entry e -> execute name e = (a, ok) <-> done_all (catalog l e) a ok.
Proof.
  intros Hl He. pose proof (execute_done e l name Hl He) as H. destruct (execute name e) as [a0 ok0]. cbn [fst snd] in H. split.
  - by intros [= <- <-].
  - intros H'. by destruct (done_all_fun _ _ _ _ _ H H') as [-> ->].
Qed.
(** What the actions are. *)
Lemma done_all_targets es a ok : done_all es a ok -> Forall (stems_from tpl tpl_file es) a.
Proof.
  assert (forall l e es a ok, (l, e) ∈ es -> done_for l e a ok -> Forall (stems_from tpl tpl_file es) a) as Hd.
  { intros l e es0 a0 ok0 Hin H. inversion H; subst; repeat constructor; exists l; eexists; (split; [exact Hin|]); eauto 10. }
  induction 1 as [|l e es a H|l e es a b ok H Hs IH]; [constructor|eapply Hd; [|exact H]; set_solver|].
  apply Forall_app. split; [eapply Hd; [|exact H]; set_solver|]. eapply Forall_impl; [exact IH|]. intros x (l' & e' & Hin & K).
  exists l', e'. split; [set_solver|done].
Qed.
Lemma done_all_count es a : done_all es a true -> length a = length es.
Proof.
  remember true as ok eqn:E. induction 1 as [|l e es a H|l e es a b ok H Hs IH]; [done|done|].
  rewrite app_length, IH by done. inversion H; subst; done.
Qed.
End execute.

Lemma names_total p : exists r l, names p r l /\ forall r' l', names p r' l' -> r' = r /\ l' = l.
Proof.
  exists (rooted p), (rev (fold_left (clean_step (rooted p)) (split_on slash p) [])). split; [apply names_fold|]. intros r' l' H.
  destruct (names_clean _ _ _ H) as (<- & _). split; [done|]. eapply names_unique; [exact H|apply names_fold].
Qed.
Lemma full_split_all p : exists r l, names p r l /\ (forall r' l', names p r' l' -> r' = r /\ l' = l) /\
  forall fuel, 2 * length p + 6 <= fuel -> full_split fuel p = inl (listed r l).
Proof. destruct (names_total p) as (r & l & H & Hu). exists r, l. split; [done|]. split; [done|]. intros. by apply full_split_names. Qed.
Lemma rel_all cwd t : rooted cwd = true -> exists l, abs_names cwd t l /\
  match rev l with
  | [] => forall fuel, make_prefix fuel cwd t = inr EtcFatal
  | x :: dir => exists prefix, (forall fuel, 2 * length (abs_path l) + 6 <= fuel -> make_prefix fuel cwd t = inl prefix) /\
      forall items fuel, Forall proper items -> 2 * length (abs_path (l ++ items)) + 6 <= fuel ->
      get_rel_name fuel (abs_path (l ++ items)) prefix = inl (joined slash (x :: items))
  end.
Proof.
  intros Hc. destruct (abs_names_exist cwd t Hc) as (l & Hl). exists l. split; [done|]. destruct (rev l) as [|x d] eqn:E.
  - apply (f_equal (@rev _)) in E. rewrite rev_involutive in E. subst l. intros. by apply make_prefix_root.
  - apply (f_equal (@rev _)) in E. rewrite rev_involutive in E. simpl in E. subst l. exists ([slash] :: rev d).
    destruct (abs_names_abs _ _ _ Hc Hl) as [_ Ho]. split; [intros; by eapply make_prefix_names|]. intros items fuel Hi. rewrite <- app_assoc. cbn [app]. intros Hf. by apply rel_name.
Qed.
Lemma rel_total p prefix : exists n, forall fuel, 2 * length p + 6 <= fuel -> get_rel_name fuel p prefix = inl n.
Proof.
  destruct (full_split_all p) as (r & l & _ & _ & H). destruct (has_prefix_spec (listed r l) prefix) as (b & Hb & _).
  exists (if b then go_join (drop (length prefix) (listed r l)) else go_base p). intros fuel Hf. unfold get_rel_name. rewrite H, Hb by done. by destruct b.
Qed.
Lemma execute_all tpl tpl_file cwd t e : rooted cwd = true -> proper_entry e -> exists l, abs_names cwd t l /\
  let '(acts, ok) := execute tpl tpl_file cwd t e in
  done_all tpl tpl_file (catalog l e) acts ok /\ Forall (stems_from tpl tpl_file (catalog l e)) acts /\
  (ok = true -> length acts = length (catalog l e)).
Proof.
  intros Hc He. destruct (abs_names_exist cwd t Hc) as (l & Hl). exists l. split; [done|].
  pose proof (execute_done tpl tpl_file cwd Hc e l t Hl He) as H. destruct (execute _ _ _ _ _) as [acts ok]. cbn [fst snd] in H.
  split; [done|]. split; [by eapply done_all_targets|]. intros ->. by eapply done_all_count.
Qed.
Lemma done_fun tpl tpl_file es : (forall a ok a' ok', done_all tpl tpl_file es a ok -> done_all tpl tpl_file es a' ok' -> a = a' /\ ok = ok').
Proof. exact (done_all_fun tpl tpl_file es). Qed.
