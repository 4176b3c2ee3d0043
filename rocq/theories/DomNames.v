(** * MakeNameFromString against the grammar. *)
From Verif Require Import Prog DomModel DomSpec DomCodec.
From Coq Require Import ZifyBool ZifyNat ZifyN.

Definition pre (ws : list bytes) : bytes := concat (map (fun w => w ++ [c_dot]) ws).
Fixpoint posns (i : nat) (ws : list bytes) : list nat :=
  match ws with [] => [] | w :: ws => i :: posns (i + length w + 1) ws end.
Lemma pre_snoc ws w : pre (ws ++ [w]) = pre ws ++ w ++ [c_dot].
Proof. unfold pre. rewrite map_app, concat_app. simpl. by rewrite app_nil_r. Qed.
Lemma posns_snoc ws w : forall i, posns i (ws ++ [w]) = posns i ws ++ [i + length (pre ws)].
Proof.
  induction ws as [|w' ws IH]; intros i; simpl; [by rewrite Nat.add_0_r|]. rewrite IH. unfold pre. simpl. rewrite !app_length. simpl.
  do 3 f_equal. lia.
Qed.
Lemma posns_length ws i : length (posns i ws) = length ws.
Proof. revert i. induction ws; intros i; simpl; auto. Qed.

(** ** Labels. *)
Lemma mark_label cap l : forall w s i st code offs, label_text w l ->
  mark_loop cap (w ++ s) i st EReg code offs = mark_loop cap s (i + length w) st EReg 0 offs.
Proof.
  unfold label_text. induction l as [|b l IH]; intros w s i st code offs H; simpl in H.
  { apply toks_nil_inv in H as ->. simpl. rewrite Nat.add_0_r. apply mark_code; auto. }
  inversion H as [|w1 ? s' ? Hw Hs]; subst. rewrite <- app_assoc, (mark_word _ _ b) by done.
  rewrite IH by done. rewrite app_length. f_equal. lia.
Qed.
Lemma label_label cap l : forall w s acc, label_text w l -> S (length acc) <= cap ->
  label_loop cap (w ++ s) EReg 0 acc =
    if S (length acc + length l) <=? cap then label_loop cap s EReg 0 (acc ++ map upper l) else DErr ErrLabelTooLong.
Proof.
  unfold label_text. induction l as [|b l IH]; intros w s acc H Hacc; cbn [map length] in H |- *.
  { apply toks_nil_inv in H as ->. cbn [Datatypes.app]. rewrite Nat.add_0_r, app_nil_r.
    destruct (Nat.leb_spec (S (length acc)) cap); [done|lia]. }
  inversion H as [|w1 ? s' ? Hw Hs]; subst. rewrite <- app_assoc, (label_word _ _ b) by done.
  destruct (Nat.leb_spec cap (S (length acc))).
  - destruct (Nat.leb_spec (S (length acc + S (length l))) cap); [lia|done].
  - rewrite IH by (done || (rewrite app_length; simpl; lia)). rewrite app_length, <- app_assoc. cbn [length Datatypes.app].
    replace (length acc + 1 + length l) with (length acc + S (length l)) by lia. done.
Qed.
Lemma get_label_text w l : label_text w l ->
  get_label w = if length l <=? 63 then DOk (map upper l) else DErr ErrLabelTooLong.
Proof.
  intros H. unfold get_label. rewrite <- (app_nil_r w) at 1. rewrite (label_label _ l) by (done || (simpl; unfold max_label; lia)).
  simpl. done.
Qed.
Lemma get_label_dot w l : label_text w l ->
  get_label (w ++ [c_dot]) = if length l <=? 63 then DOk (map upper l) else DErr ErrLabelTooLong.
Proof.
  intros H. unfold get_label. rewrite (label_label _ l) by (done || (simpl; unfold max_label; lia)).
  simpl. done.
Qed.

(** ** Marking. *)
Definition texts (ws ls : list bytes) : Prop := Forall2 label_text ws ls /\ Forall (fun l => l <> []) ls.
Lemma mark_pre cap : forall ws ls s i code offs, texts ws ls -> length offs <= cap ->
  mark_loop cap (pre ws ++ s) i i EReg code offs =
    if cap <? length offs + length ws then DErr ErrTooManyLabels
    else mark_loop cap s (i + length (pre ws)) (i + length (pre ws)) EReg 0 (offs ++ posns i ws).
Proof.
  intros ws ls s i code offs [H Hne]. revert i code offs Hne. induction H as [|w l ws ls Hw H IH]; intros i code offs Hne Hc.
  { unfold pre. cbn [map concat length Datatypes.app posns]. rewrite !Nat.add_0_r, app_nil_r. destruct (Nat.ltb_spec cap (length offs)); [lia|]. apply mark_code; auto. }
  inversion Hne as [|? ? Hl Hne']; subst. unfold pre. cbn [map concat length posns]. fold (pre ws). rewrite <- !app_assoc. cbn [Datatypes.app].
  rewrite (mark_label _ l) by done. cbn [mark_loop]. change (Byte.eqb c_dot dot) with true. cbn iota.
  assert (length w <> 0). { destruct w; [|done]. destruct (label_text_nonempty _ _ Hw) as [E _]. by rewrite E in Hl. }
  destruct (Nat.leb_spec (i + length w) i); [lia|].
  destruct (Nat.leb_spec cap (length offs)).
  { destruct (Nat.ltb_spec cap (length offs + S (length ws))); [done|lia]. }
  rewrite IH by (done || (rewrite app_length; simpl; lia)). rewrite app_length, <- app_assoc. cbn [length Datatypes.app].
  replace (length offs + 1 + length ws) with (length offs + S (length ws)) by lia.
  destruct (cap <? _); [done|]. rewrite !app_length. simpl.
  replace (S (i + length w)) with (i + length w + 1) by lia.
  f_equal; lia.
Qed.

(** Every text: some labels each followed by a dot, one more label, then the end,
    a misplaced dot or a bad escape. *)
Definition mbad (r : bytes) : Prop := bad_escape r /\
  forall cap i st code offs, mark_loop cap r i st EReg code offs = DErr ErrInvalidEscape.
Lemma classify_aux n : forall s w0 l0, length s <= n -> label_text w0 l0 ->
  exists ws ls w l r, texts ws ls /\ label_text w l /\ w0 ++ s = pre ws ++ w ++ r /\
    (r = [] \/ (l = [] /\ exists r', r = c_dot :: r') \/ mbad r).
Proof.
  induction n as [|n IH]; intros s w0 l0 Hlen Hw0.
  { destruct s; [|simpl in Hlen; lia]. exists [], [], w0, l0, []. split_and!; [by repeat constructor|done|done|by left]. }
  destruct s as [|c s]; [exists [], [], w0, l0, []; split_and!; [by repeat constructor|done|done|by left]|].
  destruct (first_word (c :: s)) as [(w & t & r & Hw & E)|(Hb & Hm & _)]; [done|..].
  2: { exists [], [], w0, l0, (c :: s). split_and!; [by repeat constructor|done|done|right; right; by split]. }
  rewrite E. assert (length r < length (c :: s)) as Hr.
  { rewrite E, app_length. apply spells_nonempty in Hw. destruct w; [done|]. simpl. lia. }
  destruct t as [|b].
  - inversion Hw; subst w. destruct l0 as [|b0 l0].
    + apply toks_nil_inv in Hw0 as ->. exists [], [], [], [], (c_dot :: r). split_and!; [by repeat constructor|constructor|done|].
      right. left. eauto.
    + destruct (IH r [] []) as (ws & ls & w & l & r' & [H1 H2] & H3 & H4 & H5); [simpl in *; lia|constructor|].
      exists (w0 :: ws), ((b0 :: l0) :: ls), w, l, r'. split_and!; [by split; constructor|done| |done].
      unfold pre. simpl. fold (pre ws). rewrite <- !app_assoc. simpl in H4 |- *. by rewrite H4.
  - destruct (IH r (w0 ++ w) (l0 ++ [b])) as (ws & ls & w' & l & r' & H); [simpl in *; lia|..].
    + unfold label_text. rewrite map_app. apply toks_app; [done|]. simpl. rewrite <- (app_nil_r w). by constructor; [|constructor].
    + rewrite <- app_assoc in H. eauto 10.
Qed.
Lemma classify s : exists ws ls w l r, texts ws ls /\ label_text w l /\ s = pre ws ++ w ++ r /\
    (r = [] \/ (l = [] /\ exists r', r = c_dot :: r') \/ mbad r).
Proof. apply (classify_aux (length s) s [] []); [done|constructor]. Qed.

(** The labels of [pre ws ++ w]. *)
Definition all_labels (ls : list bytes) (l : bytes) : list bytes := ls ++ match l with [] => [] | _ => [l] end.

Lemma terminated_pre ws ls : Forall2 label_text ws ls -> toks (pre ws) (terminated ls).
Proof.
  induction 1 as [|w l ws ls Hw H IH]; [constructor|]. unfold pre, terminated. simpl. apply toks_app; [|exact IH].
  apply toks_app; [exact Hw|]. apply toks_dot. constructor.
Qed.
Lemma terminated_inv ls : forall s, toks s (terminated ls) -> exists ws, s = pre ws /\ Forall2 label_text ws ls.
Proof.
  induction ls as [|l ls IH]; intros s H.
  { apply toks_nil_inv in H as ->. exists []. split; [done|constructor]. }
  unfold terminated in H. simpl in H. apply toks_app_inv in H as (s1 & s2 & -> & H1 & H2).
  apply toks_app_inv in H1 as (s3 & s4 & -> & H3 & H4). apply toks_dot_inv in H4 as (s5 & -> & ->%toks_nil_inv).
  apply IH in H2 as (ws & -> & H2). exists (s3 :: ws). split; [done|]. by constructor.
Qed.
Lemma dotted_snoc ls l : dotted (ls ++ [l]) = terminated ls ++ map TByte l.
Proof.
  induction ls as [|l' ls IH]; [done|]. unfold terminated. simpl. fold (terminated ls). rewrite <- !app_assoc. simpl. rewrite <- IH.
  destruct ls; done.
Qed.
Lemma terminated_dotted ls : ls <> [] -> terminated ls = dotted ls ++ [TDot].
Proof.
  destruct ls as [|l ls _] using rev_ind; [done|]. intros _. rewrite dotted_snoc. unfold terminated.
  rewrite map_app, concat_app. simpl. by rewrite app_nil_r, <- app_assoc.
Qed.

Lemma denotes_of ws ls w l : texts ws ls -> label_text w l -> denotes (pre ws ++ w) (all_labels ls l).
Proof.
  intros [H Hne] Hw. pose proof (terminated_pre _ _ H) as Hp. unfold all_labels. destruct l as [|b l].
  - apply toks_nil_inv in Hw as ->. rewrite !app_nil_r. split; [done|]. destruct ls as [|l0 ls].
    + left. done.
    + right. rewrite <- terminated_dotted; done.
  - split; [apply Forall_app; split; [done|by repeat constructor]|]. left. rewrite dotted_snoc. by apply toks_app.
Qed.
Lemma denotes_inv s all : denotes s all ->
  (s = [c_dot] /\ all = []) \/ exists ws ls w l, texts ws ls /\ label_text w l /\ s = pre ws ++ w /\ all = all_labels ls l.
Proof.
  intros [Hne [H|H]].
  - right. destruct all as [|l ls _] using rev_ind.
    + apply toks_nil_inv in H as ->. exists [], [], [], []. split_and!; [by repeat constructor|constructor|done|done].
    + rewrite dotted_snoc in H. apply toks_app_inv in H as (s1 & s2 & -> & H1 & H2).
      apply terminated_inv in H1 as (ws & -> & H1). apply Forall_app in Hne as [Hne Hl]. inversion Hl; subst.
      exists ws, ls, s2, l. split_and!; [done|done|done|]. unfold all_labels. by destruct l.
  - destruct all as [|l ls] eqn:E.
    + left. apply toks_dot_inv in H as (s' & -> & ->%toks_nil_inv). done.
    + rewrite <- E in *. right. rewrite <- terminated_dotted in H by by subst. apply terminated_inv in H as (ws & -> & H).
      exists ws, all, [], []. unfold all_labels. rewrite !app_nil_r. split_and!; [done|constructor|done|done].
Qed.

(** ** Assembling the name. *)
Fixpoint nl (ls : list bytes) (acc : bytes) : dres bytes :=
  match ls with
  | [] => DOk acc
  | l :: ls =>
    if 63 <? length l then DErr ErrLabelTooLong
    else if 255 <? length acc + S (length l) then DErr ErrNameTooLong
    else nl ls (acc ++ len_byte (length l) :: map upper l)
  end.
Lemma slice_mid (a b c : bytes) : slice (a ++ b ++ c) (length a) (length a + length b) = Some b.
Proof.
  unfold slice. rewrite !app_length. destruct (Nat.leb_spec (length a) (length a + length b)); [|lia].
  destruct (Nat.leb_spec (length a + length b) (length a + (length b + length c))); [|lia]. simpl. f_equal.
  rewrite drop_app. replace (length a + length b - length a) with (length b) by lia. by rewrite take_app.
Qed.
Lemma name_step s offs start end_ acc sub l : slice s start end_ = Some sub ->
  get_label sub = (if length l <=? 63 then DOk (map upper l) else DErr ErrLabelTooLong) -> length acc <= 255 ->
  name_loop s (start :: offs) end_ acc =
    if 63 <? length l then DErr ErrLabelTooLong
    else if 255 <? length acc + S (length l) then DErr ErrNameTooLong
    else name_loop s offs start (acc ++ len_byte (length l) :: map upper l).
Proof.
  intros Hs Hg Hacc. simpl. rewrite Hs, Hg. destruct (Nat.leb_spec (length l) 63), (Nat.ltb_spec 63 (length l)); try lia; [|done].
  rewrite map_length. unfold max_name.
  destruct (Nat.ltb_spec (255 - length acc) (S (length l))), (Nat.ltb_spec 255 (length acc + S (length l))); try lia; try done.
  by rewrite len_byte_ofN by lia.
Qed.
Lemma name_pre ws : forall ls rest acc, Forall2 label_text ws ls -> length acc <= 255 ->
  name_loop (pre ws ++ rest) (rev (posns 0 ws)) (length (pre ws)) acc = nl (rev ls) acc.
Proof.
  induction ws as [|w ws IH] using rev_ind; intros ls rest acc H Hacc.
  { inversion H; subst. done. }
  apply Forall2_app_inv_l in H as (ls' & l1 & H1 & H2 & ->). inversion H2 as [|? l ? ? Hw H3]; subst. inversion H3; subst.
  rewrite posns_snoc, !rev_app_distr. simpl rev. cbn [Nat.add Datatypes.app].
  rewrite (name_step _ _ _ _ _ (w ++ [c_dot]) l).
  - simpl nl. destruct (63 <? length l); [done|]. destruct (Nat.ltb_spec 255 (length acc + S (length l))); [done|].
    rewrite pre_snoc, <- app_assoc. apply IH; [done|]. rewrite app_length. simpl. rewrite map_length. lia.
  - rewrite pre_snoc, <- app_assoc, app_length. apply slice_mid.
  - by apply get_label_dot.
  - done.
Qed.
Lemma pre_length_pos ws ls : texts ws ls -> ws <> [] -> 2 <= length (pre ws).
Proof.
  intros [H Hne]. destruct H as [|w l ws ls Hw H]; [done|]. intros _. inversion Hne; subst.
  unfold pre. simpl. rewrite !app_length. simpl. destruct w; [|simpl; lia].
  destruct (label_text_nonempty _ _ Hw) as [E _]. by rewrite E in *.
Qed.

(** The outcome for a text of labels. *)
Lemma make_name_good ws ls w l : texts ws ls -> label_text w l ->
  let all := all_labels ls l in
  make_name (pre ws ++ w) =
    if 127 <? length all then DErr ErrTooManyLabels
    else match nl (rev all) [] with DOk c => DOk (Name (pre ws ++ w) c) | DErr e => DErr e | DPanic => DPanic end.
Proof.
  intros Ht Hw. cbn zeta. pose proof Ht as [H Hne]. unfold make_name.
  assert (Hlen : length ws = length ls) by by eapply Forall2_length.
  destruct (Nat.ltb_spec (length (pre ws ++ w)) 1) as [H0|H0].
  { rewrite app_length in H0. destruct ws as [|w0 ws]; [|apply pre_length_pos in Ht; [lia|done]].
    destruct w; [|simpl in H0; lia]. destruct (label_text_nonempty _ _ Hw) as [E _]. rewrite E by done. by inversion H; subst. }
  assert ((length (pre ws ++ w) =? 1) && Byte.eqb (hd Byte.x00 (pre ws ++ w)) dot = false) as ->.
  { apply not_true_iff_false. rewrite andb_true_iff. intros [E1 E2].
    rewrite app_length in E1. destruct ws as [|w0 ws]; [|apply pre_length_pos in Ht; [lia|done]].
    destruct w as [|c [|]]; [simpl in *; lia| |simpl in *; lia]. simpl in E2. destruct (byte_eqb_spec c dot) as [->|]; [|done].
    unfold label_text in Hw. destruct l as [|b l]; simpl in Hw; [by apply toks_nil_inv in Hw|].
    inversion Hw as [|w1 ? s' ? Hw1 Hs Hx]; subst. inversion Hw1; subst; simpl in Hx; simplify_eq; done. }
  unfold mark_labels. rewrite (mark_pre _ ws ls) by (done || (simpl; lia)). rewrite !Nat.add_0_l. simpl app.
  unfold max_labels. simpl length.
  rewrite <- (app_nil_r w) at 1. rewrite (mark_label _ l) by done.
  unfold all_labels. destruct l as [|b l].
  - apply toks_nil_inv in Hw as ->. rewrite !app_nil_r, Hlen. destruct (Nat.ltb_spec 127 (length ls)); [done|].
    cbn [mark_loop]. simpl length. destruct (Nat.ltb_spec (length (pre ws)) (length (pre ws) + 0)); [lia|].
    pose proof (name_pre ws ls [] [] H ltac:(simpl; lia)) as E. rewrite app_nil_r in E. by rewrite E.
  - assert (length w <> 0). { destruct w; [|done]. destruct (label_text_nonempty _ _ Hw) as [E _]. by discriminate E. }
    rewrite !app_length. simpl length. rewrite Hlen. destruct (Nat.ltb_spec 127 (length ls)).
    { destruct (Nat.ltb_spec 127 (length ls + 1)); [done|lia]. }
    cbn [mark_loop]. destruct (Nat.ltb_spec (length (pre ws)) (length (pre ws) + length w)); [|lia].
    rewrite posns_length, Hlen. destruct (Nat.leb_spec 127 (length ls)), (Nat.ltb_spec 127 (length ls + 1)); try lia; [done|].
    rewrite !rev_app_distr. simpl rev. cbn [Datatypes.app].
    rewrite (name_step _ _ _ _ _ w (b :: l)); [|rewrite <- (app_nil_r w) at 1; by apply slice_mid|by apply get_label_text|simpl; lia].
    cbn [nl length Nat.add]. destruct (63 <? S (length l)); [done|]. destruct (Nat.ltb_spec 255 (S (S (length l)))); [done|].
    simpl Datatypes.app. rewrite (name_pre ws ls); [done|done|]. simpl. rewrite map_length. lia.
Qed.
Lemma make_name_empty ws ls r : texts ws ls -> pre ws ++ c_dot :: r <> [c_dot] ->
  make_name (pre ws ++ c_dot :: r) = if 127 <? length ls then DErr ErrTooManyLabels else DErr ErrEmptyLabel.
Proof.
  intros Ht Hs. pose proof Ht as [H Hne]. assert (Hlen : length ws = length ls) by by eapply Forall2_length. unfold make_name.
  destruct (Nat.ltb_spec (length (pre ws ++ c_dot :: r)) 1) as [H0|H0]; [rewrite app_length in H0; simpl in H0; lia|].
  assert ((length (pre ws ++ c_dot :: r) =? 1) && Byte.eqb (hd Byte.x00 (pre ws ++ c_dot :: r)) dot = false) as ->.
  { apply not_true_iff_false. rewrite andb_true_iff. intros [E1 E2]. apply Hs.
    rewrite app_length in E1. destruct ws as [|w0 ws]; [|apply pre_length_pos in Ht; [lia|done]].
    destruct r; [done|simpl in *; lia]. }
  unfold mark_labels. rewrite (mark_pre _ ws ls) by (done || (simpl; lia)). rewrite !Nat.add_0_l.
  unfold max_labels. simpl length. rewrite Hlen. destruct (127 <? length ls); [done|]. simpl.
  destruct (Nat.leb_spec (length (pre ws)) (length (pre ws))); [done|lia].
Qed.
Lemma make_name_bad ws ls w l r : texts ws ls -> label_text w l -> mbad r ->
  make_name (pre ws ++ w ++ r) = if 127 <? length ls then DErr ErrTooManyLabels else DErr ErrInvalidEscape.
Proof.
  intros Ht Hw [[Hr Hb] Hm]. pose proof Ht as [H Hne]. assert (Hlen : length ws = length ls) by by eapply Forall2_length. unfold make_name.
  assert (Hd : hd Byte.x00 r <> dot). { destruct r as [|c r]; [done|]. simpl. intros ->. by apply (Hb _ _ r sp_dot). }
  assert (Hr0 : length r <> 0) by by destruct r.
  destruct (Nat.ltb_spec (length (pre ws ++ w ++ r)) 1) as [H0|H0]; [rewrite !app_length in H0; lia|].
  assert ((length (pre ws ++ w ++ r) =? 1) && Byte.eqb (hd Byte.x00 (pre ws ++ w ++ r)) dot = false) as ->.
  { apply not_true_iff_false. rewrite andb_true_iff. intros [E1 E2].
    rewrite !app_length in E1. destruct ws as [|w0 ws]; [|apply pre_length_pos in Ht; [lia|done]].
    destruct w; [|simpl in *; lia]. simpl in E2. by destruct (byte_eqb_spec (hd Byte.x00 r) dot). }
  unfold mark_labels. rewrite (mark_pre _ ws ls) by (done || (simpl; lia)). rewrite !Nat.add_0_l.
  unfold max_labels. simpl length. rewrite Hlen. destruct (127 <? length ls); [done|].
  rewrite (mark_label _ l) by done. by rewrite Hm.
Qed.
