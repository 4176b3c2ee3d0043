(** * The scanners of package domain against the grammar. *)
From Verif Require Import Prog DomModel DomSpec.
From Coq Require Import ZifyBool ZifyNat ZifyN.

(** ** Bytes. *)
Lemma to_N_inj' x y : Byte.to_N x = Byte.to_N y -> x = y.
Proof.
  intros H. assert (E : Byte.of_N (Byte.to_N x) = Byte.of_N (Byte.to_N y)) by by rewrite H.
  rewrite !Byte.of_to_N in E. congruence.
Qed.
Lemma to_N_lt c : (Byte.to_N c < 256)%N.
Proof. by destruct c. Qed.
Lemma ofN_bN c : ofN (bN c) = c.
Proof. by destruct c. Qed.
Lemma bN_ofN n : (n < 256)%N -> bN (ofN n) = n.
Proof.
  intros H. unfold ofN, bN. rewrite N.mod_small by done.
  destruct (Byte.of_N n) as [b|] eqn:E; [by apply Byte.to_of_N in E|]. apply Byte.of_N_None_iff in E. lia.
Qed.
Lemma fold_case_upper c : fold_case c = upper c.
Proof. by destruct c. Qed.
Lemma upper_idem c : upper (upper c) = upper c.
Proof. by destruct c. Qed.
Lemma len_byte_ofN n : n < 256 -> ofN (N.of_nat n) = len_byte n.
Proof. intros H. unfold ofN, len_byte. rewrite N.mod_small by lia. done. Qed.
Lemma len_byte_N n : n < 256 -> N.to_nat (bN (len_byte n)) = n.
Proof. intros H. rewrite <- len_byte_ofN by done. rewrite bN_ofN by lia. lia. Qed.
Lemma byte_eqb_spec a b : reflect (a = b) (Byte.eqb a b).
Proof.
  destruct (Byte.eqb a b) eqn:E; constructor.
  - by apply Byte.byte_dec_bl.
  - intros ->. assert (Byte.eqb b b = true) by (by apply Byte.byte_dec_lb). congruence.
Qed.
Lemma digit_iff c : is_digit c = true <-> exists d, digit c d.
Proof.
  unfold is_digit, digit, bN. split.
  - intros H. exists (Byte.to_N c - 48)%N. lia.
  - intros (d & ? & ?). lia.
Qed.
Lemma digit_val c d : digit c d -> is_digit c = true /\ (bN c - 48)%N = d.
Proof. unfold is_digit, digit, bN. lia. Qed.
Lemma not_digit c : is_digit c = false -> forall d, ~ digit c d.
Proof. intros H d Hd. apply digit_val in Hd as [? _]. congruence. Qed.
Lemma digit_of c : is_digit c = true -> digit c (bN c - 48).
Proof. unfold is_digit, digit, bN. lia. Qed.

(** ** Words. *)
Lemma spells_nonempty w t : spells w t -> w <> [].
Proof. by destruct 1. Qed.
Lemma toks_app s1 ts1 s2 ts2 : toks s1 ts1 -> toks s2 ts2 -> toks (s1 ++ s2) (ts1 ++ ts2).
Proof. induction 1; intros H2; [done|]. rewrite <- app_assoc. simpl. constructor; auto. Qed.
Lemma toks_app_inv ts1 : forall s ts2, toks s (ts1 ++ ts2) -> exists s1 s2, s = s1 ++ s2 /\ toks s1 ts1 /\ toks s2 ts2.
Proof.
  induction ts1 as [|t ts1 IH]; intros s ts2 H; simpl in *.
  { exists [], s. split_and!; [done|constructor|done]. }
  inversion H as [|w ? s' ? Hw Hs]; subst. apply IH in Hs as (s1 & s2 & -> & H1 & H2).
  exists (w ++ s1), s2. rewrite app_assoc. split_and!; [done|by constructor|done].
Qed.
Lemma toks_dot_inv s ts : toks s (TDot :: ts) -> exists s', s = c_dot :: s' /\ toks s' ts.
Proof. inversion 1 as [|w ? s' ? Hw Hs]; subst. inversion Hw; subst. eauto. Qed.
Lemma toks_nil_inv s : toks s [] -> s = [].
Proof. by inversion 1. Qed.
Lemma toks_dot s ts : toks s ts -> toks (c_dot :: s) (TDot :: ts).
Proof. intros H. apply (toks_cons [c_dot]); [constructor|done]. Qed.
Lemma label_text_nonempty s l : label_text s l -> (s = [] <-> l = []).
Proof.
  unfold label_text. destruct l as [|b l]; simpl.
  - intros ->%toks_nil_inv. done.
  - inversion 1 as [|w ? s' ? Hw Hs]; subst. apply spells_nonempty in Hw. destruct w; [done|]. done.
Qed.

(** ** One word under the scanners. *)
Lemma mark_code cap s : forall i st e code code' offs, e = EReg \/ e = EFirst ->
  mark_loop cap s i st e code offs = mark_loop cap s i st e code' offs.
Proof.
  induction s as [|c s IH]; intros i st e code code' offs [-> | ->]; simpl; [done|done|..].
  - destruct (Byte.eqb c dot).
    + destruct (i <=? st); [done|]. destruct (cap <=? length offs); [done|]. apply IH; auto.
    + destruct (Byte.eqb c bslash); apply IH; auto.
  - destruct (negb (is_digit c)); [|done]. apply IH; auto.
Qed.
Lemma put_ext cap acc c k k' : (forall a, k a = k' a) -> put cap acc c k = put cap acc c k'.
Proof. intros H. unfold put. destruct (cap <=? _); [done|]. apply H. Qed.
Lemma label_code cap s : forall e code code' acc, e = EReg \/ e = EFirst ->
  label_loop cap s e code acc = label_loop cap s e code' acc.
Proof.
  induction s as [|c s IH]; intros e code code' acc [-> | ->]; simpl; [done|done|..].
  - destruct (Byte.eqb c dot); [done|]. destruct (Byte.eqb c bslash); [apply IH; auto|].
    apply put_ext. intros. apply IH; auto.
  - destruct (negb (is_digit c)); [|done]. apply put_ext. intros. apply IH; auto.
Qed.

Lemma mark_word cap w b s i st code offs : spells w (TByte b) ->
  mark_loop cap (w ++ s) i st EReg code offs = mark_loop cap s (i + length w) st EReg 0 offs.
Proof.
  inversion 1 as [|c H1 H2|c H1|c1 c2 c3 d1 d2 d3 b' H1 H2 H3 Hb]; subst; simpl.
  - destruct (byte_eqb_spec b dot); [done|]. destruct (byte_eqb_spec b bslash); [done|].
    rewrite Nat.add_1_r. apply mark_code; auto.
  - assert (is_digit b = false) as ->. { destruct (is_digit b) eqn:E; [|done]. apply digit_iff in E as [d Hd]. by apply H1 in Hd. }
    simpl. replace (i + 2) with (S (S i)) by lia. apply mark_code; auto.
  - apply digit_val in H1 as [-> ->], H2 as [-> ->], H3 as [-> ->]. simpl. pose proof (to_N_lt b).
    destruct (N.ltb_spec 255 (d1 * 100)); [lia|]. destruct (N.ltb_spec 255 (d1 * 100 + d2 * 10)); [lia|].
    destruct (N.ltb_spec 255 (d1 * 100 + d2 * 10 + d3)); [lia|].
    replace (i + 4) with (S (S (S (S i)))) by lia. apply mark_code; auto.
Qed.
Lemma label_word cap w b s code acc : spells w (TByte b) ->
  label_loop cap (w ++ s) EReg code acc = if cap <=? S (length acc) then DErr ErrLabelTooLong else label_loop cap s EReg 0 (acc ++ [upper b]).
Proof.
  rewrite <- fold_case_upper. fold (put cap acc b (label_loop cap s EReg 0)).
  inversion 1 as [|c H1 H2|c H1|c1 c2 c3 d1 d2 d3 b' H1 H2 H3 Hb]; subst; simpl.
  - destruct (byte_eqb_spec b dot); [done|]. destruct (byte_eqb_spec b bslash); [done|].
    apply put_ext. intros. apply label_code; auto.
  - assert (is_digit b = false) as ->. { destruct (is_digit b) eqn:E; [|done]. apply digit_iff in E as [d Hd]. by apply H1 in Hd. }
    simpl. apply put_ext. intros. apply label_code; auto.
  - apply digit_val in H1 as [-> ->], H2 as [-> ->], H3 as [-> ->]. simpl. pose proof (to_N_lt b).
    destruct (N.ltb_spec 255 (d1 * 100)); [lia|]. destruct (N.ltb_spec 255 (d1 * 100 + d2 * 10)); [lia|].
    destruct (N.ltb_spec 255 (d1 * 100 + d2 * 10 + d3)); [lia|].
    replace (ofN (d1 * 100 + d2 * 10 + d3)) with b.
    + apply put_ext. intros. apply label_code; auto.
    + rewrite <- (ofN_bN b). f_equal. unfold bN. lia.
Qed.

(** A word or nothing begins at every place. *)
Lemma first_word s : s <> [] ->
  (exists w t r, spells w t /\ s = w ++ r) \/
  (bad_escape s /\ (forall cap i st code offs, mark_loop cap s i st EReg code offs = DErr ErrInvalidEscape) /\
     (forall cap code acc, label_loop cap s EReg code acc = DErr ErrInvalidEscape)).
Proof.
  destruct s as [|c s]; [done|]. intros _.
  destruct (byte_eqb_spec c dot) as [->|Hd]; [left; eexists _, _, s; split; [apply sp_dot|done]|].
  destruct (byte_eqb_spec c bslash) as [->|Hb]; [|left; eexists _, _, s; split; [by apply sp_plain|done]].
  destruct s as [|c1 s].
  { right. split_and!; [|done|done]. split; [done|]. intros w t r Hw. inversion Hw as [|c H1 H2|c H1|]; subst; try done. intros [= <- _]. by apply H2. }
  destruct (is_digit c1) eqn:E1.
  2: { left. eexists _, _, s. split; [apply sp_char; by apply not_digit|done]. }
  assert (Hbad : (forall c2 c3 s', s = c2 :: c3 :: s' -> is_digit c2 = true -> is_digit c3 = true ->
     (255 < (bN c1 - 48) * 100 + (bN c2 - 48) * 10 + (bN c3 - 48))%N) -> bad_escape (bslash :: c1 :: s)).
  { intros H. split; [done|]. intros w t r Hw. inversion Hw as [|c H1 H2|c H1|d1 d2 d3 n1 n2 n3 b' H1 H2 H3 Hb']; subst; [done|..].
    - intros [= <- _]. by apply H2.
    - intros [= <- ->]. apply digit_iff in E1 as [d Hd1]. by eapply H1.
    - intros [= <- ->]. apply digit_val in H1 as [Q1 Q2], H2 as [Q3 Q4], H3 as [Q5 Q6].
      specialize (H d2 d3 r eq_refl Q3 Q5). pose proof (to_N_lt b'). lia. }
  destruct (N.ltb_spec 255 ((bN c1 - 48) * 100)) as [L1|L1].
  { right. split_and!; [apply Hbad; lia|..]; intros; simpl; rewrite E1; simpl;
      (destruct (N.ltb_spec 255 ((bN c1 - 48) * 100)); [done|lia]). }
  destruct s as [|c2 s].
  { right. split_and!; [apply Hbad; done|..]; intros; simpl; rewrite E1; simpl;
      (destruct (N.ltb_spec 255 ((bN c1 - 48) * 100)); [lia|done]). }
  destruct (is_digit c2) eqn:E2.
  2: { right. split_and!; [apply Hbad; intros ? ? ? [= <- ->]; congruence|..]; intros; simpl; rewrite E1; simpl;
      (destruct (N.ltb_spec 255 ((bN c1 - 48) * 100)); [lia|]); by rewrite E2. }
  destruct (N.ltb_spec 255 ((bN c1 - 48) * 100 + (bN c2 - 48) * 10)) as [L2|L2].
  { right. split_and!; [apply Hbad; intros ? ? ? [= <- ->]; lia|..]; intros; simpl; rewrite E1; simpl;
      (destruct (N.ltb_spec 255 ((bN c1 - 48) * 100)); [lia|]); rewrite E2; simpl;
      (destruct (N.ltb_spec 255 ((bN c1 - 48) * 100 + (bN c2 - 48) * 10)); [done|lia]). }
  destruct s as [|c3 s].
  { right. split_and!; [apply Hbad; done|..]; intros; simpl; rewrite E1; simpl;
      (destruct (N.ltb_spec 255 ((bN c1 - 48) * 100)); [lia|]); rewrite E2; simpl;
      (destruct (N.ltb_spec 255 ((bN c1 - 48) * 100 + (bN c2 - 48) * 10)); [lia|done]). }
  destruct (is_digit c3) eqn:E3.
  2: { right. split_and!; [apply Hbad; intros ? ? ? [= <- <- ->]; congruence|..]; intros; simpl; rewrite E1; simpl;
      (destruct (N.ltb_spec 255 ((bN c1 - 48) * 100)); [lia|]); rewrite E2; simpl;
      (destruct (N.ltb_spec 255 ((bN c1 - 48) * 100 + (bN c2 - 48) * 10)); [lia|]); by rewrite E3. }
  destruct (N.ltb_spec 255 ((bN c1 - 48) * 100 + (bN c2 - 48) * 10 + (bN c3 - 48))) as [L3|L3].
  { right. split_and!; [apply Hbad; intros ? ? ? [= <- <- ->]; lia|..]; intros; simpl; rewrite E1; simpl;
      (destruct (N.ltb_spec 255 ((bN c1 - 48) * 100)); [lia|]); rewrite E2; simpl;
      (destruct (N.ltb_spec 255 ((bN c1 - 48) * 100 + (bN c2 - 48) * 10)); [lia|]); rewrite E3; simpl;
      (destruct (N.ltb_spec 255 ((bN c1 - 48) * 100 + (bN c2 - 48) * 10 + (bN c3 - 48))); [done|lia]). }
  left. exists [bslash; c1; c2; c3], (TByte (ofN ((bN c1 - 48) * 100 + (bN c2 - 48) * 10 + (bN c3 - 48)))), s.
  split; [|done]. eapply sp_code; [by apply digit_of..|].
  fold (bN (ofN ((bN c1 - 48) * 100 + (bN c2 - 48) * 10 + (bN c3 - 48)))). rewrite bN_ofN by lia. lia.
Qed.
