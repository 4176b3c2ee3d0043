(** * Proofs of the properties of package domain (stated in Properties_domain.v). *)
From Verif Require Import Prog DomModel DomSpec DomCodec DomNames.
From Coq Require Import ZifyBool ZifyNat ZifyN.

(** ** MakeNameFromString (C18, C19). *)
Lemma name_size_app a b : name_size (a ++ b) = name_size a + name_size b.
Proof. unfold name_size. rewrite map_app, list_sum_app. done. Qed.
Lemma name_size_rev a : name_size (rev a) = name_size a.
Proof. induction a as [|l a IH]; [done|]. simpl. rewrite name_size_app, IH. unfold name_size. simpl. lia. Qed.
Lemma wire_app a b : wire (a ++ b) = wire a ++ wire b.
Proof. unfold wire. by rewrite map_app, concat_app. Qed.
Lemma wire_length ls : length (wire ls) = name_size ls.
Proof. induction ls as [|l ls IH]; [done|]. unfold wire, name_size in *. simpl. rewrite app_length, IH. done. Qed.

Lemma nl_spec ls : forall acc, length acc <= 255 ->
  (Forall (fun l => length l <= 63) ls /\ length acc + name_size ls <= 255 /\
     nl ls acc = DOk (acc ++ wire (map (map upper) ls))) \/
  (exists a l b, ls = a ++ l :: b /\ Forall (fun l => length l <= 63) a /\ length acc + name_size a <= 255 /\
     ((63 < length l /\ nl ls acc = DErr ErrLabelTooLong) \/
      (length l <= 63 /\ 255 < length acc + name_size a + S (length l) /\ nl ls acc = DErr ErrNameTooLong))).
Proof.
  induction ls as [|l ls IH]; intros acc Hacc.
  { left. split_and!; [constructor|simpl; unfold name_size; simpl; lia|]. simpl. by rewrite app_nil_r. }
  cbn [nl]. destruct (Nat.ltb_spec 63 (length l)) as [H1|H1].
  { right. exists [], l, ls. split_and!; [done|constructor|unfold name_size; simpl; lia|]. by left. }
  destruct (Nat.ltb_spec 255 (length acc + S (length l))) as [H2|H2].
  { right. exists [], l, ls. split_and!; [done|constructor|unfold name_size; simpl; lia|]. right.
    split_and!; [done|unfold name_size; simpl; lia|done]. }
  assert (El : length (acc ++ len_byte (length l) :: map upper l) = length acc + S (length l)).
  { rewrite app_length. simpl. by rewrite map_length. }
  destruct (IH (acc ++ len_byte (length l) :: map upper l)) as [(A & B & C)|(a & l' & b & -> & A & B & C)]; [lia|..].
  - left. split_and!; [by constructor| |].
    + rewrite El in B. unfold name_size in *. simpl. lia.
    + rewrite C. unfold wire. simpl. rewrite <- app_assoc. simpl. by rewrite map_length.
  - right. exists (l :: a), l', b. rewrite El in B, C. split_and!; [done|by constructor|unfold name_size in *; simpl; lia|].
    destruct C as [C|(C & D & E)]; [by left|right]. split_and!; [done|unfold name_size in *; simpl; lia|done].
Qed.

Lemma Forall_rev_iff {A} (P : A -> Prop) l : Forall P (rev l) <-> Forall P l.
Proof. rewrite !List.Forall_forall. setoid_rewrite <- in_rev. done. Qed.
Lemma fits_rev ls : fits (rev ls) <-> fits ls.
Proof. unfold fits. by rewrite name_size_rev, Forall_rev_iff. Qed.

Definition accepted (s : bytes) (n : name) : Prop :=
  exists ls, denotes s ls /\ within_limits ls /\ n = Name s (wire (canon ls)).

Lemma begins_texts s ls r : begins s ls r <-> exists ws, texts ws ls /\ s = pre ws ++ r.
Proof.
  split.
  - intros (H1 & p & H2 & ->). apply terminated_inv in H2 as (ws & -> & H2). exists ws. done.
  - intros (ws & [H1 H2] & ->). split; [done|]. eexists. split; [by apply terminated_pre|done].
Qed.
Lemma make_name_many ws ls r : texts ws ls -> 127 < length ls -> make_name (pre ws ++ r) = DErr ErrTooManyLabels.
Proof.
  intros Ht Hl. pose proof Ht as [H Hne]. assert (Hlen : length ws = length ls) by by eapply Forall2_length. unfold make_name.
  assert (ws <> []) as Hw by (intros ->; simpl in *; lia). pose proof (pre_length_pos _ _ Ht Hw) as Hp.
  destruct (Nat.ltb_spec (length (pre ws ++ r)) 1) as [H0|H0]; [rewrite app_length in H0; lia|].
  destruct (Nat.eqb_spec (length (pre ws ++ r)) 1) as [E|E]; [rewrite app_length in E; lia|]. cbn [andb].
  unfold mark_labels. rewrite (mark_pre _ ws ls) by (done || (simpl; lia)). unfold max_labels. cbn [length]. rewrite Hlen.
  destruct (Nat.ltb_spec 127 (0 + length ls)); [done|lia].
Qed.
Lemma mbad_iff r : mbad r <-> bad_escape r.
Proof.
  split; [by intros [? _]|]. intros [Hr Hb]. destruct (first_word r Hr) as [(w & t & r' & Hw & E)|(H1 & H2 & _)]; [|by split].
  by destruct (Hb _ _ _ Hw E).
Qed.
Lemma all_labels_length ls l : length (all_labels ls l) = length ls + match l with [] => 0 | _ => 1 end.
Proof. unfold all_labels. rewrite app_length. by destruct l. Qed.
Lemma make_name_dot : make_name [c_dot] = DOk (Name [c_dot] []).
Proof. done. Qed.
Lemma canon_wire ls : wire (map (map upper) (rev ls)) = wire (canon ls).
Proof. unfold canon. by rewrite map_rev. Qed.

(** The outcome for a text with few enough labels. *)
Lemma make_name_few s ls : denotes s ls -> length ls <= 127 ->
  (within_limits ls /\ make_name s = DOk (Name s (wire (canon ls)))) \/
  (exists a l b, ls = a ++ l :: b /\ fits b /\
     ((63 < length l /\ make_name s = DErr ErrLabelTooLong) \/
      (length l <= 63 /\ 255 < name_size (l :: b) /\ make_name s = DErr ErrNameTooLong))).
Proof.
  intros H Hlen. apply denotes_inv in H as [[-> ->]|(ws & ls' & w & l & Ht & Hw & -> & ->)].
  { left. split; [|done]. split_and!; [simpl; lia|constructor|unfold name_size; simpl; lia]. }
  pose proof (make_name_good ws ls' w l Ht Hw) as E. cbn zeta in E. set (all := all_labels ls' l) in *.
  destruct (Nat.ltb_spec 127 (length all)); [lia|].
  destruct (nl_spec (rev all) []) as [(A & B & C)|(a & l0 & b & Ea & A & B & C)]; [simpl; lia|..].
  - left. rewrite C in E. cbn [Datatypes.app] in E. rewrite canon_wire in E. split; [|done].
    cbn [length] in B. rewrite name_size_rev in B. rewrite Forall_rev_iff in A. split_and!; [lia|done|lia].
  - right. exists (rev b), l0, (rev a). split.
    { rewrite <- (rev_involutive all), Ea, rev_app_distr. simpl. by rewrite <- app_assoc. }
    cbn [length] in B, C. split; [by apply fits_rev|]. unfold name_size at 1. simpl. change (list_sum (map _ (rev a))) with (name_size (rev a)).
    rewrite name_size_rev. destruct C as [[C D]|(C & D & F)].
    + left. split; [done|]. by rewrite E, D.
    + right. split_and!; [done|lia|]. by rewrite E, F.
Qed.

Definition outcome (s : bytes) (r : dres name) : Prop :=
  match r with
  | DOk n => accepted s n
  | DErr ErrTooManyLabels => too_many s
  | DErr ErrEmptyLabel => empty_label s
  | DErr ErrLabelTooLong => too_long_label s
  | DErr ErrNameTooLong => too_long_name s
  | DErr ErrInvalidEscape => bad_escape_in s
  | DPanic => False
  end.

Lemma make_name_outcome s : outcome s (make_name s).
Proof.
  destruct (classify s) as (ws & ls & w & l & r & Ht & Hw & -> & [->|[(-> & r' & ->)|Hb]]).
  - rewrite app_nil_r. pose proof (denotes_of _ _ _ _ Ht Hw) as Hd.
    destruct (Nat.ltb_spec 127 (length (all_labels ls l))) as [H|H].
    + pose proof (make_name_good ws ls w l Ht Hw) as E. cbn zeta in E.
      destruct (Nat.ltb_spec 127 (length (all_labels ls l))); [|lia]. rewrite E. simpl.
      rewrite all_labels_length in H. exists ls, w. split; [apply begins_texts; eauto|].
      destruct (Nat.ltb_spec 127 (length ls)); [by left|right]. destruct l; [lia|]. split; [lia|]. eexists. split; [|exact Hw]. done.
    + destruct (make_name_few _ _ Hd H) as [[A ->]|(a & l0 & b & E & F & [[A ->]|(A & B & ->)])]; simpl.
      * by eexists.
      * eexists _, _, _, _. by split_and!.
      * eexists _, _, _, _. by split_and!.
  - apply toks_nil_inv in Hw as ->. cbn [Datatypes.app].
    assert (pre ws ++ c_dot :: r' = [c_dot] \/ pre ws ++ c_dot :: r' <> [c_dot]) as [E|E].
    { destruct (List.list_eq_dec Byte.byte_eq_dec (pre ws ++ c_dot :: r') [c_dot]); auto. }
    + rewrite E, make_name_dot. exists []. split_and!; [|split_and!; [simpl; lia|constructor|unfold name_size; simpl; lia]|done].
      split; [constructor|]. right. apply toks_dot. constructor.
    + rewrite (make_name_empty _ ls) by done. destruct (Nat.ltb_spec 127 (length ls)); simpl.
      * eexists ls, _. split; [apply begins_texts; eauto|by left].
      * split; [done|]. eexists ls, _. split; [apply begins_texts; eauto|done].
  - rewrite (make_name_bad _ ls _ l) by done. destruct (Nat.ltb_spec 127 (length ls)); simpl.
    + eexists ls, _. split; [apply begins_texts; eauto|by left].
    + eexists ls, w, l, r. split_and!; [apply begins_texts; eauto|done|done|by apply Hb].
Qed.
Lemma make_name_fits a l b a' l' b' : a ++ l :: b = a' ++ l' :: b' -> fits b -> fits b' ->
  (63 < length l \/ 255 < name_size (l :: b)) -> (63 < length l' \/ 255 < name_size (l' :: b')) -> l = l' /\ b = b'.
Proof.
  revert a'. induction a as [|x a IH]; intros [|x' a'] E F F' B B'; simpl in E; simplify_eq; [done| | |].
  - exfalso. destruct F as [F1 F2]. apply Forall_app in F1 as [_ F1]. inversion F1; subst.
    rewrite name_size_app in F2. lia.
  - exfalso. destruct F' as [F1 F2]. apply Forall_app in F1 as [_ F1]. inversion F1; subst.
    rewrite name_size_app in F2. lia.
  - eauto.
Qed.
Lemma outcome_make_name s r : outcome s r -> make_name s = r.
Proof.
  destruct r as [n|e|]; [|destruct e|]; simpl; [| | | | | |done].
  - intros (ls & Hd & Hl & ->). destruct (make_name_few s ls Hd) as [[_ E]|(a & l & b & -> & F & C)]; [apply Hl|done|].
    exfalso. destruct Hl as (_ & H1 & H2). apply Forall_app in H1 as [_ H1]. inversion H1; subst.
    rewrite name_size_app in H2. destruct C as [[? _]|(_ & ? & _)]; lia.
  - intros (ls & r & (ws & Ht & ->)%begins_texts & [H|(H & l & Hne & Hl)]); [by eapply make_name_many|].
    pose proof (make_name_good ws ls r l Ht Hl) as E. cbn zeta in E. rewrite E, all_labels_length.
    destruct (Nat.ltb_spec 127 (length ls + match l with [] => 0 | _ => 1 end)); [done|]. destruct l; [done|lia].
  - intros (Hs & ls & r & (ws & Ht & ->)%begins_texts & H). rewrite (make_name_empty _ ls) by done.
    destruct (Nat.ltb_spec 127 (length ls)); [lia|done].
  - intros (ls & a & l & b & Hd & Hl & -> & F & B). destruct (make_name_few s _ Hd Hl) as [[(_ & H1 & H2) _]|(a' & l' & b' & E & F' & C)].
    + exfalso. apply Forall_app in H1 as [_ H1]. inversion H1; subst. lia.
    + destruct (make_name_fits _ _ _ _ _ _ E F F') as [-> ->]; [by left|destruct C as [[? _]|(_ & ? & _)]; auto|].
      destruct C as [[_ C]|(C & _)]; [done|lia].
  - intros (ls & a & l & b & Hd & Hl & -> & F & A & B). destruct (make_name_few s _ Hd Hl) as [[(_ & H1 & H2) _]|(a' & l' & b' & E & F' & C)].
    + exfalso. rewrite name_size_app in H2. lia.
    + destruct (make_name_fits _ _ _ _ _ _ E F F') as [-> ->]; [by right|destruct C as [[? _]|(_ & ? & _)]; auto|].
      destruct C as [[C _]|(_ & _ & C)]; [lia|done].
  - intros (ls & w & l & r & (ws & Ht & ->)%begins_texts & H & Hw & Hb). rewrite (make_name_bad _ ls _ l); [|done|done|by apply mbad_iff].
    destruct (Nat.ltb_spec 127 (length ls)); [lia|done].
Qed.
Lemma make_name_iff s r : make_name s = r <-> outcome s r.
Proof. split; [intros <-; apply make_name_outcome|apply outcome_make_name]. Qed.

(** ** GetLabels (C17). *)
(** Call [f] for each label until it returns [false]. *)
Fixpoint visit {U S} (f : S -> bytes -> prog U (S * bool)) (ls : list bytes) (st : S) : prog U (S * bool) :=
  match ls with
  | [] => Ret (st, true)
  | l :: ls => x <- f st l ;; if x.2 then visit f ls x.1 else Ret (x.1, false)
  end.
Lemma wp_get_labels_loop {U S} (f : S -> bytes -> prog U (S * bool)) (Q : S * bool -> heap U -> gset loc -> Prop) :
  forall ls p fuel st h W, Forall (fun l => 1 <= length l <= 63) ls -> length (wire ls) < fuel ->
  wp (visit f ls st) h W Q -> wp (get_labels_loop f fuel (p ++ wire ls) (length p) st) h W Q.
Proof.
  induction ls as [|l ls IH]; intros p fuel st h W Hls Hf Hv.
  - destruct fuel as [|fuel]; [done|]. cbn [get_labels_loop]. unfold wire. cbn [map concat]. rewrite app_nil_r.
    destruct (Nat.ltb_spec (length p) (length p)); [lia|]. done.
  - destruct fuel as [|fuel]; [lia|]. cbn [get_labels_loop]. inversion Hls as [|? ? Hl Hls']; subst.
    assert (Ew : wire (l :: ls) = [len_byte (length l)] ++ l ++ wire ls) by done.
    assert (Hlt : (length p <? length (p ++ wire (l :: ls))) = true).
    { apply Nat.ltb_lt. rewrite Ew, !app_length. simpl. lia. }
    rewrite Hlt. rewrite Ew in Hf |- *. rewrite !app_length in Hf. cbn [length] in Hf.
    rewrite nth_error_app2, Nat.sub_diag by lia. cbn [nth_error Datatypes.app].
    rewrite len_byte_N by lia.
    replace (p ++ len_byte (length l) :: l ++ wire ls) with ((p ++ [len_byte (length l)]) ++ l ++ wire ls) by by rewrite <- app_assoc.
    replace (Datatypes.S (length p)) with (length (p ++ [len_byte (length l)])) by (rewrite app_length; simpl; lia).
    rewrite slice_mid. cbn [visit] in Hv. apply wp_bind. apply wp_bind_inv in Hv. eapply wp_mono; [exact Hv|].
    intros [st' b] h' W' Hk. cbn [fst snd] in *. destruct b; [|done].
    rewrite app_assoc, <- app_length. apply IH; [done|lia|done].
Qed.

Lemma get_labels_loop_pure {U S} (g : S -> bytes -> S * bool) :
  forall ls p fuel st, Forall (fun l => 1 <= length l <= 63) ls -> length (wire ls) < fuel ->
  get_labels_loop (U := U) (fun st l => Ret (g st l)) fuel (p ++ wire ls) (length p) st = Ret (visit_pure g ls st).
Proof.
  induction ls as [|l ls IH]; intros p fuel st Hls Hf.
  - destruct fuel as [|fuel]; [done|]. cbn [get_labels_loop]. unfold wire. cbn [map concat]. rewrite app_nil_r.
    destruct (Nat.ltb_spec (length p) (length p)); [lia|]. done.
  - destruct fuel as [|fuel]; [lia|]. cbn [get_labels_loop]. inversion Hls as [|? ? Hl Hls']; subst.
    assert (Ew : wire (l :: ls) = [len_byte (length l)] ++ l ++ wire ls) by done.
    assert (Hlt : (length p <? length (p ++ wire (l :: ls))) = true).
    { apply Nat.ltb_lt. rewrite Ew, !app_length. simpl. lia. }
    rewrite Hlt. rewrite Ew in Hf |- *. rewrite !app_length in Hf. cbn [length] in Hf.
    rewrite nth_error_app2, Nat.sub_diag by lia. cbn [nth_error Datatypes.app].
    rewrite len_byte_N by lia.
    replace (p ++ len_byte (length l) :: l ++ wire ls) with ((p ++ [len_byte (length l)]) ++ l ++ wire ls) by by rewrite <- app_assoc.
    replace (Datatypes.S (length p)) with (length (p ++ [len_byte (length l)])) by (rewrite app_length; simpl; lia).
    rewrite slice_mid. cbn [bind visit_pure]. destruct (g st l) as [st' b]. cbn [fst snd]. destruct b; [|done].
    rewrite app_assoc, <- app_length. apply IH; [done|lia].
Qed.
Definition good_label (l : bytes) : Prop := 1 <= length l <= 63 /\ Forall (fun c => upper c = c) l.
Lemma canon_good ls : Forall (fun l => l <> []) ls -> within_limits ls ->
  Forall good_label (canon ls) /\ length (canon ls) <= 127 /\ name_size (canon ls) <= 255.
Proof.
  intros Hne (H1 & H2 & H3). unfold canon. rewrite Forall_rev_iff, rev_length, map_length, name_size_rev. split_and!; [|done|].
  - apply Forall_fmap. eapply Forall_impl; [exact (proj2 (Forall_and _ _) (conj Hne H2))|]. intros l [Hl1 Hl2]. unfold compose. split.
    + rewrite map_length. destruct l; [done|simpl in *; lia].
    + apply Forall_fmap, Forall_true. intros c. apply upper_idem.
  - unfold name_size in *. rewrite map_map. erewrite map_ext; [exact H3|]. intros l. simpl. by rewrite map_length.
Qed.
Lemma get_labels_pure {U S} (g : S -> bytes -> S * bool) n ls st : nm_c n = wire ls -> Forall good_label ls ->
  get_labels (U := U) (fun st l => Ret (g st l)) n st = Ret (visit_pure g ls st).
Proof.
  intros E H. unfold get_labels. rewrite E. apply (get_labels_loop_pure g ls []); [|lia].
  eapply Forall_impl; [exact H|]. by intros l [? _].
Qed.
Lemma wp_get_labels {U S} (f : S -> bytes -> prog U (S * bool)) n ls st h W Q : nm_c n = wire ls -> Forall good_label ls ->
  wp (visit f ls st) h W Q -> wp (get_labels f n st) h W Q.
Proof.
  intros E H Hv. unfold get_labels. rewrite E. apply (wp_get_labels_loop f _ ls []); [|lia|done].
  eapply Forall_impl; [exact H|]. by intros l [? _].
Qed.
Lemma pf_wellformed s n : make_name s = DOk n -> exists ls, denotes s ls /\ within_limits ls /\ nm_c n = wire (canon ls) /\
  Forall good_label (canon ls) /\ length (canon ls) <= 127 /\ name_size (canon ls) <= 255.
Proof.
  intros H. apply make_name_iff in H as (ls & Hd & Hw & ->). exists ls. split_and!; try done; apply (canon_good ls); try done; apply Hd.
Qed.

(** ** GetLabel (C21). *)
Lemma name_get_label_total n off : name_get_label n off <> None.
Proof.
  unfold name_get_label. destruct (_ && _); [done|]. destruct (Z.ltb_spec off 0); [done|].
  destruct (Z.leb_spec (Z.of_nat (length (nm_c n))) off); [done|]. cbn [orb].
  destruct (nth_error _ _) as [b|] eqn:E; [|apply nth_error_None in E; lia].
  destruct (_ || _) eqn:Eb; [done|]. destruct (Z.leb_spec (Z.of_nat (length (nm_c n))) (off + 1 + Z.of_N (bN b))).
  - unfold slice. destruct (Nat.leb_spec (Z.to_nat (off + 1)) (length (nm_c n))); [|lia].
    destruct (Nat.leb_spec (length (nm_c n)) (length (nm_c n))); [done|lia].
  - unfold slice. destruct (Nat.leb_spec (Z.to_nat (off + 1)) (Z.to_nat (off + 1 + Z.of_N (bN b)))); [|lia].
    destruct (Nat.leb_spec (Z.to_nat (off + 1 + Z.of_N (bN b))) (length (nm_c n))); [done|lia].
Qed.
Lemma name_get_label_out n off : (off < 0 \/ Z.of_nat (length (nm_c n)) <= off)%Z -> (off <> 0 \/ nm_c n <> [])%Z ->
  name_get_label n off = Some ([], (-1)%Z).
Proof.
  intros H H0. unfold name_get_label. destruct (Z.eqb_spec off 0); cbn [andb].
  - destruct (Z.eqb_spec (Z.of_nat (length (nm_c n))) 0); [destruct (nm_c n); [by destruct H0|done]|].
    destruct (Z.ltb_spec off 0); [done|]. destruct (Z.leb_spec (Z.of_nat (length (nm_c n))) off); [done|lia].
  - destruct (Z.ltb_spec off 0); [done|]. destruct (Z.leb_spec (Z.of_nat (length (nm_c n))) off); [done|lia].
Qed.
Lemma name_get_label_at n p l q : nm_c n = wire (p ++ l :: q) -> good_label l ->
  name_get_label n (Z.of_nat (length (wire p))) = Some (l, match q with [] => 0%Z | _ => Z.of_nat (length (wire (p ++ [l]))) end).
Proof.
  intros E [Hl _]. unfold name_get_label. rewrite E, wire_app.
  assert (Ew : wire (l :: q) = [len_byte (length l)] ++ l ++ wire q) by done. rewrite Ew.
  rewrite !app_length. change (length [len_byte (length l)]) with 1.
  destruct (Z.eqb_spec (Z.of_nat (length (wire p) + (1 + (length l + length (wire q))))) 0); [lia|]. rewrite andb_false_r.
  destruct (Z.ltb_spec (Z.of_nat (length (wire p))) 0); [lia|].
  destruct (Z.leb_spec (Z.of_nat (length (wire p) + (1 + (length l + length (wire q))))) (Z.of_nat (length (wire p)))); [lia|]. cbn [orb].
  rewrite Nat2Z.id, nth_error_app2, Nat.sub_diag by lia. cbn [nth_error Datatypes.app].
  assert (Hb : Z.of_N (bN (len_byte (length l))) = Z.of_nat (length l)). { pose proof (len_byte_N (length l) ltac:(lia)). lia. }
  rewrite Hb. destruct (Z.ltb_spec (Z.of_nat (length l)) 1); [lia|]. destruct (Z.ltb_spec 63 (Z.of_nat (length l))); [lia|]. cbn [orb].
  replace (Z.to_nat (Z.of_nat (length (wire p)) + 1)) with (length (wire p ++ [len_byte (length l)])) by (rewrite app_length; simpl; lia).
  replace (wire p ++ len_byte (length l) :: l ++ wire q) with ((wire p ++ [len_byte (length l)]) ++ l ++ wire q) by by rewrite <- app_assoc.
  destruct q as [|l' q].
  - assert (wire [] = []) as -> by done. change (length []) with 0. rewrite app_nil_r.
    destruct (Z.leb_spec (Z.of_nat (length (wire p) + (1 + (length l + 0)))) (Z.of_nat (length (wire p)) + 1 + Z.of_nat (length l))); [|lia].
    pose proof (slice_mid (wire p ++ [len_byte (length l)]) l []) as Es. rewrite app_nil_r in Es.
    replace (length (wire p) + (1 + (length l + 0))) with (length (wire p ++ [len_byte (length l)]) + length l) by (rewrite app_length; simpl; lia).
    by rewrite Es.
  - assert (0 < length (wire (l' :: q))) by (rewrite wire_length; unfold name_size; simpl; lia).
    destruct (Z.leb_spec (Z.of_nat (length (wire p) + (1 + (length l + length (wire (l' :: q)))))) (Z.of_nat (length (wire p)) + 1 + Z.of_nat (length l))); [lia|].
    replace (Z.to_nat (Z.of_nat (length (wire p)) + 1 + Z.of_nat (length l))) with (length (wire p ++ [len_byte (length l)]) + length l)
      by (rewrite app_length; simpl; lia).
    rewrite slice_mid. do 2 f_equal. rewrite wire_app, app_length, (wire_length [l]). unfold name_size. simpl. lia.
Qed.
(** Following the offsets returned by GetLabel until it returns 0. *)
Inductive walks (n : name) : Z -> list bytes -> Prop :=
| wk_last off l : name_get_label n off = Some (l, 0%Z) -> walks n off [l]
| wk_next off l off' ls : name_get_label n off = Some (l, off') -> off' <> 0%Z -> walks n off' ls -> walks n off (l :: ls).
Lemma pf_walk n : forall q p, nm_c n = wire (p ++ q) -> Forall good_label q -> q <> [] ->
  walks n (Z.of_nat (length (wire p))) q.
Proof.
  induction q as [|l q IH]; intros p E Hq Hne; [done|]. inversion Hq; subst.
  pose proof (name_get_label_at n p l q E ltac:(done)) as Hg. destruct q as [|l' q].
  - by apply wk_last.
  - eapply wk_next; [exact Hg| |].
    + rewrite wire_length, name_size_app. unfold name_size. simpl. lia.
    + apply IH; [by rewrite <- app_assoc|done|done].
Qed.

(** ** Case (C20). *)
Definition hi : bytes -> bytes := map upper.
Lemma upper_dot c : Byte.eqb (upper c) dot = Byte.eqb c dot.
Proof. by destruct c. Qed.
Lemma upper_bslash c : Byte.eqb (upper c) bslash = Byte.eqb c bslash.
Proof. by destruct c. Qed.
Lemma upper_digit c : is_digit (upper c) = is_digit c.
Proof. by destruct c. Qed.
Lemma upper_dval c : is_digit c = true -> bN (upper c) = bN c.
Proof. by destruct c. Qed.
Lemma upper_fold c : fold_case (upper c) = fold_case c.
Proof. by destruct c. Qed.
Lemma mark_hi cap s : forall i st e code offs, mark_loop cap (hi s) i st e code offs = mark_loop cap s i st e code offs.
Proof.
  induction s as [|c s IH]; intros i st e code offs; [done|]. cbn [hi map mark_loop]. fold (hi s).
  rewrite upper_dot, upper_bslash, upper_digit. destruct e.
  - by rewrite !IH.
  - destruct (is_digit c) eqn:Ed; cbn [negb]; [rewrite upper_dval by done|]; by rewrite !IH.
  - destruct (is_digit c) eqn:Ed; cbn [negb]; [rewrite upper_dval by done|done]; by rewrite !IH.
  - destruct (is_digit c) eqn:Ed; cbn [negb]; [rewrite upper_dval by done|done]; by rewrite !IH.
Qed.
Lemma put_hi cap acc c k k' : (forall a, k a = k' a) -> put cap acc (upper c) k = put cap acc c k'.
Proof. intros H. unfold put. rewrite upper_fold. destruct (_ <=? _); [done|]. apply H. Qed.
Lemma label_hi cap s : forall e code acc, label_loop cap (hi s) e code acc = label_loop cap s e code acc.
Proof.
  induction s as [|c s IH]; intros e code acc; [done|]. cbn [hi map label_loop]. fold (hi s).
  rewrite upper_dot, upper_bslash, upper_digit. destruct e.
  - destruct (Byte.eqb c dot); [by destruct s|]. destruct (Byte.eqb c bslash); [apply IH|]. apply put_hi. intros; apply IH.
  - destruct (is_digit c) eqn:Ed; cbn [negb]; [rewrite upper_dval by done; by rewrite !IH|]. apply put_hi. intros; apply IH.
  - destruct (is_digit c) eqn:Ed; cbn [negb]; [rewrite upper_dval by done|done]; by rewrite !IH.
  - destruct (is_digit c) eqn:Ed; cbn [negb]; [rewrite upper_dval by done|done]. destruct (_ <? _)%N; [done|].
    apply put_ext. intros; apply IH.
Qed.
Lemma slice_hi s a b : slice (hi s) a b = option_map hi (slice s a b).
Proof.
  unfold slice, hi. rewrite map_length. destruct (_ && _); [|done]. simpl. by rewrite skipn_map, firstn_map.
Qed.
Lemma name_loop_hi s : forall offs e acc, name_loop (hi s) offs e acc = name_loop s offs e acc.
Proof.
  induction offs as [|o offs IH]; intros e acc; [done|]. cbn [name_loop]. rewrite slice_hi. destruct (slice s o e) as [sub|]; [|done].
  cbn [option_map]. unfold get_label. rewrite label_hi. destruct (label_loop _ _ _ _ _); [|done|done]. by rewrite IH.
Qed.
Definition same_answer (r r' : dres name) : Prop :=
  match r, r' with
  | DOk n, DOk n' => nm_c n = nm_c n'
  | DErr e, DErr e' => e = e'
  | _, _ => False
  end.
Lemma make_name_hi s : make_name (hi s) =
  match make_name s with DOk n => DOk (Name (hi s) (nm_c n)) | DErr e => DErr e | DPanic => DPanic end.
Proof.
  unfold make_name. assert (length (hi s) = length s) as -> by apply map_length.
  destruct (length s <? 1) eqn:E1; [done|].
  assert (Byte.eqb (hd Byte.x00 (hi s)) dot = Byte.eqb (hd Byte.x00 s) dot) as -> by (destruct s; [done|]; apply upper_dot).
  destruct (_ && _); [done|]. unfold mark_labels. rewrite mark_hi.
  destruct (mark_loop _ s _ _ _ _ _); [|done|done]. rewrite name_loop_hi.
  destruct (name_loop s _ _ _); done.
Qed.
Lemma pf_case s s' : map upper s = map upper s' -> same_answer (make_name s) (make_name s').
Proof.
  intros E. pose proof (make_name_hi s) as H. pose proof (make_name_hi s') as H'. unfold hi in *. rewrite E in H.
  pose proof (make_name_outcome s) as O. pose proof (make_name_outcome s') as O'.
  destruct (make_name s) as [n|e|], (make_name s') as [n'|e'|]; try done; rewrite H in H'; simpl; congruence.
Qed.

(** ** MakeLabel and MakeHumanReadableLabel (C16, C22, C23). *)
Definition plain_lower (c : byte) : byte := if is_upper c then ofN (N.lor (bN c) 0x20) else c.
Definition human (c : byte) : bytes :=
  if Byte.eqb c dot || Byte.eqb c bslash then [bslash; c]
  else if (bN c <? 33)%N || (126 <? bN c)%N then [bslash; ofN (bN c / 10 / 10 + 48); ofN (bN c / 10 mod 10 + 48); ofN (bN c mod 10 + 48)]
  else [plain_lower c].
Lemma digit_ofN d : (d <= 9)%N -> digit (ofN (d + 48)) d.
Proof. intros H. split; [done|]. pose proof (bN_ofN (d + 48) ltac:(lia)) as E. unfold bN in E. rewrite E. lia. Qed.
Lemma human_spells c : exists b, spells (human c) (TByte b) /\ upper b = upper c.
Proof.
  unfold human. destruct (byte_eqb_spec c dot) as [->|H1].
  { exists dot. split; [|done]. apply sp_char. intros d [? Hd]. change (Byte.to_N dot) with 46%N in Hd. lia. }
  destruct (byte_eqb_spec c bslash) as [->|H2]; cbn [orb].
  { exists bslash. split; [|done]. apply sp_char. intros d [? Hd]. change (Byte.to_N bslash) with 92%N in Hd. lia. }
  destruct (_ || _) eqn:E.
  { exists c. split; [|done]. eapply sp_code; [apply digit_ofN..|]; by destruct c. }
  exists (plain_lower c). split; [|by destruct c].
  apply sp_plain; by destruct c.
Qed.
Lemma human_text l : exists l', label_text (concat (map human l)) l' /\ map upper l' = map upper l.
Proof.
  induction l as [|c l (l' & H & E)]; [exists []; by split; [constructor|]|].
  destruct (human_spells c) as (b & Hb & Eb). exists (b :: l'). split; [by constructor|]. simpl. congruence.
Qed.
Lemma human_size_length c : length (human c) = human_size c.
Proof. by destruct c. Qed.
Lemma human_length l : length (concat (map human l)) = list_sum (map human_size l).
Proof. induction l as [|c l IH]; [done|]. simpl. by rewrite app_length, human_size_length, IH. Qed.
Lemma human_upper c : is_upper c = true -> human c = [ofN (N.lor (bN c) 0x20)].
Proof. by destruct c. Qed.
Lemma human_step c s acc : human_loop (c :: s) acc =
  if length acc + human_size c <=? 252 then human_loop s (acc ++ human c)
  else if is_upper c then None else Some acc.
Proof.
  cbn [human_loop]. unfold human_size, human, c_dot, c_bslash. fold dot bslash. unfold max_human, max_label.
  destruct (byte_eqb_spec c dot) as [->|H1]; [|destruct (byte_eqb_spec c bslash) as [->|H2]]; cbn [orb].
  1,2: destruct (Nat.leb_spec (4 * 63 - 1) (length acc)), (Nat.leb_spec (length acc + 2) 252); try lia; done.
  unfold bN. destruct (_ || _) eqn:E.
  { assert (is_upper c = false) as -> by (unfold is_upper, bN; lia).
    destruct (Nat.leb_spec (4 * 63 - 3) (length acc)), (Nat.leb_spec (length acc + 4) 252); try lia; done. }
  unfold plain_lower. destruct (is_upper c).
  - destruct (Nat.ltb_spec (length acc) (4 * 63)), (Nat.leb_spec (length acc + 1) 252); try lia; done.
  - destruct (Nat.leb_spec (4 * 63) (length acc)), (Nat.leb_spec (length acc + 1) 252); try lia; done.
Qed.
Lemma human_loop_spec s : forall acc, length acc <= 252 ->
  match human_loop s acc with
  | Some h => exists p r, s = p ++ r /\ h = acc ++ concat (map human p) /\ length h <= 252 /\
      match r with [] => True | c :: _ => is_upper c = false /\ 252 < length h + human_size c end
  | None => exists p c r, s = p ++ c :: r /\ is_upper c = true /\ length acc + list_sum (map human_size p) = 252
  end.
Proof.
  induction s as [|c s IH]; intros acc Hacc.
  { cbn [human_loop]. exists [], []. simpl. by rewrite app_nil_r. }
  rewrite human_step. destruct (Nat.leb_spec (length acc + human_size c) 252) as [H|H].
  - specialize (IH (acc ++ human c)). rewrite app_length, human_size_length in IH. specialize (IH ltac:(lia)).
    destruct (human_loop s _) as [h|].
    + destruct IH as (p & r & -> & -> & A & B). exists (c :: p), r. simpl. rewrite <- app_assoc. by rewrite <- app_assoc in A, B.
    + destruct IH as (p & c' & r & -> & A & B). exists (c :: p), c', r. split_and!; [done|done|]. simpl. lia.
  - destruct (is_upper c) eqn:E.
    + exists [], c, s. split_and!; [done|done|]. simpl. assert (human_size c = 1) by (clear -E; by destruct c). lia.
    + exists [], (c :: s). simpl. rewrite app_nil_r. split_and!; [done|done|done|done|lia].
Qed.
Lemma human_size_bounds c : 1 <= human_size c <= 4.
Proof. destruct c; cbv; lia. Qed.
Lemma pf_human_panic l : make_human_label l = None <->
  exists p c r, l = p ++ c :: r /\ (65 <= Byte.to_N c <= 90)%N /\ list_sum (map human_size p) = 252.
Proof.
  split.
  - intros H. pose proof (human_loop_spec l [] ltac:(simpl; lia)) as S. unfold make_human_label in H. rewrite H in S.
    destruct S as (p & c & r & -> & A & B). exists p, c, r. split_and!; [done|unfold is_upper, bN in A; lia..|done].
  - intros (p & c & r & -> & Hc & Hp). unfold make_human_label.
    assert (G : forall p acc, length acc + list_sum (map human_size p) = 252 -> human_loop (p ++ c :: r) acc = None).
    { clear p Hp. induction p as [|b p IH]; intros acc Hp; cbn [Datatypes.app]; rewrite human_step.
      - simpl in Hp. assert (is_upper c = true) as Eu by (unfold is_upper, bN; lia). rewrite Eu.
        destruct (Nat.leb_spec (length acc + human_size c) 252); [|done]. pose proof (human_size_bounds c). lia.
      - simpl in Hp. destruct (Nat.leb_spec (length acc + human_size b) 252); [|lia]. apply IH.
        rewrite app_length, human_size_length. lia. }
    by apply G.
Qed.
Lemma pf_human_some l h : make_human_label l = Some h ->
  length h <= 252 /\ exists p r l', l = p ++ r /\ label_text h l' /\ map upper l' = map upper p /\
    match r with [] => True | c :: _ => 252 < length h + human_size c end.
Proof.
  intros H. pose proof (human_loop_spec l [] ltac:(simpl; lia)) as S. unfold make_human_label in H. rewrite H in S.
  destruct S as (p & r & -> & -> & A & B). split; [done|]. destruct (human_text p) as (l' & C & D). exists p, r, l'.
  split_and!; [done|done|done|]. destruct r; [done|]. by destruct B.
Qed.
Lemma human_sum_bounds l : length l <= list_sum (map human_size l) <= 4 * length l.
Proof. induction l as [|c l IH]; simpl; [lia|]. pose proof (human_size_bounds c). lia. Qed.
Lemma pf_roundtrip l : length l <= 63 -> exists h, make_human_label l = Some h /\ make_label h = DOk (map upper l).
Proof.
  intros Hl. destruct (make_human_label l) as [h|] eqn:E.
  - exists h. split; [done|]. pose proof (human_loop_spec l [] ltac:(simpl; lia)) as S. unfold make_human_label in E. rewrite E in S.
    destruct S as (p & r & -> & -> & A & B). destruct r as [|c r].
    + rewrite app_nil_r in *. destruct (human_text p) as (l' & C & D). cbn [Datatypes.app]. unfold make_label.
      rewrite (get_label_text _ l') by done. assert (length l' = length p) as -> by by rewrite <- (map_length upper l'), D, map_length.
      destruct (Nat.leb_spec (length p) 63); [by rewrite D|lia].
    + exfalso. cbn [Datatypes.app] in B. rewrite human_length in B. pose proof (human_sum_bounds p). pose proof (human_size_bounds c).
      rewrite app_length in Hl. simpl in Hl. lia.
  - exfalso. apply pf_human_panic in E as (p & c & r & -> & _ & E). rewrite app_length in Hl. simpl in Hl.
    pose proof (human_sum_bounds p). lia.
Qed.
Lemma upper_id l : (forall c, In c l -> ~ (97 <= Byte.to_N c <= 122)%N) -> map upper l = l.
Proof.
  induction l as [|c l IH]; intros H; [done|]. simpl. f_equal; [|apply IH; intros; apply H; by right].
  unfold upper. destruct (_ && _)%bool eqn:E; [|done]. exfalso. apply (H c); [by left|lia].
Qed.

(** A text: a label, then the end, a dot or a bad escape. *)
Lemma label_split_aux n : forall s w0 l0, length s <= n -> label_text w0 l0 ->
  exists w l r, label_text w l /\ w0 ++ s = w ++ r /\ (r = [] \/ (exists r', r = c_dot :: r') \/ bad_escape r).
Proof.
  induction n as [|n IH]; intros s w0 l0 Hlen Hw0.
  { destruct s; [|simpl in Hlen; lia]. exists w0, l0, []. auto. }
  destruct s as [|c s]; [exists w0, l0, []; auto|].
  destruct (first_word (c :: s)) as [(w & t & r & Hw & E)|(Hb & _)]; [done|..]; [|exists w0, l0, (c :: s); auto].
  rewrite E. assert (length r < length (c :: s)) as Hr.
  { rewrite E, app_length. apply spells_nonempty in Hw. destruct w; [done|]. simpl. lia. }
  destruct t as [|b].
  - inversion Hw; subst w. exists w0, l0, (c_dot :: r). split_and!; [done|done|]. right. left. eauto.
  - destruct (IH r (w0 ++ w) (l0 ++ [b])) as (w' & l & r' & H); [simpl in *; lia|..].
    + unfold label_text. rewrite map_app. apply toks_app; [done|]. simpl. rewrite <- (app_nil_r w). by constructor; [|constructor].
    + rewrite <- app_assoc in H. eauto.
Qed.
Definition label_outcome (s : bytes) (r : dres bytes) : Prop :=
  match r with
  | DOk m => exists l, (label_text s l \/ exists w, s = w ++ [c_dot] /\ label_text w l) /\ length l <= 63 /\ m = map upper l
  | DErr ErrLabelTooLong => exists w l r, s = w ++ r /\ label_text w l /\ 63 < length l
  | DErr ErrInvalidEscape => exists w l r, s = w ++ r /\ label_text w l /\ length l <= 63 /\ bad_escape r
  | DErr _ => False
  | DPanic => exists w l r, s = w ++ c_dot :: r /\ r <> [] /\ label_text w l /\ length l <= 63
  end.
Lemma make_label_text w l r : label_text w l -> make_label (w ++ r) =
  if length l <=? 63 then label_loop 64 r EReg 0 (map upper l) else DErr ErrLabelTooLong.
Proof. intros H. unfold make_label, get_label. rewrite (label_label _ l) by (done || (simpl; unfold max_label; lia)). done. Qed.
Lemma label_bad r cap code acc : bad_escape r -> label_loop cap r EReg code acc = DErr ErrInvalidEscape.
Proof.
  intros [Hr Hb]. destruct (first_word r Hr) as [(w & t & r' & Hw & E)|(H1 & _ & H2)]; [|done]. by destruct (Hb _ _ _ Hw E).
Qed.
Lemma make_label_iff s r : make_label s = r <-> label_outcome s r.
Proof.
  split.
  - intros <-. destruct (label_split_aux (length s) s [] []) as (w & l & r & Hw & E & Hr); [done|constructor|].
    cbn [Datatypes.app] in E. subst s. rewrite (make_label_text _ l) by done. destruct (Nat.leb_spec (length l) 63).
    2: { exists w, l, r. done. }
    destruct Hr as [->|[(r' & ->)|Hb]].
    + cbn [label_loop label_outcome]. exists l. rewrite app_nil_r. auto.
    + cbn [label_loop]. change (Byte.eqb c_dot dot) with true. cbn iota. destruct r' as [|c r'].
      * exists l. split_and!; [right; eauto|done|done].
      * exists w, l, (c :: r'). done.
    + rewrite label_bad by done. exists w, l, r. done.
  - destruct r as [m|e|]; [|destruct e|]; simpl; [|done|done| |done| |].
    + intros (l & [H|(w & -> & H)] & Hl & ->).
      * rewrite <- (app_nil_r s). rewrite (make_label_text _ l) by done. destruct (Nat.leb_spec (length l) 63); [done|lia].
      * rewrite (make_label_text _ l) by done. destruct (Nat.leb_spec (length l) 63); [done|lia].
    + intros (w & l & r & -> & H & Hl). rewrite (make_label_text _ l) by done. destruct (Nat.leb_spec (length l) 63); [lia|done].
    + intros (w & l & r & -> & H & Hl & Hb). rewrite (make_label_text _ l) by done. destruct (Nat.leb_spec (length l) 63); [|lia].
      by apply label_bad.
    + intros (w & l & r & -> & Hr & H & Hl). rewrite (make_label_text _ l) by done. destruct (Nat.leb_spec (length l) 63); [|lia].
      cbn [label_loop]. change (Byte.eqb c_dot dot) with true. cbn iota. by destruct r.
Qed.

(** ** The grammar is unambiguous. *)
Lemma spells_det w t w' t' : forall r r', spells w t -> spells w' t' -> w ++ r = w' ++ r' -> t = t' /\ r = r'.
Proof.
  intros r r' H H' E.
  destruct H as [|c H1 H2|c H1|c1 c2 c3 d1 d2 d3 b H1 H2 H3 Hb], H' as [|c' H1' H2'|c' H1'|c1' c2' c3' d1' d2' d3' b' H1' H2' H3' Hb'];
    simpl in E; injection E; intros; subst; try done; try (by destruct H1 || by destruct H2 || by destruct H1' || by destruct H2').
  - by apply H1 in H1'.
  - by apply H1' in H1.
  - destruct H1 as [_ H1], H2 as [_ H2], H3 as [_ H3], H1' as [_ H1'], H2' as [_ H2'], H3' as [_ H3'].
    assert (b = b') as -> by (apply to_N_inj'; lia). done.
Qed.
Lemma toks_det s ts : toks s ts -> forall ts', toks s ts' -> ts = ts'.
Proof.
  induction 1 as [|w t s ts Hw Hs IH]; intros ts' H'.
  - inversion H' as [|w' t' s' ts'' Hw' Hs' E]; subst; [done|]. apply spells_nonempty in Hw'. by destruct w'.
  - inversion H' as [E|w' t' s' ts'' Hw' Hs' E]; subst.
    + apply spells_nonempty in Hw. by destruct w.
    + destruct (spells_det _ _ _ _ _ _ Hw' Hw E) as [-> ->]. f_equal. auto.
Qed.
Lemma tbytes_inj l : forall l' x x', (forall b, hd_error x <> Some (TByte b)) -> (forall b, hd_error x' <> Some (TByte b)) ->
  map TByte l ++ x = map TByte l' ++ x' -> l = l' /\ x = x'.
Proof.
  induction l as [|b l IH]; intros [|b' l'] x x' H H' E; simpl in E; subst; [done| | |].
  - exfalso. by apply (H b').
  - exfalso. by apply (H' b).
  - injection E as -> E. destruct (IH _ _ _ H H' E) as [-> ->]. done.
Qed.
Lemma dotted_cons l ls e : dotted (l :: ls) ++ e = map TByte l ++ match ls with [] => e | _ => TDot :: dotted ls ++ e end.
Proof. destruct ls; [done|]. cbn [dotted]. by rewrite <- app_assoc. Qed.
Lemma dotted_nonempty ls : Forall (fun l => l <> []) ls -> ls <> [] -> exists b ts, dotted ls = TByte b :: ts.
Proof.
  destruct ls as [|l ls]; [done|]. intros H _. inversion H; subst. destruct l as [|b l]; [done|].
  rewrite <- (app_nil_r (dotted _)), dotted_cons. simpl. eauto.
Qed.
Lemma dotted_inj ls : forall ls' e e', Forall (fun l => l <> []) ls -> Forall (fun l => l <> []) ls' ->
  e = [] \/ e = [TDot] -> e' = [] \/ e' = [TDot] -> dotted ls ++ e = dotted ls' ++ e' -> ls = ls'.
Proof.
  induction ls as [|l ls IH]; intros [|l' ls'] e e' H H' He He' E; [done| | |].
  - destruct (dotted_nonempty (l' :: ls') H' ltac:(done)) as (b & ts & Eb). rewrite Eb in E. destruct He as [-> | ->]; done.
  - destruct (dotted_nonempty (l :: ls) H ltac:(done)) as (b & ts & Eb). rewrite Eb in E. destruct He' as [-> | ->]; done.
  - rewrite !dotted_cons in E. inversion H as [|? ? Hl Hls]; inversion H' as [|? ? Hl' Hls']; subst. apply tbytes_inj in E as [-> E].
    + f_equal. destruct ls as [|l1 ls], ls' as [|l1' ls']; [done| | |].
      * destruct (dotted_nonempty (l1' :: ls') Hls' ltac:(done)) as (b & ts & Eb). rewrite Eb in E. by destruct He as [-> | ->].
      * destruct (dotted_nonempty (l1 :: ls) Hls ltac:(done)) as (b & ts & Eb). rewrite Eb in E. by destruct He' as [-> | ->].
      * injection E as E. by apply (IH _ e e').
    + intros b. destruct ls; [by destruct He as [-> | ->]|done].
    + intros b. destruct ls'; [by destruct He' as [-> | ->]|done].
Qed.
Lemma denotes_det s ls ls' : denotes s ls -> denotes s ls' -> ls = ls'.
Proof.
  intros [H1 H2] [H1' H2'].
  assert (exists e, (e = [] \/ e = [TDot]) /\ toks s (dotted ls ++ e)) as (e & He & H).
  { destruct H2; [exists []; rewrite app_nil_r|exists [TDot]]; auto. }
  assert (exists e, (e = [] \/ e = [TDot]) /\ toks s (dotted ls' ++ e)) as (e' & He' & H').
  { destruct H2'; [exists []; rewrite app_nil_r|exists [TDot]]; auto. }
  apply (dotted_inj ls ls' e e'); try done. by apply (toks_det s).
Qed.

(** ** MakeNameFromReflection (C55). *)
Lemma reflection_ok v n : make_name_from_reflection v = ROk n <->
  (exists w, (v = w \/ v = VPtr (Some w)) /\ (w = VName n \/ exists s, w = VString s /\ make_name s = DOk n)).
Proof.
  split.
  - assert (G : forall w, match w with
      | VInvalid => RReflect
      | VString s => match make_name s with DOk n => ROk n | DErr e => RBadString e | DPanic => RReflect end
      | VName n => ROk (Name (nm_h n) (nm_c n)) | _ => RBadType end = ROk n ->
      w = VName n \/ exists s, w = VString s /\ make_name s = DOk n).
    { intros [|s|m|p|]; try done.
      - destruct (make_name s) eqn:E; [|done..]. intros [= ->]. right. eauto.
      - destruct m. intros [= <-]. by left. }
    intros H. destruct v as [|s|m|[w|]|]; try done.
    + exists (VString s). split; [by left|]. apply G. exact H.
    + exists (VName m). split; [by left|]. apply G. exact H.
    + exists w. split; [by right|]. apply G. exact H.
  - intros (w & [-> | ->] & [-> | (s & -> & H)]); simpl; try rewrite H; by destruct n.
Qed.
Lemma reflection_bad v e : make_name_from_reflection v = RBadString e <->
  exists s, (v = VString s \/ v = VPtr (Some (VString s))) /\ make_name s = DErr e.
Proof.
  split.
  - destruct v as [|s|m|[[|s|m|p|]|]|]; simpl; try done; destruct (make_name s) eqn:E; intros [= ->]; eauto.
  - intros (s & [-> | ->] & H); simpl; by rewrite H.
Qed.
Lemma reflection_reflect v : make_name_from_reflection v = RReflect <-> v = VInvalid \/ v = VPtr None \/ v = VPtr (Some VInvalid).
Proof.
  split; [|by intros [-> |[-> | ->]]].
  destruct v as [|s|m|[[|s|m|p|]|]|]; simpl; try done; auto; destruct (make_name s) eqn:E; try done; by apply make_name_iff in E.
Qed.
