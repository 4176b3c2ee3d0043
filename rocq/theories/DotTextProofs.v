(** * Proofs about the text of Dot. *)
From Verif Require Import Prog RbModel NumModel IpModel IpBits DotModel DotText DotTextSpec.
From Coq Require Import String.
Open Scope N_scope.
Local Notation B := list_byte_of_string.

(** ** Digits *)
Lemma lt_16_cases (P : N -> Prop) : (forall k, (k < 16)%nat -> P (N.of_nat k)) -> forall d, d < 16 -> P d.
Proof. intros H d Hd. rewrite <- (N2Nat.id d). apply H. lia. Qed.
Lemma digit_value_digit d : d < 16 -> digit_value (digit d) = Some d.
Proof.
  revert d. apply lt_16_cases. intros k Hk. do 16 (destruct k as [|k]; [vm_compute; reflexivity|]). lia.
Qed.
Lemma digits_loop_number base fuel : 2 <= base <= 16 -> forall n acc, n < 2 ^ N.of_nat fuel -> fuel <> O ->
  number_from base 0 (digits_loop base fuel n acc) = number_from base n acc.
Proof.
  intros Hb. induction fuel as [|fuel IH]; intros n acc Hn Hf; [done|]. cbn [digits_loop].
  assert (n mod base < base) as Hm by (apply N.mod_lt; lia).
  assert (forall a, number_from base a (digit (n mod base) :: acc) = number_from base (a * base + n mod base) acc) as Hd.
  { intros a. cbn [number_from]. rewrite digit_value_digit by lia. apply N.ltb_lt in Hm. by rewrite Hm. }
  destruct (N.eqb_spec (n / base) 0) as [E|E].
  - rewrite Hd. f_equal. apply N.div_small_iff in E; [|lia]. rewrite N.mod_small by done. lia.
  - assert (n / base < 2 ^ N.of_nat fuel) as Hlt.
    { apply N.div_lt_upper_bound; [lia|]. rewrite Nat2N.inj_succ, N.pow_succ_r' in Hn. clear -Hn Hb. nia. }
    rewrite IH; [|done|].
    + rewrite Hd. f_equal. rewrite N.mul_comm. symmetry. apply N.div_mod. lia.
    + intros ->. apply E, N.lt_1_r. exact Hlt.
Qed.
Lemma size_bound n : n < 2 ^ N.of_nat (S (N.size_nat n)).
Proof.
  rewrite Nat2N.inj_succ, N.pow_succ_r'. destruct n as [|p]; [done|].
  assert (N.pos p < 2 ^ N.of_nat (N.size_nat (N.pos p))); [|lia].
  cbn [N.size_nat]. induction p as [p IH|p IH|]; cbn [Pos.size_nat]; [..|done];
    rewrite Nat2N.inj_succ, N.pow_succ_r'; lia.
Qed.
Lemma digits_number_from base n : 2 <= base <= 16 -> number_from base 0 (digits base n) = Some n.
Proof. intros Hb. unfold digits. by rewrite (digits_loop_number base _ Hb n [] (size_bound n)). Qed.
Lemma digits_loop_ne base fuel n b acc : digits_loop base fuel n (b :: acc) <> [].
Proof. revert n b acc. induction fuel as [|fuel IH]; intros n b acc; cbn [digits_loop]; [done|]. destruct (_ =? 0); [done|apply IH]. Qed.
Lemma digits_ne base n : digits base n <> [].
Proof. unfold digits. cbn [digits_loop]. destruct (_ =? 0); [done|]. apply digits_loop_ne. Qed.
Lemma number_ne base s : s <> [] -> number base s = number_from base 0 s.
Proof. by destruct s. Qed.
Lemma digits_number base n : 2 <= base <= 16 -> number base (digits base n) = Some n.
Proof. intros Hb. rewrite number_ne by apply digits_ne. by apply digits_number_from. Qed.

(** All bytes are digits. *)
Lemma digits_loop_forall (P : byte -> Prop) base fuel : base <> 0 -> (forall d, d < base -> P (digit d)) ->
  forall n acc, Forall P acc -> Forall P (digits_loop base fuel n acc).
Proof.
  intros Hb HP. induction fuel as [|fuel IH]; intros n acc Ha; cbn [digits_loop]; [done|].
  assert (Forall P (digit (n mod base) :: acc)) by (constructor; [apply HP, N.mod_lt; lia|done]).
  destruct (_ =? 0); [done|by apply IH].
Qed.
Lemma fmt_d_digit n : Forall (fun b => is_digit b = true) (fmt_d n).
Proof.
  apply digits_loop_forall; [done| |constructor]. intros d Hd.
  assert (d < 16) as H16 by lia. revert d H16 Hd. apply (lt_16_cases (fun d => d < 10 -> is_digit (digit d) = true)).
  intros k Hk Hd. do 10 (destruct k as [|k]; [vm_compute; reflexivity|]). lia.
Qed.
(** Neither a quote nor a backslash. *)
Definition plain (b : byte) : Prop := Byte.eqb b x22 = false /\ Byte.eqb b x5c = false.
Lemma digit_plain d : d < 16 -> plain (digit d).
Proof. revert d. apply lt_16_cases. intros k Hk. unfold plain. do 16 (destruct k as [|k]; [vm_compute; split; reflexivity|]). lia. Qed.
Lemma fmt_d_plain n : Forall plain (fmt_d n).
Proof. apply digits_loop_forall; [done| |constructor]. intros d Hd. apply digit_plain. lia. Qed.
Lemma fmt_x_plain w n : Forall plain (fmt_x w n).
Proof.
  unfold fmt_x. apply Forall_app. split; [by apply Forall_forall; intros b ->%elem_of_list_In%repeat_spec|].
  apply digits_loop_forall; [done| |constructor]. intros d Hd. apply digit_plain. lia.
Qed.
Lemma number_zeros k s a : number_from 16 a (repeat x30 k ++ s) = number_from 16 (a * 16 ^ N.of_nat k) s.
Proof.
  revert a. induction k as [|k IH]; intros a; [cbn; f_equal; lia|].
  change (repeat x30 (S k) ++ s) with (x30 :: (repeat x30 k ++ s)). cbn [number_from].
  change (digit_value x30) with (Some 0). cbn [N.ltb N.compare]. rewrite IH. f_equal. rewrite Nat2N.inj_succ, N.pow_succ_r'. lia.
Qed.
Lemma fmt_x_number w n : number 16 (fmt_x w n) = Some n.
Proof.
  unfold fmt_x. rewrite number_ne.
  - rewrite number_zeros, N.mul_0_l. apply digits_number_from. lia.
  - intros [_ H]%app_eq_nil. by apply digits_ne in H.
Qed.
Lemma fmt_x_length w n : (w <= List.length (fmt_x w n))%nat.
Proof. unfold fmt_x. rewrite app_length, repeat_length. lia. Qed.

(** ** hex_of *)
Lemma hex_digit r n : N.land (N.shiftr r (4 * n)) 0xf = r / 16 ^ n mod 16.
Proof.
  change 15 with (N.ones 4). rewrite N.land_ones, N.shiftr_div_pow2. change (2 ^ 4) with 16. f_equal. f_equal.
  rewrite N.pow_mul_r. done.
Qed.
Lemma hex_of_number n r : forall a, number_from 16 a (hex_of n r) = Some (a * 16 ^ N.of_nat n + r mod 16 ^ N.of_nat n).
Proof.
  induction n as [|n IH]; intros a; [cbn [hex_of number_from N.of_nat]; rewrite N.pow_0_r, N.mod_1_r; f_equal; lia|].
  cbn [hex_of number_from]. rewrite hex_digit.
  assert (r / 16 ^ N.of_nat n mod 16 < 16) as Hd by (apply N.mod_lt; lia).
  rewrite digit_value_digit by done. apply N.ltb_lt in Hd. rewrite Hd, IH. f_equal.
  rewrite Nat2N.inj_succ, N.pow_succ_r'. rewrite (N.mul_comm 16 (16 ^ _)), (N.mod_mul_r r) by (try apply N.pow_nonzero; lia). lia.
Qed.
(** ** UTF-8 *)
Lemma n2b_byte_of x : x < 256 -> n2b x = byte_of x.
Proof. intros H. unfold n2b, byte_of. by rewrite N.mod_small. Qed.
Lemma byte_of_b2n b : byte_of (b2n b) = b.
Proof. unfold byte_of, b2n. by rewrite Byte.of_to_N. Qed.
Lemma b2n_byte_of x : x < 256 -> b2n (byte_of x) = x.
Proof. intros H. rewrite <- n2b_byte_of, n2b_b2n by done. by apply N.mod_small. Qed.
Lemma land_3f x : N.land x 0x3f = x mod 64.
Proof. change 0x3f with (N.ones 6). by rewrite N.land_ones. Qed.
Lemma shiftr6 x : N.shiftr x 6 = x / 64. Proof. by rewrite N.shiftr_div_pow2. Qed.
Lemma shiftr12 x : N.shiftr x 12 = x / 4096. Proof. by rewrite N.shiftr_div_pow2. Qed.
Lemma shiftr18 x : N.shiftr x 18 = x / 262144. Proof. by rewrite N.shiftr_div_pow2. Qed.
(** The high bits of a byte. *)
Lemma lor_high a n x : x < 2 ^ n -> N.lor (a * 2 ^ n) x = a * 2 ^ n + x.
Proof. intros H. rewrite <- lor_shiftl by done. by rewrite N.shiftl_mul_pow2. Qed.
Lemma lor_80 x : x < 64 -> N.lor 0x80 x = 0x80 + x. Proof. apply (lor_high 2 6). Qed.
Lemma lor_c0 x : x < 64 -> N.lor 0xc0 x = 0xc0 + x. Proof. apply (lor_high 3 6). Qed.
Lemma lor_e0 x : x < 32 -> N.lor 0xe0 x = 0xe0 + x. Proof. apply (lor_high 7 5). Qed.
Lemma lor_f0 x : x < 16 -> N.lor 0xf0 x = 0xf0 + x. Proof. apply (lor_high 15 4). Qed.
Lemma mod64 x : x mod 64 < 64. Proof. by apply N.mod_lt. Qed.
Lemma append_rune_utf8 r : r < 0x200000 -> append_rune r = utf8 r.
Proof.
  intros Hr. unfold append_rune, utf8. rewrite !land_3f, shiftr6, shiftr12, shiftr18.
  pose proof (mod64 r). pose proof (mod64 (r / 64)). pose proof (mod64 (r / 4096)).
  destruct (N.leb_spec r 0x7f).
  { rewrite (proj2 (N.ltb_lt r 0x80)) by lia. f_equal. apply n2b_byte_of. lia. }
  rewrite (proj2 (N.ltb_ge r 0x80)) by lia. destruct (N.leb_spec r 0x7ff).
  { rewrite (proj2 (N.ltb_lt r 0x800)) by lia. assert (r / 64 < 64) by (apply N.div_lt_upper_bound; lia).
    rewrite lor_c0, lor_80, !n2b_byte_of by lia. done. }
  rewrite (proj2 (N.ltb_ge r 0x800)) by lia. destruct (N.leb_spec r 0xffff).
  { rewrite (proj2 (N.ltb_lt r 0x10000)) by lia. assert (r / 4096 < 32) by (apply N.div_lt_upper_bound; lia).
    rewrite lor_e0, !lor_80, !n2b_byte_of by lia. done. }
  rewrite (proj2 (N.ltb_ge r 0x10000)) by lia. assert (r / 262144 < 16) by (apply N.div_lt_upper_bound; lia).
  rewrite lor_f0, !lor_80, !n2b_byte_of by lia. done.
Qed.
Lemma lor_6 a b : b < 64 -> N.lor (N.shiftl a 6) b = a * 64 + b. Proof. apply (lor_shiftl a b 6). Qed.
Lemma lor_12 a b c : b < 64 -> c < 64 -> N.lor (N.lor (N.shiftl a 12) (N.shiftl b 6)) c = a * 4096 + b * 64 + c.
Proof.
  intros Hb Hc. replace (N.shiftl a 12) with (N.shiftl (N.shiftl a 6) 6) by (by rewrite N.shiftl_shiftl).
  rewrite <- N.shiftl_lor, lor_6, lor_6 by done. lia.
Qed.
Lemma lor_18 a b c d : b < 64 -> c < 64 -> d < 64 ->
  N.lor (N.lor (N.lor (N.shiftl a 18) (N.shiftl b 12)) (N.shiftl c 6)) d = a * 262144 + b * 4096 + c * 64 + d.
Proof.
  intros Hb Hc Hd. replace (N.shiftl a 18) with (N.shiftl (N.shiftl a 12) 6) by (by rewrite N.shiftl_shiftl).
  replace (N.shiftl b 12) with (N.shiftl (N.shiftl b 6) 6) by (by rewrite N.shiftl_shiftl).
  rewrite <- !N.shiftl_lor, lor_12, lor_6 by done. lia.
Qed.
Lemma land_1f x : N.land x 0x1f = x mod 32. Proof. change 0x1f with (N.ones 5). by rewrite N.land_ones. Qed.
Lemma land_0f x : N.land x 0x0f = x mod 16. Proof. change 0x0f with (N.ones 4). by rewrite N.land_ones. Qed.
Lemma land_07 x : N.land x 0x07 = x mod 8. Proof. change 0x07 with (N.ones 3). by rewrite N.land_ones. Qed.
Lemma mod_by x k q n : x = k * q + n -> n < q -> x mod q = n.
Proof. intros -> H. rewrite N.add_comm, N.mod_add by lia. by apply N.mod_small. Qed.
Lemma div_by x k q n : x = k * q + n -> n < q -> x / q = k.
Proof. intros -> H. rewrite N.div_add_l by lia. rewrite N.div_small by done. lia. Qed.

(** A decoded code point: where it lies, and its bytes. *)
Lemma decode_utf8 s r w : decode s = Some (r, w) -> 0x80 <= r < 0x110000 /\ (1 < w)%nat /\ s = utf8 r ++ skipn w s /\ Forall (fun b => 0x80 <= b2n b) (utf8 r).
Proof.
  destruct s as [|b0 s]; [done|]. unfold decode.
  destruct (N.leb_spec 0xc2 (b2n b0)) as [L1|L1], (N.leb_spec (b2n b0) 0xdf) as [L2|L2]; cbn [andb].
  1: { destruct s as [|b1 s]; [done|]. destruct (cont b1) eqn:C1; [|done]. intros [= <- <-].
    unfold cont in C1. apply andb_prop in C1 as [A1%N.leb_le A2%N.leb_le].
    rewrite land_1f, land_3f. set (x := b2n b0) in *. set (y := b2n b1) in *.
    rewrite (mod_by x 6 32 (x - 0xc0)), (mod_by y 2 64 (y - 0x80)) by lia. rewrite lor_6 by lia.
    set (r := (x - 0xc0) * 64 + (y - 0x80)). assert (0x80 <= r < 0x800) as Hr by (unfold r; lia).
    split; [lia|]. split; [lia|].
    assert (utf8 r = [b0; b1]) as ->; [|split; [done|repeat constructor; fold x; fold y; lia]]. unfold utf8. rewrite (proj2 (N.ltb_ge r 0x80)), (proj2 (N.ltb_lt r 0x800)) by lia.
    rewrite (div_by r (x - 0xc0) 64 (y - 0x80)), (mod_by r (x - 0xc0) 64 (y - 0x80)) by (done || lia).
    rewrite <- (byte_of_b2n b0), <- (byte_of_b2n b1). fold x. fold y. f_equal; [f_equal; lia|]. f_equal. f_equal; lia. }
  1-3: destruct (N.leb_spec 0xe0 (b2n b0)) as [L3|L3], (N.leb_spec (b2n b0) 0xef) as [L4|L4]; cbn [andb]; try lia.
  - destruct s as [|b1 [|b2 s]]; [done..|].
    destruct (_ && _ && _) eqn:C1; [|done]. intros [= <- <-].
    apply andb_prop in C1 as [C1 C2]. apply andb_prop in C1 as [A1%N.leb_le A2%N.leb_le].
    unfold cont in C2. apply andb_prop in C2 as [A3%N.leb_le A4%N.leb_le].
    rewrite land_0f, !land_3f. set (x := b2n b0) in *. set (y := b2n b1) in *. set (z := b2n b2) in *.
    assert (0x80 <= y <= 0xbf /\ (x = 0xe0 -> 0xa0 <= y)) as [Hy Hy'].
    { destruct (N.eqb_spec x 0xe0), (N.eqb_spec x 0xed); lia. } clear A1 A2.
    rewrite (mod_by x 14 16 (x - 0xe0)), (mod_by y 2 64 (y - 0x80)), (mod_by z 2 64 (z - 0x80)) by lia. rewrite lor_12 by lia.
    set (r := (x - 0xe0) * 4096 + (y - 0x80) * 64 + (z - 0x80)). assert (0x800 <= r < 0x10000) as Hr by (unfold r; lia).
    split; [lia|]. split; [lia|].
    assert (utf8 r = [b0; b1; b2]) as ->; [|split; [done|repeat constructor; fold x; fold y; fold z; lia]].
    unfold utf8. rewrite (proj2 (N.ltb_ge r 0x80)), (proj2 (N.ltb_ge r 0x800)), (proj2 (N.ltb_lt r 0x10000)) by lia.
    assert (r / 64 = (x - 0xe0) * 64 + (y - 0x80)) as -> by (apply (div_by _ _ _ (z - 0x80)); unfold r; lia).
    rewrite (mod_by r ((x - 0xe0) * 64 + (y - 0x80)) 64 (z - 0x80)) by (unfold r; lia).
    rewrite (div_by r (x - 0xe0) 4096 ((y - 0x80) * 64 + (z - 0x80))) by (unfold r; lia).
    rewrite (mod_by _ (x - 0xe0) 64 (y - 0x80)) by lia.
    rewrite <- (byte_of_b2n b0), <- (byte_of_b2n b1), <- (byte_of_b2n b2). fold x. fold y. fold z. f_equal; [f_equal; lia|]. f_equal; [f_equal; lia|]. f_equal. f_equal; lia.
  - destruct (N.leb_spec 0xf0 (b2n b0)) as [L5|L5], (N.leb_spec (b2n b0) 0xf4) as [L6|L6]; cbn [andb]; try done; try lia.
    destruct s as [|b1 [|b2 [|b3 s]]]; [done..|].
    destruct (_ && _ && _ && _) eqn:C1; [|done]. intros [= <- <-].
    apply andb_prop in C1 as [C1 C3]. apply andb_prop in C1 as [C1 C2]. apply andb_prop in C1 as [A1%N.leb_le A2%N.leb_le].
    unfold cont in C2, C3. apply andb_prop in C2 as [A3%N.leb_le A4%N.leb_le]. apply andb_prop in C3 as [A5%N.leb_le A6%N.leb_le].
    rewrite land_07, !land_3f. set (x := b2n b0) in *. set (y := b2n b1) in *. set (z := b2n b2) in *. set (u := b2n b3) in *.
    assert (0x80 <= y <= 0xbf /\ (x = 0xf0 -> 0x90 <= y) /\ (x = 0xf4 -> y <= 0x8f)) as (Hy & Hy' & Hy'').
    { destruct (N.eqb_spec x 0xf0), (N.eqb_spec x 0xf4); lia. } clear A1 A2.
    rewrite (mod_by x 30 8 (x - 0xf0)), (mod_by y 2 64 (y - 0x80)), (mod_by z 2 64 (z - 0x80)), (mod_by u 2 64 (u - 0x80)) by lia. rewrite lor_18 by lia.
    set (r := (x - 0xf0) * 262144 + (y - 0x80) * 4096 + (z - 0x80) * 64 + (u - 0x80)). assert (0x10000 <= r < 0x110000) as Hr by (unfold r; lia).
    split; [lia|]. split; [lia|].
    assert (utf8 r = [b0; b1; b2; b3]) as ->; [|split; [done|repeat constructor; fold x; fold y; fold z; fold u; lia]].
    unfold utf8. rewrite (proj2 (N.ltb_ge r 0x80)), (proj2 (N.ltb_ge r 0x800)), (proj2 (N.ltb_ge r 0x10000)) by lia.
    assert (r / 64 = (x - 0xf0) * 4096 + (y - 0x80) * 64 + (z - 0x80)) as -> by (apply (div_by _ _ _ (u - 0x80)); unfold r; lia).
    rewrite (mod_by r ((x - 0xf0) * 4096 + (y - 0x80) * 64 + (z - 0x80)) 64 (u - 0x80)) by (unfold r; lia).
    rewrite (div_by r (x - 0xf0) 262144 ((y - 0x80) * 4096 + (z - 0x80) * 64 + (u - 0x80))) by (unfold r; lia).
    rewrite (div_by r ((x - 0xf0) * 64 + (y - 0x80)) 4096 ((z - 0x80) * 64 + (u - 0x80))) by (unfold r; lia).
    rewrite (mod_by _ (x - 0xf0) 64 (y - 0x80)), (mod_by _ ((x - 0xf0) * 64 + (y - 0x80)) 64 (z - 0x80)) by lia.
    rewrite <- (byte_of_b2n b0), <- (byte_of_b2n b1), <- (byte_of_b2n b2), <- (byte_of_b2n b3). fold x. fold y. fold z. fold u.
    f_equal; [f_equal; lia|]. f_equal; [f_equal; lia|]. f_equal; [f_equal; lia|]. f_equal. f_equal; lia.
  - destruct (N.leb_spec 0xf0 (b2n b0)) as [L5|L5], (N.leb_spec (b2n b0) 0xf4) as [L6|L6]; cbn [andb]; try done; lia.
Qed.

(** ** Escapes *)
Lemma high_plain b : 0x80 <= b2n b -> plain b.
Proof. intros H. split; apply not_true_is_false; intros ->%Byte.byte_dec_bl; vm_compute in H; done. Qed.
Lemma unescape_plain q : Forall plain q -> forall t, unescape (q ++ t) = option_map (app q) (unescape t).
Proof.
  induction 1 as [|b q [H1 H2] Hq IH]; intros t; cbn [app]; [by destruct (unescape t)|].
  cbn [unescape]. rewrite H2, H1, IH. by destruct (unescape t).
Qed.
Lemma hex_of_2 r : r < 256 -> number 16 (hex_of 2 r) = Some r.
Proof. intros H. rewrite number_ne by done. rewrite hex_of_number. f_equal. cbn [N.of_nat N.mul N.add]. by apply N.mod_small. Qed.
Lemma hex_of_4 r : r < 65536 -> number 16 (hex_of 4 r) = Some r.
Proof. intros H. rewrite number_ne by done. rewrite hex_of_number. f_equal. cbn [N.of_nat N.mul N.add]. by apply N.mod_small. Qed.
Lemma hex_of_8 r : r < 4294967296 -> number 16 (hex_of 8 r) = Some r.
Proof. intros H. rewrite number_ne by done. rewrite hex_of_number. f_equal. cbn [N.of_nat N.mul N.add]. by apply N.mod_small. Qed.
Lemma unescape_x r t : r < 256 -> unescape (B "\x" ++ hex_of 2 r ++ t) = option_map (cons (byte_of r)) (unescape t).
Proof. intros H. pose proof (hex_of_2 r H) as E. cbn [hex_of] in *. set (f := digit) in *. clearbody f.
  change (add (option_map (fun r => [byte_of r]) (number 16 [f (N.land (N.shiftr r (4 * N.of_nat 1)) 15); f (N.land (N.shiftr r (4 * N.of_nat 0)) 15)])) (unescape t) =
    option_map (cons (byte_of r)) (unescape t)).
  rewrite E. by destruct (unescape t).
Qed.
Lemma unescape_u r t : r < 65536 -> unescape (B "\u" ++ hex_of 4 r ++ t) = option_map (app (utf8 r)) (unescape t).
Proof.
  intros H. pose proof (hex_of_4 r H) as E. cbn [hex_of] in *. set (f := digit) in *. clearbody f.
  change (add (option_map utf8 (number 16 [f (N.land (N.shiftr r (4 * N.of_nat 3)) 15); f (N.land (N.shiftr r (4 * N.of_nat 2)) 15);
    f (N.land (N.shiftr r (4 * N.of_nat 1)) 15); f (N.land (N.shiftr r (4 * N.of_nat 0)) 15)])) (unescape t) = option_map (app (utf8 r)) (unescape t)).
  rewrite E. by destruct (unescape t).
Qed.
Lemma unescape_U r t : r < 4294967296 -> unescape (B "\U" ++ hex_of 8 r ++ t) = option_map (app (utf8 r)) (unescape t).
Proof.
  intros H. pose proof (hex_of_8 r H) as E. cbn [hex_of] in *. set (f := digit) in *. clearbody f.
  change (add (option_map utf8 (number 16 [f (N.land (N.shiftr r (4 * N.of_nat 7)) 15); f (N.land (N.shiftr r (4 * N.of_nat 6)) 15);
    f (N.land (N.shiftr r (4 * N.of_nat 5)) 15); f (N.land (N.shiftr r (4 * N.of_nat 4)) 15);
    f (N.land (N.shiftr r (4 * N.of_nat 3)) 15); f (N.land (N.shiftr r (4 * N.of_nat 2)) 15);
    f (N.land (N.shiftr r (4 * N.of_nat 1)) 15); f (N.land (N.shiftr r (4 * N.of_nat 0)) 15)])) (unescape t) = option_map (app (utf8 r)) (unescape t)).
  rewrite E. by destruct (unescape t).
Qed.
Lemma utf8_ascii r : r < 0x80 -> utf8 r = [byte_of r].
Proof. intros H. unfold utf8. by rewrite (proj2 (N.ltb_lt r 0x80) H). Qed.

(** Inside a string the scanner passes over [q]. *)
Definition inside (q : bytes) : Prop := forall a t, lex (LStr a) (q ++ t) = lex (LStr (a ++ q)) t.
Lemma inside_app p q : inside p -> inside q -> inside (p ++ q).
Proof. intros Hp Hq a t. by rewrite <- (app_assoc p q t), Hp, Hq, app_assoc. Qed.
Lemma lex_pass st b t : forall st', next_char st b = Some ([], st') -> lex st (b :: t) = lex st' t.
Proof. intros st' E. cbn [lex]. rewrite E. by destruct (lex st' t) as [[??]|]. Qed.
Lemma inside_nil : inside [].
Proof. intros a t. by rewrite app_nil_r. Qed.
Lemma inside_plain q : Forall plain q -> inside q.
Proof.
  induction 1 as [|b q [H1 H2] Hq IH]; [apply inside_nil|]. intros a t. cbn [app].
  rewrite (lex_pass _ _ _ (LStr (a ++ [b]))) by (cbn [next_char]; by rewrite H1, H2). rewrite IH, <- app_assoc. done.
Qed.
Lemma inside_esc b : inside [x5c; b].
Proof.
  intros a t. cbn [app]. rewrite (lex_pass _ _ _ (LEsc (a ++ [x5c]))) by done.
  rewrite (lex_pass _ _ _ (LStr ((a ++ [x5c]) ++ [b]))) by done. by rewrite <- app_assoc.
Qed.
Lemma hex_of_plain n r : Forall plain (hex_of n r).
Proof.
  induction n as [|n IH]; cbn [hex_of]; [constructor|]. constructor; [|done]. apply digit_plain.
  change 15 with (N.ones 4). rewrite N.land_ones. by apply N.mod_lt.
Qed.
Lemma inside_hex c n r : inside ([x5c; c] ++ hex_of n r).
Proof. apply inside_app; [apply inside_esc|apply inside_plain, hex_of_plain]. Qed.

Section quote.
Variable is_print : N -> bool.
Lemma ascii_byte r : r < 0x80 -> (r =? 0x22) || (r =? 0x5c) = false -> plain (byte_of r).
Proof.
  intros Hr [H1%N.eqb_neq H2%N.eqb_neq]%orb_false_elim.
  split; apply not_true_is_false; intros E%Byte.byte_dec_bl; apply (f_equal b2n) in E; rewrite b2n_byte_of in E by lia; vm_compute in E; done.
Qed.
Lemma escaped_ok r : r < 0x110000 -> (r < 0x80 \/ Forall (fun b => 0x80 <= b2n b) (utf8 r)) ->
  inside (escaped_rune is_print r) /\ forall t, unescape (escaped_rune is_print r ++ t) = option_map (app (utf8 r)) (unescape t).
Proof.
  intros Hr Hu. unfold escaped_rune. destruct ((r =? 0x22) || (r =? 0x5c)) eqn:E.
  { apply orb_prop in E as [->%N.eqb_eq| ->%N.eqb_eq]; (split; [apply inside_esc|intros t; cbn; by destruct (unescape t)]). }
  destruct (is_print r).
  { rewrite append_rune_utf8 by lia. assert (Forall plain (utf8 r)) as Hp.
    { destruct Hu as [H|H]; [rewrite utf8_ascii by done; constructor; [by apply ascii_byte|constructor]|].
      eapply Forall_impl; [exact H|]. apply high_plain. }
    split; [by apply inside_plain|]. intros t. by apply unescape_plain. }
  repeat match goal with |- context [if r =? ?k then _ else _] =>
    destruct (N.eqb_spec r k) as [->|]; [split; [apply inside_esc|intros t; cbn; by destruct (unescape t)]|] end.
  destruct ((r <? 32) || (r =? 0x7f)) eqn:E2.
  { assert (r < 0x80) by (apply orb_prop in E2 as [?%N.ltb_lt|?%N.eqb_eq]; lia).
    split; [apply (inside_hex x78)|]. intros t. rewrite <- app_assoc, unescape_x by lia. by rewrite utf8_ascii. }
  destruct (N.ltb_spec r 0x10000).
  - split; [apply (inside_hex x75)|]. intros t. by rewrite <- app_assoc, unescape_u.
  - split; [apply (inside_hex x55)|]. intros t. rewrite <- app_assoc, unescape_U by lia. done.
Qed.
Lemma quoted_ok fuel : forall s, (List.length s <= fuel)%nat ->
  inside (quoted is_print fuel s) /\ unescape (quoted is_print fuel s) = Some s.
Proof.
  induction fuel as [|fuel IH]; intros [|b s] Hl; cbn [quoted]; try (split; [apply inside_nil|done]).
  { cbn [List.length] in Hl. lia. }
  cbn [List.length] in Hl. destruct (N.ltb_spec (b2n b) 0x80) as [Hb|Hb].
  - destruct (escaped_ok (b2n b)) as [H1 H2]; [lia|by left|]. destruct (IH s) as [H3 H4]; [lia|].
    split; [by apply inside_app|]. rewrite H2, H4, utf8_ascii by done. cbn [option_map app]. by rewrite byte_of_b2n.
  - destruct (decode (b :: s)) as [[r w]|] eqn:Ed.
    + destruct (decode_utf8 _ _ _ Ed) as (Hr & Hw & Hs & Hh). destruct (escaped_ok r) as [H1 H2]; [lia|by right|].
      destruct (IH (skipn w (b :: s))) as [H3 H4]. { rewrite skipn_length. cbn [List.length]. lia. }
      split; [by apply inside_app|]. rewrite H2, H4. cbn [option_map]. by rewrite <- Hs.
    + destruct (IH s) as [H3 H4]; [lia|]. split.
      * apply (inside_app (B "\x")); [apply inside_esc|]. apply inside_app; [apply inside_plain, hex_of_plain|done].
      * rewrite unescape_x by apply b2n_lt. rewrite H4. cbn [option_map]. by rewrite byte_of_b2n.
Qed.
Lemma quote_inside s : inside (quote is_print s).
Proof. by apply quoted_ok. Qed.
Lemma quote_unescape s : unescape (quote is_print s) = Some s.
Proof. by apply quoted_ok. Qed.
End quote.
