(** * Proofs about SliceModel.v. *)
From Verif Require Import Prog NumModel IpModel UxModel SliceModel.
Open Scope nat_scope.

Section proofs.
Context {V : Type}.
Local Notation code := (code V).
Local Notation state := (state V).
Local Notation item := (item V).
Local Notation triple := (bytes * bytes * V)%type.

(** [good k P e]: executed with the arrays [P] to itself, the code [k] does not
    panic and hands out keys that read [e], with arrays that it forgets about. *)
Fixpoint good (k : code) (P : arrays) (e : list triple) : Prop :=
  match k with
  | KEnd => e = []
  | KNew bs k => forall a, P !! a = None -> good (k (Sl a 0 (length bs) (length bs))) (<[a := bs]> P) e
  | KRead s k => exists x, P !! sl_arr s = Some x /\ sl_off s + sl_len s <= length x /\ good (k (window s x)) P e
  | KCut s n k => n <= sl_cap s /\ good (k (Sl (sl_arr s) (sl_off s) n (sl_cap s))) P e
  | KApp s bs k => exists x, P !! sl_arr s = Some x /\ sl_off s + sl_cap s <= length x /\
      (sl_len s + length bs <= sl_cap s ->
        good (k (Sl (sl_arr s) (sl_off s) (sl_len s + length bs) (sl_cap s)))
             (<[sl_arr s := take (sl_off s + sl_len s) x ++ bs ++ drop (sl_off s + sl_len s + length bs) x]> P) e) /\
      (sl_cap s < sl_len s + length bs -> forall a z, P !! a = None ->
        good (k (Sl a 0 (sl_len s + length bs) (sl_len s + length bs + z)))
             (<[a := window s x ++ bs ++ repeat x00 z]> P) e)
  | KGive ip mask v k => exists x y t e', e = t :: e' /\ P !! sl_arr ip = Some x /\ P !! sl_arr mask = Some y /\
      sl_arr ip <> sl_arr mask /\ t = (window ip x, window mask y, v) /\
      good k (delete (sl_arr ip) (delete (sl_arr mask) P)) e'
  end.

(** The rest of the arrays is the others'. *)
Definition inv (e : list triple) (s : state) : Prop :=
  exists P e1, e = e1 ++ drop (length e1) e /\ length e1 = length (st_out s) /\
    good (st_code s) P (drop (length e1) e) /\
    P ⊆ st_mem s /\ (forall a, a ∈ st_others s <-> is_Some (st_mem s !! a) /\ P !! a = None).

Lemma inv_own e s s' : inv e s -> own s s' ->
  inv e s' /\ forall a, a ∈ st_others s -> st_mem s' !! a = st_mem s !! a.
Proof.
  intros (P&e1&He&Hl&Hg&Hs&Ho) Hst. destruct Hst; cbn [st_code st_mem st_others st_out] in *; cbn [good] in Hg.
  - assert (P !! a = None) as Ha. { eapply lookup_weaken_None; eauto. }
    split.
    + exists (<[a := bs]> P), e1. cbn [st_code st_mem st_others st_out]. split; [done|]. split; [done|]. split; [by apply Hg|].
      split; [by apply insert_mono|]. intros b. rewrite Ho. destruct (decide (a = b)) as [->|Hn].
      * rewrite !lookup_insert. split; [intros [[? ?] _]; exfalso; congruence|intros [_ ?]; done].
      * by rewrite !lookup_insert_ne.
    + intros b Hb. apply Ho in Hb as [[? Hb] _]. rewrite lookup_insert_ne; [done|congruence].
  - destruct Hg as (x'&Hx&_&Hg). assert (x' = x) as ->. { pose proof (lookup_weaken _ _ _ _ Hx Hs) as Hz. assert (Some x' = Some x) as Hq by (etrans; [symmetry; exact Hz|eassumption]). by injection Hq. }
    split; [|done]. exists P, e1. done.
  - destruct Hg as (_&Hg). split; [|done]. exists P, e1. done.
  - destruct Hg as (x'&Hx&_&Hg&_). assert (x' = x) as ->. { pose proof (lookup_weaken _ _ _ _ Hx Hs) as Hz. assert (Some x' = Some x) as Hq by (etrans; [symmetry; exact Hz|eassumption]). by injection Hq. }
    split.
    + eexists _, e1. split; [done|]. split; [done|]. split; [by apply Hg|]. cbn [st_mem st_others].
      split; [by apply insert_mono|]. intros b. rewrite Ho. destruct (decide (sl_arr s = b)) as [<-|Hn].
      * rewrite !lookup_insert. split; [intros [_ ?]; exfalso; congruence|intros [_ ?]; done].
      * by rewrite !lookup_insert_ne.
    + intros b Hb. apply Ho in Hb as [_ Hb]. rewrite lookup_insert_ne; [done|congruence].
  - destruct Hg as (x'&Hx&_&_&Hg). assert (x' = x) as ->. { pose proof (lookup_weaken _ _ _ _ Hx Hs) as Hz. assert (Some x' = Some x) as Hq by (etrans; [symmetry; exact Hz|eassumption]). by injection Hq. }
    assert (P !! a = None) as Ha. { eapply lookup_weaken_None; eauto. }
    split.
    + eexists _, e1. split; [done|]. split; [done|]. split; [by apply Hg|]. cbn [st_mem st_others].
      split; [by apply insert_mono|]. intros b. rewrite Ho. destruct (decide (a = b)) as [->|Hn].
      * rewrite !lookup_insert. split; [intros [[? ?] _]; exfalso; congruence|intros [_ ?]; done].
      * by rewrite !lookup_insert_ne.
    + intros b Hb. apply Ho in Hb as [[? Hb] _]. rewrite lookup_insert_ne; [done|congruence].
  - destruct Hg as (x&y&t&e'&He'&Hx&Hy&Hne&->&Hg). split; [|done].
    exists (delete (sl_arr ip) (delete (sl_arr mask) P)), (e1 ++ [(window ip x, window mask y, v)]).
    assert (drop (length (e1 ++ [(window ip x, window mask y, v)])) e = e') as Hd.
    { rewrite app_length. cbn [length]. rewrite <- drop_drop, He'. done. }
    cbn [st_code st_mem st_others st_out]. rewrite Hd. split; [rewrite <- app_assoc; cbn [app]; by rewrite <- He'|].
    split; [rewrite !app_length; cbn [length]; lia|]. split; [done|].
    split; [etrans; [apply delete_subseteq|]; etrans; [apply delete_subseteq|done]|].
    intros b. rewrite !elem_of_union, !elem_of_singleton, Ho.
    destruct (decide (b = sl_arr ip)) as [->|H1].
    { rewrite lookup_delete. split; [intros _|by left; left]. split; [|done]. eexists; exact (lookup_weaken _ _ _ _ Hx Hs). }
    rewrite lookup_delete_ne by done. destruct (decide (b = sl_arr mask)) as [->|H2].
    { rewrite lookup_delete. split; [intros _|by left; right]. split; [|done]. eexists; exact (lookup_weaken _ _ _ _ Hy Hs). }
    rewrite lookup_delete_ne by done. tauto.
Qed.

Lemma inv_other e s s' : inv e s -> other s s' -> inv e s'.
Proof.
  intros (P&e1&He&Hl&Hg&Hs&Ho) Hst. destruct Hst as [k m C o m' H1 H2]; cbn [st_code st_mem st_others st_out] in *.
  assert (P ⊆ m') as Hs'.
  { apply map_subseteq_spec. intros a x Hx. apply H2; [by eapply lookup_weaken|]. rewrite Ho. intros [_ ?]. congruence. }
  exists P, e1. cbn [st_code st_mem st_others st_out]. repeat (split; [done|]).
  intros a. rewrite elem_of_union, elem_of_difference, !elem_of_dom, Ho. split.
  - intros [[? ?]|[? Hn]]; [by eauto|]. split; [done|]. destruct (P !! a) eqn:E; [|done]. exfalso. apply Hn.
    eexists; exact (lookup_weaken _ _ _ _ E Hs).
  - intros [? ?]. destruct (m !! a) eqn:E; [left; eauto|right]. split; [done|]. intros [? ?]. congruence.
Qed.

Lemma inv_step e s s' : inv e s -> step s s' -> inv e s'.
Proof. intros Hi [H|H]; [by eapply inv_own|by eapply inv_other]. Qed.
Lemma inv_reach e s s' : inv e s -> rtc step s s' -> inv e s'.
Proof. intros Hi Hr. induction Hr; [done|]. eauto using inv_step. Qed.

(** ** Not stuck *)
Lemma good_progress k m P C o e : good k P e -> P ⊆ m -> k = KEnd \/ exists s', own (State k m C o) s'.
Proof.
  intros Hg Hs. destruct k; [by left| | | | |]; right; cbn [good] in Hg.
  - eexists. apply (own_new _ _ _ _ _ (fresh (dom m))). apply not_elem_of_dom, is_fresh.
  - destruct Hg as (x&Hx&Hb&_). eexists. eapply own_read; [by eapply lookup_weaken|done].
  - destruct Hg. eexists. by eapply own_cut.
  - destruct Hg as (x&Hx&Hb&_). assert (m !! sl_arr s = Some x) by by eapply lookup_weaken.
    destruct (decide (sl_len s + length bs <= sl_cap s)).
    + eexists. by eapply own_app.
    + eexists. eapply (own_grow _ _ _ _ _ _ _ (fresh (dom m)) 0); [done|done|lia|]. apply not_elem_of_dom, is_fresh.
  - eexists. apply own_give.
Qed.

(** ** The code of the package *)
Lemma good_mask ip mask k P e x y : P !! sl_arr ip = Some x -> P !! sl_arr mask = Some y ->
  sl_off ip + sl_len ip <= length x -> sl_off mask + sl_len mask <= length y ->
  (forall a, P !! a = None -> let r := ip_mask (window ip x) (window mask y) in
     good (k (Sl a 0 (length r) (length r))) (<[a := r]> P) e) ->
  good (k_mask ip mask k) P e.
Proof. intros Hx Hy ?? H. cbn [k_mask good]. exists x. split_and!; [done..|]. exists y. split_and!; [done..|]. done. Qed.

Lemma window_all a (x : bytes) : window (Sl a 0 (length x) (length x)) x = x.
Proof. unfold window. cbn [sl_len sl_off]. rewrite drop_0. by apply take_ge. Qed.

(** The keys of an item. *)
Definition key4 (nd : N * N * V) : triple :=
  let '(key, bits, v) := nd in let m := cidr_mask bits 32 in (ip_mask (unpack32 key) m, m, v).
Definition key6 (nd : N * N * V) : triple :=
  let '(key, bits, v) := nd in let m := cidr_mask bits 128 in (ip_mask (unpack64 key ++ repeat x00 8) m, m, v).
Definition key6s (ms b : N) (nd : N * N * V) : triple :=
  let '(key, bits, v) := nd in let m := cidr_mask (b + bits) 128 in (ip_mask (unpack64 ms ++ unpack64 key) m, m, v).
Definition keys (i : item) : list triple :=
  match i with
  | IEnum4 nd | IUpd4 nd => [key4 nd]
  | IEnum6 nd | IUpd6 nd => [key6 nd]
  | IEnum6s key b subs => map (key6s key b) subs
  | IUpd6s key subs => map (key6s key 64) subs
  end.

(** Masking an address and handing it out; nothing but the two new arrays, which
    are given away, is changed. *)
Lemma good_mask_give ip b x y v k P e :
  P !! sl_arr ip = Some x -> P !! b = Some y -> sl_arr ip <> b -> sl_off ip + sl_len ip <= length x ->
  good k (delete b P) e ->
  good (k_mask ip (Sl b 0 (length y) (length y)) (fun r => KGive r (Sl b 0 (length y) (length y)) v k)) P
       ((ip_mask (window ip x) y, y, v) :: e).
Proof.
  intros Hx Hy Hn Hb Hk. eapply good_mask; [done|done|done|cbn; lia|]. intros a Ha r. cbn [good sl_arr].
  assert (a <> b) by congruence.
  exists r, y, (ip_mask (window ip x) y, y, v), e. split; [done|]. split; [apply lookup_insert|].
  split; [by rewrite lookup_insert_ne|]. split; [done|]. split; [unfold r; by rewrite !window_all|].
  rewrite delete_commute, delete_insert by done. done.
Qed.

Lemma good_give4 nd k P e : (forall P', good k P' e) -> good (k_give4 nd k) P (key4 nd :: e).
Proof.
  intros Hk. destruct nd as [[key bits] v]. cbn [k_give4 key4 good]. intros b Hb c Hc.
  assert (c <> b). { intros ->. rewrite lookup_insert in Hc. done. }
  pose proof (good_mask_give (Sl c 0 (length (unpack32 key)) (length (unpack32 key))) b (unpack32 key) (cidr_mask bits 32) v k
    (<[c := unpack32 key]> (<[b := cidr_mask bits 32]> P)) e) as H1.
  rewrite window_all in H1. apply H1; cbn [sl_arr sl_off sl_len]; [apply lookup_insert| |done|lia|apply Hk].
  rewrite lookup_insert_ne by done. apply lookup_insert.
Qed.

(** MSIP: sixteen bytes, of which the first eight stay. *)
Definition head (key : N) (s : slice) (P : arrays) : Prop :=
  exists x, P !! sl_arr s = Some x /\ sl_off s = 0 /\ 16 <= sl_cap s /\ sl_cap s <= length x /\ take 8 x = unpack64 key.
Lemma len_unpack64 key : length (unpack64 key) = 8. Proof. done. Qed.
Lemma good_msip key k P e :
  (forall s P', head key s P' -> sl_len s = 16 -> seen P' s = unpack64 key ++ repeat x00 8 -> good (k s) P' e) ->
  good (k_msip key k) P e.
Proof.
  intros Hk. unfold k_msip, k_append. cbn [good]. intros a Ha b Hb. cbn [sl_arr sl_off sl_len sl_cap].
  exists (repeat x00 8). split; [apply lookup_insert|]. split; [done|].
  assert (a <> b). { intros ->. rewrite lookup_insert in Hb. done. }
  exists (unpack64 key). split; [rewrite lookup_insert_ne by done; apply lookup_insert|]. split; [done|].
  assert (window (Sl b 0 (length (repeat x00 8)) (length (repeat x00 8))) (repeat x00 8) = repeat x00 8) as -> by apply window_all.
  rewrite window_all, len_unpack64, repeat_length. split; [lia|]. intros _ c z Hc.
  apply Hk; [|done|].
  - exists (unpack64 key ++ repeat x00 8 ++ repeat x00 z). cbn [sl_arr sl_off sl_cap]. split; [apply lookup_insert|]. split; [done|]. split; [lia|].
    split; [rewrite !app_length, len_unpack64, !repeat_length; lia|]. rewrite take_app_alt by done. done.
  - unfold seen. cbn [sl_arr]. rewrite lookup_insert. unfold window. cbn [sl_len sl_off]. rewrite drop_0, app_assoc. by apply take_app_alt.
Qed.

(** append(MSIP[0:8], LSIP...): in place. *)
Lemma good_join key s lsip k P e ls : head key s P -> P !! lsip = Some ls -> length ls = 8 -> sl_arr s <> lsip ->
  (forall j P', head key s P' -> sl_arr j = sl_arr s -> sl_len j = 16 ->
     (exists x, P' !! sl_arr j = Some x /\ sl_off j + sl_len j <= length x /\ window j x = unpack64 key ++ ls) ->
     (forall a, a <> sl_arr s -> P' !! a = P !! a) -> good (k j) P' e) ->
  good (KCut s 8 (fun pre => k_append pre (Sl lsip 0 (length ls) (length ls)) k)) P e.
Proof.
  intros (x&Hx&Ho&Hc&Hcx&Ht) Hls Hl8 Hne Hk. cbn [good]. split; [lia|]. cbn [k_append good sl_arr sl_off sl_len sl_cap].
  exists ls. split; [done|]. split; [lia|]. rewrite window_all. exists x. split; [done|]. split; [lia|].
  split; [|intros; exfalso; lia]. intros _. rewrite Hl8, Ho. cbn [Nat.add].
  assert (length x >= 16) by lia.
  assert (take 8 (take 8 x ++ ls ++ drop 16 x) = unpack64 key) as H8. { rewrite take_app_alt; [done|]. rewrite take_length. lia. }
  apply Hk; cbn [sl_arr sl_off sl_len sl_cap]; [|done|done| |].
  - eexists. split; [apply lookup_insert|]. split; [done|]. split; [done|]. split; [|done].
    rewrite !app_length, take_length, drop_length. lia.
  - eexists. split; [apply lookup_insert|]. split; [rewrite !app_length, take_length, drop_length; lia|].
    unfold window. cbn [sl_len sl_off]. rewrite drop_0, app_assoc, <- Ht. apply take_app_alt. rewrite app_length, take_length. lia.
  - intros a Ha. by apply lookup_insert_ne.
Qed.

Lemma good_give6 nd k P e : (forall P', good k P' e) -> good (k_give6 nd k) P (key6 nd :: e).
Proof.
  intros Hk. destruct nd as [[key bits] v]. cbn [k_give6 key6]. apply good_msip. intros s P' (x&Hx&Ho&Hc&Hcx&Ht) Hlen Hs.
  cbn [good]. intros b Hb. unfold seen in Hs. rewrite Hx in Hs. rewrite <- Hs.
  assert (sl_arr s <> b) by congruence.
  apply good_mask_give; [by rewrite lookup_insert_ne by done|apply lookup_insert|done|lia|apply Hk].
Qed.

Lemma good_lower key s b subs k e : (forall P', good k P' e) -> forall P, head key s P ->
  good (k_lower s b subs k) P (map (key6s key b) subs ++ e).
Proof.
  intros Hk. induction subs as [|[[sk bits] v] subs IH]; intros P Hh; cbn [k_lower map app]; [apply Hk|].
  cbn [good]. intros l Hl m Hm.
  assert (l <> m). { intros ->. rewrite lookup_insert in Hm. done. } rewrite lookup_insert_ne in Hm by done.
  destruct Hh as (x&Hx&Hh). assert (sl_arr s <> l) by congruence. assert (sl_arr s <> m) by congruence.
  apply (good_join key s l _ _ _ (unpack64 sk)); [|rewrite lookup_insert_ne by done; apply lookup_insert|done|done|].
  { exists x. split; [|done]. by rewrite !lookup_insert_ne by done. }
  intros j P' Hh' Hj Hlen (y&Hy&Hb&Hw) Hf. cbn [key6s]. rewrite <- Hw.
  apply good_mask_give; [done|rewrite Hf by done; apply lookup_insert|by rewrite Hj|done|].
  apply IH. destruct Hh' as (z&Hz&Hh'). exists z. split; [|done]. by rewrite lookup_delete_ne.
Qed.

Lemma good_update_lower key s subs k e : (forall P', good k P' e) -> forall P, head key s P ->
  good (k_update_lower s subs k) P (map (key6s key 64) subs ++ e).
Proof.
  intros Hk. induction subs as [|[[sk bits] v] subs IH]; intros P Hh; cbn [k_update_lower map app]; [apply Hk|].
  cbn [k_update6s good]. intros l Hl.
  destruct Hh as (x&Hx&Hh). assert (sl_arr s <> l) by congruence.
  apply (good_join key s l _ _ _ (unpack64 sk)); [|apply lookup_insert|done|done|].
  { exists x. split; [|done]. by rewrite !lookup_insert_ne by done. }
  intros j P' Hh' Hj Hlen (y&Hy&Hb&Hw) Hf. cbn [key6s good]. rewrite <- Hw. intros m Hm.
  assert (sl_arr j <> m) by congruence.
  apply good_mask_give; [by rewrite lookup_insert_ne by done|apply lookup_insert|done|done|].
  apply IH. destruct Hh' as (z&Hz&Hh'). exists z. split; [|done]. rewrite <- Hj in *. by rewrite lookup_delete_ne, lookup_insert_ne by done.
Qed.

Lemma good_item i k P e : (forall P', good k P' e) -> good (k_item i k) P (keys i ++ e).
Proof.
  intros Hk. destruct i; cbn [k_item keys app].
  - by apply good_give4.
  - by apply good_give6.
  - apply good_msip. intros s P' Hh _ _. by apply good_lower.
  - by apply good_give4.
  - by apply (good_give6 nd).
  - apply good_msip. intros s P' Hh _ _. by apply good_update_lower.
Qed.
Lemma good_items is : forall P, good (k_items is) P (concat (map keys is)).
Proof. induction is as [|i is IH]; intros P; cbn [k_items map concat]; [done|]. by apply good_item. Qed.
End proofs.
