(** * uintX iptree on memory: InplaceInsert. *)
From Verif Require Import Prog NumModel NumBits NumFun NumSim NumSpec NumAbs NumFoot IpModel IpSpec IpBits IpAbs IpAbs2 UxModel UxAbs.
From Coq Require Import ZifyBool ZifyNat ZifyN.
Open Scope N_scope.

Section ux.
Context {U : Type}.
Local Notation heap := (heap U).
Local Notation value := (value U).
Local Notation nmap := (@gmap pfx (@prod_eq_dec N N_eq_dec N N_eq_dec) (@prod_countable N N_eq_dec N_countable N N_eq_dec N_countable) (prod N value)).
Local Notation prog := (prog U).

(** A tree all of whose memory is [F]. *)
Definition uown (h : heap) (t : ptr) (G : net -> option value) (F : gset loc) : Prop :=
  exists a r4 r6 F4 F6, t = Some a /\ h !! a = Some (CIp r4 r6) /\
      tree4 h F4 r4 (fun q => G (false, q)) /\ utree6 h F6 r6 (fun q => G (true, q)) /\ F4 ## F6 /\ a ∉ F4 /\ a ∉ F6 /\ F = {[a]} ∪ (F4 ∪ F6).
Lemma uown_utree h t G F : uown h t G F -> utree h t G.
Proof. intros (a & r4 & r6 & F4 & F6 & -> & H1 & H2 & H3 & H4 & H5 & H6 & _). exists r4, r6, F4, F6. done. Qed.
Lemma utree_own h a G : utree h (Some a) G -> exists F, uown h (Some a) G F /\ F ⊆ dom h.
Proof.
  intros (r4 & r6 & F4 & F6 & H1 & H2 & H3 & H4 & H5 & H6). exists ({[a]} ∪ (F4 ∪ F6)). split.
  - exists a, r4, r6, F4, F6. done.
  - apply tree4_dom in H2. apply utree6_dom in H3. apply elem_of_dom_2 in H1. clear -H1 H2 H3. set_solver.
Qed.

(** The last step: storing the new roots. *)
Lemma uown_store (h : heap) WS a c r4 r6 F4 F6 G : h !! a = Some c -> a ∈ WS -> F4 ⊆ WS -> F6 ⊆ WS ->
  tree4 h F4 r4 (fun q => G (false, q)) -> utree6 h F6 r6 (fun q => G (true, q)) -> F4 ## F6 -> a ∉ F4 -> a ∉ F6 ->
  wp (store (Some a) (CIp r4 r6)) h WS (fun _ h' WS' => exists F', uown h' (Some a) G F' /\ F' ⊆ WS').
Proof.
  intros Ha Hw W4 W6 H4 H6 Hd A4 A6. cbn [store wp]. split_and!; [done|by exists c|]. exists ({[a]} ∪ (F4 ∪ F6)). split.
  - exists a, r4, r6, F4, F6. split_and!; try done.
    + by rewrite lookup_insert.
    + eapply tree4_untouched; [apply untouched_store| |exact H4]. clear -A4. set_solver.
    + eapply utree6_untouched; [apply untouched_store| | |exact H6]; [rewrite dom_insert; clear; set_solver|]. clear -A6. set_solver.
  - clear -Hw W4 W6. set_solver.
Qed.

Lemma ux_inplace_at (h : heap) WS t G F n r v : uown h t G F -> F ⊆ WS -> plain v -> isnet n r ->
  wp (ux_inplace_insert_net t n v) h WS (fun _ h' WS' => exists F', uown h' t (g_upd r (fun q => g_ins q v) G) F' /\ F' ⊆ WS').
Proof.
  intros Ht HW Hv Hr.
  assert (Hnone : r = None -> wp (Ret tt) h WS (fun (_ : unit) h' WS' => exists F', uown h' t (g_upd r (fun q => g_ins q v) G) F' /\ F' ⊆ WS')).
  { intros ->. cbn [wp]. exists F. done. }
  destruct n as [n|]; [|destruct r as [q|]; [by inversion Hr|by apply Hnone]]. unfold ux_inplace_insert_net.
  destruct Ht as (a & r4 & r6 & F4 & F6 & -> & Ha & H4 & H6 & Hd & A4 & A6 & ->).
  assert (Wa : a ∈ WS) by (clear -HW; set_solver). assert (W4 : F4 ⊆ WS) by (clear -HW; set_solver). assert (W6 : F6 ⊆ WS) by (clear -HW; set_solver). clear HW.
  pose proof (elem_of_dom_2 _ _ _ Ha) as Da. pose proof (tree4_dom _ _ _ _ H4) as D4.
  pose proof (ip4_key_spec n) as K4. destruct (ip4_key n) as [[k b]|].
  { clear Hnone. destruct K4 as (Hn & Hk & Hb). assert (r = Some (false, norm 32 k b)) as ->.
    { destruct r as [q|]; [|by apply Hr in Hn]. f_equal. by eapply net_is_fun. }
    apply wp_bind. eapply wp_ld_ip; [exact Ha|]. cbn [fst snd].
    destruct H4 as (m & M1 & M2 & M3).
    apply wp_bind. eapply wp_mono; [by apply (n_inplace_in _ c32_ok h WS F4 r4 m k (Z.of_N b) v)|]. cbn beta.
    intros x h' WS' (F' & Hx & Hf & HF' & HWS & Hu & Hdd). change (cW c32) with 32 in *. rewrite adj_of in Hx by done.
    pose proof (utree6_dom _ _ _ _ H6) as D6.
    assert (Hfd : forall F, F ⊆ dom h -> F ## F4 -> F' ## F).
    { intros F HF HF0 l Hl Hl0. destruct (Hf l Hl) as [H|H]; [by eapply HF0|]. apply HF in Hl0. by apply not_elem_of_dom in H. }
    eapply (uown_store _ _ _ _ _ _ F' F6 (g_upd (Some (false, norm 32 k b)) (fun q => g_ins q v) G)).
    - by apply Hu.
    - by apply HWS.
    - done.
    - trs.
    - eexists. split_and!; [exact Hx|by apply plain_ins|]. intros q. cbn [g_upd fst snd Bool.eqb]. rewrite vals_ins. unfold g_ins. by rewrite M3.
    - eapply utree6_untouched; [exact Hu|done| |exact H6]. clear -Hd. set_solver.
    - apply Hfd; [done|]. clear -Hd. set_solver.
    - assert (F' ## {[a]}) as HH; [|clear -HH; set_solver]. apply Hfd; clear -Da A4; set_solver.
    - done. }
  pose proof (ux_key_spec n) as K6. destruct (ip6_key n) as [[[[hk hb] lk] lb]|].
  2: { apply Hnone. destruct r as [[[] q]|]; [by apply K6 in Hr|by apply K4 in Hr|done]. }
  clear Hnone K4. destruct K6 as (q & Hn & Hvq & Hhk & Hhb & Hlk & Hlb & Eup & Edn & _). assert (r = Some (true, q)) as ->.
  { destruct r as [q'|]; [|by apply Hr in Hn]. f_equal. by eapply net_is_fun. }
  apply wp_bind. eapply wp_ld_ip; [exact Ha|]. cbn [fst snd].
  pose proof H6 as (m & ss & F0 & Fs & I1 & I2 & I3 & I4 & I5 & I6).
  assert (D0 : F0 ⊆ dom h) by (trs).
  assert (Ds : forall y, Fs y ⊆ dom h) by (intros y; etrans; [apply I4|]; trs).
  apply wp_bind. eapply wp_mono; [apply (n_exact_in _ c64_ok h WS r6 m hk (Z.of_N hb)); [done|by eapply ntree_in_at]|]. cbn beta.
  intros e h1 WS1 (He & -> & HWS1). change (cW c64) with 64 in He. rewrite adj_of in He by done.
  rewrite (exact_up _ _ _ _ Eup) in He.
  destruct (us_at _ _ _ _ _ I2 (up q)) as (s & Hs & Hm).
  (* the new subtree, then what remains *)
  assert (Hsub : forall WS, WS1 ⊆ WS -> wp (n_inplace_insert c64 s lk (Z.of_N lb) v) h WS (fun s' h' WS' =>
    exists Fx, ntree_in c64 h' Fx s' (s_insert 64 (ss (up q)) lk lb v) /\ fresh_or h (Fs (up q)) Fx /\ Fx ⊆ WS' /\ WS ⊆ WS' /\ untouched (Fs (up q)) h h' /\ dom h ⊆ dom h')).
  { intros WS2 H2. eapply wp_mono; [apply (n_inplace_in _ c64_ok h WS2 (Fs (up q)) s (ss (up q)) lk (Z.of_N lb) v); [done|done|]|].
    - etrans; [apply I4|]. etrans; [exact W6|]. trs.
    - cbn beta. intros s' h' WS' (Fx & Hx & Hrest). exists Fx. change (cW c64) with 64 in *. rewrite adj_of in Hx by done. done. }
  assert (Hfx' : forall Fx, fresh_or h (Fs (up q)) Fx -> forall F, F ⊆ dom h -> F ## Fs (up q) -> F ## Fx).
  { intros Fx Hfx F HF HF0 l Hl Hl0. destruct (Hfx l Hl0) as [H|H]; [by eapply HF0|]. apply HF in Hl. by apply not_elem_of_dom in H. }
  assert (X4 : F4 ## Fs (up q)) by (specialize (I4 (up q)); clear -Hd I4; set_solver).
  assert (X40 : F4 ## F0) by (clear -Hd I3; set_solver).
  assert (Xa : a ∉ Fs (up q)) by (specialize (I4 (up q)); clear -A6 I4; set_solver).
  assert (Xa0 : a ∉ F0) by (clear -A6 I3; set_solver).
  assert (Hlow : forall l kv, (up q).1 < 64 -> s_insert 64 (ss (up q)) lk lb v !! l = Some kv -> l = (0, 0)).
  { apply us_ins_low; [apply I2|]. intros Hx. rewrite Edn. by apply dn_low. }
  assert (Hrest : forall s' h1 WS2 Fx, ntree_in c64 h1 Fx s' (s_insert 64 (ss (up q)) lk lb v) -> fresh_or h (Fs (up q)) Fx -> Fx ⊆ WS2 -> WS ⊆ WS2 ->
    untouched (Fs (up q)) h h1 -> dom h ⊆ dom h1 ->
    wp (x <- n_inplace_insert c64 r6 hk (Z.of_N hb) (VSub s') ;; store (Some a) (CIp r4 x)) h1 WS2
      (fun _ h' WS' => exists F', uown h' (Some a) (g_upd (Some (true, q)) (fun q => g_ins q v) G) F' /\ F' ⊆ WS')).
  { intros s' h1 WS2 Fx Hx Hfx HFx HWS2 Hu Hdd. specialize (Hfx' Fx Hfx).
    assert (Dx : Fx ⊆ dom h1) by (by eapply ntree_in_dom).
    assert (X0 : F0 ## Fs (up q)) by (symmetry; apply I2).
    apply wp_bind. eapply wp_mono; [apply (n_inplace_in _ c64_ok h1 WS2 F0 r6 m hk (Z.of_N hb) (VSub s')); [done| |]|].
    - by eapply ntree_in_untouched.
    - etrans; [exact I3|]. trs.
    - cbn beta. intros x' h2 WS3 (F0' & Hx' & Hf0 & HF0' & HWS3 & Hu2 & Hdd2). change (cW c64) with 64 in *. rewrite adj_of in Hx' by done.
      unfold s_insert in Hx' at 1. rewrite Eup in Hx'.
      assert (Hf0' : forall F, F ⊆ dom h1 -> F ## F0 -> F ## F0').
      { intros F HF HF0 l Hl Hl0. destruct (Hf0 l Hl0) as [H|H]; [by eapply HF0|]. apply HF in Hl. by apply not_elem_of_dom in H. }
      assert (Hxx : Fx ## F0) by (symmetry; by apply Hfx').
      eapply (uown_store _ _ _ (CIp r4 r6) _ _ F4 (F0' ∪ (Fx ∪ F6)) (g_upd (Some (true, q)) (fun q => g_ins q v) G)).
      + apply Hu2; [|done]. by apply Hu.
      + by apply HWS3, HWS2.
      + etrans; [exact W4|]. trs.
      + clear -HF0' HFx HWS3 HWS2 W6. set_solver.
      + eapply tree4_untouched; [exact Hu2|done|]. by eapply tree4_untouched.
      + exists (<[up q := (hk, VSub s')]> m), (put ss (up q) (s_insert 64 (ss (up q)) lk lb v)), F0', (put Fs (up q) Fx).
        split_and!; [done| |clear; set_solver| | |].
        * eapply utree6_set; [exact I2|exact Hx'| | | |exact Hlow| | |].
          -- eapply ntree_in_untouched; [exact Hu2| |exact Hx]. done.
          -- apply sub_ins_ne.
          -- apply plain_ins; [apply I2|done].
          -- intros y sy Hyx Hy. eapply ntree_in_untouched; [exact Hu2|apply I2|]. eapply ntree_in_untouched; [exact Hu|by apply I2|done].
          -- by apply Hf0'.
          -- intros y Hy. split; [apply Hf0'; [etrans; [apply Ds|done]|apply I2]|apply Hfx'; [done|by apply I2]].
        * intros y. specialize (I4 y). unfold put. destruct (decide _); clear -I4; set_solver.
        * apply union_least; [by eapply ntree_in_dom|]. apply union_least; [trs|]. etrans; [exact I5|]. trs.
        * intros q'. cbn [g_upd fst snd Bool.eqb]. rewrite (us_ins _ q) by done. unfold g_ins. by rewrite I6.
      + assert (F4 ## F0') by (apply Hf0'; [trs|done]). assert (F4 ## Fx) by (by apply Hfx'). clear -H H0 Hd. set_solver.
      + done.
      + assert ({[a]} ## F0') as HH by (apply Hf0'; [clear -Da Hdd; set_solver|clear -Xa0; set_solver]).
        assert ({[a]} ## Fx) as HH' by (apply Hfx'; [clear -Da; set_solver|clear -Xa; set_solver]). clear -HH HH' A6. set_solver. }
  destruct (m !! up q) as [[k' v']|] eqn:Em.
  - destruct Hm as [Hm Hne]. cbn [snd] in *. subst v'. subst e. cbn [fst snd sub_of].
    apply wp_bind. eapply wp_mono; [apply Hsub; done|]. cbn beta. intros s' h1 WS2 (Fx & Hx & Hfx & HFx & HWS2 & Hu & Hdd).
    assert (HWS02 : WS ⊆ WS2) by (trs).
    destruct (ptr_eqb_spec s' s) as [->|Hss]; [|by eapply Hrest].
    cbn [wp]. specialize (Hfx' Fx Hfx). exists ({[a]} ∪ (F4 ∪ (F0 ∪ (Fx ∪ F6)))). split; [|clear -HFx HWS02 Wa W4 W6 I3; set_solver].
    assert (X0 : F0 ## Fs (up q)) by (symmetry; apply I2).
    assert (Em' : <[up q := (k', VSub s)]> m = m) by (by apply insert_id).
    exists a, r4, r6, F4, (F0 ∪ (Fx ∪ F6)). split_and!; try done.
    + by apply Hu.
    + by eapply tree4_untouched.
    + exists (<[up q := (k', VSub s)]> m), (put ss (up q) (s_insert 64 (ss (up q)) lk lb v)), F0, (put Fs (up q) Fx).
      assert (H0' : ntree_in c64 h1 F0 r6 (<[up q := (k', VSub s)]> m)) by (rewrite Em'; by eapply ntree_in_untouched).
      split_and!; [done| |clear; set_solver| | |].
      * eapply utree6_set; [exact I2|exact H0'| | | |exact Hlow| | |].
        -- exact Hx.
        -- apply sub_ins_ne.
        -- apply plain_ins; [apply I2|done].
        -- intros y sy Hyx Hy. eapply ntree_in_untouched; [exact Hu|by apply I2|done].
        -- symmetry. by apply Hfx'.
        -- intros y Hy. split; [apply I2|apply Hfx'; [done|by apply I2]].
      * intros y. specialize (I4 y). unfold put. destruct (decide _); clear -I4; set_solver.
      * apply union_least; [trs|]. apply union_least; [by eapply ntree_in_dom|]. trs.
      * intros q'. cbn [g_upd fst snd Bool.eqb]. rewrite (us_ins _ q) by done. unfold g_ins. by rewrite I6.
    + assert (F4 ## Fx) by (by apply Hfx'). clear -H Hd X40. set_solver.
    + assert ({[a]} ## Fx) as HH' by (apply Hfx'; [clear -Da; set_solver|clear -Xa; set_solver]). clear -HH' A6 Xa0. set_solver.
  - destruct Hm as (-> & Ess & EFs). subst e. cbn [fst snd].
    apply wp_bind. eapply wp_mono; [apply Hsub; done|]. cbn beta. intros s' h1 WS2 (Fx & Hx & Hfx & HFx & HWS2 & Hu & Hdd).
    eapply Hrest; try done. trs.
Qed.
End ux.
