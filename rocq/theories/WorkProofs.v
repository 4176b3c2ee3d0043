(** * Proofs for Properties_working.v *)
From Verif Require Import Prog History NumModel NumSpec IpModel IpSpec IpUpdSpec IpBits IpAbs IpAbs4 IpEnum IpHist IpPropProofs IpUpd IpUpd2 IpUpd3 IpUpd4 IpUpdProofs.
From Verif Require Import CallProofs WorkModel WorkSpec.
From Verif Require UxPropProofs.
Open Scope nat_scope.

Section pf.
Context {U St : Type}.
Local Notation heap := (heap U).
Local Notation value := (value U).
Local Notation pair_ := (pair_ (U := U)).
Implicit Types h : heap.

(** ** A program that needs a part of the memory only. *)
Lemma wp_part {A} (m : prog U A) : forall (hp h : heap) (W W' : gset loc) (Q : A -> heap -> gset loc -> Prop), hp ⊆ h -> W ⊆ W' -> wp m hp W Q ->
  wp m h W' (fun a h' _ => exists hp' W1, hp' ⊆ h' /\ Q a hp' W1 /\ forall l, l ∈ dom h -> l ∉ dom hp -> l ∉ dom hp' /\ h' !! l = h !! l).
Proof.
  induction m as [a|e|c k IH|l k IH|l c k IH]; intros hp h W W' Q Hs HW; cbn [wp].
  - intros H. exists hp, W. done.
  - done.
  - intros H l Hl. eapply wp_mono; [eapply (IH l (<[l := c]> hp)); [by apply insert_mono| |apply H]|].
    + clear -HW. set_solver.
    + by eapply lookup_weaken_None.
    + cbn beta. intros a h' _ (hp' & W1 & H1 & H2 & H3). exists hp', W1. split_and!; [done|done|]. intros l' E1 E2.
      assert (l' <> l) by (intros ->; by apply not_elem_of_dom in Hl). destruct (H3 l') as [H4 H5]; [rewrite dom_insert_L; apply elem_of_union; by right|rewrite dom_insert_L, not_elem_of_union, not_elem_of_singleton; by split|]. split; [done|]. by rewrite H5, lookup_insert_ne.
  - intros (c & E & H). exists c. split; [by eapply lookup_weaken|]. by eapply IH.
  - intros (A1 & [c' A2] & H). pose proof (lookup_weaken _ _ _ _ A2 Hs) as A3. split_and!; [by apply HW|by exists c'|]. eapply wp_mono; [eapply (IH (<[l := c]> hp)); [by apply insert_mono|exact HW|exact H]|].
    cbn beta. intros a h' _ (hp' & W1 & H1 & H2 & H3). exists hp', W1. split_and!; [done|done|]. intros l' E1 E2.
    assert (l' <> l) by (intros ->; apply E2; by eapply elem_of_dom_2). destruct (H3 l') as [H4 H5]; [rewrite dom_insert_L; apply elem_of_union; by right|rewrite dom_insert_L, not_elem_of_union, not_elem_of_singleton; by split|]. split; [done|]. by rewrite H5, lookup_insert_ne.
Qed.

(** ** The callback's own trees. *)
Definition own (h0 h : heap) (ops : list (iop ikey value)) (vs : list ptr) : Prop :=
  exists hp rops, hp ⊆ h /\ dom hp ## dom h0 /\ Forall2 iresolves ops rops /\ Forall iop_ok ops /\ Forall2 (ipR hp) vs (ilogs rops []).
Lemma own_setv h0 h ops vs l v : l ∈ dom h0 -> own h0 h ops vs -> own h0 (setv h l v) ops vs.
Proof.
  intros Hl (hp & rops & H1 & H2 & H3). exists hp, rops. split; [|done]. unfold setv. destruct (h !! l) as [[]|]; try done.
  apply insert_subseteq_r; [|done]. apply not_elem_of_dom. clear -Hl H2. set_solver.
Qed.
Lemma ilogs_app {V} (a b : list (iop (option net) V)) : forall gs, ilogs (a ++ b) gs = ilogs b (ilogs a gs).
Proof. induction a as [|o a IH]; intros gs; [done|]. cbn [Datatypes.app ilogs]. apply IH. Qed.
Lemma enum_plain (l : ilog value) e : log_plain l -> nenumerates l e -> Forall (fun x : pair_ => plain x.2) e.
Proof.
  intros Hl (ps & _ & Hps & Hf). apply Forall_forall. intros x Hx. apply elem_of_list_lookup in Hx as [i Hi]. destruct (Forall2_lookup_l _ _ _ _ _ Hf Hi) as ([q v] & Hq & -> & _). apply (Hl q), Hps. by eapply elem_of_list_lookup_2.
Qed.
Lemma answer_plain (ops : list (iop ikey value)) rops ro (x : iout value) : Forall2 iresolves ops rops -> Forall iop_ok ops -> ianswer (ilogs rops []) ro x -> iout_plain x.
Proof.
  intros Hr Ho Ha. destruct ro as [items|i k v|i k|i k|i]; cbn [ianswer] in Ha; [by subst|by subst|by destruct Ha as (b & -> & _)|..].
  - destruct Ha as (res & -> & Hres). destruct res as [v|]; [|done]. destruct k as [q|]; [|done]. destruct Hres as (q' & H & _). exact (ver_plain ops rops i Hr Ho q' v H).
  - destruct Ha as (e & -> & He). cbn [iout_plain]. by eapply (enum_plain _ _ (ver_plain ops rops i Hr Ho)).
Qed.
Lemma own_exec h0 h (W : gset loc) ops vs o : dom h0 ⊆ dom h -> own h0 h ops vs -> iop_ok o ->
  wp (ip_exec vs o) h W (fun r h' _ => own h0 h' (ops ++ [o]) r.1 /\ (forall l, l ∈ dom h0 -> h' !! l = h !! l) /\ iout_plain r.2 /\
    exists rops ro, Forall2 iresolves ops rops /\ iresolves o ro /\ ianswer (ilogs rops []) ro r.2).
Proof.
  intros Hd (hp & rops & H1 & H2 & H3 & H4 & H5) Ho. eapply wp_mono; [apply (wp_part _ hp h ∅ W _ H1 (empty_subseteq _) (ip_exec_ok hp vs _ o H5 Ho))|].
  cbn beta. intros r h' _ (hp' & W1 & E1 & (gs' & (ro & R1 & -> & R3) & R4) & E2).
  assert (E3 : forall l, l ∈ dom h0 -> l ∉ dom hp' /\ h' !! l = h !! l). { intros l Hl. apply E2; [by apply Hd|]. clear -Hl H2. set_solver. }
  split_and!.
  - exists hp', (rops ++ [ro]). split_and!; [done| |apply Forall2_app; [done|by constructor]|apply Forall_app; split; [done|by constructor]|].
    + apply elem_of_disjoint. intros l L1 L2. by apply (E3 l).
    + by rewrite ilogs_app.
  - intros l Hl. by apply E3.
  - by eapply (answer_plain ops rops ro).
  - by exists rops, ro.
Qed.

Section cb.
Variable cb : St -> pair_ -> work U (St * option value).
Hypothesis Hcb : forall s x, plain x.2 -> work_plain (cb s x).
Definition rec (d : desk U St) : St * list (iop ikey value) := (dk_st d, dk_ops d).
Definition keeps (h0 h : heap) (d : desk U St) : Prop := own h0 h (dk_ops d) (dk_own d).
Lemma work_ok h a xs yz : itl h a xs yz -> forall m : work U (St * option value), work_plain m -> forall h1 W d, vrel h h1 -> keeps h h1 d ->
  wp (work_run (Some a) d m) h1 W (fun r h' _ => works (map snd (map (reloadp h1) (le xs yz))) (dk_ops d) m (dk_ops r.1) r.2 /\ keeps h h' r.1 /\
    (forall l, l ∈ dom h -> h' !! l = h1 !! l) /\ forall v, r.2.2 = Some v -> plain v).
Proof.
  intros Hi m Hm. induction Hm as [s r Hr|k f Hf IH|f Hf IH|o f Ho Hf IH]; intros h1 W d Hv Hk; cbn [work_run].
  - cbn [wp fst snd]. split_and!; [constructor|done|done|]. by intros v ->.
  - destruct (view_ok h a xs yz Hi h1 Hv) as (l & V1 & V2 & V3 & V4). destruct (ikey_total k) as [q Hq]. apply wp_bind. eapply wp_mono; [by apply (iget_at h1 a l k q)|]. cbn beta. intros x h' W' (-> & res & -> & Hres).
    assert (Hpl : plain (match res with Some v => v | None => VNil end)).
    { destruct res as [v|]; [|done]. destruct q as [q|]; [|done]. destruct Hres as (q' & H1 & _). destruct (enum_elem l _ q' v V2) as (x & Hx & <-); [naive_solver|]. rewrite Forall_forall in V4. by apply V4. }
    assert (Hstep : forall x, x = match res with Some v => (v, true) | None => (VNil, false) end -> wp (work_run (Some a) d (f x)) h1 W' (fun r h' _ => works (map snd (map (reloadp h1) (le xs yz))) (dk_ops d) (f x) (dk_ops r.1) r.2 /\ keeps h h' r.1 /\
       (forall l, l ∈ dom h -> h' !! l = h1 !! l) /\ forall v, r.2.2 = Some v -> plain v)).
    { intros x ->. destruct res; apply IH; done. }
    eapply wp_mono; [by apply Hstep|]. cbn beta. intros r h' W2 (R1 & R2). split; [|done]. by eapply works_get.
  - destruct (view_ok h a xs yz Hi h1 Hv) as (l & V1 & V2 & V3 & V4). apply wp_bind. eapply wp_mono; [apply V3|]. cbn beta. intros e' h' W' [-> ->]. eapply wp_mono; [by apply IH|]. cbn beta. intros r h' W2 (R1 & R2). split; [|done]. by apply works_enum.
  - apply wp_bind. eapply wp_mono; [apply (own_exec h h1 W (dk_ops d) (dk_own d) o); [by apply vrel_dom|done|done]|]. cbn beta. intros r h2 W2 (O1 & O2 & O3 & rops & ro & O4 & O5 & O6).
    pose proof (vrel_same h h1 h2 Hv O2) as Hv2.
    eapply wp_mono; [apply (IH r.2 O3 h2 W2 (Desk (dk_st d) (dk_ops d ++ [o]) r.1)); done|]. cbn beta. intros r' h3 W3 (R1 & R2 & R3 & R4). split_and!; [|done| |done].
    + eapply works_own; [done|done|done|]. cbn [dk_ops] in R1.
      assert (E : map (reloadp h2) (le xs yz) = map (reloadp h1) (le xs yz)).
      { apply map_ext_in. intros y Hy. apply elem_of_list_In in Hy. unfold reloadp, val_at. rewrite O2; [done|]. destruct (le_cells _ _ _ _ Hi y Hy) as [(n & E & _) _]. by eapply elem_of_dom_2. }
      rewrite E in R1. exact R1.
    + intros l Hl. rewrite R3 by done. by apply O2.
Qed.
Definition calls (e : list pair_) (d : desk U St) (x : pair_) (r : desk U St * option value) : Prop := worked cb e (rec d) x (rec r.1, r.2).
Lemma work_acts h a xs yz : itl h a xs yz -> acts (work_cb (Some a) cb) calls (keeps h) h (le xs yz).
Proof using Hcb.
  intros Hi. split.
  - intros h1 W d x Hx Hv _ Hk. unfold work_cb. apply wp_bind. eapply wp_mono; [apply (work_ok h a xs yz Hi _ (Hcb _ _ Hx) h1 W d Hv Hk)|]. cbn beta. intros [d' [s' r]] h' W' (R1 & R2 & R3 & R4). cbn [wp fst snd] in *. done.
  - intros h1 d l v _ Hl. by apply own_setv.
Qed.
(** The walk does not depend on where the callback's trees are. *)
Lemma uwalk_rec p e0 d s s' e' : uwalk_by calls p d s e0 s' e' -> uwalk_by (worked cb) p d (rec s) e0 (rec s') e'.
Proof.
  induction 1 as [d s|d s ip m q v s1 r e s2 e' Hc Hin Hne Hcall H IH|d s ip m q v e s2 e' Hc Hout H IH]; [constructor|by eapply ub_in|by eapply ub_out].
Qed.
Lemma pf_working h ops rops : Forall2 iresolves ops rops -> Forall iop_ok ops ->
  wp (run_hist ip_exec ops []) h ∅ (fun vs h1 _ => forall ver n p s k r, nth ver vs.1 None <> None -> net_is n p -> ikey_is k r ->
    let t := nth ver vs.1 None in let l := iver rops ver in
    wp (e <- ip_enumerate t ;; d <- ip_update_by (work_cb t cb) t n (Desk s [] []) ;; e' <- ip_enumerate t ;; x <- ip_get_key t k ;; Ret (e, d, e', x)) h1 (dom h1)
      (fun y h' _ => let '(e, d, e', x) := y in nenumerates l e /\
        (is_target l n p -> uwalk_by (worked cb) p [] (s, []) e (dk_st d, dk_ops d) e') /\
        (~ is_target l n p -> d = Desk s [] [] /\ e' = e /\ h' = h1) /\
        (exists l', nenumerates l' e' /\ exists res, x = match res with Some v => (v, true) | None => (VNil, false) end /\ match r with Some q => nlongest l' q res | None => res = None end) /\
        exists rops', Forall2 iresolves (dk_ops d) rops' /\ forall own k' r', ikey_is k' r' -> forall W,
          wp (e <- ip_enumerate (nth own (dk_own d) None) ;; x <- ip_get_key (nth own (dk_own d) None) k' ;; Ret (e, x)) h' W (fun y h'' _ => h'' = h' /\ nenumerates (iver rops' own) y.1 /\
            exists res, y.2 = match res with Some v => (v, true) | None => (VNil, false) end /\ match r' with Some q => nlongest (iver rops' own) q res | None => res = None end))).
Proof using Hcb.
  intros Hops Hok. eapply wp_mono; [by apply ip_history|]. cbn beta. intros vs h1 _ (_ & _ & H) ver n p s k r Hne Hn Hk. cbn zeta. specialize (H ver).
  destruct (nth ver vs.1 None) as [a|]; [|done].
  eapply wp_mono; [apply (ip_pf_update_by _ calls (keeps h1) h1 a (iver rops ver) n p (Desk s [] []) k r); [apply work_acts| |done..]|].
  { exists ∅, []. split_and!; [apply map_empty_subseteq|rewrite dom_empty_L; apply disjoint_empty_l|constructor..]. }
  cbn beta. intros [[[e d] e'] x] h' _ (H1 & H2 & H3 & _ & (hp & rops' & K1 & _ & K3 & _ & K5) & H4). split_and!; [done| |done|done|].
  - intros Htg. apply (uwalk_rec p e [] (Desk s [] []) d e'). by apply H2.
  - exists rops'. split; [done|]. intros own k' r' Hk' W. pose proof (ipR_mono _ _ _ _ K1 (ipR_nth _ _ _ own K5)) as Hp.
    apply wp_bind. eapply wp_mono; [apply (ienum_at _ _ _ _ Hp)|]. cbn beta. intros e1 h2 W2 [-> He]. apply wp_bind.
    rewrite get_key_eq. eapply wp_mono; [apply (ip_get_at h' W2 _ _ _ r' Hp); by apply key_isnet|]. cbn beta. intros x1 h3 W3 (-> & res & -> & Hres). cbn [wp fst snd]. split_and!; [done|done|]. by exists res.
Qed.
End cb.

(** ** The walk determines the result. *)
Lemma resolves_fun (ops : list (iop ikey value)) r1 : Forall2 iresolves ops r1 -> forall r2, Forall2 iresolves ops r2 -> r1 = r2.
Proof. induction 1 as [|o ro ops r1 Ho H IH]; intros r2 H2; inversion H2 as [|? ro' ? r2' Ho' H2']; subst; [done|]. f_equal; [by eapply iresolves_det|by apply IH]. Qed.
Lemma ianswer_fun (gs : list (ilog value)) o x y : ianswer gs o x -> ianswer gs o y -> x = y.
Proof.
  destruct o as [items|i k v|i k|i k|i]; cbn [ianswer].
  - by intros -> ->.
  - by intros -> ->.
  - intros (b & -> & Hb) (b' & -> & Hb'). destruct b, b'; try done; exfalso; naive_solver.
  - intros (r & -> & Hr) (r' & -> & Hr'). destruct k as [q|]; [|by subst]. f_equal. by eapply UxPropProofs.nlongest_fun.
  - intros (e & -> & He) (e' & -> & He'). f_equal. by eapply nenum_unique.
Qed.
Lemma works_fun {A} e ops (m : work U A) ops1 a1 ops2 a2 : works e ops m ops1 a1 -> works e ops m ops2 a2 -> ops1 = ops2 /\ a1 = a2.
Proof.
  intros H. revert ops2 a2. induction H as [ops a|l k q res f ops ops' a H1 H2 H3 H4 IH|f ops ops' a H1 IH|o ro x f ops rops ops' a H1 H2 H3 H4 IH]; intros ops2 a2 Hb.
  - by inversion Hb.
  - inversion Hb as [|l' k' q' res' f' ? ? a' E1 E2 E3 E4| |]; subst. apply IH. pose proof (ikey_det _ _ _ H2 E2) as <-. pose proof (enum_get _ _ _ H1 E1) as Hl.
    assert (res = res') as -> by (destruct q as [q|]; [by eapply CallProofs.nlongest_fun|congruence]). done.
  - inversion Hb as [| |f' ? ? a' E1|]; subst. by apply IH.
  - inversion Hb as [| | |o' ro' x' f' ? rops' ? a' E1 E2 E3 E4]; subst. pose proof (resolves_fun _ _ H1 _ E1) as <-. pose proof (iresolves_det _ _ _ H2 E2) as <-. pose proof (ianswer_fun _ _ _ _ H3 E3) as <-. by apply IH.
Qed.
Lemma worked_fun (cb : St -> pair_ -> work U (St * option value)) p d s e s1 e1 s2 e2 : uwalk_by (worked cb) p d s e s1 e1 -> uwalk_by (worked cb) p d s e s2 e2 -> s1 = s2 /\ e1 = e2.
Proof.
  intros H. revert s2 e2. induction H as [d s|d s ip m q v s1 r e s2 e' Hc Hin Hne Hcall H IH|d s ip m q v e s2 e' Hc Hout H IH]; intros s3 e3 H3.
  - inversion H3; subst. done.
  - inversion H3 as [|? ? ? ? q' ? s1' r' ? ? e1' Hc' Hin' Hne' Hcall' H'|? ? ? ? q' ? ? ? e1' Hc' Hout' H']; subst.
    + unfold worked in *. destruct (works_fun _ _ _ _ _ _ _ Hcall Hcall') as [E1 E2]. destruct s1, s1'. cbn [fst snd] in *. injection E2 as <- <-. subst. by apply IH.
    + exfalso. pose proof (is_net_fun (U := U) (1%positive, (ip, m, v)) q q' Hc Hc') as <-. by apply Hout'.
  - inversion H3 as [|? ? ? ? q' ? s1' r' ? ? e1' Hc' Hin' Hne' Hcall' H'|? ? ? ? q' ? ? ? e1' Hc' Hout' H']; subst.
    + exfalso. pose proof (is_net_fun (U := U) (1%positive, (ip, m, v)) q q' Hc Hc') as <-. by apply Hout.
    + by apply IH.
Qed.
End pf.
