(** * Statements about SliceModel.v. *)
From Verif Require Import Prog History NumModel IpModel UxModel IpSpec IpHist IpPropProofs UxSpec UxHist UxPropProofs ChanUpdProofs ChanUpdProps SliceModel SliceSpec SliceProofs.
Open Scope nat_scope.

Section code.
Context {V : Type}.
Lemma seen_weaken (P m : arrays) s x : P ⊆ m -> P !! sl_arr s = Some x -> seen m s = window s x.
Proof. intros Hs Hx. unfold seen. by rewrite (lookup_weaken _ _ _ _ Hx Hs). Qed.
Lemma inv_handed (e : list (bytes * bytes * V)) s : inv e s -> NoDup (handed_arrays (st_out s)) -> handed e s.
Proof.
  intros Hi Hn. pose proof Hi as (P&e1&He&Hl&Hg&Hs&Ho). destruct s as [k m C o]. cbn [st_code st_mem st_others st_out] in *. constructor; cbn [st_code st_mem st_others st_out].
  - by eapply good_progress.
  - intros ->. cbn [good] in Hg. rewrite Hg, app_nil_r in He. by rewrite He.
  - intros ip mask v k' ->. cbn [good] in Hg. destruct Hg as (x&y&t&e'&He'&Hx&Hy&Hne&->&_).
    rewrite (seen_weaken _ _ _ _ Hs Hx), (seen_weaken _ _ _ _ Hs Hy). split.
    + rewrite He, He', <- Hl. rewrite nth_error_app2, Nat.sub_diag by lia. done.
    + rewrite !Ho. split; intros [_ ?]; congruence.
  - intros s' a H Ha. by apply (inv_own e _ _ Hi H).
  - done.
Qed.
Lemma out_apart (e : list (bytes * bytes * V)) s s' : inv e s -> step s s' ->
  NoDup (handed_arrays (st_out s)) -> (forall a, a ∈ handed_arrays (st_out s) -> a ∈ st_others s) ->
  NoDup (handed_arrays (st_out s')) /\ (forall a, a ∈ handed_arrays (st_out s') -> a ∈ st_others s').
Proof.
  intros Hi Hst Hn Hin. destruct Hst as [Hst|Hst].
  - pose proof Hi as (P&e1&He&Hl&Hg&Hs&Ho). destruct Hst; cbn [st_code st_mem st_others st_out] in *; try done.
    cbn [good] in Hg. destruct Hg as (x&y&t&e'&He'&Hx&Hy&Hne&->&_).
    assert (handed_arrays (o ++ [(ip, mask, v)]) = handed_arrays o ++ [sl_arr ip; sl_arr mask]) as ->.
    { unfold handed_arrays. rewrite map_app, concat_app. done. }
    assert (sl_arr ip ∉ C) by (rewrite Ho; intros [_ ?]; congruence).
    assert (sl_arr mask ∉ C) by (rewrite Ho; intros [_ ?]; congruence).
    split.
    + apply NoDup_app. split; [done|]. split.
      * intros a Ha%Hin. rewrite !elem_of_cons. intros [->|[->|Hb]]; [done|done|by apply elem_of_nil in Hb].
      * apply NoDup_cons. split; [|apply NoDup_singleton]. rewrite elem_of_list_singleton. done.
    + intros a. rewrite elem_of_app, !elem_of_cons, !elem_of_union, !elem_of_singleton. intros [Ha%Hin|[->|[->|Hb]]]; [tauto..|by apply elem_of_nil in Hb].
  - destruct Hst; cbn [st_code st_mem st_others st_out] in *. split; [done|]. intros a Ha%Hin. apply elem_of_union. by left.
Qed.
Lemma pf_hands_out (its : list (item V)) : hands_out (k_items its) (concat (map keys its)).
Proof.
  intros m s Hr.
  assert (inv (concat (map keys its)) (State (k_items its) m (dom m) [])) as Hi.
  { exists ∅, []. cbn [st_code st_mem st_others st_out length drop app]. split; [done|]. split; [done|]. split; [apply good_items|].
    split; [apply map_empty_subseteq|]. intros a. rewrite elem_of_dom. split; [|tauto]. intros ?. split; [done|apply lookup_empty]. }
  set (s0 := State (k_items its) m (dom m) []) in *.
  assert (NoDup (handed_arrays (st_out s0))) as Hn by apply NoDup_nil_2.
  assert (forall a, a ∈ handed_arrays (st_out s0) -> a ∈ st_others s0) as Hin.
  { intros a Ha. by apply elem_of_nil in Ha. }
  clearbody s0.
  induction Hr as [s|s s1 s2 Hst Hr IH]; [by apply inv_handed|].
  destruct (out_apart _ _ _ Hi Hst Hn Hin). apply IH; [by eapply inv_step|done|done].
Qed.
End code.

Section items.
Context {U : Type}.
Local Notation heap := (heap U).
Local Notation value := (value U).

Lemma keys4 (nn : numnode U) : keys (IEnum4 (nd_of nn)) = [pair4 nn] /\ keys (IUpd4 (nd_of nn)) = [pair4 nn].
Proof. done. Qed.
Lemma keys6 (nn : numnode U) : keys (IEnum6 (nd_of nn)) = [pair6 nn] /\ keys (IUpd6 (nd_of nn)) = [pair6 nn].
Proof. done. Qed.
Lemma keys6s key (ns : list (numnode U)) :
  keys (IEnum6s key 64 (map nd_of ns)) = map (pair6s (unpack64 key ++ repeat x00 8)) ns /\
  keys (IUpd6s key (map nd_of ns)) = map (pair6s (unpack64 key ++ repeat x00 8)) ns.
Proof. cbn [keys]. rewrite !map_map. done. Qed.

Lemma mapM_link {A B B'} (f : A -> prog U B) (g : A -> prog U B') (phi : B' -> B) l :
  (forall a h W Q, wp (f a) h W Q -> wp (g a) h W (fun b => Q (phi b))) ->
  forall (h : heap) W Q, wp (mapM f l) h W Q -> wp (mapM g l) h W (fun bs => Q (map phi bs)).
Proof.
  intros H. induction l as [|a l IH]; intros h W Q Hf; cbn [mapM] in *; [done|].
  apply wp_bind. apply wp_bind_inv in Hf. apply H in Hf. eapply wp_mono; [exact Hf|]. cbn beta. intros b h1 W1 H1.
  apply wp_bind. apply wp_bind_inv in H1. apply IH in H1. eapply wp_mono; [exact H1|]. cbn beta. intros bs h2 W2 H2. exact H2.
Qed.
Lemma concat_keys4 (xs : list (loc * numnode U)) : concat (map keys (map (fun x => IEnum4 (nd_of x.2)) xs)) = map (fun x => pair4 x.2) xs.
Proof. induction xs as [|x xs IH]; [done|]. cbn [map concat]. by rewrite IH. Qed.

Lemma concat_keys (zs : list (list (item value))) : concat (map keys (concat zs)) = concat (map (fun its => concat (map keys its)) zs).
Proof. induction zs as [|z zs IH]; [done|]. cbn [map concat]. by rewrite map_app, concat_app, IH. Qed.

Lemma ip_link t (h : heap) W Q : wp (ip_enumerate t) h W Q -> wp (ip_items t) h W (fun its => Q (concat (map keys its))).
Proof.
  destruct t as [a|]; [|done]. cbn [ip_enumerate ip_items]. intros H.
  apply wp_bind. apply wp_bind_inv in H. eapply wp_mono; [exact H|]. cbn beta. clear. intros r h W H.
  apply wp_bind. apply wp_bind_inv in H. eapply wp_mono; [exact H|]. cbn beta. clear. intros xs h W H.
  apply wp_bind. apply wp_bind_inv in H. eapply wp_mono; [exact H|]. cbn beta. clear. intros ys h W H.
  apply wp_bind. apply wp_bind_inv in H.
  eapply (mapM_link _ (fun y => items6 y.2) (fun its => concat (map keys its))) in H.
  - eapply wp_mono; [exact H|]. cbn beta. clear. intros zs h W H. cbn [wp] in *.
    rewrite map_app, concat_app, concat_keys4, concat_keys. exact H.
  - clear. intros [l nn] h W Q H. cbn [snd] in *. unfold enum6, items6 in *. destruct (nn_val nn); try exact H.
    apply wp_bind. apply wp_bind_inv in H. eapply wp_mono; [exact H|]. cbn beta. clear. intros xs h W H. cbn [wp map concat] in *.
    rewrite app_nil_r. replace (keys _) with (map (fun x : loc * numnode U => pair6s (msip nn) x.2) xs); [exact H|].
    cbn [keys]. rewrite map_map. done.
Qed.
Lemma ux_link t (h : heap) W Q : wp (ux_enumerate t) h W Q -> wp (ux_items t) h W (fun its => Q (concat (map keys its))).
Proof.
  destruct t as [a|]; [|done]. cbn [ux_enumerate ux_items]. intros H.
  apply wp_bind. apply wp_bind_inv in H. eapply wp_mono; [exact H|]. cbn beta. clear. intros r h W H.
  apply wp_bind. apply wp_bind_inv in H. eapply wp_mono; [exact H|]. cbn beta. clear. intros xs h W H.
  apply wp_bind. apply wp_bind_inv in H. eapply wp_mono; [exact H|]. cbn beta. clear. intros ys h W H.
  apply wp_bind. apply wp_bind_inv in H.
  eapply (mapM_link _ (fun y => ux_items6 y.2) (fun its => concat (map keys its))) in H.
  - eapply wp_mono; [exact H|]. cbn beta. clear. intros zs h W H. cbn [wp] in *.
    rewrite map_app, concat_app, concat_keys4, concat_keys. exact H.
  - clear. intros [l nn] h W Q H. cbn [snd] in *. unfold ux_enum6, ux_items6 in *.
    apply wp_bind. apply wp_bind_inv in H. eapply wp_mono; [exact H|]. cbn beta. clear. intros xs h W H. cbn [wp map concat] in *.
    rewrite app_nil_r. replace (keys _) with (map (fun x : loc * numnode U => ux_pair6 nn x.2) xs); [exact H|].
    cbn [keys]. rewrite map_map. done.
Qed.
Lemma ro_items (t : ptr) : ro (ip_items (U := U) t).
Proof.
  destruct t as [a|]; [|constructor]. cbn [ip_items]. apply ro_bind; [apply (ro_ld_ip (Some a))|]. intros r. apply ro_bind; [apply ro_n_enum|]. intros xs.
  apply ro_bind; [apply ro_n_enum|]. intros ys. apply ro_bind; [|intros; constructor]. apply ro_mapM. intros [l n]. cbn [snd]. unfold items6.
  destruct (nn_val n); try constructor. apply ro_bind; [apply ro_n_enum|]. intros. constructor.
Qed.
Lemma ro_ux_items (t : ptr) : ro (ux_items (U := U) t).
Proof.
  destruct t as [a|]; [|constructor]. cbn [ux_items]. apply ro_bind; [apply (ro_ld_ip (Some a))|]. intros r. apply ro_bind; [apply ro_n_enum|]. intros xs.
  apply ro_bind; [apply ro_n_enum|]. intros ys. apply ro_bind; [|intros; constructor]. apply ro_mapM. intros [l n]. cbn [snd]. unfold ux_items6.
  apply ro_bind; [apply ro_n_enum|]. intros. constructor.
Qed.
Lemma pf_ip_keys t (h : heap) W Q : wp (ip_enumerate t) h W Q ->
  exists its e, returns (ip_items t) h its /\ Q e h W /\ hands_out (k_items its) e.
Proof.
  intros H. apply ip_link in H. destruct (ro_returns _ _ _ _ (ro_items _) H) as (its & H1 & H2).
  exists its, (concat (map keys its)). split; [done|]. split; [done|]. apply pf_hands_out.
Qed.
Lemma pf_ux_keys t (h : heap) W Q : wp (ux_enumerate t) h W Q ->
  exists its e, returns (ux_items t) h its /\ Q e h W /\ hands_out (k_items its) e.
Proof.
  intros H. apply ux_link in H. destruct (ro_returns _ _ _ _ (ro_ux_items _) H) as (its & H1 & H2).
  exists its, (concat (map keys its)). split; [done|]. split; [done|]. apply pf_hands_out.
Qed.
Lemma pf_ip_keys_hist (h : heap) ops rops ver : Forall2 iresolves ops rops -> Forall iop_ok ops ->
  wp (run_hist ip_exec ops []) h ∅ (fun r h1 _ => exists its e,
    returns (ip_items (nth ver r.1 None)) h1 its /\ nenumerates (iver rops ver) e /\ hands_out (k_items its) e).
Proof.
  intros H1 H2. pose proof (ip_pf_enumerate h ops rops ver H1 H2) as H. apply wp_bind_inv in H.
  eapply wp_mono; [exact H|]. cbn beta. intros r h1 W1 H3. apply pf_ip_keys in H3. naive_solver.
Qed.
Lemma pf_ux_keys_hist (h : heap) ops rops ver : Forall2 iresolves ops rops -> Forall iop_ok ops ->
  wp (run_hist ux_exec ops []) h ∅ (fun r h1 _ => exists its e,
    returns (ux_items (nth ver r.1 None)) h1 its /\ nenumerates (uver rops ver) e /\ hands_out (k_items its) e).
Proof.
  intros H1 H2. pose proof (ux_pf_enumerate h ops rops ver H1 H2) as H. apply wp_bind_inv in H.
  eapply wp_mono; [exact H|]. cbn beta. intros r h1 W1 H3. apply pf_ux_keys in H3. naive_solver.
Qed.
End items.
