(** * Proofs for Properties_iptree.v. *)
From Verif Require Import Prog History NumModel NumBits NumSpec NumAbs NumFoot IpModel IpSpec IpBits IpAbs IpAbs2 IpAbs3 IpAbs4 IpEnum IpHist.
From Coq Require Import ZifyBool ZifyNat ZifyN.
Open Scope N_scope.

(** ** Enumerations are determined by the content. *)
Lemma nlt_irrefl p : ~ net_lt p p.
Proof. intros [[H1 H2]|[_ [H|[_ H]]]]; [congruence|lia|lia]. Qed.
Lemma nlt_trans p q r : net_lt p q -> net_lt q r -> net_lt p r.
Proof.
  intros [[A1 A2]|[A1 A2]] [[B1 B2]|[B1 B2]].
  - congruence.
  - left. split; congruence.
  - left. split; congruence.
  - right. split; [congruence|]. lia.
Qed.
Lemma sorted_unique {A} (R : A -> A -> Prop) (Hirr : forall x, ~ R x x) (Htr : forall x y z, R x y -> R y z -> R x z) l1 :
  forall l2, StronglySorted R l1 -> StronglySorted R l2 -> (forall x, x ∈ l1 <-> x ∈ l2) -> l1 = l2.
Proof.
  induction l1 as [|x l1 IH]; intros [|y l2] H1 H2 Hm.
  - done.
  - exfalso. assert (H : y ∈ ([] : list A)) by (apply Hm; left). by apply elem_of_nil in H.
  - exfalso. assert (H : x ∈ ([] : list A)) by (apply Hm; left). by apply elem_of_nil in H.
  - inversion H1 as [|? ? S1 F1]; inversion H2 as [|? ? S2 F2]; subst. rewrite Forall_forall in F1, F2.
    assert (x = y) as ->.
    { assert (Hx : x ∈ y :: l2) by (apply Hm; left). assert (Hy : y ∈ x :: l1) by (apply Hm; left).
      apply elem_of_cons in Hx as [?|Hx], Hy as [?|Hy]; try done. exfalso. eapply Hirr, Htr; [apply F1, Hy|apply F2, Hx]. }
    f_equal. apply IH; [done|done|]. intros z. split; intros Hz.
    + assert (H : z ∈ y :: l2) by (apply Hm; by right). apply elem_of_cons in H as [->|?]; [|done]. exfalso. by eapply Hirr, F1.
    + assert (H : z ∈ y :: l1) by (apply Hm; by right). apply elem_of_cons in H as [->|?]; [|done]. exfalso. by eapply Hirr, F2.
Qed.
Lemma is_mask_inj m m' n : length m = length m' -> is_mask m n -> is_mask m' n -> m = m'.
Proof. intros Hl [_ H1] [_ H2]. apply be_inj; [done|]. rewrite H1, H2. unfold nlen. by rewrite Hl. Qed.
Lemma canonical_fun ip m ip' m' q : canonical ip m q -> canonical ip' m' q -> ip = ip' /\ m = m'.
Proof.
  intros (A1 & A2 & A3 & A4) (B1 & B2 & B3 & B4). unfold nlen in *. split.
  - apply be_inj; [lia|congruence].
  - eapply is_mask_inj; [lia|done|done].
Qed.
Lemma nenum_unique {V} (l l' : ilog V) e e' : (forall q, ilog_get l q = ilog_get l' q) -> nenumerates l e -> nenumerates l' e' -> e = e'.
Proof.
  intros Hl (ps & A1 & A2 & A3) (ps' & B1 & B2 & B3).
  assert (ps = ps') as <-.
  { eapply (sorted_unique (fun x y => net_lt x.1 y.1)); [intros x; apply nlt_irrefl|intros x y z; apply nlt_trans|done|done|].
    intros [q v]. by rewrite A2, B2, Hl. }
  clear -A3 B3. revert e' B3. induction A3 as [|x y e ps [H1 H2] A3 IH]; intros e' B3; inversion B3 as [|x' ? e'' ? [H1' H2'] B3']; subst; [done|].
  f_equal; [|by apply IH]. destruct x as [[ip m] v], x' as [[ip' m'] v']. cbn [fst snd] in *. destruct (canonical_fun _ _ _ _ _ H2 H2') as [-> ->]. congruence.
Qed.

(** ** Logs of histories hold plain values and real networks. *)
Section pf.
Context {U : Type}.
Local Notation heap := (heap U).
Local Notation value := (value U).
Implicit Types h : heap.

Definition log_plain (l : ilog value) : Prop := forall q v, ilog_get l q = Some v -> plain v.
Lemma ins_plain r v l : log_plain l -> plain v -> log_plain (ins_log r v l).
Proof. intros Hl Hv. destruct r as [p|]; [|done]. intros q w. cbn [ins_log ilog_get]. destruct (decide (p = q)); [by intros [= <-]|apply Hl]. Qed.
Lemma del_plain r l : log_plain l -> log_plain (del_log r l).
Proof. intros Hl. destruct r as [p|]; [|done]. intros q w. cbn [del_log ilog_get]. destruct (decide (ncovers p q)); [done|apply Hl]. Qed.
Lemma build_plain items : forall l, log_plain l -> Forall (fun x : option net * value => plain x.2) items -> log_plain (build_log items l).
Proof. induction items as [|[k v] items IH]; intros l Hl Hi; [done|]. inversion Hi; subst. apply IH; [by apply ins_plain|done]. Qed.
Lemma logs_plain rops : forall gs, Forall log_plain gs -> Forall iop_ok rops -> Forall log_plain (ilogs rops gs).
Proof.
  induction rops as [|o rops IH]; intros gs Hg Hr; [done|]. inversion Hr as [|? ? Ho Hr']; subst. cbn [ilogs]. apply IH; [|done].
  assert (Hn : forall i, log_plain (nth i gs [])). { intros i. clear -Hg. revert i. induction Hg; intros [|i]; simpl; auto; by intros ??. }
  destruct o; cbn [ilog_step]; try done; apply Forall_app; (split; [done|]); constructor; try constructor; cbn [iop_ok] in Ho.
  - apply build_plain; [by intros ??|done].
  - by apply ins_plain.
  - by apply del_plain.
Qed.
Lemma resolves_ok (o : iop ikey value) ro : iresolves o ro -> iop_ok o -> iop_ok ro.
Proof.
  destruct 1 as [items items' H| | | |]; try done. cbn [iop_ok]. induction H as [|? ? ? ? [_ E] H IH]; inversion 1; subst; constructor; [by rewrite <- E|auto].
Qed.
Lemma ver_plain ops rops ver : Forall2 iresolves ops rops -> Forall iop_ok ops -> log_plain (iver rops ver).
Proof.
  intros Hr Ho. assert (Ho' : Forall iop_ok rops).
  { clear -Hr Ho. induction Hr as [|? ? ? ? ? ? IH]; inversion Ho; subst; constructor; [by eapply resolves_ok|auto]. }
  pose proof (logs_plain rops [] ltac:(constructor) Ho') as H. unfold iver. revert ver. induction H; intros [|i]; simpl; auto; by intros ??.
Qed.

Lemma ip_after h (ops : list (iop ikey value)) rops ver {A} (body : ptr -> prog U A) (Q : A -> heap -> Prop) :
  Forall2 iresolves ops rops -> Forall iop_ok ops ->
  (forall h1 p, itree h1 p (ilog_get (iver rops ver)) -> wp (body p) h1 ∅ (fun a h' _ => Q a h')) ->
  wp (r <- run_hist ip_exec ops [] ;; body (nth ver r.1 None)) h ∅ (fun a h' _ => h ⊆ h' /\ Q a h').
Proof.
  intros Hops Hok Hb. eapply (wp_then _ _ _ (fun r h' => ipR h' (nth ver r.1 None) (iver rops ver))).
  - eapply wp_mono; [by apply ip_history|]. cbn beta. intros r h' _ (_ & _ & H). exact (H ver).
  - cbn beta. intros r h1 _ H. by apply Hb.
Qed.
Lemma ip_pf_answers h ops rops : Forall2 iresolves ops rops -> Forall iop_ok ops ->
  wp (run_hist ip_exec ops []) h ∅ (fun r h' _ => h ⊆ h' /\ ianswers [] rops r.2).
Proof. intros. eapply wp_mono; [by apply ip_history|]. cbn beta. tauto. Qed.

Lemma ip_pf_get h ops rops ver k r : Forall2 iresolves ops rops -> Forall iop_ok ops -> ikey_is k r ->
  wp (x <- run_hist ip_exec ops [] ;; ip_get_key (nth ver x.1 None) k) h ∅ (fun x h' _ => h ⊆ h' /\
    exists res, match r with Some q => nlongest (iver rops ver) q res | None => res = None end /\
      x = match res with Some v => (v, true) | None => (VNil, false) end /\ plain x.1).
Proof.
  intros Hops Hok Hk. apply ip_after with (rops := rops) (body := fun q => ip_get_key q k)
    (Q := fun x _ => exists res, match r with Some q => nlongest (iver rops ver) q res | None => res = None end /\ x = match res with Some v => (v, true) | None => (VNil, false) end /\ plain x.1); [done..|].
  intros h1 q Hq. rewrite get_key_eq. eapply wp_mono; [apply (ip_get_at h1 ∅ _ _ _ r Hq); by apply key_isnet|].
  cbn beta. intros x h' _ (_ & res & -> & Hres). exists res. split; [done|]. split; [done|].
  pose proof (ver_plain _ _ ver Hops Hok) as Hp. destruct res as [v|]; [|done]. cbn [ret_of fst]. destruct r as [q'|]; [|done]. destruct Hres as (p & Hg & _). by eapply Hp.
Qed.
Lemma ip_pf_enumerate h ops rops ver : Forall2 iresolves ops rops -> Forall iop_ok ops ->
  wp (r <- run_hist ip_exec ops [] ;; ip_enumerate (nth ver r.1 None)) h ∅ (fun e h' _ => h ⊆ h' /\ nenumerates (iver rops ver) e).
Proof.
  intros Hops Hok. apply ip_after with (rops := rops) (body := fun q => ip_enumerate q) (Q := fun e _ => nenumerates (iver rops ver) e); [done..|].
  intros h1 q Hq. eapply wp_mono; [apply (ip_enumerate_at h1 ∅ _ _ Hq)|]. cbn beta. intros e h' _ [_ He]. by apply enum_of_log.
Qed.
Lemma ienum_at h t l WS : itree h t (ilog_get l) -> wp (ip_enumerate t) h WS (fun e h' _ => h' = h /\ nenumerates l e).
Proof. intros Ht. eapply wp_mono; [apply (ip_enumerate_at h WS _ _ Ht)|]. cbn beta. intros e h' _ [-> He]. split; [done|]. by apply enum_of_log. Qed.
Lemma ip_pf_insert h ops rops ver k r v : Forall2 iresolves ops rops -> Forall iop_ok ops -> ikey_is k r -> plain v ->
  wp (x <- run_hist ip_exec ops [] ;; n <- ip_insert_key (nth ver x.1 None) k v ;;
      e <- ip_enumerate (nth ver x.1 None) ;; e' <- ip_enumerate n ;; Ret (e, e')) h ∅
    (fun x h' _ => h ⊆ h' /\ nenumerates (iver rops ver) x.1 /\ nenumerates (ins_log r v (iver rops ver)) x.2).
Proof.
  intros Hops Hok Hk Hv. apply ip_after with (rops := rops) (body := fun q => n <- ip_insert_key q k v ;; e <- ip_enumerate q ;; e' <- ip_enumerate n ;; Ret (e, e'))
    (Q := fun x _ => nenumerates (iver rops ver) x.1 /\ nenumerates (ins_log r v (iver rops ver)) x.2); [done..|].
  intros h1 q Hq. apply wp_bind. rewrite insert_key_eq. eapply wp_mono; [apply wp_cow0, (ip_insert_at h1 _ _ _ r v Hq Hv); by apply key_isnet|].
  cbn beta. intros n h2 W2 [Hs Hn]. apply wp_bind. eapply wp_mono; [apply ienum_at; by eapply itree_mono|]. cbn beta. intros e ? W3 [-> He].
  apply wp_bind. eapply wp_mono; [apply (ienum_at _ _ (ins_log r v (iver rops ver))); eapply itree_ext; [|exact Hn]; intros; apply ins_log_upd|]. cbn beta. intros e' ? W4 [-> He']. cbn [wp fst snd]. done.
Qed.
Lemma ip_pf_delete h ops rops ver k r : Forall2 iresolves ops rops -> Forall iop_ok ops -> ikey_is k r ->
  wp (x <- run_hist ip_exec ops [] ;; n <- ip_delete_key (nth ver x.1 None) k ;;
      e <- ip_enumerate (nth ver x.1 None) ;; e' <- ip_enumerate n.1 ;; Ret (n.2, e, e')) h ∅
    (fun x h' _ => h ⊆ h' /\ let '(b, e, e') := x in
      (b = true <-> exists p q v, r = Some p /\ ncovers p q /\ ilog_get (iver rops ver) q = Some v) /\
      nenumerates (iver rops ver) e /\ nenumerates (del_log r (iver rops ver)) e').
Proof.
  intros Hops Hok Hk. apply ip_after with (rops := rops) (body := fun q => n <- ip_delete_key q k ;; e <- ip_enumerate q ;; e' <- ip_enumerate n.1 ;; Ret (n.2, e, e'))
    (Q := fun x _ => let '(b, e, e') := x in
      (b = true <-> exists p q v, r = Some p /\ ncovers p q /\ ilog_get (iver rops ver) q = Some v) /\
      nenumerates (iver rops ver) e /\ nenumerates (del_log r (iver rops ver)) e'); [done..|].
  intros h1 q Hq. apply wp_bind. rewrite delete_key_eq.
  eapply wp_mono; [apply (wp_cow0 _ _ (fun x h' => itree h' x.1 (g_upd r g_del (ilog_get (iver rops ver))) /\ (x.2 = true <-> exists p q v, r = Some p /\ ncovers p q /\ ilog_get (iver rops ver) q = Some v))), (ip_delete_at h1 _ _ _ r Hq); by apply key_isnet|].
  cbn beta. intros [n b] h2 W2 (Hs & Hn & Hb). cbn [fst snd] in *. apply wp_bind. eapply wp_mono; [apply ienum_at; by eapply itree_mono|]. cbn beta. intros e ? W3 [-> He].
  apply wp_bind. eapply wp_mono; [apply (ienum_at _ _ (del_log r (iver rops ver))); eapply itree_ext; [|exact Hn]; intros; apply del_log_upd|]. cbn beta. intros e' ? W4 [-> He']. cbn [wp fst snd]. done.
Qed.
Lemma ip_pf_nowrite h ops rops : Forall2 iresolves ops rops -> Forall iop_ok ops ->
  wp (run_hist ip_exec ops []) h ∅ (fun r h1 _ => forall ver k v, plain v ->
    wp (ip_insert_key (nth ver r.1 None) k v) h1 ∅ (fun _ h2 _ => h1 ⊆ h2) /\
    wp (ip_delete_key (nth ver r.1 None) k) h1 ∅ (fun _ h2 _ => h1 ⊆ h2) /\
    wp (ip_get_key (nth ver r.1 None) k) h1 ∅ (fun _ h2 _ => h1 = h2) /\
    wp (ip_enumerate (nth ver r.1 None)) h1 ∅ (fun _ h2 _ => h1 = h2)).
Proof.
  intros Hops Hok. eapply wp_mono; [by apply ip_history|]. cbn beta. intros r h1 _ (_ & _ & H) ver k v Hv. specialize (H ver). destruct (ikey_total k) as [q Hq].
  apply key_isnet in Hq. rewrite insert_key_eq, delete_key_eq, get_key_eq. split_and!.
  - eapply wp_mono; [apply wp_cow0, (ip_insert_at h1 _ _ _ q v H Hv Hq)|]. cbn beta. tauto.
  - eapply wp_mono; [apply (wp_cow0 _ _ (fun _ _ => True)); eapply wp_mono; [apply (ip_delete_at h1 _ _ _ q H Hq)|done]|]. cbn beta. tauto.
  - eapply wp_mono; [apply (ip_get_at h1 ∅ _ _ _ q H Hq)|]. cbn beta. intros ? ? ? [-> _]. done.
  - eapply wp_mono; [apply (ienum_at h1 _ _ ∅ H)|]. cbn beta. intros ? ? ? [-> _]. done.
Qed.

(** ** Malformed networks. *)
Definition is_tree h (t : ptr) : Prop := t = None \/ exists a r4 r6, t = Some a /\ h !! a = Some (CIp r4 r6).
Definition ignored h (t : ptr) (k : ikey) (v : value) : Prop :=
  wp (ip_insert_key t k v) h ∅ (fun x h' _ => x = t /\ h' = h) /\
  wp (ip_inplace_key t k v) h ∅ (fun _ h' _ => h' = h) /\
  wp (ip_get_key t k) h ∅ (fun x h' _ => x = (VNil, false) /\ h' = h) /\
  wp (ip_delete_key t k) h ∅ (fun x h' _ => x = (t, false) /\ h' = h).
Lemma ip_pf_ignored h t k v : is_tree h t -> ikey_is k None -> ignored h t k v.
Proof.
  intros Ht Hk. apply key_isnet in Hk. unfold ignored. rewrite insert_key_eq, inplace_key_eq, delete_key_eq, get_key_eq. generalize dependent (key_net k). clear k. intros n Hn. cbn [isnet] in Hn.
  assert (Hr : forall A (m : ptr * ptr -> prog U A) Q, (forall r, wp (m r) h ∅ Q) -> t <> None -> wp (r <- ld_ip t ;; m r) h ∅ Q).
  { intros A m Q H Hne. destruct Ht as [->|(a & r4 & r6 & -> & Ha)]; [done|]. apply wp_bind. eapply wp_ld_ip; [exact Ha|]. apply H. }
  destruct n as [n|]; [|by destruct t]. unfold ip_insert_net, ip_inplace_insert_net, ip_get_net, ip_delete_net.
  pose proof (ip4_key_spec n) as K4. destruct (ip4_key n) as [[key b]|]; [destruct K4 as [K4 _]; by apply Hn in K4|].
  pose proof (ip6_key_spec n) as K6. destruct (ip6_key n) as [[[[hk hb] lk] lb]|]; [destruct K6 as (q & K6 & _); by apply Hn in K6|].
  split_and!; try done; destruct t as [a|]; try done; apply Hr; try done; intros r; done.
Qed.
Lemma itree_is_tree h t G : itree h t G -> is_tree h t.
Proof. intros H. destruct t as [a|]; [|by left]. right. destruct H as (r4 & r6 & ? & ? & ? & _). by exists a, r4, r6. Qed.
Lemma ip_pf_ignored_hist h ops rops : Forall2 iresolves ops rops -> Forall iop_ok ops ->
  wp (run_hist ip_exec ops []) h ∅ (fun r h1 _ => forall ver k v, ikey_is k None -> ignored h1 (nth ver r.1 None) k v).
Proof.
  intros Hops Hok. eapply wp_mono; [by apply ip_history|]. cbn beta. intros r h1 _ (_ & _ & H) ver k v Hk. specialize (H ver). apply ip_pf_ignored; [|done]. by eapply itree_is_tree.
Qed.
Lemma ip_pf_malformed n : (exists q, net_is n q) <->
  exists ip m ones, n = Some (ip, m) /\ length ip = length m /\ (length ip = 4%nat \/ length ip = 16%nat) /\ is_mask m ones.
Proof.
  split.
  - intros [q Hq]. destruct Hq as [ip m n H1 H2 H3|ip m n H1 H2 H3]; exists ip, m, n; (split_and!; [done|congruence|auto|done]).
  - intros (ip & m & ones & -> & H1 & [H2|H2] & H3); rewrite H2 in H1.
    + exists (false, norm 32 (be ip) ones). by apply net_is4.
    + exists (true, norm 128 (be ip) ones). by apply net_is6.
Qed.

(** ** Addresses. *)
Lemma to4_mapped ip : length ip = 4%nat -> net_of_ip (repeat x00 10 ++ [xff; xff] ++ ip) = net_of_ip ip.
Proof. intros H. destruct ip as [|a [|b [|c [|d [|]]]]]; done. Qed.
Lemma ip_pf_mapped ip : length ip = 4%nat -> forall t (v : value),
  ip_insert_ip t (repeat x00 10 ++ [xff; xff] ++ ip) v = ip_insert_ip t ip v /\
  ip_inplace_insert_ip t (repeat x00 10 ++ [xff; xff] ++ ip) v = ip_inplace_insert_ip t ip v /\
  ip_get_ip (U := U) t (repeat x00 10 ++ [xff; xff] ++ ip) = ip_get_ip t ip /\
  ip_delete_ip (U := U) t (repeat x00 10 ++ [xff; xff] ++ ip) = ip_delete_ip t ip.
Proof. intros H t v. unfold ip_insert_ip, ip_inplace_insert_ip, ip_get_ip, ip_delete_ip. by rewrite to4_mapped. Qed.
Lemma ip_pf_bad_addr ip : ikey_is (KAddr ip) None <-> length ip <> 4%nat /\ length ip <> 16%nat.
Proof.
  split.
  - intros H. inversion H as [| | |? Hn]; subst. pose proof (net_of_ip_spec ip) as Hs. split; intros E.
    + by apply (Hn _ (addr_is4 ip E)).
    + destruct (net_of_ip ip) eqn:E1; [destruct Hs as (q & _ & Hq); by apply Hn in Hq|]. unfold net_of_ip, to4, to16 in E1. rewrite E in E1.
      change (16 =? 4)%nat with false in E1. change (16 =? 16)%nat with true in E1. cbn [andb] in E1. destruct ip as [|b ip]; [done|].
      destruct (bytes_eq _ _); [|done]. by destruct (drop 12 (b :: ip)).
  - intros [H4 H6]. constructor. intros q Hq. inversion Hq; subst; try done.
    rewrite !app_length, repeat_length in H6. cbn [length] in H6. lia.
Qed.
(** Every address of 4 or 16 bytes is stored as one network of full length. *)
Lemma ip_pf_addr ip : length ip = 4%nat \/ length ip = 16%nat -> exists q, ikey_is (KAddr ip) (Some q) /\ q.2.1 = width q.1 /\
  (q.1 = false <-> length ip = 4%nat \/ mapped ip).
Proof.
  intros Hl. assert (Ha : exists q, addr_is ip q).
  { destruct (ikey_total (KAddr ip)) as [[q|] Hq]; [inversion Hq; subst; by exists q|]. apply ip_pf_bad_addr in Hq. tauto. }
  destruct Ha as [q Ha]. exists q. split; [by constructor|]. destruct Ha as [ip H4|ip H4|ip H6 Hm]; cbn [fst snd width]; (split; [done|]).
  - split; [by left|done].
  - split; [|done]. intros _. right. by exists ip.
  - split; [done|]. intros [E|E]; [lia|done].
Qed.

(** ** In-place insertion. *)
(** Any version that is not nil, if the caller may write everything. *)
Lemma ip_pf_inplace_any h ops rops : Forall2 iresolves ops rops -> Forall iop_ok ops ->
  wp (run_hist ip_exec ops []) h ∅ (fun r h1 _ => forall ver k q v, nth ver r.1 None <> None -> ikey_is k q -> plain v ->
    wp (ip_inplace_key (nth ver r.1 None) k v ;;; ip_enumerate (nth ver r.1 None)) h1 (dom h1) (fun e _ _ => nenumerates (ins_log q v (iver rops ver)) e)).
Proof.
  intros Hops Hok. eapply wp_mono; [by apply ip_history|]. cbn beta. intros r h1 _ (_ & _ & H) ver k q v Hn Hk Hv. specialize (H ver).
  destruct (nth ver r.1 None) as [a|]; [|done]. apply itree_own in H as (F & Ho & HF).
  apply wp_bind. rewrite inplace_key_eq. eapply wp_mono; [apply (ip_inplace_at h1 _ _ _ F _ q v Ho HF Hv); by apply key_isnet|].
  cbn beta. intros _ h2 W2 (F' & Ho' & _). eapply wp_mono; [apply ienum_at; eapply itree_ext; [|by eapply iown_itree]; intros; apply ins_log_upd|]. cbn beta. tauto.
Qed.
(** A tree that its creator has not shared. *)
Lemma ip_pf_inplace h ops rops items items' ver k q v : Forall2 iresolves ops rops -> Forall iop_ok ops ->
  Forall2 (fun x y => ikey_is x.1 y.1 /\ x.2 = y.2) items items' -> Forall (fun x => plain x.2) items -> ikey_is k q -> plain v ->
  wp (r <- run_hist ip_exec ops [] ;;
      t1 <- ip_new ;; ip_fill t1 items ;;; ip_inplace_key t1 k v ;;; e1 <- ip_enumerate t1 ;;
      t2 <- ip_new ;; ip_fill t2 items ;;; t3 <- ip_insert_key t2 k v ;; e2 <- ip_enumerate t3 ;;
      e <- ip_enumerate (nth ver r.1 None) ;; Ret (e1, e2, e)) h ∅
    (fun x h' _ => h ⊆ h' /\ let '(e1, e2, e) := x in e1 = e2 /\ nenumerates (ins_log q v (build_log items' [])) e1 /\ nenumerates (iver rops ver) e).
Proof.
  intros Hops Hok Hi Hp Hk Hv. apply ip_after with (rops := rops) (body := fun t => t1 <- ip_new ;; ip_fill t1 items ;;; ip_inplace_key t1 k v ;;; e1 <- ip_enumerate t1 ;;
      t2 <- ip_new ;; ip_fill t2 items ;;; t3 <- ip_insert_key t2 k v ;; e2 <- ip_enumerate t3 ;;
      e <- ip_enumerate t ;; Ret (e1, e2, e))
    (Q := fun x _ => let '(e1, e2, e) := x in e1 = e2 /\ nenumerates (ins_log q v (build_log items' [])) e1 /\ nenumerates (iver rops ver) e); [done..|].
  intros h1 t Ht.
  (* the first tree *)
  assert (Hw : wp (t1 <- ip_new ;; ip_fill t1 items ;;; ip_inplace_key t1 k v ;;; Ret t1) h1 ∅ (fun t1 h' _ => itree h' t1 (ilog_get (ins_log q v (build_log items' []))))).
  { apply wp_bind. eapply wp_mono; [apply iown_new|]. cbn beta. intros t1 h2 W2 (F2 & Ho2 & HF2).
    apply wp_bind. eapply wp_mono; [apply (ip_fill_at _ _ Hi Hp h2 W2 t1 [] F2 Ho2 HF2)|]. cbn beta. intros _ h3 W3 (F3 & Ho3 & HF3).
    apply wp_bind. rewrite inplace_key_eq. eapply wp_mono; [apply (ip_inplace_at h3 W3 t1 _ F3 _ q v Ho3 HF3 Hv); by apply key_isnet|]. cbn beta. intros _ h4 W4 (F4 & Ho4 & _). cbn [wp].
    eapply itree_ext; [|by eapply iown_itree]. intros. apply ins_log_upd. }
  apply wp_cow0 in Hw. apply wp_bind_inv in Hw. apply wp_bind. eapply wp_mono; [exact Hw|]. clear Hw. cbn beta. intros t1 h2 W2 Hw.
  apply wp_bind_inv in Hw. apply wp_bind. eapply wp_mono; [exact Hw|]. clear Hw. cbn beta. intros _ h3 W3 Hw.
  apply wp_bind_inv in Hw. apply wp_bind. eapply wp_mono; [exact Hw|]. clear Hw. cbn beta. intros _ h4 W4 Hw. cbn [wp] in Hw. destruct Hw as [Hs4 H1].
  apply wp_bind. eapply wp_mono; [apply (ienum_at _ _ _ _ H1)|]. cbn beta. intros e1 ? W5 [-> He1].
  (* the second tree *)
  assert (Hw : wp (n <- ip_new ;; ip_fill n items ;;; Ret n) h4 ∅ (fun t2 h' _ => itree h' t2 (ilog_get (build_log items' [])))).
  { eapply wp_mono; [by apply (ip_build_wp h4 items items')|]. cbn beta. intros t2 h' _ (F & Ho & _). by eapply iown_itree. }
  apply (wp_cow _ _ W5) in Hw. apply wp_bind_inv in Hw. apply wp_bind. eapply wp_mono; [exact Hw|]. clear Hw. cbn beta. intros t2 h5 W6 Hw.
  apply wp_bind_inv in Hw. apply wp_bind. eapply wp_mono; [exact Hw|]. clear Hw. cbn beta. intros _ h6 W7 Hw. cbn [wp] in Hw. destruct Hw as (H2 & Hs6 & _).
  apply wp_bind. rewrite insert_key_eq. eapply wp_mono; [apply (wp_cow _ _ W7 (fun t' h' => itree h' t' (ilog_get (ins_log q v (build_log items' []))))); eapply wp_mono; [apply (ip_insert_at h6 _ _ _ q v H2 Hv); by apply key_isnet|]|].
  { cbn beta. intros t' h' _ H'. eapply itree_ext; [|exact H']. intros. apply ins_log_upd. }
  cbn beta. intros t3 h7 W8 (H3 & Hs7 & _). apply wp_bind. eapply wp_mono; [apply (ienum_at _ _ _ _ H3)|]. cbn beta. intros e2 ? W9 [-> He2].
  apply wp_bind. eapply wp_mono; [apply (ienum_at h7 t (iver rops ver)); eapply itree_mono; [|exact Ht]; etrans; [exact Hs4|]; etrans; [exact Hs6|exact Hs7]|].
  cbn beta. intros e ? W10 [-> He]. cbn [wp]. split_and!; [|done|done]. by eapply nenum_unique.
Qed.
End pf.

(** ** Helpers for examples. *)
Lemma no_net n : ip4_key n = None -> ip6_key n = None -> ikey_is (KNet (Some n)) None.
Proof.
  intros H4 H6. constructor. intros q Hq. pose proof (ip4_key_spec n) as K4. rewrite H4 in K4. pose proof (ip6_key_spec n) as K6. rewrite H6 in K6.
  destruct q as [[] q]; [by apply K6 in Hq|by apply K4 in Hq].
Qed.
Lemma a_net4 ip m n q : length ip = 4%nat -> length m = 4%nat -> (n <=? 8 * nlen m) && (be m =? (2 ^ n - 1) * 2 ^ (8 * nlen m - n)) = true -> q = (false, norm 32 (be ip) n) -> ikey_is (KNet (Some (ip, m))) (Some q).
Proof. intros H1 H2 H3 ->. constructor. apply andb_true_iff in H3 as [H3 H4]. apply N.leb_le in H3. apply N.eqb_eq in H4. by apply net_is4. Qed.
Lemma a_net6 ip m n q : length ip = 16%nat -> length m = 16%nat -> (n <=? 8 * nlen m) && (be m =? (2 ^ n - 1) * 2 ^ (8 * nlen m - n)) = true -> q = (true, norm 128 (be ip) n) -> ikey_is (KNet (Some (ip, m))) (Some q).
Proof. intros H1 H2 H3 ->. constructor. apply andb_true_iff in H3 as [H3 H4]. apply N.leb_le in H3. apply N.eqb_eq in H4. by apply net_is6. Qed.
Lemma an_addr6 ip q : length ip = 16%nat -> bytes_eq (firstn 12 ip) v4_in_v6 = false -> q = (true, (128, be ip)) -> ikey_is (KAddr ip) (Some q).
Proof. intros H1 H2 ->. constructor. apply addr_is6; [done|]. intros (ip4 & _ & ->). by vm_compute in H2. Qed.
