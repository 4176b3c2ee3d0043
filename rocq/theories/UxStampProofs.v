(** * Proofs for Properties_ux_stamp.v *)
From Verif Require Import Prog History NumModel NumSpec NumAbs NumFoot NumBits NumNavSpec NumNavProofs NumShare IpModel IpSpec IpBits IpAbs IpAbs2 IpAbs3 IpAbs4 IpEnum IpHist IpPropProofs IpUpd3 WorkProofs.
From Verif Require Import IpKinds IpKinds2 IpKinds3 IpVersSpec IpVersProofs UxModel UxSpec UxAbs UxAbs2 UxAbs3 UxEnum UxHist UxKinds UxKinds2 UxVersProofs.
From Verif Require Import StampSpec StampProofs StampTree IpStampSpec IpStamp IpStamp2 IpStamp3 IpStampProofs UxStampSpec UxStamp UxStamp2 UxStamp3.
From Coq Require Import ZifyBool ZifyNat ZifyN.
Open Scope nat_scope.

Section hist.
Context {U : Type}.
Local Notation heap := (heap U).
Local Notation value := (value U).
Local Notation kinds := (kd -> gset loc).
Local Notation ver := (ver U).
Local Notation ver0 := (ver0 U).
Local Notation xver := (xver U).
Local Notation xver0 := (xver0 U).
Local Notation put := IpStampSpec.put.
Implicit Types (h : heap) (L : kinds) (K : loc -> nat) (n : nat) (v : value).

Global Instance xreached_dec (g1 g2 : xver) p : Decision (xreached g1 g2 p).
Proof. unfold xreached. destruct p.1; apply _. Defined.

Definition xhinv h n (vs : list ptr) (gs : list xver) : Prop := exists L K, linv h L K n /\ Forall2 (xrel h L K) vs gs.
Lemma xrel_nth h L K vs gs i : Forall2 (xrel h L K) vs gs -> xrel h L K (nth i vs None) (nth i gs xver0).
Proof. intros H. revert i. induction H as [|t g vs gs Ht H IH]; intros [|i]; cbn [nth]; [done|done|done|apply IH]. Qed.
Lemma xhinv_snoc h L K n vs gs t g h' : Forall2 (xrel h L K) vs gs -> xpost h L K n t g h' -> xhinv h' (S n) (vs ++ [t]) (gs ++ [g]).
Proof.
  intros HR (L' & K' & A1 & A2 & A3). exists L', K'. split; [done|]. apply Forall2_app; [|by constructor]. eapply Forall2_impl; [exact HR|]. intros t2 g2. by apply xrel_moves.
Qed.
Lemma x_exec_exact h (WS : gset loc) n vs gs o : dom h ⊆ WS -> xhinv h n vs gs -> wop_ok o -> single o ->
  wp (x_exec vs o) h WS (fun r h' WS' => dom h' ⊆ WS' /\ exists gs', ustep n gs o gs' r.2 /\ xhinv h' (S n) r.1 gs').
Proof.
  intros HWS (L & K & HI & HR) Hok Hsin.
  assert (Hw : wp (x_exec vs o) h WS (fun r h' _ => exists gs', ustep n gs o gs' r.2 /\ xhinv h' (S n) r.1 gs')).
  2: { eapply wp_mono; [apply (wp_dom (St := unit) (fun _ _ => True)); [exact HWS|exact Hw]|]. cbn beta. by intros r h' W' [H1 H2]. }
  pose proof HI as (HG & HK & HRL). assert (Hnext : xhinv h (S n) vs gs) by (exists L, K; split; [by apply linv_next|done]).
  destruct o as [o|i k v]; cbn [x_exec wop_ok single] in *.
  - destruct o as [items|i k v|i k|i k|i]; cbn [ux_exec iop_ok] in *.
    + subst items. apply wp_bind. unfold ip_new. apply wp_bind, wp_alloc. intros a Ha. cbn [wp bind ux_fill fst snd]. exists (gs ++ [XVer (Some n) ver0 ver0 (fun _ => ver0)]). split; [constructor|].
      apply (xhinv_snoc h L K); [done|]. apply (xpost_alloc h L K n h L K); [done|apply moves_refl|done|by apply klab_next|done|by apply xparts_nil|done|]. done.
    + destruct (ikey_total k) as [r Hr]. apply wp_bind. rewrite ux_insert_key_eq. eapply wp_mono; [apply (x_insert h L K n WS _ (nth i gs xver0) _ r v); [done|by apply xrel_nth|done|by apply key_isnet]|].
      cbn beta. intros t h1 W1 Hp. cbn [wp fst snd]. destruct r as [p|]; eexists; (split; [by econstructor|by eapply xhinv_snoc]).
    + destruct (ikey_total k) as [r Hr]. apply wp_bind. rewrite ux_delete_key_eq. eapply wp_mono; [apply (x_delete h L K n WS _ (nth i gs xver0) _ r); [done|by apply xrel_nth|by apply key_isnet]|].
      cbn beta. intros [t b] h1 W1 [Hp Hb]. cbn [wp fst snd] in *. destruct b.
      * destruct (proj1 Hb eq_refl) as (p & q & v & -> & H0 & H1 & H2). eexists. split; [apply (us_delete n gs i k p); [done|done|by exists q, v]|by eapply xhinv_snoc].
      * exists (gs ++ [nth i gs xver0]). split; [|eapply xhinv_snoc; [done|by destruct r]]. apply (us_delete_not n gs i k r); [done|]. intros p q v -> H0 H1 H2. assert (false = true) by (apply Hb; by exists p, q, v). done.
    + destruct (ikey_total k) as [r Hr]. apply wp_bind. rewrite ux_get_key_eq. eapply wp_mono; [apply (ux_get_at h WS _ (xholds (nth i gs xver0)) _ r); [eapply ukitree_utree, xrel_ukitree; [done|done|by apply xrel_nth]|by apply key_isnet]|].
      cbn beta. intros x h1 W1 (-> & res & -> & Hres). cbn [wp fst snd]. exists gs. split; [|done]. rewrite ival_ret. destruct r as [p|]; [by econstructor|]. subst res. by constructor.
    + apply wp_bind. eapply wp_mono; [apply (ux_enumerate_at h WS _ (xholds (nth i gs xver0))); eapply ukitree_utree, xrel_ukitree; [done|done|by apply xrel_nth]|].
      cbn beta. intros e h1 W1 (-> & He). cbn [wp fst snd]. exists gs. split; [|done]. constructor. exact He.
  - pose proof (xrel_nth _ _ _ _ _ i HR) as Ht. destruct (nth i vs None) as [a|].
    2: { cbn [wp fst snd]. exists gs. split; [|done]. apply us_inplace_not. right. apply Ht. }
    destruct (ikey_total k) as [r Hr]. apply wp_bind. rewrite ux_inplace_key_eq. eapply wp_mono; [apply (x_inplace h L K n WS a (nth i gs xver0) _ r v); [done|done|done|done|by apply key_isnet]|].
    cbn beta. intros _ h1 W1 Hp. cbn [wp fst snd]. destruct r as [p|]; [|subst h1; exists gs; split; [apply us_inplace_not; by left|done]].
    destruct Hp as (L' & K' & A1 & A2). destruct (pick2 _ (xrel h1 L' K') (fun g g' => (xreached (nth i gs xver0) g p -> g' = xaffected n g p v) /\ (~ xreached (nth i gs xver0) g p -> g' = g)) _ _ HR) as (gs' & B1 & B2).
    { intros t2 g2 H2. destruct (A2 t2 g2 H2) as [C1 C2]. destruct (decide (xreached (nth i gs xver0) g2 p)) as [D|D]; [exists (xaffected n g2 p v)|exists g2]; split; auto; by split. }
    exists gs'. split; [|by exists L', K']. econstructor; [exact Hr| |exact B2]. destruct Ht as (_ & -> & _). done.
Qed.
Lemma x_hist_exact ops : forall h (WS : gset loc) n vs gs, dom h ⊆ WS -> xhinv h n vs gs -> Forall wop_ok ops -> Forall single ops ->
  wp (run_hist x_exec ops vs) h WS (fun r _ _ => exists gs', urun n ops gs gs' r.2).
Proof.
  induction ops as [|o ops IH]; intros h WS n vs gs HWS HI Hok Hs; cbn [run_hist].
  - cbn [wp snd]. by exists gs.
  - inversion Hok as [|? ? Ho Hops]; subst. inversion Hs as [|? ? Hs1 Hs2]; subst. apply wp_bind. eapply wp_mono; [by apply (x_exec_exact h WS n vs gs o)|]. cbn beta. intros r h1 W1 (D & gs1 & A1 & A2).
    apply wp_bind. eapply wp_mono; [by apply (IH h1 W1 (S n) r.1 gs1)|]. cbn beta. intros r2 h2 W2 (gs' & B). cbn [wp snd]. exists gs'. cbn [urun]. by exists gs1.
Qed.
Lemma pf_ux_exact h (ops : list (wop value)) : Forall wop_ok ops -> Forall single ops ->
  wp (run_hist x_exec ops []) h ∅ (fun r h' _ => h ⊆ h' /\ exists gs, urun 1 ops [] gs r.2).
Proof.
  intros Hok Hs. assert (Hw := x_hist_exact ops ∅ ∅ 1 [] [] ltac:(by rewrite dom_empty_L)).
  assert (H0 : xhinv ∅ 1 [] []).
  { exists (fun _ => ∅), (fun _ => 0). split; [|constructor]. split_and!.
    - split; [intros i; apply empty_subseteq|intros i j Hij; set_solver].
    - intros i Hi. split_and!; [apply empty_subseteq| |].
      + intros a Ha. by apply not_elem_of_empty in Ha.
      + intros a a' X Ha. by apply not_elem_of_empty in Ha.
    - split; intros a; intros; set_solver. }
  specialize (Hw H0 Hok Hs).
  eapply wp_mono; [apply (wp_part _ ∅ h ∅ ∅ _ (map_empty_subseteq h) (reflexivity _) Hw)|]. cbn beta. intros r h' _ (hp & W1 & _ & H & H3). split; [|done].
  apply map_subseteq_spec. intros l x Hl. destruct (H3 l) as [_ E2]; [by eapply elem_of_dom_2|by rewrite dom_empty_L; apply not_elem_of_empty|]. by rewrite E2.
Qed.

(** ** The specification leaves no choice. *)
Lemma ustep_inplace n (gs : list xver) i k v gs' x : ustep n gs (WInplace i k v) gs' x -> x = IONone /\
  ((exists p, ikey_is k (Some p) /\ xobj (nth i gs xver0) <> None /\
      Forall2 (fun g g' => (xreached (nth i gs xver0) g p -> g' = xaffected n g p v) /\ (~ xreached (nth i gs xver0) g p -> g' = g)) gs gs') \/
   ((ikey_is k None \/ xobj (nth i gs xver0) = None) /\ gs' = gs)).
Proof. inversion 1; subst; (split; [done|]); [left; by eexists|by right]. Qed.
Lemma ustep_delete n (gs : list xver) i k gs' x : ustep n gs (WCall (IDelete i k)) gs' x -> exists r, ikey_is k r /\
  ((exists p q v, r = Some p /\ ~ xpassed (nth i gs xver0) p /\ ncovers p q /\ xholds (nth i gs xver0) q = Some v /\ gs' = gs ++ [xdeleted n (nth i gs xver0) p] /\ x = IOBool true) \/
   ((forall p q v, r = Some p -> ~ xpassed (nth i gs xver0) p -> ncovers p q -> xholds (nth i gs xver0) q <> Some v) /\ gs' = gs ++ [nth i gs xver0] /\ x = IOBool false)).
Proof.
  inversion 1 as [| | |? ? p Hk Hp (q & v & A & B)|? ? r Hk A| | | | |]; subst; [exists (Some p)|exists r]; (split; [done|]); [left; by exists p, q, v|by right].
Qed.
Lemma ustep_fun n (gs : list xver) o gs1 x1 gs2 x2 : ustep n gs o gs1 x1 -> ustep n gs o gs2 x2 -> gs1 = gs2 /\ x1 = x2.
Proof.
  intros H1 H2. destruct o as [[items|i k v|i k|i k|i]|i k v].
  - inversion H1; subst; inversion H2; subst; done.
  - inversion H1 as [|? ? ? p1 K1|? ? ? K1| | | | | | |]; subst; inversion H2 as [|? ? ? p2 K2|? ? ? K2| | | | | | |]; subst; pose proof (ikey_det _ _ _ K1 K2) as E; by inversion E.
  - apply ustep_delete in H1 as (r & K1 & H1), H2 as (r2 & K2 & H2). rewrite (ikey_det _ _ _ K2 K1) in H2. clear K1 K2 r2.
    destruct H1 as [(p & q & v & -> & A0 & A1 & A2 & -> & ->)|(A & -> & ->)], H2 as [(p' & q' & v' & E & B0 & B1 & B2 & -> & ->)|(B & -> & ->)]; [by injection E as ->|by destruct (B p q v)|by destruct (A p' q' v')|done].
  - inversion H1 as [| | | | |? ? p1 r1 K1 C1|? ? K1| | |]; subst; inversion H2 as [| | | | |? ? p2 r2 K2 C2|? ? K2| | |]; subst; pose proof (ikey_det _ _ _ K1 K2) as E; inversion E; subst; [|done]. split; [done|]. f_equal. by eapply closest_fun.
  - inversion H1 as [| | | | | | |? e1 L1| |]; subst; inversion H2 as [| | | | | | |? e2 L2| |]; subst. split; [done|]. f_equal. by eapply lists_fun.
  - apply ustep_inplace in H1 as (-> & H1), H2 as (-> & H2). split; [|done]. destruct H1 as [(p & K1 & O1 & F1)|[N1 ->]], H2 as [(p2 & K2 & O2 & F2)|[N2 ->]]; [| | |done].
    + pose proof (ikey_det _ _ _ K1 K2) as [= <-]. clear -F1 F2. generalize dependent (nth i gs xver0). intros g0 F1 F2. revert gs2 F2. induction F1 as [|g g' gs gs' [A B] F1 IH]; intros gs2 F2; inversion F2 as [|? g2 ? gs2' [C D] F2']; subst; [done|].
      f_equal; [|by apply IH]. destruct (decide (xreached g0 g p)) as [E|E]; [by rewrite A, C|by rewrite B, D].
    + exfalso. destruct N2 as [N2|N2]; [|done]. by pose proof (ikey_det _ _ _ K1 N2).
    + exfalso. destruct N1 as [N1|N1]; [|done]. by pose proof (ikey_det _ _ _ K2 N1).
Qed.
Lemma pf_ux_determined ops : forall n (gs : list xver) gs1 x1 gs2 x2, urun n ops gs gs1 x1 -> urun n ops gs gs2 x2 -> gs1 = gs2 /\ x1 = x2.
Proof.
  induction ops as [|o ops IH]; intros n gs gs1 [|y1 x1] gs2 [|y2 x2]; cbn [urun]; try done; [by intros -> ->|].
  intros (g1 & A1 & A2) (g2 & B1 & B2). destruct (ustep_fun _ _ _ _ _ _ _ A1 B1) as [-> ->]. destruct (IH _ _ _ _ _ _ A2 B2) as [-> ->]. done.
Qed.
Lemma pf_ux_results (ops : list (wop value)) : Forall wop_ok ops -> Forall single ops ->
  exists outs gs, urun 1 ops [] gs outs /\ forall h, wp (run_hist x_exec ops []) h ∅ (fun r _ _ => r.2 = outs).
Proof.
  intros Hok Hsin. pose proof (pf_ux_exact ∅ ops Hok Hsin) as Hw.
  eapply (wp_run _ _ _ _ 1%positive) in Hw; [|intros l _; apply lookup_empty].
  destruct Hw as (a & h' & next' & W' & _ & (_ & gs & Hs) & _). exists a.2, gs. split; [done|]. intros h.
  eapply wp_mono; [by apply (pf_ux_exact h ops)|]. cbn beta. intros r h2 _ (_ & gs2 & Hs2). by destruct (pf_ux_determined _ _ _ _ _ _ _ Hs Hs2).
Qed.

(** ** What the versions of the specification hold. *)
Lemma spot_place (p q : pfx) : spot p = spot q -> place p = place q -> p = q.
Proof. apply up_dn_inj. Qed.
Lemma pf_ux_holds_inserted n (g : xver) p v q : xholds (xinserted n g p v) q = if decide (p = q) then Some v else xholds g q.
Proof.
  destruct p as [[] p], q as [[] q]; unfold xinserted, xholds, at_spot; cbn [fst snd xfour xkeys xin].
  - destruct (decide (spot q = spot p)) as [E|E].
    + cbn [content remade]. rewrite put_holds, E. destruct (decide (place p = place q)) as [E2|E2]; [rewrite decide_True; [done|]; f_equal; by apply spot_place|]. rewrite decide_False; [done|]. by intros [= ->].
    + rewrite decide_False; [done|]. by intros [= ->].
  - by rewrite decide_False.
  - by rewrite decide_False.
  - cbn [content remade]. rewrite put_holds. destruct (decide (p = q)) as [->|Hn]; [by rewrite decide_True|by rewrite decide_False by congruence].
Qed.
Lemma pf_ux_holds_affected n (g : xver) p v q : xholds (xaffected n g p v) q = if decide (p = q) then Some v else xholds g q.
Proof. rewrite <- (pf_ux_holds_inserted n g p v q). unfold xaffected, xinserted, xholds. destruct p.1, q.1; try done. cbn [xin]. unfold at_spot. by destruct (decide _). Qed.
Lemma pf_ux_holds_deleted n (g : xver) p q : xholds (xdeleted n g p) q = if decide (ncovers p q) then None else xholds g q.
Proof.
  destruct p as [[] p], q as [[] q]; unfold xdeleted, xholds, at_spot, ncovers; cbn [fst snd].
  - destruct (N.lt_ge_cases p.1 64) as [Hp|Hp].
    + rewrite decide_True by (by left). cbn [xin]. rewrite (spot_up p), (proj1 (up_low p Hp)). rewrite spot_up. pose proof (cov_up_low p q Hp) as Hc.
      destruct (decide (covers p (up q))) as [C|C]; [rewrite decide_True by (by split; [|apply Hc]); done|]. rewrite decide_False; [done|]. intros [_ C']. by apply C, Hc.
    + pose proof (cov_up_high p q Hp) as Hc. rewrite <- !spot_up, <- !place_dn in Hc.
      destruct (decide _) as [E|E]; cbn [xin].
      * destruct E as [E|E]; [lia|]. destruct (decide (covers (spot p) (spot q))) as [C|C].
        -- assert (Es : spot p = spot q). { assert (Hlen : (spot p).1 = 64%N) by (rewrite spot_up, (proj1 (up_high p Hp)); done). pose proof (up_le q) as Hle. rewrite <- spot_up in Hle.
             eapply covers_same_len; [exact C|apply covers_refl|]. destruct C as [C _]. lia. }
           cbn [content StampSpec.ver0]. rewrite lookup_empty. destruct (decide (true = true /\ covers p q)) as [|Hn]; [done|]. cbn [fmap option_fmap option_map].
           assert (content (xin g (spot q)) !! place q = None) as ->; [|done]. assert (E2 : cut (content (xin g (spot p))) (place p) !! place q = None) by (rewrite E; apply lookup_empty).
           rewrite lookup_cut, Es in E2. destruct (decide _) as [C2|]; [|done]. exfalso. apply Hn. split; [done|]. by apply Hc.
        -- rewrite decide_False; [done|]. intros [_ C2]. apply Hc in C2 as [C2 _]. apply C. rewrite C2. apply covers_refl.
      * destruct (decide (spot q = spot p)) as [Es|Es].
        -- cbn [content remade]. rewrite cut_holds, Es. apply decide_ext. rewrite Hc. clear -Es. split; [intros H; by split|by intros (_ & _ & H)].
        -- rewrite decide_False; [done|]. intros [_ C2]. apply Hc in C2 as [C2 _]. done.
  - rewrite (decide_False (P := true = false /\ covers p q)) by (intros [H _]; discriminate H). by destruct (decide _).
  - by rewrite (decide_False (P := false = true /\ covers p q)) by (intros [H _]; discriminate H).
  - cbn [xfour content remade]. rewrite cut_holds. apply decide_ext. clear; tauto.
Qed.

(** ** A version and the one made from it. *)
Definition xobjs n (gs : list xver) : Prop := Forall (fun g => forall o, xobj g = Some o -> o < n) gs.
Lemma xobjs_nth n (gs : list xver) i o : xobjs n gs -> xobj (nth i gs xver0) = Some o -> o < n.
Proof.
  intros H. destruct (Nat.lt_ge_cases i (length gs)) as [Hi|Hi]; [|by rewrite nth_overflow]. unfold xobjs in H. rewrite Forall_forall in H. apply H. by apply elem_of_list_In, nth_In.
Qed.
Lemma xinserted_obj n (g : xver) p v : xobj (xinserted n g p v) = Some n.
Proof. unfold xinserted. by destruct p.1. Qed.
Lemma xdeleted_obj n (g : xver) p : xobj (xdeleted n g p) = Some n.
Proof. unfold xdeleted. destruct p.1; [by destruct (decide _)|done]. Qed.
Lemma ustep_objs n (gs : list xver) o gs' x : ustep n gs o gs' x -> xobjs n gs -> xobjs (S n) gs'.
Proof.
  intros H HF. assert (HS : xobjs (S n) gs) by (eapply Forall_impl; [exact HF|]; intros g Hg o' E; specialize (Hg o' E); lia).
  assert (Hn : forall i o', xobj (nth i gs xver0) = Some o' -> o' < S n) by (intros i o' E; pose proof (xobjs_nth _ _ _ _ HF E); lia).
  assert (Hsnoc : forall g : xver, (forall o', xobj g = Some o' -> o' < S n) -> xobjs (S n) (gs ++ [g])) by (intros g Hg; apply Forall_app; split; [done|by constructor]).
  inversion H as [|i k v p|i k v|i k p|i k|i k|i k|i|i k v p gs2 _ _ F|]; subst; try done; try (apply Hsnoc).
  - intros o' [= <-]. lia.
  - rewrite xinserted_obj. intros o' [= <-]. lia.
  - apply Hn.
  - rewrite xdeleted_obj. intros o' [= <-]. lia.
  - apply Hn.
  - clear -F HS. generalize dependent (nth i gs xver0). intros g0 F. unfold xobjs in *. induction F as [|g g' gs gs' [A B] F IH]; [constructor|]. inversion HS as [|? ? H1 H2]; subst. constructor; [|by apply IH].
    destruct (decide (xreached g0 g p)) as [E|E]; [by rewrite (A E), xaffected_obj|by rewrite (B E)].
Qed.
Lemma urun_objs ops : forall n (gs : list xver) gs' x, urun n ops gs gs' x -> xobjs n gs -> xobjs (n + length ops) gs'.
Proof.
  induction ops as [|o ops IH]; intros n gs gs' [|y x]; cbn [urun length]; try done; [intros ->; by rewrite Nat.add_0_r|].
  intros (g1 & A1 & A2) HF. rewrite Nat.add_succ_r, <- Nat.add_succ_l. eapply IH; [exact A2|]. by eapply ustep_objs.
Qed.
Lemma ux_two ops (gs gs' : list xver) outs outs' i k1 v1 k2 v2 p1 p2 : urun 1 ops [] gs outs -> i < length gs -> ikey_is k1 (Some p1) -> ikey_is k2 (Some p2) ->
  urun (S (length ops)) [WCall (IInsert i k1 v1); WInplace (length gs) k2 v2] gs gs' outs' ->
  let a := nth i gs xver0 in let b := xinserted (S (length ops)) a p1 v1 in
  (xnear b a p2 -> forall q, xholds (nth i gs' xver0) q = if decide (p2 = q) then Some v2 else xholds a q) /\
  (~ xnear b a p2 -> forall q, xholds (nth i gs' xver0) q = xholds a q).
Proof.
  intros Hrun Hi Hk1 Hk2 Hops a child. destruct outs' as [|y1 [|y2 [|? ?]]]; cbn [urun] in Hops; [done|by destruct Hops as (? & _ & [])| |by destruct Hops as (? & _ & ? & _ & [])].
  destruct Hops as (g1 & S1 & g2 & S2 & ->). pose proof (ustep_fun _ _ _ _ _ _ _ S1 (us_insert _ gs i k1 v1 _ Hk1)) as [-> _]. clear S1. fold a in S2. fold child in S2.
  assert (Hobj : xobj child = Some (S (length ops))) by apply xinserted_obj.
  assert (HF : xobjs (1 + length ops) gs) by (eapply urun_objs; [exact Hrun|constructor]).
  assert (Hc : nth (length gs) (gs ++ [child]) xver0 = child) by (rewrite app_nth2 by lia; by rewrite Nat.sub_diag).
  apply ustep_inplace in S2 as (_ & [(p & Hp & _ & F)|[[N|N] _]]); [|by pose proof (ikey_det _ _ _ Hk2 N)|rewrite Hc in N; congruence].
  pose proof (ikey_det _ _ _ Hp Hk2) as [= ->]. rewrite Hc in F. apply (nth_F2 _ _ _ xver0 xver0 i) in F; [|rewrite app_length; lia]. rewrite (app_nth1 gs _ xver0 Hi) in F. fold a in F. destruct F as [A B].
  assert (Hr : xreached child a p2 <-> xnear child a p2).
  { unfold xreached, xnear. split; [|by right]. intros [E|E]; [|done]. rewrite Hobj in E. apply (xobjs_nth _ _ _ _ HF) in E. lia. }
  split; intros H q; [rewrite A by (by apply Hr); apply pf_ux_holds_affected|rewrite B; [done|by rewrite Hr]].
Qed.
Lemma pf_ux_parent ops (gs gs' : list xver) outs outs' i k1 v1 k2 v2 q1 q2 : urun 1 ops [] gs outs -> i < length gs -> ikey_is k1 (Some (true, q1)) -> ikey_is k2 (Some (false, q2)) ->
  urun (S (length ops)) [WCall (IInsert i k1 v1); WInplace (length gs) k2 v2] gs gs' outs' ->
  let a := nth i gs xver0 in
  let around := exists X, lowest (content (xfour a)) q2 X in
  (around -> forall q, xholds (nth i gs' xver0) q = if decide ((false, q2) = q) then Some v2 else xholds a q) /\
  (~ around -> forall q, xholds (nth i gs' xver0) q = xholds a q).
Proof.
  intros Hrun Hi Hk1 Hk2 Hops a around. destruct (ux_two _ _ _ _ _ _ _ _ _ _ _ _ Hrun Hi Hk1 Hk2 Hops) as [A B]. fold a in A, B.
  assert (Hr : xnear (xinserted (S (length ops)) a (true, q1) v1) a (false, q2) <-> around).
  { unfold xnear. cbn [fst snd xinserted xfour]. split; [intros (X & HX & _); by exists X|]. intros [X HX]. exists X. split; [done|]. split; [apply HX|done]. }
  split; intros H; [apply A|apply B]; by rewrite Hr.
Qed.
(** Overwriting an IPv6 network that is stored. *)
Lemma pf_ux_overwrite ops (gs gs' : list xver) outs outs' i k1 v1 k2 v2 p1 q2 : urun 1 ops [] gs outs -> i < length gs -> ikey_is k1 (Some p1) -> ikey_is k2 (Some (true, q2)) ->
  urun (S (length ops)) [WCall (IInsert i k1 v1); WInplace (length gs) k2 v2] gs gs' outs' ->
  let a := nth i gs xver0 in
  (p1.1 = true -> spot p1.2 <> spot q2) -> xholds a (true, q2) <> None ->
  forall q, xholds (nth i gs' xver0) q = if decide ((true, q2) = q) then Some v2 else xholds a q.
Proof.
  intros Hrun Hi Hk1 Hk2 Hops a Hsp Hst. destruct (ux_two _ _ _ _ _ _ _ _ _ _ _ _ Hrun Hi Hk1 Hk2 Hops) as [A _]. fold a in A. apply A. clear A.
  assert (Hin : xin (xinserted (S (length ops)) a p1 v1) (spot q2) = xin a (spot q2)).
  { unfold xinserted. destruct p1 as [[] p1]; cbn [fst snd xin]; [|done]. unfold at_spot. rewrite decide_False; [done|]. intros E. by apply Hsp. }
  unfold xnear. cbn [fst snd]. right. rewrite Hin. unfold xholds in Hst. cbn [fst snd] in Hst.
  assert (Hb : branching (content (xin a (spot q2))) (place q2)). { left. destruct (content (xin a (spot q2)) !! place q2); [by eexists|done]. }
  exists (place q2). split; [|done]. split_and!; [done|apply covers_refl|done].
Qed.
End hist.
