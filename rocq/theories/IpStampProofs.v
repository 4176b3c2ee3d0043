(** * Proofs for Properties_ip_stamp.v *)
From Verif Require Import Prog History NumModel NumSpec NumAbs NumFoot NumBits NumNavSpec NumNavProofs NumShare IpModel IpSpec IpBits IpAbs IpAbs2 IpAbs3 IpAbs4 IpEnum IpHist IpPropProofs IpUpd3 WorkProofs.
From Verif Require Import StampSpec StampProofs StampTree IpKinds IpKinds2 IpKinds3 IpVersSpec IpVersProofs IpStampSpec IpStamp IpStamp2 IpStamp3.
From Coq Require Import ZifyBool ZifyNat ZifyN.
Open Scope nat_scope.

Section hist.
Context {U : Type}.
Local Notation heap := (heap U).
Local Notation value := (value U).
Local Notation kinds := (kd -> gset loc).
Local Notation ver := (ver U).
Local Notation ver0 := (ver0 U).
Local Notation iver := (iver U).
Local Notation iver0 := (iver0 U).
Implicit Types (h : heap) (L : kinds) (K : loc -> nat) (n : nat) (v : value).

Global Instance reached_dec (g1 g2 : iver) p : Decision (reached g1 g2 p).
Proof. unfold reached. destruct p.1; [destruct (p.2.1 <? 64)%N|]; apply _. Defined.

Definition hinv h n (vs : list ptr) (gs : list iver) : Prop := exists L K, linv h L K n /\ Forall2 (irel h L K) vs gs.
Lemma irel_nth h L K vs gs i : Forall2 (irel h L K) vs gs -> irel h L K (nth i vs None) (nth i gs iver0).
Proof. intros H. revert i. induction H as [|t g vs gs Ht H IH]; intros [|i]; cbn [nth]; [done|done|done|apply IH]. Qed.
Lemma linv_next h L K n : linv h L K n -> linv h L K (S n).
Proof. intros (A & B & C). split_and!; [done|by apply klab_next|by apply rlab_next]. Qed.
Lemma hinv_snoc h L K n vs gs t g h' : Forall2 (irel h L K) vs gs -> ipost h L K n t g h' -> hinv h' (S n) (vs ++ [t]) (gs ++ [g]).
Proof.
  intros HR (L' & K' & A1 & A2 & A3). exists L', K'. split; [done|]. apply Forall2_app; [|by constructor]. eapply Forall2_impl; [exact HR|]. intros t2 g2. by apply irel_moves.
Qed.
Lemma w_exec_exact h (WS : gset loc) n vs gs o : dom h ⊆ WS -> hinv h n vs gs -> wop_ok o -> single o ->
  wp (w_exec vs o) h WS (fun r h' WS' => dom h' ⊆ WS' /\ exists gs', istep n gs o gs' r.2 /\ hinv h' (S n) r.1 gs').
Proof.
  intros HWS (L & K & HI & HR) Hok Hsin.
  assert (Hw : wp (w_exec vs o) h WS (fun r h' _ => exists gs', istep n gs o gs' r.2 /\ hinv h' (S n) r.1 gs')).
  2: { eapply wp_mono; [apply (wp_dom (St := unit) (fun _ _ => True)); [exact HWS|exact Hw]|]. cbn beta. by intros r h' W' [H1 H2]. }
  pose proof HI as (HG & HK & HRL). assert (Hnext : hinv h (S n) vs gs) by (exists L, K; split; [by apply linv_next|done]).
  destruct o as [o|i k v]; cbn [w_exec wop_ok single] in *.
  - destruct o as [items|i k v|i k|i k|i]; cbn [ip_exec iop_ok] in *.
    + subst items. apply wp_bind. unfold ip_new. apply wp_bind, wp_alloc. intros a Ha. cbn [wp bind ip_fill fst snd]. exists (gs ++ [IVer (Some n) ver0 ver0 (fun _ => ver0)]). split; [constructor|].
      apply (hinv_snoc h L K); [done|]. apply (ipost_alloc h L K n h L K); [done|apply moves_refl|done|by apply klab_next|done|by apply parts_nil|done|]. done.
    + destruct (ikey_total k) as [r Hr]. apply wp_bind. rewrite insert_key_eq. eapply wp_mono; [apply (i_insert h L K n WS _ (nth i gs iver0) _ r v); [done|by apply irel_nth|done|by apply key_isnet]|].
      cbn beta. intros t h1 W1 Hp. cbn [wp fst snd]. destruct r as [p|]; eexists; (split; [by econstructor|by eapply hinv_snoc]).
    + destruct (ikey_total k) as [r Hr]. apply wp_bind. rewrite delete_key_eq. eapply wp_mono; [apply (i_delete h L K n WS _ (nth i gs iver0) _ r); [done|by apply irel_nth|by apply key_isnet]|].
      cbn beta. intros [t b] h1 W1 [Hp Hb]. cbn [wp fst snd] in *. destruct b.
      * destruct (proj1 Hb eq_refl) as (p & q & v & -> & H1 & H2). eexists. split; [apply (is_delete n gs i k p); [done|by exists q, v]|by eapply hinv_snoc].
      * exists (gs ++ [nth i gs iver0]). split; [|eapply hinv_snoc; [done|by destruct r]]. apply (is_delete_not n gs i k r); [done|]. intros p q v -> H1 H2. assert (false = true) by (apply Hb; by exists p, q, v). done.
    + destruct (ikey_total k) as [r Hr]. apply wp_bind. rewrite get_key_eq. eapply wp_mono; [apply (ip_get_at h WS _ (holds (nth i gs iver0)) _ r); [eapply kitree_itree, irel_kitree; [done|done|by apply irel_nth]|by apply key_isnet]|].
      cbn beta. intros x h1 W1 (-> & res & -> & Hres). cbn [wp fst snd]. exists gs. split; [|done]. rewrite ival_ret. destruct r as [p|]; [by econstructor|]. subst res. by constructor.
    + apply wp_bind. eapply wp_mono; [apply (ip_enumerate_at h WS _ (holds (nth i gs iver0))); eapply kitree_itree, irel_kitree; [done|done|by apply irel_nth]|].
      cbn beta. intros e h1 W1 (-> & He). cbn [wp fst snd]. exists gs. split; [|done]. constructor. exact He.
  - pose proof (irel_nth _ _ _ _ _ i HR) as Ht. destruct (nth i vs None) as [a|].
    2: { cbn [wp fst snd]. exists gs. split; [|done]. apply is_inplace_not. right. apply Ht. }
    destruct (ikey_total k) as [r Hr]. apply wp_bind. rewrite inplace_key_eq. eapply wp_mono; [apply (i_inplace h L K n WS a (nth i gs iver0) _ r v); [done|done|done|done|by apply key_isnet]|].
    cbn beta. intros _ h1 W1 Hp. cbn [wp fst snd]. destruct r as [p|]; [|subst h1; exists gs; split; [apply is_inplace_not; by left|done]].
    destruct Hp as (L' & K' & A1 & A2). destruct (pick2 _ (irel h1 L' K') (fun g g' => (reached (nth i gs iver0) g p -> g' = affected n g p v) /\ (~ reached (nth i gs iver0) g p -> g' = g)) _ _ HR) as (gs' & B1 & B2).
    { intros t2 g2 H2. destruct (A2 t2 g2 H2) as [C1 C2]. destruct (decide (reached (nth i gs iver0) g2 p)) as [D|D]; [exists (affected n g2 p v)|exists g2]; split; auto; by split. }
    exists gs'. split; [|by exists L', K']. econstructor; [exact Hr| |exact B2]. destruct Ht as (_ & -> & _). done.
Qed.
Lemma w_hist_exact ops : forall h (WS : gset loc) n vs gs, dom h ⊆ WS -> hinv h n vs gs -> Forall wop_ok ops -> Forall single ops ->
  wp (run_hist w_exec ops vs) h WS (fun r _ _ => exists gs', irun n ops gs gs' r.2).
Proof.
  induction ops as [|o ops IH]; intros h WS n vs gs HWS HI Hok Hs; cbn [run_hist].
  - cbn [wp snd]. by exists gs.
  - inversion Hok as [|? ? Ho Hops]; subst. inversion Hs as [|? ? Hs1 Hs2]; subst. apply wp_bind. eapply wp_mono; [by apply (w_exec_exact h WS n vs gs o)|]. cbn beta. intros r h1 W1 (D & gs1 & A1 & A2).
    apply wp_bind. eapply wp_mono; [by apply (IH h1 W1 (S n) r.1 gs1)|]. cbn beta. intros r2 h2 W2 (gs' & B). cbn [wp snd]. exists gs'. cbn [irun]. by exists gs1.
Qed.
Lemma pf_ip_exact h (ops : list (wop value)) : Forall wop_ok ops -> Forall single ops ->
  wp (run_hist w_exec ops []) h ∅ (fun r h' _ => h ⊆ h' /\ exists gs, irun 1 ops [] gs r.2).
Proof.
  intros Hok Hs. assert (Hw := w_hist_exact ops ∅ ∅ 1 [] [] ltac:(by rewrite dom_empty_L)).
  assert (H0 : hinv ∅ 1 [] []).
  { exists (fun _ => ∅), (fun _ => 0). split; [|constructor]. split_and!.
    - split; [intros i; apply empty_subseteq|intros i j Hij; set_solver].
    - intros i Hi. split_and!; [apply empty_subseteq| |].
      + intros a Ha. by apply not_elem_of_empty in Ha.
      + intros a a' X Ha. by apply not_elem_of_empty in Ha.
    - split; intros a; intros; set_solver. }
  specialize (Hw H0 Hok Hs).
  eapply wp_mono; [apply (wp_part _ ∅ h ∅ ∅ _ (map_empty_subseteq h) (reflexivity _) Hw)|]. cbn beta. intros r h' _ (hp & W1 & _ & H & H3). split; [|done].
  apply map_subseteq_spec. intros l x Hl. destruct (H3 l) as [_ E2]; [by eapply elem_of_dom_2|by rewrite dom_empty_L; apply not_elem_of_empty|]. by rewrite E2.
Qed.

(** ** The specification leaves no choice. *)
Lemma closest_fun (G : net -> option value) q r1 r2 : closest G q r1 -> closest G q r2 -> r1 = r2.
Proof.
  destruct r1 as [v1|], r2 as [v2|]; cbn [closest]; [| | |done].
  - intros (p1 & A1 & A2 & A3) (p2 & B1 & B2 & B3). pose proof (A3 _ _ B1 B2). pose proof (B3 _ _ A1 A2). assert (p1 = p2) as ->; [|congruence].
    destruct A2 as [A2 C2], B2 as [B2 D2]. apply injective_projections; [congruence|]. apply covers_antisym; (eapply covers_total; [done|done|lia]).
  - intros (p1 & A1 & A2 & A3) B. by destruct (B _ _ A1).
  - intros B (p1 & A1 & A2 & A3). by destruct (B _ _ A1).
Qed.
Lemma lists_fun (G : net -> option value) e1 e2 : lists G e1 -> lists G e2 -> e1 = e2.
Proof.
  intros (p1 & S1 & M1 & F1) (p2 & S2 & M2 & F2). assert (p1 = p2) as <-.
  { eapply sorted_unique; [| |exact S1|exact S2|].
    - intros [[[] p] v] [[? ?]|[_ ?]]; cbn [fst] in *; try done; lia.
    - intros [[a x] u] [[b y] w] [[c z] t]. unfold net_lt. cbn [fst snd]. intros [[-> ->]|[-> H]] [[H1 H2]|[H1 H2]]; [done|subst c; by left|subst; by left|right; split; [done|]; subst; lia].
    - intros [p v]. by rewrite M1, M2. }
  clear -F1 F2. revert e2 F2. induction F1 as [|[[ip m] v] [q w] e1 ps (E & A1 & A2 & [A3 A3'] & A4) F1 IH]; intros e2 F2; inversion F2 as [|[[ip' m'] v'] ? e2' ? (E' & B1 & B2 & [B3 B3'] & B4) F2']; subst; [done|]. f_equal; [|by apply IH].
  cbn [fst snd] in *. subst. unfold nlen in *. assert (length ip = length ip') by lia. assert (length m = length m') as Hl by lia. rewrite <- Hl in B3'. assert (ip = ip') as -> by (apply be_inj; congruence). by assert (m = m') as -> by (apply be_inj; congruence).
Qed.
Lemma istep_inplace n (gs : list iver) i k v gs' x : istep n gs (WInplace i k v) gs' x -> x = IONone /\
  ((exists p, ikey_is k (Some p) /\ obj (nth i gs iver0) <> None /\
      Forall2 (fun g g' => (reached (nth i gs iver0) g p -> g' = affected n g p v) /\ (~ reached (nth i gs iver0) g p -> g' = g)) gs gs') \/
   ((ikey_is k None \/ obj (nth i gs iver0) = None) /\ gs' = gs)).
Proof. inversion 1; subst; (split; [done|]); [left; by eexists|by right]. Qed.
Lemma istep_delete n (gs : list iver) i k gs' x : istep n gs (WCall (IDelete i k)) gs' x -> exists r, ikey_is k r /\
  ((exists p q v, r = Some p /\ ncovers p q /\ holds (nth i gs iver0) q = Some v /\ gs' = gs ++ [deleted n (nth i gs iver0) p] /\ x = IOBool true) \/
   ((forall p q v, r = Some p -> ncovers p q -> holds (nth i gs iver0) q <> Some v) /\ gs' = gs ++ [nth i gs iver0] /\ x = IOBool false)).
Proof.
  inversion 1 as [| | |? ? p Hk (q & v & A & B)|? ? r Hk A| | | | |]; subst; [exists (Some p)|exists r]; (split; [done|]); [left; by exists p, q, v|by right].
Qed.
Lemma istep_fun n (gs : list iver) o gs1 x1 gs2 x2 : istep n gs o gs1 x1 -> istep n gs o gs2 x2 -> gs1 = gs2 /\ x1 = x2.
Proof.
  intros H1 H2. destruct o as [[items|i k v|i k|i k|i]|i k v].
  - inversion H1; subst; inversion H2; subst; done.
  - inversion H1 as [|? ? ? p1 K1|? ? ? K1| | | | | | |]; subst; inversion H2 as [|? ? ? p2 K2|? ? ? K2| | | | | | |]; subst; pose proof (ikey_det _ _ _ K1 K2) as E; by inversion E.
  - apply istep_delete in H1 as (r & K1 & H1), H2 as (r2 & K2 & H2). rewrite (ikey_det _ _ _ K2 K1) in H2. clear K1 K2 r2.
    destruct H1 as [(p & q & v & -> & A1 & A2 & -> & ->)|(A & -> & ->)], H2 as [(p' & q' & v' & E & B1 & B2 & -> & ->)|(B & -> & ->)]; [by injection E as ->|by destruct (B p q v)|by destruct (A p' q' v')|done].
  - inversion H1 as [| | | | |? ? p1 r1 K1 C1|? ? K1| | |]; subst; inversion H2 as [| | | | |? ? p2 r2 K2 C2|? ? K2| | |]; subst; pose proof (ikey_det _ _ _ K1 K2) as E; inversion E; subst; [|done]. split; [done|]. f_equal. by eapply closest_fun.
  - inversion H1 as [| | | | | | |? e1 L1| |]; subst; inversion H2 as [| | | | | | |? e2 L2| |]; subst. split; [done|]. f_equal. by eapply lists_fun.
  - apply istep_inplace in H1 as (-> & H1), H2 as (-> & H2). split; [|done]. destruct H1 as [(p & K1 & O1 & F1)|[N1 ->]], H2 as [(p2 & K2 & O2 & F2)|[N2 ->]]; [| | |done].
    + pose proof (ikey_det _ _ _ K1 K2) as [= <-]. clear -F1 F2. generalize dependent (nth i gs iver0). intros g0 F1 F2. revert gs2 F2. induction F1 as [|g g' gs gs' [A B] F1 IH]; intros gs2 F2; inversion F2 as [|? g2 ? gs2' [C D] F2']; subst; [done|].
      f_equal; [|by apply IH]. destruct (decide (reached g0 g p)) as [E|E]; [by rewrite A, C|by rewrite B, D].
    + exfalso. destruct N2 as [N2|N2]; [|done]. by pose proof (ikey_det _ _ _ K1 N2).
    + exfalso. destruct N1 as [N1|N1]; [|done]. by pose proof (ikey_det _ _ _ K2 N1).
Qed.
Lemma pf_ip_determined ops : forall n (gs : list iver) gs1 x1 gs2 x2, irun n ops gs gs1 x1 -> irun n ops gs gs2 x2 -> gs1 = gs2 /\ x1 = x2.
Proof.
  induction ops as [|o ops IH]; intros n gs gs1 [|y1 x1] gs2 [|y2 x2]; cbn [irun]; try done; [by intros -> ->|].
  intros (g1 & A1 & A2) (g2 & B1 & B2). destruct (istep_fun _ _ _ _ _ _ _ A1 B1) as [-> ->]. destruct (IH _ _ _ _ _ _ A2 B2) as [-> ->]. done.
Qed.
(** The results depend on the calls alone. *)
Lemma pf_ip_results (ops : list (wop value)) : Forall wop_ok ops -> Forall single ops ->
  exists outs gs, irun 1 ops [] gs outs /\ forall h, wp (run_hist w_exec ops []) h ∅ (fun r _ _ => r.2 = outs).
Proof.
  intros Hok Hsin. pose proof (pf_ip_exact ∅ ops Hok Hsin) as Hw.
  eapply (wp_run _ _ _ _ 1%positive) in Hw; [|intros l _; apply lookup_empty].
  destruct Hw as (a & h' & next' & W' & _ & (_ & gs & Hs) & _). exists a.2, gs. split; [done|]. intros h.
  eapply wp_mono; [by apply (pf_ip_exact h ops)|]. cbn beta. intros r h2 _ (_ & gs2 & Hs2). by destruct (pf_ip_determined _ _ _ _ _ _ _ Hs Hs2).
Qed.

(** ** What the versions of the specification hold. *)
Lemma half_rest (p q : pfx) : (64 <= p.1)%N -> (64 <= q.1)%N -> half p = half q -> rest p = rest q -> p = q.
Proof.
  intros Hp Hq E1 E0. pose proof (f_equal fst E0) as E2. pose proof (f_equal snd E0) as E3. clear E0. unfold half, rest in *. cbn [fst snd] in E2, E3.
  assert (E : p.1 = q.1) by (clear E1 E3; lia). destruct p as [lp p], q as [lq q]. cbn [fst snd] in *. subst lq. f_equal. clear E2 Hp Hq. generalize dependent (lp - 64)%N. intros d E1 E3.
  assert (Hd : (2 ^ d)%N <> 0%N) by (apply N.pow_nonzero; done). rewrite (N.div_mod p (2 ^ d) Hd), (N.div_mod q (2 ^ d) Hd). by rewrite E1, E3.
Qed.
Lemma put_holds (m : gmap pfx (N * value)) q v q' : snd <$> put m q v !! q' = if decide (q = q') then Some v else snd <$> m !! q'.
Proof. rewrite lookup_put. by destruct (decide (q = q')). Qed.
Lemma pf_ip_holds_inserted n (g : iver) p v q : holds (inserted n g p v) q = if decide (p = q) then Some v else holds g q.
Proof.
  destruct p as [[] p], q as [[] q]; unfold inserted, holds, at_half; cbn [fst snd].
  - destruct (N.ltb_spec p.1 64), (N.ltb_spec q.1 64); cbn [four upper inside content remade].
    + rewrite put_holds. destruct (decide (p = q)) as [->|Hn]; [by rewrite decide_True|by rewrite decide_False by congruence].
    + rewrite decide_False; [done|]. intros [= ->]. lia.
    + rewrite put_holds, !decide_False; [done| |]; [intros [= ->]; lia|]. intros <-. cbn [fst] in *. lia.
    + destruct (decide (half q = half p)) as [E|E].
      * cbn [content remade]. rewrite put_holds, E. destruct (decide (rest p = rest q)) as [E2|E2]; [rewrite decide_True; [done|]; f_equal; by apply half_rest|]. rewrite decide_False; [done|]. by intros [= ->].
      * rewrite decide_False; [done|]. by intros [= ->].
  - rewrite decide_False by done. by destruct (N.ltb_spec p.1 64).
  - by rewrite decide_False.
  - cbn [four content remade]. rewrite put_holds. destruct (decide (p = q)) as [->|Hn]; [by rewrite decide_True|by rewrite decide_False by congruence].
Qed.
Lemma pf_ip_holds_affected n (g : iver) p v q : holds (affected n g p v) q = if decide (p = q) then Some v else holds g q.
Proof. rewrite <- (pf_ip_holds_inserted n g p v q). unfold affected, inserted, holds. destruct p.1, q.1; try done; destruct (p.2.1 <? 64)%N, (q.2.1 <? 64)%N; try done. cbn [inside]. unfold at_half. by destruct (decide _). Qed.
Lemma cut_holds (m : gmap pfx (N * value)) q q' : snd <$> cut m q !! q' = if decide (covers q q') then None else snd <$> m !! q'.
Proof. rewrite lookup_cut. by destruct (decide (covers q q')). Qed.
Lemma pf_ip_holds_deleted n (g : iver) p q : holds (deleted n g p) q = if decide (ncovers p q) then None else holds g q.
Proof.
  destruct p as [[] p], q as [[] q]; unfold deleted, holds, at_half, ncovers; cbn [fst snd].
  - destruct (N.ltb_spec p.1 64) as [Hp|Hp], (N.ltb_spec q.1 64) as [Hq|Hq]; cbn [four upper inside content remade].
    + rewrite cut_holds. apply decide_ext. clear; tauto.
    + destruct (decide (covers p (64%N, half q))) as [Hc|Hc].
      * rewrite decide_True; [done|]. split; [done|]. apply cov_low; [lia|done|exact Hc].
      * rewrite decide_False; [done|]. intros [_ H]. apply Hc. apply cov_low in H; [exact H|lia|done].
    + rewrite (decide_False (P := true = true /\ covers p q)); [|intros [_ [H _]]; lia]. destruct (decide (cut _ _ = ∅)); [|done]. rewrite cut_holds, decide_False; [done|]. intros [H _]. cbn [fst] in H. lia.
    + assert (Hc : covers p q <-> half p = half q /\ covers (rest p) (rest q)).
      { rewrite (cov_high p q Hp Hq). change (hi p) with (64%N, half p). change (hi q) with (64%N, half q). split; intros [E ?]; (split; [|done]); congruence. }
      destruct (decide (half q = half p)) as [E|E].
      * cbn [content remade]. rewrite cut_holds, E. apply decide_ext. rewrite Hc. clear -E; split; [intros H; by split|by intros (_ & _ & H)].
      * rewrite decide_False; [done|]. intros [_ H]. by apply Hc in H as [? _].
  - rewrite (decide_False (P := true = false /\ covers p q)) by (intros [H _]; discriminate H). by destruct (N.ltb_spec p.1 64).
  - by rewrite (decide_False (P := false = true /\ covers p q)) by (intros [H _]; discriminate H).
  - cbn [four content remade]. rewrite cut_holds. apply decide_ext. clear; tauto.
Qed.

(** ** A version and the one made from it by inserting an IPv6 network. *)
Definition objs n (gs : list iver) : Prop := Forall (fun g => forall o, obj g = Some o -> o < n) gs.
Lemma objs_nth n (gs : list iver) i o : objs n gs -> obj (nth i gs iver0) = Some o -> o < n.
Proof.
  intros H. destruct (Nat.lt_ge_cases i (length gs)) as [Hi|Hi]; [|by rewrite nth_overflow]. unfold objs in H. rewrite Forall_forall in H. apply H. by apply elem_of_list_In, nth_In.
Qed.
Lemma istep_objs n (gs : list iver) o gs' x : istep n gs o gs' x -> objs n gs -> objs (S n) gs'.
Proof.
  intros H HF. assert (HS : objs (S n) gs) by (eapply Forall_impl; [exact HF|]; intros g Hg o' E; specialize (Hg o' E); lia).
  assert (Hn : forall i o', obj (nth i gs iver0) = Some o' -> o' < S n) by (intros i o' E; pose proof (objs_nth _ _ _ _ HF E); lia).
  assert (Hsnoc : forall g : iver, (forall o', obj g = Some o' -> o' < S n) -> objs (S n) (gs ++ [g])) by (intros g Hg; apply Forall_app; split; [done|by constructor]).
  inversion H as [|i k v p|i k v|i k p|i k|i k|i k|i|i k v p gs2 _ _ F|]; subst; try done; try (apply Hsnoc).
  - intros o' [= <-]. lia.
  - assert (E : obj (inserted n (nth i gs iver0) p v) = Some n) by (unfold inserted; destruct p.1; [by destruct (p.2.1 <? 64)%N|done]). rewrite E. intros o' [= <-]. lia.
  - apply Hn.
  - assert (E : obj (deleted n (nth i gs iver0) p) = Some n) by (unfold deleted; destruct p.1; [by destruct (p.2.1 <? 64)%N|done]). rewrite E. intros o' [= <-]. lia.
  - apply Hn.
  - clear -F HS. generalize dependent (nth i gs iver0). intros g0 F. unfold objs in *. induction F as [|g g' gs gs' [A B] F IH]; [constructor|]. inversion HS as [|? ? H1 H2]; subst. constructor; [|by apply IH].
    destruct (decide (reached g0 g p)) as [E|E]; [by rewrite (A E), affected_obj|by rewrite (B E)].
Qed.
Lemma irun_objs ops : forall n (gs : list iver) gs' x, irun n ops gs gs' x -> objs n gs -> objs (n + length ops) gs'.
Proof.
  induction ops as [|o ops IH]; intros n gs gs' [|y x]; cbn [irun length]; try done; [intros ->; by rewrite Nat.add_0_r|].
  intros (g1 & A1 & A2) HF. rewrite Nat.add_succ_r, <- Nat.add_succ_l. eapply IH; [exact A2|]. by eapply istep_objs.
Qed.
Lemma pf_ip_parent ops (gs gs' : list iver) outs outs' i k1 v1 k2 v2 q1 q2 : irun 1 ops [] gs outs -> i < length gs -> ikey_is k1 (Some (true, q1)) -> ikey_is k2 (Some (false, q2)) ->
  irun (S (length ops)) [WCall (IInsert i k1 v1); WInplace (length gs) k2 v2] gs gs' outs' ->
  let around := exists X, lowest (content (four (nth i gs iver0))) q2 X in
  (around -> forall q, holds (nth i gs' iver0) q = if decide ((false, q2) = q) then Some v2 else holds (nth i gs iver0) q) /\
  (~ around -> forall q, holds (nth i gs' iver0) q = holds (nth i gs iver0) q).
Proof.
  intros Hrun Hi Hk1 Hk2 Hops around. destruct outs' as [|y1 [|y2 [|? ?]]]; cbn [irun] in Hops; [done|by destruct Hops as (? & _ & [])| |by destruct Hops as (? & _ & ? & _ & [])].
  destruct Hops as (g1 & S1 & g2 & S2 & ->). pose proof (istep_fun _ _ _ _ _ _ _ S1 (is_insert _ gs i k1 v1 _ Hk1)) as [-> _]. clear S1.
  set (child := inserted (S (length ops)) (nth i gs iver0) (true, q1) v1) in *.
  assert (Hobj : obj child = Some (S (length ops)) /\ four child = four (nth i gs iver0)) by (unfold child, inserted; cbn [fst snd]; by destruct (q1.1 <? 64)%N).
  assert (HF : objs (1 + length ops) gs) by (eapply irun_objs; [exact Hrun|constructor]).
  assert (Hc : nth (length gs) (gs ++ [child]) iver0 = child) by (rewrite app_nth2 by lia; by rewrite Nat.sub_diag).
  apply istep_inplace in S2 as (_ & [(p & Hp & _ & F)|[[N|N] _]]); [|by pose proof (ikey_det _ _ _ Hk2 N)|rewrite Hc in N; destruct Hobj; congruence].
  pose proof (ikey_det _ _ _ Hp Hk2) as [= ->]. rewrite Hc in F. apply (nth_F2 _ _ _ iver0 iver0 i) in F; [|rewrite app_length; lia]. rewrite (app_nth1 gs _ iver0 Hi) in F. destruct F as [A B].
  assert (Hr : reached child (nth i gs iver0) (false, q2) <-> around).
  { unfold reached. cbn [fst snd]. destruct Hobj as [O1 O2]. rewrite O1, O2. split.
    - intros [E|(X & HX & _)]; [apply (objs_nth _ _ _ _ HF) in E; lia|by exists X].
    - intros [X HX]. right. exists X. split; [done|]. split; [apply HX|done]. }
  split; intros H q; [rewrite A by (by apply Hr); apply pf_ip_holds_affected|rewrite B; [done|by rewrite Hr]].
Qed.
End hist.
