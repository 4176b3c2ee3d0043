(** * iptree on memory: what UpdateDescendants reaches. *)
From Verif Require Import Prog History NumModel NumBits NumFun NumSim NumOrder NumSpec NumAbs NumFoot NumLoc IpModel IpSpec IpUpdSpec IpBits IpAbs IpAbs2 IpAbs3 IpAbs4 IpEnum IpHist IpPropProofs IpUpd IpUpd2 IpUpd3.
From Coq Require Import ZifyBool ZifyNat ZifyN.
Open Scope N_scope.

Section upd.
Context {U St : Type}.
Local Notation heap := (heap U).
Local Notation value := (value U).
Local Notation numnode := (numnode U).
Local Notation prog := (prog U).
Local Notation pair_ := (pair_ (U := U)).
Local Notation item := (loc * numnode)%type.
Implicit Types h : heap.

(** ** The networks of the nodes. *)
Definition is_net (x : loc * pair_) (q : net) : Prop := canonical x.2.1.1 x.2.1.2 q.
Definition pre32 (x : item) : pfx := pre c32 x.
Definition pre64 (x : item) : pfx := pre c64 x.
Section view.
Variables (h : heap) (a : loc) (xs : list item) (yz : list (item * list item)).
Hypothesis Hi : itl h a xs yz.
Lemma net4 x : x ∈ xs -> is_net (lp4 x) (false, pre32 x).
Proof using Hi.
  intros Hx. destruct (il_trees _ _ _ _ Hi) as (r4 & r6 & F4 & F0 & Fs & _ & T4 & _). destruct (tr_valid c32 c32_ok _ _ _ _ _ T4 Hx) as [V1 V2]. by apply canon4.
Qed.
Lemma valid6 y z : (y, z) ∈ yz -> nn_key y.2 < 2 ^ 64 /\ nn_bits y.2 <= 64.
Proof using Hi.
  intros Hx. destruct (il_trees _ _ _ _ Hi) as (r4 & r6 & F4 & F0 & Fs & _ & _ & T6 & _). apply (tr_valid c64 c64_ok _ _ _ _ y T6). by apply (elem_of_list_fmap_1 fst) in Hx.
Qed.
Lemma valid6s y z x : (y, z) ∈ yz -> x ∈ z -> nn_key x.2 < 2 ^ 64 /\ nn_bits x.2 <= 64.
Proof using Hi.
  intros Hy Hx. destruct (il_trees _ _ _ _ Hi) as (r4 & r6 & F4 & F0 & Fs & _ & _ & _ & Ts & _). destruct (vsub_dec (nn_val y.2)) as [Hp|[s Es]].
  - destruct (il_low _ _ _ _ Hi _ _ Hy Hp) as [_ ->]. by apply elem_of_nil in Hx.
  - by apply (tr_valid c64 c64_ok _ _ _ _ x (Ts _ _ _ Hy Es)).
Qed.
Lemma net6 y z : (y, z) ∈ yz -> is_net (y.1, pair6 y.2) (true, pre64 y).
Proof using Hi. intros Hy. destruct (valid6 _ _ Hy). by apply canon6. Qed.
Lemma net6s y z x : (y, z) ∈ yz -> x ∈ z -> is_net (lp6s y x) (true, join (nn_key y.2) (pre64 x)).
Proof using Hi. intros Hy Hx. destruct (valid6 _ _ Hy), (valid6s _ _ _ Hy Hx). by apply canon6s. Qed.
Lemma pre64_valid y z x : (y, z) ∈ yz -> x ∈ z -> (pre64 x).2 < 2 ^ (pre64 x).1 /\ (pre64 x).1 <= 64.
Proof using Hi. intros Hy Hx. destruct (valid6s _ _ _ Hy Hx) as [V1 V2]. unfold pre64, pre. pose proof (norm_valid 64 _ _ V1 V2) as [? ?]. done. Qed.
(** The members of the group of a node of the upper tree. *)
Lemma lp6_cases y z x : (y, z) ∈ yz -> x ∈ lp6 (y, z) ->
  (plain (nn_val y.2) /\ nn_bits y.2 < 64 /\ is_net x (true, pre64 y)) \/
  (exists x' s, nn_val y.2 = VSub s /\ nn_bits y.2 = 64 /\ x' ∈ z /\ x = lp6s y x' /\ is_net x (true, join (nn_key y.2) (pre64 x'))).
Proof using Hi.
  intros Hy Hx. unfold lp6 in Hx. cbn [fst snd] in Hx. destruct (vsub_dec (nn_val y.2)) as [Hp|[s Es]].
  - left. destruct (il_low _ _ _ _ Hi _ _ Hy Hp) as [Hb _]. split_and!; [done|done|]. assert (Hx' : x ∈ [(y.1, pair6 y.2)]) by (by destruct (nn_val y.2)).
    apply elem_of_list_singleton in Hx' as ->. by eapply net6.
  - right. rewrite Es in Hx. apply elem_of_list_fmap in Hx as (x' & -> & Hx). destruct (il_sub _ _ _ _ Hi _ _ _ Hy Es) as [Hb _]. exists x', s. split_and!; [done|done|done|done|]. by eapply net6s.
Qed.
Lemma le_cells x : x ∈ le xs yz -> (exists n, h !! x.1 = Some (CNum n) /\ nn_leaf n = true /\ plain (nn_val n)) /\ val_at h x.1 = x.2.2.
Proof using Hi.
  unfold le. rewrite elem_of_app. intros [Hx|Hx].
  - apply elem_of_list_fmap in Hx as (y & -> & Hy). destruct (il_cell4 _ _ _ _ Hi y Hy) as [C C2]. split; [exists y.2; split_and!; [done|done|by apply (il_plain4 _ _ _ _ Hi)]|]. exact (val_at_cell _ _ _ C).
  - apply elem_of_concat in Hx as (w & Hw & Hx). apply elem_of_list_fmap in Hw as ([y z] & -> & Hy). unfold lp6 in Hx. cbn [fst snd] in Hx. destruct (vsub_dec (nn_val y.2)) as [Hp|[s Es]].
    + assert (Hx' : x ∈ [(y.1, pair6 y.2)]) by (by destruct (nn_val y.2)). apply elem_of_list_singleton in Hx' as ->. destruct (il_cell6 _ _ _ _ Hi y z Hy) as [C C2]. split; [by exists y.2|]. exact (val_at_cell _ _ _ C).
    + rewrite Es in Hx. apply elem_of_list_fmap in Hx as (x' & -> & Hx). destruct (il_cell6s _ _ _ _ Hi y z x' Hy Hx) as [C C2]. split; [exists x'.2; split_and!; [done|done|by eapply (il_plain6 _ _ _ _ Hi)]|]. exact (val_at_cell _ _ _ C).
Qed.
End view.

(** ** The result of UpdateDescendants. *)
Variable cb : St -> pair_ -> prog (St * option value).
Variable D : heap -> list (loc * pair_) -> St -> heap -> list (loc * pair_) -> St -> heap -> Prop.
Variable Inv : heap -> St -> Prop.
Definition stored (p : net) (l : list (loc * pair_)) : Prop := exists x, x ∈ l /\ is_net x p.
Definition reaches h (l : list (loc * pair_)) (p : net) (s s' : St) (h' : heap) : Prop :=
  exists L seg R, l = L ++ seg ++ R /\ Forall (inside p) seg /\ Forall (outside p) (L ++ R) /\ D h l s h seg s' h'.
(** [hb]: the target is written without host bits. *)
Definition taken (l : list (loc * pair_)) (p : net) (hb : Prop) : Prop := hb /\ around (fun q => stored q l) p.
Definition updated h (l : list (loc * pair_)) (p : net) (hb : Prop) (s s' : St) (h' : heap) : Prop :=
  (reaches h l p s s' h' /\ (stored p l \/ taken l p hb)) \/ (s' = s /\ h' = h /\ ~ stored p l /\ ~ taken l p hb).
Lemma in64_long p q : in64 p q -> p.1 = true /\ q.1 = true /\ 64 <= p.2.1 /\ 64 <= q.2.1 /\ hi p.2 = hi q.2.
Proof.
  intros (x & [P1 P2] & [Q1 Q2]). cbn [fst snd] in *. assert (HP : 64 <= p.2.1) by apply P2. assert (HQ : 64 <= q.2.1) by apply Q2.
  split_and!; [done|done|done|done|]. apply cov_low in P2; [|cbn [fst]; lia|done]. apply cov_low in Q2; [|cbn [fst]; lia|done].
  assert (E1 : (64, x) = hi p.2) by (by apply (covers_same_len _ _ (hi p.2)); [|apply covers_refl|]). assert (E2 : (64, x) = hi q.2) by (by apply (covers_same_len _ _ (hi q.2)); [|apply covers_refl|]). congruence.
Qed.
Lemma in64_of p q : 64 <= p.1 -> 64 <= q.1 -> hi p = hi q -> in64 (true, p) (true, q).
Proof.
  intros H1 H2 E. exists (hi p).2. assert (G : forall r, 64 <= r.1 -> covers (64, (hi r).2) r) by (intros r Hr; apply cov_low; [cbn [fst]; lia|done|apply covers_refl]).
  split; (split; [done|]); cbn [fst snd]; [by apply G|rewrite E; by apply G].
Qed.
Lemma around_long S p : around S p -> p.1 = true /\ 64 <= p.2.1.
Proof. intros ((q & _ & H) & _). apply in64_long in H as (? & _ & ? & _). done. Qed.
Lemma covers_cmp p q r : covers p q -> covers r q -> p.1 <= r.1 -> covers p r.
Proof.
  intros [H1 H2] [H3 H4] H. split; [done|]. rewrite <- H4, <- H2. rewrite N.div_div by apply pow2_nz. rewrite <- N.pow_add_r. f_equal. f_equal. lia.
Qed.

Lemma in_of x p q : is_net x q -> ncovers p q -> p <> q -> inside p x.
Proof. intros. exists q. done. Qed.
Lemma out_of x p q : is_net x q -> ~ ncovers p q \/ p = q -> outside p x.
Proof. intros H1 H2. exists q. split; [done|]. intros [H3 H4]. by destruct H2. Qed.
Lemma is_net_fun x q q' : is_net x q -> is_net x q' -> q = q'.
Proof.
  unfold is_net, canonical. intros (A1 & A2 & A3 & A4) (B1 & B2 & B3 & B4). destruct q as [fm [n x0]], q' as [fm' [n' x0']]. cbn [fst snd] in *.
  assert (fm = fm') as <- by (rewrite A1 in B1; destruct fm, fm'; done). assert (n = n') as <- by (by eapply is_mask_fun). f_equal. f_equal.
  rewrite A4 in B4. unfold start in B4. cbn [fst snd] in B4. apply N.mul_cancel_r in B4; [done|]. apply pow2_nz.
Qed.
Lemma covers_neq_len p q : p.1 > q.1 -> ~ covers p q.
Proof. intros H [H' _]. lia. Qed.

Section view2.
Variables (h : heap) (a : loc) (xs : list item) (yz : list (item * list item)).
Hypothesis Hi : itl h a xs yz.
Variable WS : gset loc.
Hypothesis HW : dom h ⊆ WS.
Variable s : St.
Hypothesis HI : Inv h s.
Hypothesis Hact : steps cb (D h (le xs yz)) Inv h (le xs yz).
Definition kept h' s' : Prop := vrel h h' /\ Inv h' s'.

Lemma out6 p fm x w : fm = false -> (w ∈ yz) -> x ∈ lp6 w -> outside (fm, p) x.
Proof using Hi.
  intros -> Hw Hx. destruct w as [y z]. destruct (lp6_cases _ _ _ _ Hi y z x Hw Hx) as [(_ & _ & Hn)|(x' & s0 & _ & _ & _ & _ & Hn)]; (eapply out_of; [exact Hn|]; left; by intros [H _]).
Qed.
Lemma out4 p x : x ∈ xs -> outside (true, p) (lp4 x).
Proof using Hi. intros Hx. eapply out_of; [by eapply net4|]. left. by intros [H _]. Qed.
Lemma Forall_concat_lp6 (P : loc * pair_ -> Prop) (l : list (item * list item)) : (forall y z x, (y, z) ∈ l -> x ∈ lp6 (y, z) -> P x) -> Forall P (concat (map lp6 l)).
Proof.
  intros H. apply Forall_forall. intros x Hx. apply elem_of_concat in Hx as (w & Hw & Hx). apply elem_of_list_fmap in Hw as ([y z] & -> & Hy). by eapply H.
Qed.
Lemma below_spec c (Hc : cfg_ok c) F t n ys h1 WS1 : tr c h1 F (Some t) ((t, n) :: ys) ->
  wp (below c (Some t)) h1 WS1 (fun r h' WS' => r = map fst ys /\ h' = h1 /\ WS1 ⊆ WS').
Proof.
  intros Ht. destruct (tr_cells _ _ _ _ _ Ht (t, n) ltac:(by left)) as (C1 & C2 & _). cbn [fst snd] in *.
  unfold below. apply wp_bind. eapply wp_mono; [apply (tr_enumerate c Hc _ _ _ _ _ Ht)|]. cbn beta. intros ? ? WS' (-> & -> & HW'). apply wp_bind. eapply wp_ld_num; [exact C1|]. rewrite C2. cbn [wp tl]. done.
Qed.

Lemma update4 k b hb : k < 2 ^ 32 -> b <= 32 ->
  wp (r <- ld_ip (Some a) ;; target <- n_find_node c32 r.1 k (Z.of_N b) ;;
      match target with None => Ret s | Some _ => ls <- below c32 target ;; upd_list cb pair4 s ls end) h WS
     (fun s' h' _ => updated h (le xs yz) (false, norm 32 k b) hb s s' h' /\ kept h' s').
Proof using Hi HW HI Hact.
  intros Hk Hb. destruct (il_trees _ _ _ _ Hi) as (r4 & r6 & F4 & F0 & Fs & Ha & T4 & T6 & Ts & Hd).
  apply wp_bind. eapply wp_ld_ip; [exact Ha|]. cbn [fst snd]. apply wp_bind. eapply wp_mono; [apply (tr_find c32 c32_ok _ _ _ _ k b WS T4 Hk Hb)|]. cbn beta.
  intros r ? WS1 (-> & HW1 & Hr). destruct r as [t|].
  - destruct Hr as (n & ys & A & B & FT & Tt & Exs & Ep & Hout & Hin). change (cW c32) with 32 in *.
    apply wp_bind. eapply wp_mono; [apply (below_spec c32 c32_ok _ _ _ _ _ _ Tt)|]. cbn beta. intros ? ? WS2 (-> & -> & HW2).
    assert (Hsub : forall x, x ∈ A ++ (t, n) :: ys ++ B -> x ∈ xs) by (intros x Hx; by rewrite Exs).
    eapply wp_mono; [apply (upd4_spec cb (D h (le xs yz)) Inv h (le xs yz) Hact a xs yz Hi eq_refl ys s h WS2)|].
    + clear -HW HW1 HW2. set_solver.
    + exact HI.
    + intros x Hx. apply Hsub. clear -Hx. set_solver.
    + apply vrel_refl.
    + cbn beta. intros s' h' _ (E & Hv & _ & HI'). split; [|by split]. left. split.
      * exists (map lp4 A ++ [lp4 (t, n)]), (map lp4 ys), (map lp4 B ++ concat (map lp6 yz)). split_and!.
        -- unfold le. rewrite Exs. rewrite map_app. cbn [map]. rewrite map_app, <- !app_assoc. cbn [Datatypes.app]. rewrite <- !app_assoc. done.
        -- apply Forall_forall. intros x Hx. apply elem_of_list_fmap in Hx as (x' & -> & Hx). destruct (Hin x' Hx) as [C1 C2].
           eapply in_of; [eapply (net4 _ _ _ _ Hi); apply Hsub; clear -Hx; set_solver|by split|]. intros E'. apply C2. symmetry. exact (f_equal snd E').
        -- rewrite !Forall_app. split_and!.
           ++ apply Forall_forall. intros x Hx. apply elem_of_list_fmap in Hx as (x' & -> & Hx). eapply out_of; [eapply (net4 _ _ _ _ Hi); apply Hsub; clear -Hx; set_solver|].
              left. intros [_ Hc]. apply (Hout x'); [clear -Hx; set_solver|exact Hc].
           ++ apply Forall_singleton. eapply out_of; [eapply (net4 _ _ _ _ Hi); apply Hsub; clear; set_solver|]. right. unfold pre32. by rewrite Ep.
           ++ apply Forall_forall. intros x Hx. apply elem_of_list_fmap in Hx as (x' & -> & Hx). eapply out_of; [eapply (net4 _ _ _ _ Hi); apply Hsub; clear -Hx; set_solver|].
              left. intros [_ Hc]. apply (Hout x'); [clear -Hx; set_solver|exact Hc].
           ++ apply Forall_concat_lp6. intros y z x Hy Hx. by eapply out6.
        -- exact E.
      * left. exists (lp4 (t, n)). split.
        -- unfold le. apply elem_of_app. left. apply elem_of_list_fmap_1. apply Hsub. clear. set_solver.
        -- assert (Hn : is_net (lp4 (t, n)) (false, pre32 (t, n))) by (eapply (net4 _ _ _ _ Hi); apply Hsub; clear; set_solver). unfold pre32 in Hn. by rewrite Ep in Hn.
  - cbn [wp]. split; [|split; [apply vrel_refl|exact HI]]. right. split_and!; [done|done| |by intros [_ [[=] _]%around_long]]. intros (x & Hx & Hn). unfold le in Hx. apply elem_of_app in Hx as [Hx|Hx].
    + apply elem_of_list_fmap in Hx as (x' & -> & Hx). apply (Hr x' Hx). symmetry. exact (f_equal snd (is_net_fun _ _ _ Hn (net4 _ _ _ _ Hi _ Hx))).
    + apply elem_of_concat in Hx as (w & Hw & Hx). apply elem_of_list_fmap in Hw as ([y z] & -> & Hy).
      destruct (lp6_cases _ _ _ _ Hi y z x Hy Hx) as [(_ & _ & Hn')|(x' & s0 & _ & _ & _ & _ & Hn')]; by pose proof (is_net_fun _ _ _ Hn Hn').
Qed.

Lemma stored6 x p : x ∈ le xs yz -> is_net x (true, p) -> exists y z, (y, z) ∈ yz /\
  ((p.1 < 64 /\ plain (nn_val y.2) /\ p = pre64 y) \/ (64 <= p.1 /\ exists x' s, nn_val y.2 = VSub s /\ pre64 y = hi p /\ x' ∈ z /\ pre64 x' = lo p)).
Proof using Hi.
  intros Hx Hn. unfold le in Hx. apply elem_of_app in Hx as [Hx|Hx].
  - apply elem_of_list_fmap in Hx as (x' & -> & Hx). by pose proof (is_net_fun _ _ _ Hn (net4 _ _ _ _ Hi _ Hx)).
  - apply elem_of_concat in Hx as (w & Hw & Hx). apply elem_of_list_fmap in Hw as ([y z] & -> & Hy). exists y, z. split; [done|].
    destruct (lp6_cases _ _ _ _ Hi y z x Hy Hx) as [(P1 & P2 & Hn')|(x' & s0 & P1 & P2 & P3 & P4 & Hn')]; pose proof (is_net_fun _ _ _ Hn Hn') as [= ->].
    + left. done.
    + right. destruct (pre64_valid _ _ _ _ Hi _ _ _ Hy P3) as [V1 V2]. split; [unfold join; cbn [fst]; lia|]. exists x', s0. rewrite hi_join, lo_join by done. split_and!; try done.
      unfold pre64, pre. rewrite P2. apply norm64.
Qed.
Lemma split_yz A (w : item) B : map fst yz = A ++ w :: B -> exists A' z B', yz = A' ++ (w, z) :: B' /\ map fst A' = A /\ map fst B' = B.
Proof. intros E. apply map_eq_app in E as (A' & B0 & -> & EA & EB). destruct B0 as [|[w' z] B0]; [done|]. injection EB as -> EB. by exists A', z, B0. Qed.

Lemma update_low k b hb (K : ptr -> prog St) : k < 2 ^ 64 -> b < 64 ->
  forall r6 F0, tr c64 h F0 r6 (map fst yz) ->
  wp (target <- n_find_node c64 r6 k (Z.of_N b) ;;
      match target with
      | None => Ret s
      | Some _ => tn <- ld_num target ;; match nn_val tn with VSub p => K p | _ => ls <- below c64 target ;; upd_top cb s ls end
      end) h WS
     (fun s' h' _ => updated h (le xs yz) (true, norm 64 k b) hb s s' h' /\ kept h' s').
Proof using Hi HW HI Hact.
  intros Hk Hb r6 F0 T6. apply wp_bind. eapply wp_mono; [apply (tr_find c64 c64_ok _ _ _ _ k b WS T6 Hk ltac:(change (cW c64) with 64; lia))|]. cbn beta.
  intros r ? WS1 (-> & HW1 & Hr). destruct r as [t|].
  - destruct Hr as (n & ys & A & B & FT & Tt & Eys & Ep & Hout & Hin). change (cW c64) with 64 in *.
    destruct (split_yz _ _ _ Eys) as (A' & z0 & BB & Eyz & EA & EBB). apply map_eq_app in EBB as (ys' & B' & -> & Eys' & EB').
    assert (Hsub : forall w, w ∈ A' ++ (t, n, z0) :: ys' ++ B' -> w ∈ yz) by (intros x Hx; by rewrite Eyz).
    assert (Ht : (t, n, z0) ∈ yz) by (apply Hsub; clear; set_solver).
    assert (Hpl : plain (nn_val n)).
    { destruct (vsub_dec (nn_val n)) as [Hp|[s0 Es]]; [done|]. destruct (il_sub _ _ _ _ Hi _ _ _ Ht Es) as [B0 _]. unfold pre, norm in Ep. injection Ep as E1 _. cbn [snd] in *. lia. }
    destruct (tr_cells _ _ _ _ _ Tt (t, n) ltac:(by left)) as (C1 & C2 & _). cbn [fst snd] in C1.
    apply wp_bind. eapply wp_ld_num; [exact C1|].
    assert (Hmain : wp (ls <- below c64 (Some t) ;; upd_top cb s ls) h WS1 (fun s' h' _ => updated h (le xs yz) (true, norm 64 k b) hb s s' h' /\ kept h' s')).
    2: { destruct (nn_val n); done. }
    apply wp_bind. eapply wp_mono; [apply (below_spec c64 c64_ok _ _ _ _ _ _ Tt)|]. cbn beta. intros ? ? WS2 (-> & -> & HW2). rewrite <- Eys'.
    eapply wp_mono; [apply (upd_top_spec cb (D h (le xs yz)) Inv h (le xs yz) Hact a xs yz Hi eq_refl ys' s h WS2)|].
    + clear -HW HW1 HW2. set_solver.
    + exact HI.
    + intros x Hx. apply Hsub. clear -Hx. set_solver.
    + apply vrel_refl.
    + assert (Hlen : (norm 64 k b).1 < 64) by (unfold norm; cbn [fst]; done).
      assert (Hoth : forall y z x, (y, z) ∈ A' ++ B' -> x ∈ lp6 (y, z) -> outside (true, norm 64 k b) x).
      { intros y z x Hy Hx. assert (Hy' : (y, z) ∈ yz) by (apply Hsub; clear -Hy; set_solver).
        assert (Hy2 : y ∈ A ++ B) by (rewrite <- EA, <- EB', <- map_app; by apply (elem_of_list_fmap_1 fst) in Hy). specialize (Hout y Hy2).
        destruct (lp6_cases _ _ _ _ Hi y z x Hy' Hx) as [(P1 & P2 & Hn')|(x' & s0 & P1 & P2 & P3 & P4 & Hn')]; (eapply out_of; [exact Hn'|]; left; intros [_ Hc]; apply Hout); [exact Hc|].
        destruct (pre64_valid _ _ _ _ Hi _ _ _ Hy' P3) as [V1 V2]. cbn [snd] in Hc. apply cov_low in Hc; [|lia|unfold join; cbn [fst]; lia]. rewrite hi_join in Hc by done.
        unfold pre. by rewrite P2, norm64. }
      cbn beta. intros s' h' _ (E & Hv & _ & HI'). split; [|by split]. left. split.
      * exists (map lp4 xs ++ concat (map lp6 A') ++ lp6 (t, n, z0)), (concat (map lp6 ys')), (concat (map lp6 B')). split_and!.
        -- unfold le. rewrite Eyz. rewrite map_app. cbn [map]. rewrite map_app, concat_app. cbn [concat]. rewrite concat_app, <- !app_assoc. cbn [Datatypes.app]. rewrite <- ?app_assoc. done.
        -- apply Forall_concat_lp6. intros y z x Hy Hx. assert (Hy' : (y, z) ∈ yz) by (apply Hsub; clear -Hy; set_solver).
           assert (Hy2 : y ∈ ys) by (rewrite <- Eys'; by apply (elem_of_list_fmap_1 fst) in Hy). destruct (Hin y Hy2) as [I1 I2].
           destruct (lp6_cases _ _ _ _ Hi y z x Hy' Hx) as [(P1 & P2 & Hn')|(x' & s0 & P1 & P2 & P3 & P4 & Hn')].
           ++ eapply in_of; [exact Hn'|by split|]. intros E'. apply I2. symmetry. exact (f_equal snd E').
           ++ destruct (pre64_valid _ _ _ _ Hi _ _ _ Hy' P3) as [V1 V2]. eapply in_of; [exact Hn'| |].
              ** split; [done|]. cbn [snd]. apply cov_low; [lia|unfold join; cbn [fst]; lia|]. rewrite hi_join by done. unfold pre in I1. by rewrite P2, norm64 in I1.
              ** intros E'. apply (f_equal (fun q : net => q.2.1)) in E'. unfold join in E'. cbn [fst snd] in E'. lia.
        -- rewrite !Forall_app. split_and!.
           ++ apply Forall_forall. intros x Hx. apply elem_of_list_fmap in Hx as (x' & -> & Hx). by apply out4.
           ++ apply Forall_concat_lp6. intros y z x Hy. apply Hoth. clear -Hy. set_solver.
           ++ apply Forall_forall. intros x Hx. destruct (lp6_cases _ _ _ _ Hi _ _ x Ht Hx) as [(P1 & P2 & Hn')|(x' & s0 & P1 & _)]; [|cbn [snd] in P1; rewrite P1 in Hpl; done].
              eapply out_of; [exact Hn'|]. right. unfold pre64. by rewrite Ep.
           ++ apply Forall_concat_lp6. intros y z x Hy. apply Hoth. clear -Hy. set_solver.
        -- exact E.
      * left. exists (t, pair6 n). split.
        -- unfold le. apply elem_of_app. right. apply elem_of_concat. exists (lp6 (t, n, z0)). split; [by apply elem_of_list_fmap_1|]. unfold lp6. cbn [fst snd]. destruct (nn_val n); try done; by left.
        -- pose proof (net6 _ _ _ _ Hi _ _ Ht) as Hn. unfold pre64 in Hn. by rewrite Ep in Hn.
  - cbn [wp]. split; [|split; [apply vrel_refl|exact HI]]. right. split_and!; [done|done| |intros [_ [_ Hl]%around_long]; unfold norm in Hl; cbn [fst snd] in Hl; lia]. intros (x & Hx & Hn). change (cW c64) with 64 in *.
    destruct (stored6 _ _ Hx Hn) as (y & z & Hy & [(_ & _ & E)|(Hl & _)]); [|unfold norm in Hl; cbn [fst] in Hl; lia].
    apply (Hr y); [by apply (elem_of_list_fmap_1 fst) in Hy|]. by symmetry.
Qed.

Lemma update_high hk lk lb p (hb : Prop) (K : ptr -> prog St) : hk < 2 ^ 64 -> lk < 2 ^ 64 -> lb <= 64 -> 64 <= p.1 -> hi p = (64, hk) -> lo p = norm 64 lk lb -> (hb <-> lk = start 64 (lo p)) ->
  forall r6 F0, tr c64 h F0 r6 (map fst yz) ->
  wp (target <- n_find_node c64 r6 hk (Z.of_N 64) ;;
      match target with
      | None => Ret s
      | Some _ =>
        tn <- ld_num target ;;
        match nn_val tn with
        | VSub p =>
          pn <- ld_num p ;;
          target <- (if (nn_key pn =? lk) && (nn_bits pn =? lb) then Ret p else n_find_node c64 p lk (Z.of_N lb)) ;;
          match target with
          | None => Ret s
          | Some _ => ls <- below c64 target ;; upd_list cb (pair6s (unpack64 hk ++ repeat x00 8)) s ls
          end
        | _ => K target
        end
      end) h WS
     (fun s' h' _ => updated h (le xs yz) (true, p) hb s s' h' /\ kept h' s').
Proof using Hi HW HI Hact.
  intros Hk Hlk Hlb Hp Ehi Elo Hhb r6 F0 T6. destruct (il_trees _ _ _ _ Hi) as (_ & _ & _ & _ & Fs & _ & _ & _ & Ts & _).
  apply wp_bind. eapply wp_mono; [apply (tr_find c64 c64_ok _ _ _ _ hk 64 WS T6 Hk ltac:(change (cW c64) with 64; lia))|]. cbn beta.
  change (cW c64) with 64. rewrite norm64. intros r ? WS1 (-> & HW1 & Hr). destruct r as [t|].
  2: { cbn [wp]. split; [|split; [apply vrel_refl|exact HI]]. right.
    assert (G : forall q, stored (true, q) (le xs yz) -> 64 <= q.1 -> hi p <> hi q).
    { intros q (x & Hx & Hn) Hq E0. destruct (stored6 _ _ Hx Hn) as (y & z & Hy & [(Hl & _)|(_ & x' & s0 & _ & E & _)]); [lia|]. apply (Hr y); [by apply (elem_of_list_fmap_1 fst) in Hy|]. by rewrite <- Ehi, E0. }
    split_and!; [done|done| |].
    - intros Hst. by apply (G p).
    - intros [_ ((q & Hq & Hin) & _)]. destruct (in64_long _ _ Hin) as (_ & Q1 & _ & Q2 & Q3). destruct q as [fm q]. cbn [fst snd] in *. subst fm. by apply (G q). }
  destruct Hr as (n & ys & A & B & FT & Tt & Eys & Ep & Hout & Hin).
  destruct (split_yz _ _ _ Eys) as (A' & z0 & BB & Eyz & EA & EBB).
  assert (Hsub : forall w, w ∈ A' ++ (t, n, z0) :: BB -> w ∈ yz) by (intros x Hx; by rewrite Eyz).
  assert (Ht : (t, n, z0) ∈ yz) by (apply Hsub; clear; set_solver).
  unfold pre in Ep. cbn [snd] in Ep. change (cW c64) with 64 in Ep.
  assert (Eb : nn_bits n = 64) by (unfold norm in Ep; by injection Ep). rewrite Eb, norm64 in Ep. injection Ep as Ek.
  destruct (vsub_dec (nn_val n)) as [Hpl|[sp Es]].
  { destruct (il_low _ _ _ _ Hi _ _ Ht Hpl) as [H _]. cbn [snd] in H. lia. }
  destruct (tr_cells _ _ _ _ _ Tt (t, n) ltac:(by left)) as (C1 & _ & _). cbn [fst snd] in C1.
  apply wp_bind. eapply wp_ld_num; [exact C1|]. rewrite Es. pose proof (Ts _ _ _ Ht Es) as Tz. cbn [snd] in Tz.
  destruct (il_sub _ _ _ _ Hi _ _ _ Ht Es) as [_ Hz]. destruct (tr_root c64 c64_ok _ _ _ _ Tz Hz) as (ra & rn & -> & Hra & Rk & Rb & Rroot).
  apply wp_bind. eapply wp_ld_num; [exact Hra|]. change (cW c64) with 64 in *.
  (* outside the sub tree *)
  assert (Hoth : forall y z x, (y, z) ∈ A' ++ BB -> x ∈ lp6 (y, z) -> outside (true, p) x).
  { intros y z x Hy Hx. assert (Hy' : (y, z) ∈ yz) by (apply Hsub; clear -Hy; set_solver).
    destruct (lp6_cases _ _ _ _ Hi y z x Hy' Hx) as [(P1 & P2 & Hn')|(x' & s0 & P1 & P2 & P3 & P4 & Hn')]; (eapply out_of; [exact Hn'|]; left; intros [_ Hc]); cbn [snd] in Hc.
    - destruct Hc as [Hc _]. unfold pre64, pre, norm in Hc. cbn [fst] in Hc. lia.
    - destruct (pre64_valid _ _ _ _ Hi _ _ _ Hy' P3) as [V1 V2]. apply cov_high in Hc; [|lia|unfold join; cbn [fst]; lia]. rewrite hi_join, Ehi in Hc by done. destruct Hc as [[= Hc] _].
      assert (Epy : pre c64 y = (64, hk)) by (unfold pre; change (cW c64) with 64; by rewrite P2, norm64, <- Hc).
      assert (Hy2 : y ∈ A ++ ys ++ B).
      { apply (elem_of_list_fmap_1 fst) in Hy. cbn [fst] in Hy. change (fst <$> ?l) with (map fst l) in Hy. rewrite map_app, EA, EBB in Hy. done. }
      rewrite !elem_of_app in Hy2. destruct Hy2 as [Hy2|[Hy2|Hy2]].
      + apply (Hout y); [clear -Hy2; set_solver|]. rewrite Epy. apply covers_refl.
      + by apply (Hin y).
      + apply (Hout y); [clear -Hy2; set_solver|]. rewrite Epy. apply covers_refl. }
  assert (Elp : lp6 (t, n, z0) = map (lp6s (t, n)) z0) by (unfold lp6; cbn [fst snd]; by rewrite Es).
  assert (Hnet : forall x, x ∈ z0 -> is_net (lp6s (t, n) x) (true, join hk (pre64 x)) /\ (covers p (join hk (pre64 x)) <-> covers (lo p) (pre64 x)) /\ (p = join hk (pre64 x) <-> lo p = pre64 x)).
  { intros x Hx. pose proof (net6s _ _ _ _ Hi _ _ _ Ht Hx) as Hn. cbn [snd] in Hn. rewrite Ek in Hn. split; [done|]. destruct (pre64_valid _ _ _ _ Hi _ _ _ Ht Hx) as [V1 V2].
    assert (Hj : 64 <= (join hk (pre64 x)).1) by (unfold join; cbn [fst]; lia). split.
    - rewrite cov_high by done. rewrite hi_join, lo_join, Ehi by done. naive_solver.
    - split.
      + intros ->. by apply lo_join.
      + intros E. apply hi_lo_inj; [done|done| |]; [rewrite Ehi; by rewrite hi_join|by rewrite lo_join]. }
  (* what is stored in this /64 *)
  assert (HS1 : forall q, stored (true, q) (le xs yz) -> 64 <= q.1 -> hi q = (64, hk) -> exists x, x ∈ z0 /\ q = join hk (pre64 x)).
  { intros q (x & Hx & Hn) Hq Ehq. destruct (stored6 _ _ Hx Hn) as (y & z & Hy & [(Hl & _)|(_ & x' & s0 & S1 & S2 & S3 & S4)]); [lia|].
    rewrite Ehq in S2. destruct (il_sub _ _ _ _ Hi _ _ _ Hy S1) as [S5 _]. unfold pre64, pre in S2. change (cW c64) with 64 in S2. rewrite S5, norm64 in S2. injection S2 as S2.
    assert (Tz' := Ts _ _ _ Hy S1).
    assert (Ey : y = (t, n)).
    { assert (Hy2 : y ∈ A ++ (t, n) :: ys ++ B) by (rewrite <- Eys; by apply (elem_of_list_fmap_1 fst) in Hy).
      assert (Epy : pre c64 y = (64, hk)) by (unfold pre; change (cW c64) with 64; by rewrite S5, norm64, S2).
      rewrite elem_of_app, elem_of_cons, elem_of_app in Hy2. destruct Hy2 as [Hy2|[->|[Hy2|Hy2]]]; [|done| |]; exfalso.
      - apply (Hout y); [clear -Hy2; set_solver|]. rewrite Epy. apply covers_refl.
      - by apply (Hin y).
      - apply (Hout y); [clear -Hy2; set_solver|]. rewrite Epy. apply covers_refl. }
    subst y. cbn [snd] in *. rewrite Es in S1. injection S1 as <-. pose proof (tr_det _ _ _ _ _ _ _ Tz Tz') as <-. exists x'. split; [done|].
    destruct (pre64_valid _ _ _ _ Hi _ _ _ Hy S3) as [V1 V2]. apply hi_lo_inj; [done|unfold join; cbn [fst]; lia| |]; [by rewrite Ehq, hi_join|by rewrite lo_join]. }
  assert (HS2 : forall x, x ∈ z0 -> stored (true, join hk (pre64 x)) (le xs yz) /\ in64 (true, p) (true, join hk (pre64 x))).
  { intros x Hx. destruct (Hnet x Hx) as (N1 & _ & _). destruct (pre64_valid _ _ _ _ Hi _ _ _ Ht Hx) as [V1 V2]. split.
    - exists (lp6s (t, n) x). split; [|done]. unfold le. apply elem_of_app. right. apply elem_of_concat. exists (lp6 (t, n, z0)). split; [by apply elem_of_list_fmap_1|]. rewrite Elp. by apply elem_of_list_fmap_1.
    - apply in64_of; [done|unfold join; cbn [fst]; lia|]. by rewrite Ehi, hi_join. }
  assert (HS3 : forall q, stored q (le xs yz) -> in64 (true, p) q -> exists x, x ∈ z0 /\ q = (true, join hk (pre64 x))).
  { intros [fm q] Hq Hin6. destruct (in64_long _ _ Hin6) as (_ & Q1 & _ & Q2 & Q3). cbn [fst snd] in *. subst fm. rewrite Ehi in Q3. destruct (HS1 q Hq Q2 (eq_sym Q3)) as (x & Hx & ->). by exists x. }
  assert (Hst : forall x, x ∈ z0 -> pre64 x = lo p -> stored (true, p) (le xs yz)).
  { intros x Hx E. destruct (Hnet x Hx) as (_ & _ & N3). assert (E' : p = join hk (pre64 x)) by (by apply N3). rewrite E'. by apply HS2. }
  (* the part of the sub tree that is walked *)
  assert (Hfin : forall A2 seg B2 WS2, stored (true, p) (le xs yz) \/ taken (le xs yz) (true, p) hb -> WS1 ⊆ WS2 -> z0 = A2 ++ seg ++ B2 -> (forall x, x ∈ seg -> covers (lo p) (pre64 x) /\ lo p <> pre64 x) -> (forall x, x ∈ A2 ++ B2 -> ~ covers (lo p) (pre64 x) \/ lo p = pre64 x) ->
    wp (upd_list cb (pair6s (unpack64 hk ++ repeat x00 8)) s (map fst seg)) h WS2 (fun s' h' _ => updated h (le xs yz) (true, p) hb s s' h' /\ kept h' s')).
  { intros A2 seg B2 WS2 Htk HW2 Ez I1 I2. assert (Hms : unpack64 hk ++ repeat x00 8 = msip n) by (unfold msip; by rewrite Ek). rewrite Hms.
    assert (Hzz : forall x, x ∈ A2 ++ seg ++ B2 -> x ∈ z0) by (intros x Hx; by rewrite Ez).
    eapply wp_mono; [apply (upd6s_spec cb (D h (le xs yz)) Inv h (le xs yz) Hact a xs yz Hi eq_refl (t, n) z0 seg s h WS2)|].
    - clear -HW HW1 HW2. set_solver.
    - exact HI.
    - done.
    - cbn [snd]. by eexists.
    - intros x Hx. apply Hzz. clear -Hx. set_solver.
    - apply vrel_refl.
    - cbn beta. intros s' h' _ (E & Hv & _ & HI'). split; [|by split]. left. split; [|exact Htk].
      exists (map lp4 xs ++ concat (map lp6 A') ++ map (lp6s (t, n)) A2), (map (lp6s (t, n)) seg), (map (lp6s (t, n)) B2 ++ concat (map lp6 BB)). split_and!.
      + unfold le. rewrite Eyz, map_app, concat_app. cbn [map concat]. rewrite Elp. rewrite Ez, !map_app, <- !app_assoc. done.
      + apply Forall_forall. intros x Hx. apply elem_of_list_fmap in Hx as (x' & -> & Hx). destruct (Hnet x') as (N1 & N2 & N3); [apply Hzz; clear -Hx; set_solver|]. destruct (I1 x' Hx) as [J1 J2].
        eapply in_of; [exact N1|split; [done|by apply N2]|]. intros E'. apply J2, N3. exact (f_equal snd E').
      + assert (Hmid : forall x, x ∈ A2 ++ B2 -> outside (true, p) (lp6s (t, n) x)).
        { intros x Hx. destruct (Hnet x) as (N1 & N2 & N3); [apply Hzz; clear -Hx; set_solver|]. eapply out_of; [exact N1|]. destruct (I2 x Hx) as [J|J].
          - left. intros [_ Hc]. apply J, N2. exact Hc.
          - right. f_equal. by apply N3. }
        rewrite !Forall_app. split_and!.
        * apply Forall_forall. intros x Hx. apply elem_of_list_fmap in Hx as (x' & -> & Hx). by apply out4.
        * apply Forall_concat_lp6. intros y z x Hy. apply Hoth. clear -Hy. set_solver.
        * apply Forall_forall. intros x Hx. apply elem_of_list_fmap in Hx as (x' & -> & Hx). apply Hmid. clear -Hx. set_solver.
        * apply Forall_forall. intros x Hx. apply elem_of_list_fmap in Hx as (x' & -> & Hx). apply Hmid. clear -Hx. set_solver.
        * apply Forall_concat_lp6. intros y z x Hy. apply Hoth. clear -Hy. set_solver.
      + exact E. }
  destruct ((nn_key rn =? lk) && (nn_bits rn =? lb)) eqn:Eroot.
  - apply andb_true_iff in Eroot as [R1%N.eqb_eq R2%N.eqb_eq]. cbn [bind].
    assert (Epr : pre c64 (ra, rn) = lo p) by (unfold pre; cbn [snd]; change (cW c64) with 64; by rewrite R1, R2, Elo). rewrite Epr in Rroot.
    apply wp_bind. unfold below. apply wp_bind. eapply wp_mono; [apply (tr_enumerate c64 c64_ok _ _ _ _ _ Tz)|]. cbn beta. intros ? ? WS' (-> & -> & HW').
    apply wp_bind. eapply wp_ld_num; [exact Hra|]. cbn [wp]. destruct (nn_leaf rn).
    + destruct Rroot as (zs & Ez & Hzs). subst z0. cbn [tl]. apply (Hfin [(ra, rn)] zs [] WS'); [left; apply (Hst (ra, rn)); [by left|exact Epr]|done|by rewrite app_nil_r| |].
      * intros x Hx. destruct (Hzs x Hx) as [J1 J2]. split; [done|]. intros E. by apply J2.
      * intros x Hx. rewrite app_nil_r in Hx. apply elem_of_list_singleton in Hx as ->. right. by symmetry.
    + destruct Rroot as (Rroot & Rkey & Rmax). apply (Hfin [] z0 [] WS'); [right|done|by rewrite app_nil_r| |].
      { split; [apply Hhb; congruence|]. split_and!.
        - destruct z0 as [|x0 z0]; [done|]. exists (true, join hk (pre64 x0)). apply HS2. by left.
        - intros q Hq Hin6. destruct (HS3 q Hq Hin6) as (x & Hx & ->). destruct (Hnet x Hx) as (_ & N2 & _). split; [done|]. cbn [snd]. apply N2. by apply Rroot.
        - intros [fm p'] [Hf Hc] Hne. cbn [fst snd] in Hf, Hc. subst fm. assert (Hp' : 64 <= p'.1) by (destruct Hc; lia).
          assert (Hlt : p.1 < p'.1).
          { destruct (N.lt_ge_cases p.1 p'.1) as [?|Hge]; [done|]. exfalso. apply Hne. f_equal. apply (covers_same_len _ _ p'); [done|apply covers_refl|]. destruct Hc. lia. }
          destruct (decide (Forall (fun x => covers (lo p') (pre64 x)) z0)) as [Hall|Hall].
          + exfalso. rewrite Forall_forall in Hall. specialize (Rmax (lo p') Hall). unfold lo in Rmax at 1. cbn [fst] in Rmax. rewrite R2 in Rmax.
            apply (f_equal fst) in Elo. unfold lo, norm in Elo. cbn [fst] in Elo. lia.
          + apply not_Forall_Exists in Hall; [|intros x; apply _]. apply Exists_exists in Hall as (x & Hx & Hnc). exists (true, join hk (pre64 x)). destruct (HS2 x Hx) as [G1 G2].
            split_and!; [done|done|]. intros [_ Hc']. cbn [snd] in Hc'. destruct (pre64_valid _ _ _ _ Hi _ _ _ Ht Hx) as [V1 V2]. apply cov_high in Hc'; [|done|unfold join; cbn [fst]; lia]. destruct Hc' as [_ Hc']. by rewrite lo_join in Hc'. }
      * intros x Hx. destruct (Rroot x Hx) as [J1 J2]. split; [done|]. intros E. by apply J2.
      * intros x Hx. by apply elem_of_nil in Hx.
  - apply wp_bind. eapply wp_mono; [apply (tr_find c64 c64_ok _ _ _ _ lk lb WS1 Tz Hlk Hlb)|]. cbn beta. change (cW c64) with 64. rewrite <- Elo. intros r ? WS2 (-> & HW2 & Hr). destruct r as [t2|].
    + destruct Hr as (n2 & ys2 & A2 & B2 & FT2 & Tt2 & Ez & Ep2 & Hout2 & Hin2).
      apply wp_bind. eapply wp_mono; [apply (below_spec c64 c64_ok _ _ _ _ _ _ Tt2)|]. cbn beta. intros ? ? WS3 (-> & -> & HW3).
      apply (Hfin (A2 ++ [(t2, n2)]) ys2 B2 WS3); [left; apply (Hst (t2, n2)); [rewrite Ez; clear; set_solver|exact Ep2]|by etrans|by rewrite <- app_assoc| |].
      * intros x Hx. destruct (Hin2 x Hx) as [J1 J2]. split; [done|]. intros E. by apply J2.
      * intros x Hx. rewrite !elem_of_app in Hx. destruct Hx as [[Hx|Hx]|Hx].
        -- left. apply Hout2. clear -Hx. set_solver.
        -- apply elem_of_list_singleton in Hx as ->. right. by symmetry.
        -- left. apply Hout2. clear -Hx. set_solver.
    + cbn [wp]. split; [|split; [apply vrel_refl|exact HI]]. right.
      assert (Hno : forall x, x ∈ z0 -> pre64 x <> lo p) by (intros x Hx; by apply Hr).
      split_and!; [done|done| |].
      * intros Hq. destruct (HS1 p Hq Hp Ehi) as (x & Hx & E). destruct (Hnet x Hx) as (_ & _ & N3). apply (Hno x Hx). symmetry. by apply N3.
      * intros [Hh (_ & A2 & A3)]. apply Hhb in Hh.
        assert (Hc : forall x, x ∈ z0 -> covers (lo p) (pre64 x)).
        { intros x Hx. destruct (HS2 x Hx) as [G1 G2]. destruct (Hnet x Hx) as (_ & N2 & _). apply N2. by destruct (A2 _ G1 G2) as [_ Hcc]. }
        assert (Hroot : exists r0 : pfx, 64 <= r0.1 /\ hi r0 = (64, hk) /\ covers p r0 /\ p <> r0 /\ forall x, x ∈ z0 -> covers r0 (join hk (pre64 x))).
        { assert (Vr : (pre64 (ra, rn)).2 < 2 ^ (pre64 (ra, rn)).1 /\ (pre64 (ra, rn)).1 <= 64) by (unfold pre64, pre; by destruct (norm_valid 64 _ _ Rk Rb)).
          destruct Vr as [V1 V2]. exists (join hk (pre64 (ra, rn))). assert (Hl0 : 64 <= (join hk (pre64 (ra, rn))).1) by (unfold join; cbn [fst]; lia).
          assert (Hcv : covers (lo p) (pre64 (ra, rn)) /\ lo p <> pre64 (ra, rn) /\ forall x, x ∈ z0 -> covers (pre64 (ra, rn)) (pre64 x)).
          { destruct (nn_leaf rn).
            - destruct Rroot as (zs & Ez & Hzs). assert (Hx0 : (ra, rn) ∈ z0) by (rewrite Ez; by left). split_and!; [by apply Hc|intros E; by apply (Hno _ Hx0)|].
              intros x Hx. rewrite Ez in Hx. apply elem_of_cons in Hx as [->|Hx]; [apply covers_refl|]. by apply Hzs.
            - destruct Rroot as (Rroot & Rkey & Rmax). assert (Hle : (lo p).1 <= nn_bits rn) by (by apply Rmax). destruct z0 as [|x0 z0]; [done|]. split_and!.
              + apply (covers_cmp _ (pre64 x0)); [apply Hc; by left|apply Rroot; by left|done].
              + intros E. apply not_true_iff_false in Eroot. apply Eroot. apply andb_true_iff. rewrite !N.eqb_eq. split.
                * rewrite Rkey, Hh. by rewrite E.
                * rewrite Elo in E. apply (f_equal fst) in E. unfold pre64, pre, norm in E. cbn [fst snd] in E. done.
              + intros x Hx. by apply Rroot. }
          destruct Hcv as (C1' & C2' & C3'). split_and!; [done|by rewrite hi_join| | |].
          - apply cov_high; [done|done|]. by rewrite hi_join, lo_join, Ehi.
          - intros E. apply C2'. rewrite E. by rewrite lo_join.
          - intros x Hx. destruct (pre64_valid _ _ _ _ Hi _ _ _ Ht Hx) as [V3 V4]. apply cov_high; [done|unfold join; cbn [fst]; lia|]. rewrite !hi_join, !lo_join by done. split; [done|by apply C3']. }
        destruct Hroot as (r0 & _ & _ & P1 & P2 & P3). destruct (A3 (true, r0)) as (q & Hq & Hin6 & Hnc).
        { by split. }
        { intros [= E]. done. }
        destruct (HS3 q Hq Hin6) as (x & Hx & ->). apply Hnc. split; [done|]. by apply P3.
Qed.

(** ** All together. *)
Lemma update_net n p : net_is (Some n) p ->
  wp (ip_update_by cb (Some a) (Some n) s) h WS (fun s' h' _ => updated h (le xs yz) p (no_host_bits (Some n) p) s s' h' /\ kept h' s').
Proof using Hi HW HI Hact.
  intros Hn. unfold ip_update_by. pose proof (ip4_key_spec n) as K4. destruct (ip4_key n) as [[k b]|].
  { destruct K4 as (Hn' & Hk & Hb). rewrite (net_is_fun _ _ _ Hn Hn'). by apply update4. }
  pose proof (ip6_key_spec n) as K6. pose proof (ip6_key_be n) as K7. destruct (ip6_key n) as [[[[hk hb] lk] lb]|].
  2: { exfalso. destruct p as [[] q]; [by apply K6 in Hn|by apply K4 in Hn]. }
  destruct K6 as (q & Hn' & Hhk & Hlk & Hvq & Klow & Khigh). rewrite (net_is_fun _ _ _ Hn Hn').
  destruct (il_trees _ _ _ _ Hi) as (r4 & r6 & F4 & F0 & Fs & Ha & T4 & T6 & Ts & Hd).
  apply wp_bind. eapply wp_ld_ip; [exact Ha|]. cbn [fst snd].
  destruct (N.lt_ge_cases q.1 64) as [Hq|Hq].
  - destruct (Klow Hq) as [-> Eq]. eapply wp_mono; [by eapply (update_low hk q.1 (no_host_bits (Some n) (true, q)))|]. cbn beta. intros s' h' _. by rewrite Eq.
  - destruct (Khigh Hq) as (-> & Hlb & E1 & E2 & E3). rewrite norm64 in E1. eapply (update_high hk lk lb q (no_host_bits (Some n) (true, q)) (fun target => ls <- below c64 target ;; upd_top cb s ls)); try done.
    destruct n as [ip m]. unfold no_host_bits. cbn [fst snd width] in *. destruct (lo_valid q) as [L1 L2]; [split; [done|apply Hvq]|].
    assert (Ej : q = join hk (lo q)) by (apply hi_lo_inj; [done|unfold join; cbn [fst]; lia|by rewrite hi_join|by rewrite lo_join]).
    rewrite K7. rewrite Ej at 1. rewrite start_join by done. clear; split; lia.
Qed.
End view2.
End upd.
