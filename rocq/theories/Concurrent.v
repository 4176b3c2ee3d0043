(** * Goroutines sharing trees.

    A machine in which any number of goroutines call the operations of a package
    at the same time, interleaved at the granularity of single memory accesses
    (one Go struct allocated, read or written). Trees are handed from goroutine to
    goroutine by proper synchronisation (channel, mutex, go statement): a call
    sees the trees published when it begins, and publishes the tree it returns
    when it ends. No Go source is modelled here; the calls are the [exec]
    functions of the packages (History.v). *)
From Verif Require Import Prog History.

Section machine.
Context {U V op out : Type}.
Local Notation heap := (heap U).
Variable exec : list V -> op -> prog U (list V * out).

(** One memory access. A load or store of a cell that does not exist, and a panic,
    have no step. *)
Inductive mstep {A} : prog U A * heap -> prog U A * heap -> Prop :=
| ms_alloc c k h l : h !! l = None -> mstep (Alloc c k, h) (k l, <[l := c]> h)
| ms_load l k h c : h !! l = Some c -> mstep (Load l k, h) (k c, h)
| ms_store l c k h : is_Some (h !! l) -> mstep (Store l c k, h) (k, <[l := c]> h).

(** A running call: the operation, the trees it was given, the memory when it
    began (recorded for the statements only), and what is left to do. *)
Record call := Call { k_op : op; k_seen : list V; k_mem : heap; k_prog : prog U (list V * out) }.
(** A finished call: also where the trees it published begin. *)
Record ended := Ended { e_op : op; e_seen : list V; e_mem : heap; e_pos : nat; e_ret : list V * out }.
Record cfg := Cfg {
  c_ops : list op;             (* every operation begun so far *)
  c_pub : list V;              (* every tree published so far *)
  c_calls : gmap nat call;     (* running *)
  c_ended : list ended;
  c_mem : heap }.

Inductive cstep : cfg -> cfg -> Prop :=
| cs_begin ops pub cs es h i o :
    cs !! i = None ->
    cstep (Cfg ops pub cs es h) (Cfg (ops ++ [o]) pub (<[i := Call o pub h (exec pub o)]> cs) es h)
| cs_access ops pub cs es h i o seen h0 m m' h' :
    cs !! i = Some (Call o seen h0 m) -> mstep (m, h) (m', h') ->
    cstep (Cfg ops pub cs es h) (Cfg ops pub (<[i := Call o seen h0 m']> cs) es h')
| cs_end ops pub cs es h i o seen h0 r :
    cs !! i = Some (Call o seen h0 (Ret r)) ->
    cstep (Cfg ops pub cs es h)
          (Cfg ops (pub ++ drop (length seen) r.1) (delete i cs) (es ++ [Ended o seen h0 (length pub) r]) h).

Definition start (vs : list V) (h : heap) : cfg := Cfg [] vs ∅ [] h.

(** ** What must hold in every reachable state. *)
(** A call can go on or has its result: no panic, no wild access. *)
Definition not_stuck (h : heap) (m : prog U (list V * out)) : Prop :=
  (exists r, m = Ret r) \/ exists x, mstep (m, h) x.
(** Two calls about to access the same cell, one of them writing it. *)
Definition writes {A} (m : prog U A) (l : loc) : Prop := match m with Store l' _ _ => l' = l | _ => False end.
Definition accesses {A} (m : prog U A) (l : loc) : Prop := match m with Store l' _ _ => l' = l | Load l' _ => l' = l | _ => False end.
Definition race (c : cfg) : Prop := exists i j x y l, i <> j /\
  c_calls c !! i = Some x /\ c_calls c !! j = Some y /\ writes (k_prog x) l /\ accesses (k_prog y) l.
(** Running alone: from a memory to a result, whatever addresses are handed out. *)
Definition alone (m : prog U (list V * out)) (h : heap) (r : list V * out) : Prop := exists h', rtc mstep (m, h) (Ret r, h').

Definition conc_safe (h : heap) (c : cfg) : Prop :=
  (forall i x, c_calls c !! i = Some x -> not_stuck (c_mem c) (k_prog x)) /\
  ~ race c /\
  h ⊆ c_mem c /\
  Forall (fun e => e_seen e `prefix_of` c_pub c /\ alone (exec (e_seen e) (e_op e)) (e_mem e) (e_ret e)) (c_ended c).

(** ** Proof. *)
Context {S : Type}.
Variable step : list S -> op -> list S -> out -> Prop.
Variable R : nat -> heap -> V -> S -> Prop.
Variable okop : op -> Prop.
Variable w : op -> nat.
Variable N : nat.
Hypothesis R_mono : forall n n' h h' v s, h ⊆ h' -> n <= n' -> R n h v s -> R n' h' v s.
Hypothesis exec_ok : forall n h vs ss o, n + w o <= N -> Forall2 (R n h) vs ss -> okop o ->
  wp (exec vs o) h ∅ (fun r h' _ => exists ss', step ss o ss' r.2 /\ Forall2 (R (n + w o) h') r.1 ss').

(** The answers of a finished call are those of the specification for the trees
    it was given, and the trees it published are the ones specified. *)
Definition answered (ss : list S) (e : ended) : Prop :=
  exists ss', step (take (length (e_seen e)) ss) (e_op e) ss' (e_ret e).2 /\
    drop (length (e_seen e)) ss' = take (length (e_ret e).1 - length (e_seen e)) (drop (e_pos e) ss).

Lemma R_all n n' h h' vs ss : h ⊆ h' -> n <= n' -> Forall2 (R n h) vs ss -> Forall2 (R n' h') vs ss.
Proof using R_mono. intros Hs Hn H. eapply Forall2_impl; [exact H|]. intros. by eapply R_mono. Qed.

Record good_call (n : nat) (h : heap) (pub : list V) (ss : list S) (x : call) (hv : heap) (W : gset loc) (s : heap) : Prop := {
  gc_wp : wp (k_prog x) hv W (fun r h' _ => exists ss', step (take (length (k_seen x)) ss) (k_op x) ss' r.2 /\ Forall2 (R n h') r.1 ss');
  gc_sub : hv ⊆ h;
  gc_W : W ⊆ dom h;
  gc_solo : rtc mstep (exec (k_seen x) (k_op x), k_mem x) (k_prog x, s);
  gc_view : hv ⊆ s;
  gc_dom : dom s ⊆ dom h;
  gc_seen : k_seen x = take (length (k_seen x)) pub;
  gc_len : length (k_seen x) <= length pub
}.
Definition inv (n0 : nat) (h00 : heap) (ss0 : list S) (c : cfg) : Prop :=
  exists (F : heap) (ss : list S) (hv s : nat -> heap) (W : nat -> gset loc),
    let n := n0 + weight w (c_ops c) in
    Forall2 (R n F) (c_pub c) ss /\ F ⊆ c_mem c /\ h00 ⊆ F /\ ss0 `prefix_of` ss /\
    (forall i x, c_calls c !! i = Some x -> good_call n (c_mem c) (c_pub c) ss x (hv i) (W i) (s i) /\ W i ## dom F) /\
    (forall i j x y, i <> j -> c_calls c !! i = Some x -> c_calls c !! j = Some y -> W i ## dom (hv j)) /\
    Forall (fun e => answered ss e /\ alone (exec (e_seen e) (e_op e)) (e_mem e) (e_ret e) /\
                     e_seen e = take (length (e_seen e)) (c_pub c) /\ length (e_seen e) <= length (c_pub c) /\
                     e_pos e + (length (e_ret e).1 - length (e_seen e)) <= length (c_pub c)) (c_ended c).

Lemma weight_snoc ops o : weight w (ops ++ [o]) = weight w ops + w o.
Proof. unfold weight. rewrite map_app, list_sum_app. simpl. lia. Qed.
Lemma good_call_n n n' h h' pub pub' ss ss' x hv W s :
  n <= n' -> hv ⊆ h' -> dom h ⊆ dom h' -> pub `prefix_of` pub' -> ss `prefix_of` ss' -> length pub = length ss ->
  good_call n h pub ss x hv W s -> good_call n' h' pub' ss' x hv W s.
Proof using R_mono.
  intros Hn Hs Hd [p2 ->] [s2 ->] Hl [A1 A2 A8 A3 A4 A5 A6 A7]. split; try done.
  - eapply wp_mono; [exact A1|]. cbn beta. intros r h1 _ (ss1 & Hst & HR). exists ss1. rewrite take_app_le by lia. split; [done|].
    by eapply R_all; [..|exact HR].
  - by etrans.
  - by etrans.
  - by rewrite take_app_le by lia.
  - rewrite app_length. lia.
Qed.
Lemma answered_mono ss ss' e (p : list V) : ss `prefix_of` ss' -> length p = length ss -> length (e_seen e) <= length p ->
  e_pos e + (length (e_ret e).1 - length (e_seen e)) <= length p -> answered ss e -> answered ss' e.
Proof.
  intros [s2 ->] Hl H1 H2 (ss1 & A & B). exists ss1. rewrite take_app_le by lia. split; [done|]. rewrite B.
  rewrite drop_app_le by lia. rewrite take_app_le; [done|]. rewrite drop_length. lia.
Qed.
Definition fup {A} (f : nat -> A) (i : nat) (a : A) (j : nat) : A := if decide (i = j) then a else f j.
Lemma fup_eq {A} (f : nat -> A) i a : fup f i a i = a.
Proof. unfold fup. by rewrite decide_True. Qed.
Lemma fup_ne {A} (f : nat -> A) i a j : i <> j -> fup f i a j = f j.
Proof. intros. unfold fup. by rewrite decide_False. Qed.

Lemma inv_step n0 h00 ss0 c c' : cstep c c' -> Forall okop (c_ops c') -> n0 + weight w (c_ops c') <= N -> inv n0 h00 ss0 c -> inv n0 h00 ss0 c'.
Proof using R_mono exec_ok.
  intros Hst Hok HN (F & ss & hv & s & W & Hpub & HF & H00 & Hpre & Hcalls & Hdis & Hend).
  assert (Hlen : length (c_pub c) = length ss) by (by eapply Forall2_length).
  destruct Hst as [ops pub cs es h i o Hi|ops pub cs es h i o seen h0 m m' h' Hi Hm|ops pub cs es h i o seen h0 r Hi]; cbn [c_ops c_pub c_calls c_ended c_mem] in *.
  - rewrite weight_snoc in HN. rewrite Forall_app, Forall_singleton in Hok. destruct Hok as [_ Ho].
    exists F, ss, (fup hv i F), (fup s i h), (fup W i ∅). cbn [c_ops c_pub c_calls c_ended c_mem]. rewrite weight_snoc. split_and!; try done.
    + eapply R_all; [..|exact Hpub]; [done|lia].
    + intros j x Hx. destruct (decide (i = j)) as [->|Hne].
      * rewrite lookup_insert in Hx. injection Hx as <-. rewrite !fup_eq. split; [|clear; set_solver]. split; cbn [k_op k_seen k_mem k_prog].
        -- rewrite Hlen, firstn_all. rewrite Nat.add_assoc. apply exec_ok; [lia|done|done].
        -- done.
        -- clear. set_solver.
        -- apply rtc_refl.
        -- done.
        -- done.
        -- by rewrite firstn_all.
        -- done.
      * rewrite lookup_insert_ne in Hx by done. rewrite !fup_ne by done. destruct (Hcalls _ _ Hx) as [Hg Hd]. split; [|done].
        eapply good_call_n; [| | | | | |exact Hg]; try done; [lia|apply Hg].
    + intros j k x y Hne Hx Hy. destruct (decide (i = j)) as [->|Hnj].
      * rewrite fup_eq. clear. set_solver.
      * rewrite lookup_insert_ne in Hx by done. rewrite (fup_ne W) by done. destruct (decide (i = k)) as [->|Hnk].
        -- rewrite fup_eq. by eapply Hcalls.
        -- rewrite lookup_insert_ne in Hy by done. rewrite fup_ne by done. by eapply Hdis.
  - destruct (Hcalls _ _ Hi) as [[A1 A2 A9 A3 A4 A5 A6 A7] A8]. cbn [k_op k_seen k_mem k_prog] in *.
    assert (exists hv' W' s', wp m' hv' W' (fun r h' _ => exists ss', step (take (length seen) ss) o ss' r.2 /\ Forall2 (R (n0 + weight w ops) h') r.1 ss') /\
      hv' ⊆ h' /\ mstep (m, s i) (m', s') /\ hv' ⊆ s' /\ dom s' ⊆ dom h' /\ dom h ⊆ dom h' /\ W' ⊆ W i ∪ (dom h' ∖ dom h) /\ dom hv' ⊆ dom (hv i) ∪ (dom h' ∖ dom h) /\
      (forall g, g ⊆ h -> W i ## dom g -> g ⊆ h')) as (hv' & W' & s' & B1 & B2 & B3 & B4 & B5 & B6 & B7 & B8 & B9).
    { inversion Hm as [c k h1 l Hl|l k h1 c Hl|l c k h1 Hl]; subst; cbn [wp] in A1.
      - assert (Hld : l ∉ dom h) by (by apply not_elem_of_dom).
        assert (Hls : s i !! l = None) by (apply not_elem_of_dom; clear -A5 Hld; set_solver).
        assert (Hlv : hv i !! l = None) by (by eapply lookup_weaken_None).
        exists (<[l := c]> (hv i)), ({[l]} ∪ W i), (<[l := c]> (s i)). rewrite !dom_insert_L. split_and!.
        + by apply A1.
        + by apply insert_mono.
        + by constructor.
        + by apply insert_mono.
        + clear -A5. set_solver.
        + clear. set_solver.
        + clear -Hld. set_solver.
        + clear -Hld. set_solver.
        + intros g Hg _. etrans; [exact Hg|]. by apply insert_subseteq.
      - destruct A1 as (c' & Hc' & A1). assert (c' = c) as ->. { pose proof (lookup_weaken _ _ _ _ Hc' A2). congruence. }
        exists (hv i), (W i), (s i). split_and!; [done|done|apply ms_load; exact (lookup_weaken _ _ _ _ Hc' A4)|done|done|done|clear; set_solver|clear; set_solver|done].
      - destruct A1 as (HlW & Hlv & A1). destruct Hlv as [c1 Hc1].
        exists (<[l := c]> (hv i)), (W i), (<[l := c]> (s i)).
        assert (Hl1 : l ∈ dom h) by (by apply elem_of_dom). assert (Hl2 : l ∈ dom (hv i)) by (by apply elem_of_dom; eexists).
        rewrite !dom_insert_L. split_and!.
        + done.
        + by apply insert_mono.
        + apply ms_store. exists c1. exact (lookup_weaken _ _ _ _ Hc1 A4).
        + by apply insert_mono.
        + clear -A5. set_solver.
        + clear. set_solver.
        + clear. set_solver.
        + clear -Hl2. set_solver.
        + intros g Hg Hd. apply map_subseteq_spec. intros l' c' Hl'. assert (l <> l'). { intros ->. assert (Hg' : l' ∈ dom g) by (apply elem_of_dom; by eexists). clear -Hd HlW Hg'. set_solver. }
          rewrite lookup_insert_ne by done. by eapply lookup_weaken. }
    assert (Hdom : forall g : heap, g ⊆ h -> dom g ⊆ dom h) by (intros g Hg; by apply subseteq_dom).
    exists F, ss, (fup hv i hv'), (fup s i s'), (fup W i W'). cbn [c_ops c_pub c_calls c_ended c_mem]. split_and!; try done.
    + by apply B9.
    + intros j x Hx. destruct (decide (i = j)) as [->|Hne].
      * rewrite lookup_insert in Hx. injection Hx as <-. rewrite !fup_eq. split; [split; cbn [k_op k_seen k_mem k_prog]; try done; [clear -A9 B6 B7; set_solver|by eapply rtc_r]|].
        specialize (Hdom F HF). clear -A8 B7 Hdom. set_solver.
      * rewrite lookup_insert_ne in Hx by done. rewrite !fup_ne by done. destruct (Hcalls _ _ Hx) as [Hg Hd]. split; [|done].
        eapply good_call_n; [| | | | | |exact Hg]; try done. apply B9; [apply Hg|]. by eapply Hdis.
    + intros j k x y Hne Hx Hy. destruct (decide (i = j)) as [->|Hnj].
      * rewrite fup_eq, fup_ne by done. rewrite lookup_insert_ne in Hy by done. pose proof (Hdis _ _ _ _ Hne Hi Hy) as Hd.
        destruct (Hcalls _ _ Hy) as [Hg _]. specialize (Hdom _ (gc_sub _ _ _ _ _ _ _ _ Hg)). clear -Hd Hdom B7. set_solver.
      * rewrite (fup_ne W) by done. rewrite lookup_insert_ne in Hx by done. destruct (decide (i = k)) as [->|Hnk].
        -- rewrite fup_eq. pose proof (Hdis _ _ _ _ Hne Hx Hi) as Hd. destruct (Hcalls _ _ Hx) as [Hg _]. pose proof (gc_W _ _ _ _ _ _ _ _ Hg) as HW. clear -Hd HW B8. set_solver.
        -- rewrite lookup_insert_ne in Hy by done. rewrite fup_ne by done. by eapply Hdis.
  - destruct (Hcalls _ _ Hi) as [[A1 A2 A9 A3 A4 A5 A6 A7] A8]. cbn [k_op k_seen k_mem k_prog wp] in *. destruct A1 as (ss' & Hs' & HR').
    assert (HF' : F ∪ hv i ⊆ h) by (by apply map_union_least).
    assert (Hv' : hv i ⊆ F ∪ hv i).
    { apply map_subseteq_spec. intros l c Hl. apply lookup_union_Some_raw. destruct (F !! l) as [c'|] eqn:E; [left|by right].
      pose proof (lookup_weaken _ _ _ _ Hl A2). pose proof (lookup_weaken _ _ _ _ E HF). congruence. }
    pose proof (Forall2_length _ _ _ HR') as Hl'.
    exists (F ∪ hv i), (ss ++ drop (length seen) ss'), hv, s, W. cbn [c_ops c_pub c_calls c_ended c_mem]. split_and!; try done.
    + apply Forall2_app; [eapply R_all; [..|exact Hpub]; [apply map_union_subseteq_l|done]|]. apply Forall2_drop. eapply R_all; [..|exact HR']; done.
    + etrans; [exact H00|]. apply map_union_subseteq_l.
    + etrans; [exact Hpre|]. by apply prefix_app_r.
    + intros j x Hx. destruct (decide (i = j)) as [->|Hne]; [by rewrite lookup_delete in Hx|]. rewrite lookup_delete_ne in Hx by done.
      destruct (Hcalls _ _ Hx) as [Hg Hd]. split.
      * eapply good_call_n; [| | | | | |exact Hg]; try done; [apply Hg|by apply prefix_app_r|by apply prefix_app_r].
      * rewrite dom_union_L. pose proof (Hdis _ _ _ _ (not_eq_sym Hne) Hx Hi) as Hd'. clear -Hd Hd'. set_solver.
    + intros j k x y Hne Hx Hy. apply lookup_delete_Some in Hx as [_ Hx], Hy as [_ Hy]. by eapply Hdis.
    + apply Forall_app. split.
      * eapply Forall_impl; [exact Hend|]. cbn beta. intros e (E1 & E2 & E3 & E4 & E5). split_and!; [|done| |rewrite app_length; lia|rewrite app_length; lia].
        -- eapply (answered_mono ss _ e pub); [by apply prefix_app_r|done..].
        -- by rewrite take_app_le by lia.
      * apply Forall_singleton. cbn [e_op e_seen e_mem e_pos e_ret]. rewrite app_length, drop_length. split_and!; [| | |lia|lia].
        -- exists ss'. cbn [e_op e_seen e_mem e_pos e_ret]. rewrite take_app_le by lia. split; [done|]. rewrite Hlen, drop_app, take_ge; [done|]. rewrite drop_length. lia.
        -- by eexists.
        -- by rewrite take_app_le by lia.
Qed.

Lemma inv_start n0 h ss0 vs0 : Forall2 (R n0 h) vs0 ss0 -> inv n0 h ss0 (start vs0 h).
Proof.
  intros H. exists h, ss0, (fun _ => ∅), (fun _ => ∅), (fun _ => ∅). cbn [start c_ops c_pub c_calls c_ended c_mem]. unfold weight. cbn [map list_sum foldr].
  rewrite Nat.add_0_r. split_and!; done.
Qed.
Lemma ops_grow c c' : cstep c c' -> c_ops c `prefix_of` c_ops c'.
Proof. destruct 1; cbn [c_ops]; [by apply prefix_app_r|done|done]. Qed.
Lemma weight_prefix l l' : l `prefix_of` l' -> weight w l <= weight w l'.
Proof. intros [k ->]. unfold weight. rewrite map_app, list_sum_app. lia. Qed.
Lemma inv_reach n0 h ss0 vs0 c : Forall2 (R n0 h) vs0 ss0 -> rtc cstep (start vs0 h) c ->
  Forall okop (c_ops c) -> n0 + weight w (c_ops c) <= N -> inv n0 h ss0 c.
Proof using R_mono exec_ok.
  intros HR Hr. pattern c. eapply rtc_ind_r; [|clear c Hr|exact Hr].
  - intros _ _. by apply inv_start.
  - intros c c' Hr Hs IH Hok HN. pose proof (ops_grow _ _ Hs) as Hp. eapply inv_step; [exact Hs|done|done|]. apply IH.
    + destruct Hp as [k Hp]. rewrite Hp in Hok. by apply Forall_app in Hok as [? _].
    + pose proof (weight_prefix _ _ Hp). lia.
Qed.

Lemma conc_ok n0 h ss0 vs0 c : Forall2 (R n0 h) vs0 ss0 -> rtc cstep (start vs0 h) c ->
  Forall okop (c_ops c) -> n0 + weight w (c_ops c) <= N ->
  conc_safe h c /\
  exists ss, ss0 `prefix_of` ss /\ Forall2 (R (n0 + weight w (c_ops c)) (c_mem c)) (c_pub c) ss /\ Forall (answered ss) (c_ended c).
Proof using R_mono exec_ok.
  intros HR Hr Hok HN. destruct (inv_reach _ _ _ _ _ HR Hr Hok HN) as (F & ss & hv & s & W & Hpub & HF & H00 & Hpre & Hcalls & Hdis & Hend).
  unfold conc_safe. split_and!.
  - intros i [o seen h0 m] Hx. cbn [k_prog]. destruct (Hcalls _ _ Hx) as [[A1 A2 _ _ _ _ _ _] _]. cbn [k_prog] in A1. unfold not_stuck. destruct m as [r|e|c1 k|l k|l c1 k]; cbn [wp] in A1.
    + left. by eexists.
    + done.
    + right. exists (k (fresh (dom (c_mem c))), <[fresh (dom (c_mem c)) := c1]> (c_mem c)). constructor. apply not_elem_of_dom, is_fresh.
    + right. destruct A1 as (c1 & Hc & _). eexists. apply ms_load. by eapply lookup_weaken.
    + right. destruct A1 as (_ & [c2 Hc] & _). eexists. apply ms_store. exists c2. by eapply lookup_weaken.
  - intros (i & j & x & y & l & Hne & Hx & Hy & Hw & Ha). pose proof (Hdis _ _ _ _ Hne Hx Hy) as Hd.
    destruct (Hcalls _ _ Hx) as [[A1 _ _ _ _ _ _ _] _], (Hcalls _ _ Hy) as [[B1 _ _ _ _ _ _ _] _].
    assert (l ∈ W i). { destruct (k_prog x); cbn [writes wp] in *; try done. subst. tauto. }
    assert (l ∈ dom (hv j)). { apply elem_of_dom. destruct (k_prog y); cbn [accesses wp] in *; try done; subst; [destruct B1 as (? & ? & _); by eexists|tauto]. }
    clear -Hd H H0. set_solver.
  - by etrans.
  - eapply Forall_impl; [exact Hend|]. cbn beta. intros e (_ & E2 & E3 & _). split; [|done].
    rewrite E3. exists (drop (length (e_seen e)) (c_pub c)). by rewrite take_drop.
  - exists ss. split_and!; [done|by eapply R_all; [..|exact Hpub]|]. eapply Forall_impl; [exact Hend|]. cbn beta. tauto.
Qed.

(** A call ends after finitely many accesses of its own, whatever the others do to
    the memory in between. *)
Lemma wait_free {A} (m : prog U A) : Acc (fun m' m => exists h h', mstep (m, h) (m', h')) m.
Proof. induction m as [a|e|c k IH|l k IH|l c k IH]; constructor; intros m' (h & h' & H); inversion H; subst; auto. Qed.
End machine.

(** ** A scheduler to run examples: impossible choices are skipped; an allocation
    gets the given address. *)
Section sched.
Context {U V op out : Type}.
Variable exec : list V -> op -> prog U (list V * out).
Local Notation cfg := (@cfg U V op out).
Inductive choice := CBegin (i : nat) (o : op) | CAccess (i : nat) (l : loc) | CEnd (i : nat).
Definition choose (c : cfg) (x : choice) : cfg :=
  let 'Cfg ops pub cs es h := c in
  match x with
  | CBegin i o => match cs !! i with None => Cfg (ops ++ [o]) pub (<[i := Call o pub h (exec pub o)]> cs) es h | Some _ => c end
  | CAccess i l =>
    match cs !! i with
    | Some (Call o seen h0 (Alloc x k)) => match h !! l with None => Cfg ops pub (<[i := Call o seen h0 (k l)]> cs) es (<[l := x]> h) | Some _ => c end
    | Some (Call o seen h0 (Load a k)) => match h !! a with Some x => Cfg ops pub (<[i := Call o seen h0 (k x)]> cs) es h | None => c end
    | Some (Call o seen h0 (Store a x k)) => match h !! a with Some _ => Cfg ops pub (<[i := Call o seen h0 k]> cs) es (<[a := x]> h) | None => c end
    | _ => c
    end
  | CEnd i =>
    match cs !! i with
    | Some (Call o seen h0 (Ret r)) => Cfg ops (pub ++ drop (length seen) r.1) (delete i cs) (es ++ [Ended o seen h0 (length pub) r]) h
    | _ => c
    end
  end.
Lemma choose_sound c x : rtc (cstep exec) c (choose c x).
Proof.
  destruct c as [ops pub cs es h], x as [i o|i l|i]; cbn [choose].
  - destruct (cs !! i) eqn:E; [done|]. apply rtc_once. by constructor.
  - destruct (cs !! i) as [[o seen h0 [r|e|x k|a k|a x k]]|] eqn:E; try done.
    + destruct (h !! l) eqn:E1; [done|]. apply rtc_once. eapply cs_access; [exact E|by constructor].
    + destruct (h !! a) eqn:E1; [|done]. apply rtc_once. eapply cs_access; [exact E|by constructor].
    + destruct (h !! a) eqn:E1; [|done]. apply rtc_once. eapply cs_access; [exact E|]. constructor. by eexists.
  - destruct (cs !! i) as [[o seen h0 [r|e|x k|a k|a x k]]|] eqn:E; try done. apply rtc_once. by eapply cs_end.
Qed.
Definition sched (xs : list choice) (c : cfg) : cfg := fold_left choose xs c.
Lemma sched_sound xs : forall c, rtc (cstep exec) c (sched xs c).
Proof. induction xs as [|x xs IH]; intros c; cbn; [done|]. etrans; [apply choose_sound|apply IH]. Qed.
(** Each call in [is] makes one access in turn, [n] times. *)
Definition turns (l0 : loc) (is : list nat) (n : nat) : list choice :=
  flat_map (fun r => map (fun i => CAccess i (l0 + Pos.of_nat (16 * r + i))%positive) is) (seq 0 n).
End sched.
Global Arguments choice : clear implicits.
