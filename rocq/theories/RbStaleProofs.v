(** * Older versions of strtree and dltree trees: the client and the histories. *)
From Verif Require Import Prog History RbModel RbSpec RbFun RbFunIns RbFunDel RbSim RbSimIns RbSimOps RbSimDel2 RbAbs StrSpec StrAbs RbHandle DlAbs NumFoot StaleSpec RbStale.
Open Scope nat_scope.

(** ** The client: it changes the latest version only. *)
Section client.
Context {U : Type}.
Local Notation value := (value U).
Variable ins : ptr -> bytes -> value -> prog U ptr.
Variable del : ptr -> bytes -> prog U (ptr * bool).
Variable inp : ptr -> bytes -> value -> prog U unit.
Variable gt : ptr -> bytes -> prog U (value * bool).
Variable en : ptr -> prog U (list (bytes * value)).
Variable em : ptr -> prog U bool.
Definition l_exec (vs : list ptr) (o : lvop value) : prog U (list ptr * sout value) :=
  match o with
  | LInsert k v => t <- ins (List.last vs None) k v ;; Ret (vs ++ [t], SONone)
  | LDelete k => x <- del (List.last vs None) k ;; Ret (vs ++ [x.1], SOBool x.2)
  | LInplace k v => inp (List.last vs None) k v ;;; Ret (vs, SONone)
  | LGet i k => x <- gt (nth i vs None) k ;; Ret (vs, SOVal (opt_val x))
  | LEnumerate i => l <- en (nth i vs None) ;; Ret (vs, SOList l)
  | LIsEmpty i => b <- em (nth i vs None) ;; Ret (vs, SOBool b)
  end.
End client.
Definition str_lexec {U} (fuel : nat) : list ptr -> lvop (value U) -> prog U (list ptr * sout (value U)) :=
  l_exec (str_insert fuel) (str_delete fuel) (str_inplace_insert fuel) (str_get fuel) (str_enumerate fuel) str_is_empty.
Definition dl_lexec {U} (fuel : nat) : list ptr -> lvop (value U) -> prog U (list ptr * sout (value U)) :=
  l_exec (dl_raw_insert fuel) (dl_raw_delete fuel) (dl_raw_inplace_insert fuel) (dl_raw_get fuel) (dl_raw_enumerate fuel) dl_is_empty.

Section stale.
Context {U : Type}.
Local Notation heap := (heap U).
Local Notation value := (value U).
Local Notation tree := (tree U).
Local Notation content := (list (bytes * value)).
Implicit Types (h : heap) (p : ptr) (F : gset loc).

Lemma owned_cells h (t : tree) : forall p F x, owned h p t F -> x ∈ F -> exists n, h !! x = Some (CRb n).
Proof.
  induction t as [|c l IHl k v r IHr]; intros p F x Ho Hx.
  { destruct Ho as [_ ->]. set_solver. }
  destruct Ho as [[_ ->]|(b & pl & pr & Fl & Fr & -> & Hb & _ & Hl & Hr & _ & _ & _ & ->)]; [set_solver|].
  apply elem_of_union in Hx as [[->%elem_of_singleton|Hx]%elem_of_union|Hx]; eauto.
Qed.
Lemma f_get_in (cmp : bytes -> bytes -> Z) k (t : tree) v : f_get cmp k t = (v, true) -> exists k', (k', v) ∈ inord t /\ cmp k' k = 0%Z.
Proof.
  induction t as [|c l IHl k0 v0 r IHr]; simpl; [done|]. destruct (cmp k0 k =? 0)%Z eqn:E1.
  - intros [= ->]. exists k0. split; [|by apply Z.eqb_eq]. apply elem_of_app. right. apply elem_of_list_here.
  - intros H. destruct (todir cmp k k0); [destruct (IHr H) as (k' & ? & ?)|destruct (IHl H) as (k' & ? & ?)]; exists k'; (split; [|done]); apply elem_of_app; [right; by apply elem_of_list_further|by left].
Qed.

Variable cmp : bytes -> bytes -> Z.
Hypothesis Hl : lawful cmp.

(** What a version [t] may be like, given its contents. *)
Definition view (cs : list content) (t : tree) : Prop :=
  cs <> [] /\ (t = E <-> hd [] cs = []) /\ (forall e, e ∈ inord t -> held cs e) /\
  match cs with [m] => inord t = m /\ ordered cmp m | _ => True end.
Lemma view_one (t : tree) : ordered cmp (inord t) -> view [inord t] t.
Proof.
  intros Ho. split; [done|]. split; [|split; [|done]].
  - simpl. destruct t; simpl; [done|]. split; [done|]. by destruct (inord t1).
  - intros e He. exists (inord t). split; [apply elem_of_list_here|done].
Qed.
Lemma view_nil : view [[]] (E : tree).
Proof. apply (view_one E). constructor. Qed.
Lemma view_next cs (t t2 : tree) m' : view cs t -> (forall e, e ∈ inord t2 -> e ∈ inord t \/ e ∈ m') -> (t2 = E <-> t = E) -> view (cs ++ [m']) t2.
Proof.
  intros (Hn & He & Hh & _) Hi HE. split; [by destruct cs|]. split; [|split].
  - rewrite HE, He. by destruct cs.
  - intros e H. destruct (Hi e H) as [H1|H1].
    + destruct (Hh e H1) as (m & Hm & Hem). exists m. split; [|done]. apply elem_of_app. by left.
    + exists m'. split; [|done]. apply elem_of_app. right. apply elem_of_list_here.
  - destruct cs as [|? [|? cs]]; done.
Qed.
Lemma view_get cs (t : tree) k : view cs t -> l_get cmp cs k (opt_val (f_get cmp k t)).
Proof.
  intros (Hn & He & Hh & Hx). unfold l_get.
  assert (Hg : match opt_val (f_get cmp k t) with None => True | Some v => exists k', held cs (k', v) /\ cmp k' k = 0%Z end).
  { unfold opt_val. destruct (f_get cmp k t) as [v [|]] eqn:Eg; [|done]. cbn [fst snd].
    destruct (f_get_in _ _ _ _ Eg) as (k' & Hk & Hc). exists k'. split; [by apply Hh|done]. }
  destruct cs as [|m [|? cs]]; [done| |done]. destruct Hx as [<- Ho]. by apply opt_val_get.
Qed.
Lemma view_list cs (t : tree) : view cs t -> l_list cs (inord t).
Proof.
  intros (Hn & He & Hh & Hx). unfold l_list. destruct cs as [|m [|? cs]]; [done|by destruct Hx|]. split; [done|].
  rewrite <- He. destruct t; simpl; [done|]. split; [|done]. by destruct (inord t1).
Qed.
Lemma view_empty cs (t : tree) : view cs t -> l_empty cs (is_nil (inord t)).
Proof.
  intros (Hn & He & Hh & Hx). unfold l_empty. rewrite <- He. destruct t; simpl; [done|]. by destruct (inord t1).
Qed.

(** ** Trees of some package: a cell holds the root. *)
Variable fuel : nat.
Variable hcell : ptr -> cell U.
Hypothesis hcell_rb : forall r n, hcell r <> CRb n.
Hypothesis hcell_inj : forall r r', hcell r = hcell r' -> r = r'.
Definition vrep h p (t : tree) : Prop :=
  match p with None => t = E | Some a => exists r, h !! a = Some (hcell r) /\ rep h r t end.
Variable ins : ptr -> bytes -> value -> prog U ptr.
Variable del : ptr -> bytes -> prog U (ptr * bool).
Variable inp : ptr -> bytes -> value -> prog U unit.
Variable gt : ptr -> bytes -> prog U (value * bool).
Variable en : ptr -> prog U (list (bytes * value)).
Variable em : ptr -> prog U bool.
Hypothesis ins_ok : forall h a t k v t', vrep h (Some a) t -> f_ins cmp k fuel t v = Some t' ->
  wp (ins (Some a) k v) h ∅ (fun p h' _ => vrep h' p t' /\ exists a', p = Some a' /\ h !! a' = None).
Hypothesis del_ok : forall h a t k, vrep h (Some a) t -> rbt t -> height t <= fuel ->
  wp (del (Some a) k) h ∅ (fun x h' _ => (vrep h' x.1 (f_del cmp k t).1 /\ x.2 = (f_del cmp k t).2) /\ exists a', x.1 = Some a' /\ h !! a' = None).
Hypothesis inp_ok : forall h a r t F k v t', h !! a = Some (hcell r) -> owned h r t F -> a ∉ F -> f_ins cmp k fuel t v = Some t' ->
  wp (inp (Some a) k v) h ({[a]} ∪ F) (fun _ h' _ => exists r' F', h' !! a = Some (hcell r') /\ owned h' r' t' F' /\ F ⊆ F').
Hypothesis gt_ok : forall h p t k, vrep h p t -> height t <= fuel -> wp (gt p k) h ∅ (fun x h' _ => x = f_get cmp k t /\ h' = h).
Hypothesis en_ok : forall h p t, vrep h p t -> height t <= fuel -> wp (en p) h ∅ (fun x h' _ => x = inord t /\ h' = h).
Hypothesis em_ok : forall h p t, vrep h p t -> wp (em p) h ∅ (fun x h' _ => x = is_nil (inord t) /\ h' = h).
Local Notation exec := (l_exec ins del inp gt en em).

Section bounded.
Variable N : nat.
Hypothesis Hfuel : deep fuel N.
Definition hmax : nat := 2 * Nat.log2 (N + 1).
Lemma deep_enough : enough fuel N.
Proof. unfold deep, enough in *. nia. Qed.
Lemma deep_hmax j : j <= N -> j * hmax + hmax <= fuel.
Proof. unfold deep, hmax in *. intros. nia. Qed.
Lemma rbt_hmax (t : tree) : rbt t -> size t <= N -> height t <= hmax.
Proof.
  intros Hb Hs. pose proof (rbt_height t Hb) as Hh. unfold hmax. etrans; [exact Hh|]. apply Nat.mul_le_mono_l, Nat.log2_le_mono. lia.
Qed.

Definition oldR (j : nat) h F (a : loc) p (cs : list content) : Prop :=
  exists b r t n, p = Some b /\ b <> a /\ h !! b = Some (hcell r) /\ ov h F n r /\ n <= j * hmax /\ rep h r t /\ height t <= n + hmax /\ view cs t.
Definition inv (j : nat) h (vs : list ptr) (css : list (list content)) : Prop :=
  exists ovs a r t F ocs m, vs = ovs ++ [Some a] /\ css = ocs ++ [[m]] /\ h !! a = Some (hcell r) /\ owned h r t F /\ rbt t /\ inord t = m /\
    ordered cmp m /\ size t <= j /\ Forall2 (oldR j h F a) ovs ocs.

Lemma inv_le j j' h vs css : j <= j' -> inv j h vs css -> inv j' h vs css.
Proof.
  intros Hj (ovs & a & r & t & F & ocs & m & H1 & H2 & H3 & H4 & H5 & H6 & H7 & H8 & H9).
  exists ovs, a, r, t, F, ocs, m. split_and!; try done; [lia|]. eapply Forall2_impl; [exact H9|].
  intros p cs (b & r0 & t0 & n & ? & ? & ? & ? & ? & ? & ? & ?). exists b, r0, t0, n. split_and!; try done. nia.
Qed.
(** A version to be read. *)
Lemma inv_nth j h vs css i : j <= N -> inv j h vs css -> exists t, vrep h (nth i vs None) t /\ height t <= fuel /\ view (nth i css [[]]) t.
Proof.
  intros Hj (ovs & a & r & t & F & ocs & m & -> & -> & Ha & Ho & Hb & <- & Hord & Hs & Hold).
  pose proof (deep_hmax j Hj) as Hd. pose proof (rbt_hmax t Hb (Nat.le_trans _ _ _ Hs Hj)) as Hh.
  assert (Hr : rep h r t) by (eapply mrep_rep; [apply map_empty_subseteq|exact Ho]).
  revert i. induction Hold as [|p cs ovs ocs (b & r0 & t0 & n & -> & Hne & Hb0 & Hov & Hn & Hr0 & Hh0 & Hv) Hold IH]; intros [|i]; simpl.
  - exists t. split_and!; [by exists r|lia|by apply view_one].
  - exists E. split_and!; [by destruct i|simpl; lia|destruct i; apply view_nil].
  - exists t0. split_and!; [by exists r0|lia|done].
  - exact (IH i).
Qed.
Lemma oldR_persist j h h' F F' a a' r (t : tree) p cs : h ⊆ h' -> owned h r t F -> height t <= hmax -> h !! a' = None ->
  oldR j h F a p cs -> oldR (j + 1) h' F' a' p cs.
Proof.
  intros Hs Ho Hh Ha' (b & r0 & t0 & n & -> & Hne & Hb & Hov & Hn & Hr0 & Hh0 & Hv).
  exists b, r0, t0, (n + height t). split_and!; [done|congruence|by eapply lookup_weaken|by eapply ov_persist|nia|by eapply rep_mono|lia|done].
Qed.
(** A new version made from the latest one. *)
Lemma inv_new j h h' ovs ocs a a' r (t t' : tree) F : j < N -> h ⊆ h' -> h !! a = Some (hcell r) -> owned h r t F -> rbt t -> ordered cmp (inord t) -> size t <= j ->
  Forall2 (oldR j h F a) ovs ocs -> h !! a' = None -> vrep h' (Some a') t' -> rbt t' -> ordered cmp (inord t') -> size t' <= j + 1 ->
  inv (j + 1) h' ((ovs ++ [Some a]) ++ [Some a']) (ocs ++ [[inord t]; [inord t']]).
Proof.
  intros Hj Hsub Ha Ho Hb Hord Hs Hold Ha' (r' & Hr' & Hrep) Hb' Hord' Hs'.
  destruct (owned_of_rep cmp h' t' Hl r' Hrep Hord') as (F' & Ho' & _).
  assert (Hh : height t <= hmax) by (apply rbt_hmax; [done|lia]).
  exists (ovs ++ [Some a]), a', r', t', F', (ocs ++ [[inord t]]), (inord t'). rewrite <- !app_assoc. split_and!; try done.
  apply Forall2_app.
  - eapply Forall2_impl; [exact Hold|]. intros p cs. by eapply oldR_persist.
  - constructor; [|constructor]. exists a, r, t, (height t).
    assert (Hr : rep h r t) by (eapply mrep_rep; [apply map_empty_subseteq|exact Ho]).
    split_and!; [done|congruence|by eapply lookup_weaken|by eapply ov_rep|nia|by eapply rep_mono|lia|by apply view_one].
Qed.
Lemma l_step j h vs css o : j < N -> inv j h vs css ->
  wp (exec vs o) h (dom h) (fun r h' _ => exists css', lvstep cmp css o css' r.2 /\ inv (j + 1) h' r.1 css').
Proof using Hl hcell_rb hcell_inj ins_ok del_ok inp_ok gt_ok en_ok em_ok Hfuel.
  intros Hj Hinv. destruct o as [k v|k|k v|i k|i|i]; cbn [l_exec]; apply wp_bind.
  - destruct Hinv as (ovs & a & r & t & F & ocs & m & -> & -> & Ha & Ho & Hb & <- & Hord & Hs & Hold). rewrite last_last.
    assert (Hr : rep h r t) by (eapply mrep_rep; [apply map_empty_subseteq|exact Ho]).
    destruct (f_ins_enough fuel cmp t k v) as (t' & Ht & Hb' & Hs'); [intros k'; by apply cmp_refl|done|eapply enough_le; [exact deep_enough|lia]|].
    eapply wp_mono; [apply wp_cow; eapply ins_ok; [by exists r|exact Ht]|]. cbn beta. intros p h' W' ((Hp & a' & -> & Ha') & Hsub & _). cbn [wp fst snd].
    pose proof (f_ins_content cmp k Hl fuel t v t' Ht Hord) as Hc.
    eexists. split; [apply lv_insert|]. rewrite <- Hc. eapply inv_new; try done; [|lia]. rewrite Hc. by apply ordered_a_insert.
  - destruct Hinv as (ovs & a & r & t & F & ocs & m & -> & -> & Ha & Ho & Hb & <- & Hord & Hs & Hold). rewrite last_last.
    assert (Hr : rep h r t) by (eapply mrep_rep; [apply map_empty_subseteq|exact Ho]).
    pose proof (rbt_hmax t Hb) as Hh. pose proof (deep_hmax j) as Hd.
    eapply wp_mono; [apply wp_cow; eapply del_ok; [by exists r|done|lia]|]. cbn beta. intros x h' W' (((Hp & Hx) & a' & Ea & Ha') & Hsub & _). cbn [wp fst snd].
    destruct (f_del_content cmp k Hl t Hord) as [Hc1 Hc2]. rewrite Ea in *.
    eexists. split; [rewrite Hx, Hc2; apply lv_delete|]. rewrite <- Hc1. eapply inv_new; try done.
    + by apply f_del_ok.
    + rewrite Hc1. by apply ordered_a_delete.
    + pose proof (f_del_size cmp k t). lia.
  - destruct Hinv as (ovs & a & r & t & F & ocs & m & -> & -> & Ha & Ho & Hb & <- & Hord & Hs & Hold). rewrite last_last.
    destruct (f_ins_enough fuel cmp t k v) as (t' & Ht & Hb' & Hs'); [intros k'; by apply cmp_refl|done|eapply enough_le; [exact deep_enough|lia]|].
    pose proof (f_ins_content cmp k Hl fuel t v t' Ht Hord) as Hc.
    assert (HaF : a ∉ F). { intros Hin. destruct (owned_cells _ _ _ _ _ Ho Hin) as (n & Hn). rewrite Ha in Hn. injection Hn as Hn. by apply hcell_rb in Hn. }
    assert (HFd : {[a]} ∪ F ⊆ dom h).
    { intros x [->%elem_of_singleton|Hx]%elem_of_union; [by eapply elem_of_dom_2|]. destruct (owned_cells _ _ _ _ _ Ho Hx) as (n & Hn). by eapply elem_of_dom_2. }
    eapply wp_mono; [eapply wp_call; [by eapply inp_ok|exact HFd]|]. cbn beta.
    intros _ h' W' [(W1 & (r' & F' & Ha' & Ho' & HFF) & _) [Hun _]]. cbn [wp fst snd].
    eexists. split; [apply lv_inplace|]. rewrite <- Hc.
    assert (Hh' : height t' <= hmax) by (apply rbt_hmax; [done|lia]).
    exists ovs, a, r', t', F', (map (fun cs => cs ++ [inord t']) ocs), (inord t'). split_and!; try done; [rewrite Hc; by apply ordered_a_insert|lia|].
    assert (Hag : forall x c, h !! x = Some c -> x ∉ F -> x <> a -> h' !! x = Some c).
    { intros x c Hx HxF Hxa. apply Hun; [done|]. clear -HxF Hxa. set_solver. }
    apply Forall2_fmap_r. eapply Forall2_impl; [exact Hold|].
    intros p cs (b & r0 & t0 & n & -> & Hne & Hb0 & Hov & Hn & Hr0 & Hh0 & Hv).
    (* nodes are not [a] *)
    set (h2 := delete a h).
    assert (Hov2 : ov h2 F n r0).
    { clear -Hov Ha hcell_rb. revert r0 Hov. induction n as [|n IH]; intros [x|]; cbn [ov]; try done.
      intros [Hx|(Hx0 & nn & Hx & H1 & H2)]; [by left|right]. split; [done|]. exists nn. split_and!; [|by apply IH|by apply IH].
      unfold h2. rewrite lookup_delete_ne; [done|]. intros <-. rewrite Ha in Hx. injection Hx as Hx. by apply hcell_rb in Hx. }
    assert (Hr2 : rep h2 r0 t0).
    { clear -Hr0 Ha hcell_rb. revert r0 Hr0. induction t0 as [|c l IHl k0 v0 r1 IHr]; intros r0; [done|].
      intros (x & pl & pr & -> & Hx & H1 & H2). exists x, pl, pr. split_and!; [done| |by apply IHl|by apply IHr].
      unfold h2. rewrite lookup_delete_ne; [done|]. intros <-. rewrite Ha in Hx. injection Hx as Hx. by apply hcell_rb in Hx. }
    assert (Hag2 : forall x c, h2 !! x = Some c -> x ∉ F -> h' !! x = Some c).
    { intros x c Hx HxF. unfold h2 in Hx. apply lookup_delete_Some in Hx as [Hxa Hx]. by apply Hag. }
    destruct (ov_view h2 h' F F' r' t' n Ho' HFF Hag2 r0 t0 Hov2 Hr2) as (t2 & Ht2 & Hi2 & Hh2 & HE2).
    exists b, r0, t2, n. split_and!; [done|done| |by eapply ov_inplace|nia|done|lia|by eapply view_next].
    apply Hag; [done| |done]. intros Hin. destruct (owned_cells _ _ _ _ _ Ho Hin) as (nn & Hnn). rewrite Hb0 in Hnn. injection Hnn as Hnn. by apply hcell_rb in Hnn.
  - destruct (inv_nth j h vs css i) as (t & Ht & Hh & Hv); [lia|done|].
    eapply wp_mono; [eapply (wp_weaken_W _ _ ∅); [by eapply gt_ok|apply empty_subseteq]|]. cbn beta. intros x h' W' (_ & (-> & ->) & _). cbn [wp fst snd].
    eexists. split; [by apply lv_get, view_get|]. eapply inv_le; [|exact Hinv]. lia.
  - destruct (inv_nth j h vs css i) as (t & Ht & Hh & Hv); [lia|done|].
    eapply wp_mono; [eapply (wp_weaken_W _ _ ∅); [by eapply en_ok|apply empty_subseteq]|]. cbn beta. intros x h' W' (_ & (-> & ->) & _). cbn [wp fst snd].
    eexists. split; [by apply lv_enumerate, view_list|]. eapply inv_le; [|exact Hinv]. lia.
  - destruct (inv_nth j h vs css i) as (t & Ht & Hh & Hv); [lia|done|].
    eapply wp_mono; [eapply (wp_weaken_W _ _ ∅); [by eapply em_ok|apply empty_subseteq]|]. cbn beta. intros x h' W' (_ & (-> & ->) & _). cbn [wp fst snd].
    eexists. split; [by apply lv_is_empty, view_empty|]. eapply inv_le; [|exact Hinv]. lia.
Qed.
Lemma l_run ops : forall j h vs css, j + length ops <= N -> inv j h vs css ->
  wp (run_hist exec ops vs) h (dom h) (fun r h' _ => exists css', spec_run (lvstep cmp) ops css css' r.2).
Proof using Hl hcell_rb hcell_inj ins_ok del_ok inp_ok gt_ok en_ok em_ok Hfuel.
  induction ops as [|o ops IH]; intros j h vs css Hj Hinv; cbn [run_hist wp]; simpl length in Hj.
  { by exists css. }
  apply wp_bind. eapply wp_mono; [apply wp_frame, wp_new, (l_step j h vs css o); [lia|done]|]. cbn beta.
  intros r h1 W1 [[(css1 & Hst & Hinv1) Hnew] [_ (HW & _)]]. apply wp_bind.
  eapply wp_mono; [eapply (wp_weaken_W _ _ (dom h1)); [apply (IH (j + 1) h1 r.1 css1); [lia|done]|]|].
  { intros l Hl'. destruct (Hnew _ Hl'); [by apply HW|done]. }
  cbn beta. intros x h2 W2 (W3 & (css' & Hsp) & _). cbn [wp fst snd]. exists css'. cbn [spec_run]. eauto.
Qed.
End bounded.

Lemma l_start (start : prog U ptr) h ops : deep fuel (length ops) ->
  wp start ∅ ∅ (fun p h' _ => exists a, p = Some a /\ h' !! a = Some (hcell None)) ->
  wp (p <- start ;; run_hist exec ops [p]) h ∅ (fun r h' _ => h ⊆ h' /\ exists css, spec_run (lvstep cmp) ops [[[]]] css r.2).
Proof using Hl hcell_rb hcell_inj ins_ok del_ok inp_ok gt_ok en_ok em_ok.
  intros Hf Hst. apply wp_cow0.
  assert (Hw : wp (p <- start ;; run_hist exec ops [p]) (∅ : heap) ∅ (fun r h' _ => exists css, spec_run (lvstep cmp) ops [[[]]] css r.2)).
  { apply wp_bind. eapply wp_mono; [apply wp_new, Hst|]. cbn beta. intros p h1 W1 [(a & -> & Ha) Hnew].
    eapply wp_mono; [eapply (wp_weaken_W _ _ (dom h1)); [apply (l_run (length ops) Hf ops 0 h1 [Some a] [[[]]]); [lia|]|]|].
    - exists [], a, None, E, ∅, [], []. split_and!; first [done|apply rbt_E|apply SSorted_nil|apply Forall2_nil; done].
    - intros l Hl'. destruct (Hnew _ Hl') as [Hl2|]; [|done]. rewrite dom_empty_L in Hl2. set_solver.
    - cbn beta. intros r h' W' (W2 & H & _). exact H. }
  eapply wp_local in Hw; [|apply map_empty_subseteq]. eapply wp_mono; [exact Hw|]. cbn beta. intros r h' W' (h0 & Hm & _). exact Hm.
Qed.
End stale.

(** ** strtree, dltree. *)
Section instances.
Context {U : Type}.
Local Notation heap := (heap U).
Local Notation value := (value U).
Local Notation tree := (tree U).
Implicit Types h : heap.

Lemma pf_str_older fuel (cmp : bytes -> bytes -> Z) h ops : lawful cmp -> deep fuel (length ops) ->
  wp (p <- str_new_custom (Some cmp) ;; run_hist (str_lexec fuel) ops [p]) h ∅ (fun r h' _ => h ⊆ h' /\ exists css, spec_run (lvstep cmp) ops [[[]]] css r.2).
Proof.
  intros Hl Hf.
  assert (Hrep : forall h a (t : tree), vrep (fun r => CStr r (Some cmp)) h (Some a) t -> str_rep h (Some a) (cmp, t)) by (intros h0 a t H; exact H).
  eapply (l_start cmp Hl fuel (fun r => CStr r (Some cmp))); [done|by intros r r' [= ->]|..|done|].
  - intros h0 a t k v t' Ht Hi. eapply wp_mono; [eapply (str_insert_wp fuel h0 (Some a) (cmp, t)); [by apply Hrep|exact Hi]|].
    cbn beta. intros p h' W' (Hp & a' & -> & Ha'). cbn [fst] in Hp. split; [exact Hp|eauto].
  - intros h0 a t k Ht Hb Hh. eapply wp_mono; [eapply (str_delete_wp fuel h0 (Some a) (cmp, t)); [by apply Hrep|done|done]|].
    cbn beta. cbn [fst snd]. intros x h' W' (Hp & Hx & a' & Ea & Ha'). rewrite Ea in *. split; [split; [exact Hp|done]|eauto].
  - intros h0 a r t F k v t' Ha Ho HaF Hi. eapply wp_mono; [eapply (str_inplace_sub fuel h0 a (cmp, t) F); [by exists r|done|exact Hi]|].
    cbn beta. cbn [fst snd]. intros _ h' W' (F' & (r' & Ha' & Ho' & _) & _ & HFF). exists r', F'. done.
  - intros h0 [a|] t k Ht Hh; [|cbn [vrep] in Ht; subst t; done].
    apply (str_get_wp fuel h0 (Some a) (cmp, t)); [by apply Hrep|done].
  - intros h0 [a|] t Ht Hh; [|cbn [vrep] in Ht; subst t; done].
    apply (str_enumerate_wp fuel h0 (Some a) (cmp, t)); [by apply Hrep|done].
  - intros h0 [a|] t Ht; [|cbn [vrep] in Ht; subst t; done].
    apply (str_is_empty_wp h0 (Some a) (cmp, t)). by apply Hrep.
  - unfold str_new_custom. apply wp_bind, wp_alloc. intros a Ha. cbn [wp]. exists a. split; [done|]. by rewrite lookup_insert.
Qed.

Lemma pf_dl_older fuel h ops : deep fuel (length ops) ->
  wp (p <- dl_new ;; run_hist (dl_lexec fuel) ops [p]) h ∅ (fun r h' _ => h ⊆ h' /\ exists css, spec_run (lvstep dl_compare) ops [[[]]] css r.2).
Proof.
  intros Hf. eapply (l_start dl_compare dl_compare_lawful fuel CDl); [done|by intros r r' [= ->]|..|done|].
  - intros h0 a t k v t' (r & Ha & Hr) Hi. unfold dl_raw_insert. cbn [dl_root]. apply wp_bind. eapply wp_ld_dl; [exact Ha|].
    apply wp_bind. eapply wp_mono; [eapply insert_wp; [exact Hr|exact Hi]|].
    cbn beta. intros r' h' W' (F & Hs & Hm & _). apply wp_bind, wp_alloc. intros a' Ha'. cbn [wp]. split.
    + exists r'. split; [by rewrite lookup_insert|]. eapply rep_mono; [by apply insert_subseteq|]. by eapply mrep_rep.
    + exists a'. split; [done|]. by eapply lookup_weaken_None.
  - intros h0 a t k (r & Ha & Hr) Hb Hh. unfold dl_raw_delete. cbn [dl_root]. apply wp_bind. eapply wp_ld_dl; [exact Ha|].
    apply wp_bind. eapply wp_mono; [eapply del_wp; [exact Hr|exact Hb|exact Hh]|].
    cbn beta. intros x h' W' (F & Hx & Hs & Hm & _). apply wp_bind, wp_alloc. intros a' Ha'. cbn [wp fst snd]. split; [split; [|exact Hx]|].
    + exists x.1. split; [by rewrite lookup_insert|]. eapply rep_mono; [by apply insert_subseteq|]. by eapply mrep_rep.
    + exists a'. split; [done|]. by eapply lookup_weaken_None.
  - intros h0 a r t F k v t' Ha Ho HaF Hi. unfold dl_raw_inplace_insert. apply wp_bind. eapply wp_ld_dl; [exact Ha|].
    apply wp_bind. eapply wp_mono.
    { eapply (wp_call _ _ F); [|clear; set_solver]. eapply inplace_insert_wp; [exact Ho|done|exact Hi]. }
    cbn beta. intros r' h' W' [(W1 & (F' & Ho' & HF' & HFF) & HW1 & HG1) [Hun HG2]].
    pose proof (Hun _ _ Ha HaF) as Ha'. cbn [wp store]. split.
    { destruct HG2 as [HG2 _]. clear -HG2. set_solver. }
    split; [by eexists|]. exists r', F'. split_and!; [by rewrite lookup_insert| |done].
    eapply mrep_agree; [exact Ho'|]. intros x Hx. rewrite lookup_insert_ne; [done|]. intros <-.
    destruct (owned_cells _ _ _ _ _ Ho' Hx) as (n & Hn). congruence.
  - intros h0 [a|] t k Ht Hh; [|cbn [vrep] in Ht; subst t; done]. destruct Ht as (r & Ha & Hr). cbn [dl_raw_get]. apply wp_bind. eapply wp_ld_dl; [exact Ha|].
    eapply wp_mono; [by eapply get_wp|]. naive_solver.
  - intros h0 [a|] t Ht Hh; [|cbn [vrep] in Ht; subst t; done]. destruct Ht as (r & Ha & Hr). cbn [dl_raw_enumerate]. apply wp_bind. eapply wp_ld_dl; [exact Ha|].
    eapply wp_mono; [by eapply enumerate_wp|]. naive_solver.
  - intros h0 [a|] t Ht; [|cbn [vrep] in Ht; subst t; done]. destruct Ht as (r & Ha & Hr). cbn [dl_is_empty]. apply wp_bind. eapply wp_ld_dl; [exact Ha|]. cbn [wp].
    split; [|done]. destruct t as [|c l k v rr]; [simpl in Hr; by subst r|]. destruct Hr as (b & pl & pr & -> & _). simpl. by destruct (inord l).
  - unfold dl_new. apply wp_bind, wp_alloc. intros a Ha. cbn [wp]. exists a. split; [done|]. by rewrite lookup_insert.
Qed.
End instances.

(** ** Keys and values come from the calls that stored them. *)
Section stored.
Context {V : Type}.
Variable cmp : bytes -> bytes -> Z.
Hypothesis Hl : lawful cmp.
Local Notation content := (list (bytes * V)).
Definition was (past : list (lvop V)) (e : bytes * V) : Prop :=
  (exists v', l_stored past e.1 v') /\ exists k', l_stored past k' e.2 /\ cmp k' e.1 = 0%Z.
Definition from (past : list (lvop V)) (css : list (list content)) : Prop := forall cs m e, cs ∈ css -> m ∈ cs -> e ∈ m -> was past e.
Lemma was_mono past o e : was past e -> was (past ++ [o]) e.
Proof.
  intros [(v' & x & ? & ?) (k' & (y & ? & ?) & ?)]. split; [exists v', x|exists k'; split; [exists y|done]]; (split; [|done]); apply elem_of_app; by left.
Qed.
Lemma was_insert past o m k v : (forall e, e ∈ m -> was past e) -> l_stores o k v -> forall e, e ∈ a_insert cmp m k v -> was (past ++ [o]) e.
Proof using Hl.
  intros Hm Ho e. assert (Hn : l_stored (past ++ [o]) k v) by (exists o; split; [apply elem_of_app; right; by apply elem_of_list_singleton|done]).
  assert (Hkk : cmp k k = 0%Z) by (pose proof (cmp_anti _ Hl k k); lia).
  unfold a_insert. destruct (existsb _ m).
  - intros (x & Ex & Hx)%elem_of_list_In%in_map_iff. apply elem_of_list_In in Hx. unfold same_key in Ex. destruct (cmp x.1 k =? 0)%Z eqn:E; subst e; [|apply was_mono, Hm; exact Hx].
    destruct (was_mono past o x (Hm _ Hx)) as [H1 _]. split; [exact H1|]. exists k. split; [exact Hn|]. apply Z.eqb_eq in E. cbn [fst]. pose proof (cmp_anti _ Hl k x.1). lia.
  - intros [H|[->|H]%elem_of_cons]%elem_of_app.
    + apply elem_of_list_In, filter_In in H as [H%elem_of_list_In _]. by apply was_mono, Hm.
    + split; [by exists v|]. by exists k.
    + apply elem_of_list_In, filter_In in H as [H%elem_of_list_In _]. by apply was_mono, Hm.
Qed.
Lemma was_delete past o m k : (forall e, e ∈ m -> was past e) -> forall e, e ∈ a_delete cmp m k -> was (past ++ [o]) e.
Proof. intros Hm e [H%elem_of_list_In _]%elem_of_list_In%filter_In. by apply was_mono, Hm. Qed.
Lemma from_step past css o css' x : from past css -> lvstep cmp css o css' x -> from (past ++ [o]) css'.
Proof using Hl.
  intros Hf Hs.
  assert (Hkeep : from (past ++ [o]) css) by (intros cs m e H1 H2 H3; eapply was_mono, Hf; done).
  inversion Hs; subst; try exact Hkeep.
  - intros cs m0 e H1 H2 H3. apply elem_of_app in H1 as [H1|H1].
    { eapply Hkeep; [apply elem_of_app; by left|done..]. }
    apply elem_of_cons in H1 as [->| ->%elem_of_list_singleton].
    { eapply Hkeep; [apply elem_of_app; right; by apply elem_of_list_singleton|done..]. }
    apply elem_of_list_singleton in H2 as ->. eapply was_insert; [|by left|exact H3].
    intros e' He'. eapply Hf; [apply elem_of_app; right; by apply elem_of_list_singleton|by apply elem_of_list_singleton|done].
  - intros cs m0 e H1 H2 H3. apply elem_of_app in H1 as [H1|H1].
    { eapply Hkeep; [apply elem_of_app; by left|done..]. }
    apply elem_of_cons in H1 as [->| ->%elem_of_list_singleton].
    { eapply Hkeep; [apply elem_of_app; right; by apply elem_of_list_singleton|done..]. }
    apply elem_of_list_singleton in H2 as ->. eapply was_delete; [|exact H3].
    intros e' He'. eapply Hf; [apply elem_of_app; right; by apply elem_of_list_singleton|by apply elem_of_list_singleton|done].
  - assert (Hnew : forall e, e ∈ a_insert cmp m k v -> was (past ++ [LInplace k v]) e).
    { intros e He. eapply was_insert; [|by right|exact He].
      intros e' He'. eapply Hf; [apply elem_of_app; right; by apply elem_of_list_singleton|by apply elem_of_list_singleton|done]. }
    intros cs m0 e H1 H2 H3. apply elem_of_app in H1 as [H1| ->%elem_of_list_singleton].
    + apply elem_of_list_In, in_map_iff in H1 as (cs0 & <- & H1%elem_of_list_In). apply elem_of_app in H2 as [H2| ->%elem_of_list_singleton]; [|by apply Hnew].
      eapply Hkeep; [apply elem_of_app; by left|done..].
    + apply elem_of_list_singleton in H2 as ->. by apply Hnew.
Qed.
Lemma from_nth past css i : from past css -> forall e, held (nth i css [[]]) e -> was past e.
Proof.
  intros Hf e (m & Hm & He). destruct (nth_in_or_default i css [[]]) as [H|H].
  - eapply Hf; [by apply elem_of_list_In|done..].
  - rewrite H in Hm. apply elem_of_list_singleton in Hm as ->. by apply elem_of_nil in He.
Qed.
Lemma from_list past css i l : from past css -> l_list (nth i css [[]]) l -> forall e, e ∈ l -> was past e.
Proof.
  intros Hf Hll e He. apply (from_nth past css i Hf). destruct (nth i css [[]]) as [|m [|m' cs]]; [by apply Hll| |by apply Hll].
  simpl in Hll. subst l. exists m. split; [by apply elem_of_list_singleton|done].
Qed.
Lemma from_get past css i k v : from past css -> l_get cmp (nth i css [[]]) k (Some v) -> exists k', l_stored past k' v /\ cmp k' k = 0%Z.
Proof using Hl.
  intros Hf Hg. assert (H : exists k', held (nth i css [[]]) (k', v) /\ cmp k' k = 0%Z).
  { destruct (nth i css [[]]) as [|m [|m' cs]]; [exact Hg| |exact Hg]. simpl in Hg. unfold a_get in Hg.
    destruct (find _ m) as [[k' v']|] eqn:E; [|done]. injection Hg as ->. apply find_some in E as [E1 E2]. exists k'. split.
    - exists m. split; [by apply elem_of_list_singleton|by apply elem_of_list_In].
    - simpl in E2. unfold same_key in E2. apply Z.eqb_eq in E2. pose proof (cmp_anti _ Hl k' k). lia. }
  destruct H as (k' & Hh & E). apply (from_nth past css i Hf) in Hh as [_ (k2 & H2 & E2)]. exists k2. split; [exact H2|]. simpl in E2.
  pose proof (cmp_trans _ Hl k2 k' k). pose proof (cmp_trans _ Hl k k' k2). pose proof (cmp_anti _ Hl k2 k). pose proof (cmp_anti _ Hl k k'). pose proof (cmp_anti _ Hl k' k2). lia.
Qed.
Lemma pf_stored ops : forall past css css' outs, from past css -> spec_run (lvstep cmp) ops css css' outs ->
  forall j, match ops !! j, outs !! j with
    | Some (LGet i k), Some (SOVal (Some v)) => exists k', l_stored (past ++ take j ops) k' v /\ cmp k' k = 0%Z
    | Some (LEnumerate i), Some (SOList l) => forall e, e ∈ l -> was (past ++ take j ops) e
    | _, _ => True end.
Proof using Hl.
  induction ops as [|o ops IH]; intros past css css' outs Hf Hr j; [done|].
  destruct outs as [|x outs]; [done|]. destruct Hr as (css1 & Hs & Hr). destruct j as [|j].
  - simpl. rewrite app_nil_r. destruct o; try done; destruct x as [| | |]; try done.
    + destruct v; [|done]. inversion Hs; subst. by eapply from_get.
    + inversion Hs; subst. by eapply from_list.
  - simpl. specialize (IH (past ++ [o]) css1 css' outs (from_step _ _ _ _ _ Hf Hs) Hr j). rewrite <- app_assoc in IH. exact IH.
Qed.
Lemma pf_stored_start ops css outs : spec_run (lvstep cmp) ops [[[]]] css outs ->
  forall j, match ops !! j, outs !! j with
    | Some (LGet i k), Some (SOVal (Some v)) => exists k', l_stored (take j ops) k' v /\ cmp k' k = 0%Z
    | Some (LEnumerate i), Some (SOList l) => forall e, e ∈ l -> was (take j ops) e
    | _, _ => True end.
Proof using Hl.
  apply (pf_stored ops []). intros cs m e ->%elem_of_list_singleton ->%elem_of_list_singleton H. by apply elem_of_nil in H.
Qed.
End stored.

(** ** A search that never ends: the nodes met lead to each other. *)
Section cycle.
Context {U : Type}.
Definition leads (cmp : bytes -> bytes -> Z) (h : heap U) (k : bytes) (ls : list loc) (l : loc) : bool :=
  match h !! l with
  | Some (CRb n) => negb (cmp (rb_key n) k =? 0)%Z && match rchld n (cmp (rb_key n) k <? 0)%Z with Some l' => bool_decide (l' ∈ ls) | None => false end
  | _ => false
  end.
Lemma get_cycle cmp (h : heap U) k ls : forallb (leads cmp h k ls) ls = true -> forall fuel l, l ∈ ls -> fails (get (Some cmp) fuel (Some l) k) h EFuel.
Proof.
  intros Hls. rewrite forallb_forall in Hls. induction fuel as [|fuel IH]; intros l Hin; cbn [get]; [reflexivity|].
  pose proof (Hls l (proj1 (elem_of_list_In _ _) Hin)) as H. unfold leads in H. destruct (h !! l) as [[n| | | | |]|] eqn:E; try done.
  apply andb_true_iff in H as [H1 H2]. destruct (rchld n _) as [l'|] eqn:E2; [|done]. apply bool_decide_eq_true in H2.
  cbn. exists (CRb n). split; [exact E|]. cbn. apply negb_true_iff in H1. rewrite H1, E2. by apply IH.
Qed.
(** The nodes a search meets first. *)
Fixpoint trail (n : nat) (cmp : bytes -> bytes -> Z) (h : heap U) (k : bytes) (p : ptr) : list loc :=
  match n, p with
  | S n, Some a => a :: match h !! a with Some (CRb b) => trail n cmp h k (rchld b (cmp (rb_key b) k <? 0)%Z) | _ => [] end
  | _, _ => []
  end.
Definition cyclic (cmp : bytes -> bytes -> Z) (h : heap U) (k : bytes) (l : loc) : bool :=
  let ls := trail 60 cmp h k (Some l) in forallb (leads cmp h k ls) ls.
Lemma cyclic_get cmp h k l : cyclic cmp h k l = true -> forall fuel, fails (get (Some cmp) fuel (Some l) k) h EFuel.
Proof. intros H fuel. eapply get_cycle; [exact H|]. apply elem_of_list_here. Qed.
Lemma str_get_loops {A} (x : (list ptr * A + err) * heap U * loc) i k :
  match x with (inl r, h, _) => match nth i r.1 None with Some a => match h !! a with Some (CStr (Some l) (Some cmp)) => cyclic cmp h k l | _ => false end | None => false end | _ => false end = true ->
  exists r h n, x = (inl r, h, n) /\ forall fuel, fails (str_get fuel (nth i r.1 None) k) h EFuel.
Proof.
  destruct x as [[[r|] h] n]; [|done]. intros H. exists r, h, n. split; [done|]. intros fuel.
  destruct (nth i r.1 None) as [a|]; [|done]. destruct (h !! a) as [[| | | |[l|] [cmp|]|]|] eqn:E; try done.
  cbn. exists (CStr (Some l) (Some cmp)). split; [exact E|]. cbn. by apply cyclic_get.
Qed.
Lemma dl_get_loops {A} (x : (list ptr * A + err) * heap U * loc) i k :
  match x with (inl r, h, _) => match nth i r.1 None with Some a => match h !! a with Some (CDl (Some l)) => cyclic dl_compare h k l | _ => false end | None => false end | _ => false end = true ->
  exists r h n, x = (inl r, h, n) /\ forall fuel, fails (dl_raw_get fuel (nth i r.1 None) k) h EFuel.
Proof.
  destruct x as [[[r|] h] n]; [|done]. intros H. exists r, h, n. split; [done|]. intros fuel.
  destruct (nth i r.1 None) as [a|]; [|done]. destruct (h !! a) as [[| | |[l|]| |]|] eqn:E; try done.
  cbn. exists (CDl (Some l)). split; [exact E|]. cbn. by apply cyclic_get.
Qed.
End cycle.
