(** * Whole operations: insert, in-place insert, get and enumerate. *)
From Verif Require Import Prog RbModel RbSpec RbFun RbSim RbSimFix RbSimIns.

Section ops.
Context {U : Type}.
Local Notation heap := (heap U).
Local Notation tree := (tree U).
Local Notation frame := (frame U).
Local Notation value := (value U).
Implicit Types h : heap.
Variable cmp : bytes -> bytes -> Z.
Variable key : bytes.
Notation lctx := (list (loc * frame)).

(** A tree all of whose nodes are private, none used twice. *)
Definition owned h (p : ptr) (t : tree) (F : gset loc) : Prop := mrep ∅ h p t F.

Lemma insert_wp fuel h W p t v t' :
  rep h p t -> f_ins cmp key fuel t v = Some t' ->
  wp (insert (Some cmp) fuel p key v) h W (fun r h' W' =>
    exists F, h ⊆ h' /\ mrep h h' r t' F /\ F ⊆ W').
Proof.
  intros Hp Hins. destruct t as [|c l k v0 r].
  - simpl in Hp. subst p. injection Hins as <-. unfold insert. apply wp_bind, wp_alloc. intros a Ha. cbn [wp].
    exists {[a]}. split_and!.
    + by apply insert_subseteq.
    + right. exists a, None, None, ∅, ∅. split_and!; try done; [by rewrite lookup_insert|set_solver].
    + set_solver.
  - pose proof Hp as (a0 & pl & pr & -> & Ha0 & _). unfold f_ins in Hins.
    apply fmap_Some in Hins as (t1 & Hins & ->).
    unfold insert. apply wp_bind, wp_alloc. intros fr Hfr. apply wp_bind.
    set (h1 := <[fr:=_]> h).
    eapply wp_mono; [eapply (insert_loop_wp h fr cmp key fuel h1 _ [] (Some a0)); [exact Hins| |done|done|done|done| ]|].
    + split.
      * split_and!; [by unfold h1; rewrite lookup_insert|done|reflexivity].
      * by apply mrep_shared.
      * set_solver.
      * set_solver.
      * by apply insert_subseteq.
    + intros cc ->. by left.
    + intros n h2 W2 (ctx & a & c1 & l1 & k1 & v1 & r1 & pl1 & pr1 & Fc & Fl & Fr & -> & Hf & <-).
      eapply ins_end_wp; [exact Hf|]. intros b h' F Hs Ht HF _. eauto.
Qed.

(** In-place insertion; there is no frozen part. *)
Lemma owned_rooted h p c l k v r F : owned h p (T c l k v r) F -> rooted p F.
Proof.
  intros [[(a & pl & pr & -> & Ha & _) _]|(a & pl & pr & Fl & Fr & -> & Ha & H0 & Hl & Hr & H1 & H2 & H3 & ->)]; [done|].
  exists a. set_solver.
Qed.

Lemma empty_sub h : ∅ ⊆ h.
Proof. apply map_empty_subseteq. Qed.

Section inplace.
Variable fr : loc.
Local Notation focq := (focq ∅ fr).
Local Notation foc h W ctx a := (focq h W ctx (Some a%positive) a%positive).
Local Notation dst := (dst ∅ fr).

Lemma set_red_owned h W p c l k v r F b (Q : unit -> heap -> gset loc -> Prop) :
  owned h p (T c l k v r) F -> F ⊆ W ->
  (forall h', owned h' p (T b l k v r) F -> (forall x, x ∉ F -> h' !! x = h !! x) -> Q tt h' W) ->
  wp (set_red p b) h W Q.
Proof.
  intros Ht HW HQ.
  destruct (owned_rooted _ _ _ _ _ _ _ _ Ht) as (a & -> & HaF).
  destruct (mrep_open _ _ _ _ _ _ _ _ _ false (empty_sub h) Ht) as (a' & pl & pr & Fl & Fr & [= <-] & Ha & Hl & Hr & Hlr & Hal & Har & HF).
  destruct HF as [(_ & _ & ->)|(_ & -> & _)]; [|set_solver]. simpl in Hl, Hr.
  eapply wp_set_red; [exact Ha|set_solver|]. apply HQ.
  - apply (mrep_node ∅ _ a false _ _ _ _ _ pl pr); try done.
    + by rewrite lookup_insert.
    + eapply mrep_agree; [exact Hl|]. intros x Hx. rewrite lookup_insert_ne; [done|]. intros ->. done.
    + eapply mrep_agree; [exact Hr|]. intros x Hx. rewrite lookup_insert_ne; [done|]. intros ->. done.
  - intros x Hx. rewrite lookup_insert_ne; [done|]. intros ->. set_solver.
Qed.

Lemma inplace_flip_wp h W ctx a c l k v r pl pr Fc Fl Fr (Q : ptr -> heap -> gset loc -> Prop) :
  foc h W ctx a c l k v r pl pr Fc Fl Fr ->
  (forall h' c' l' r', flip (T c l k v r) = T c' l' k v r' ->
     foc h' W ctx a c' l' k v r' pl pr Fc Fl Fr -> Q (Some a) h' W) ->
  wp (nn <- ld_rb (Some a) ;;
      b <- both_red nn ;;
      if b then
        set_red (Some a) true ;;;
        set_red (rb_l nn) false ;;;
        set_red (rb_r nn) false ;;;
        Ret (Some a)
      else Ret (Some a)) h W Q.
Proof.
  intros Hf HQ. pose proof Hf as [Hc Ha Ha0 Hl Hr Hal Har Hlr Hac Hcl Hcr HW Hfz].
  apply wp_bind. eapply wp_ld_rb; [exact Ha|]. apply wp_bind.
  eapply both_red_wp; [by eapply mrep_rep|by eapply mrep_rep|].
  destruct (isred l && isred r) eqn:Eb.
  2: { cbn [wp]. eapply HQ; [|exact Hf]. simpl. by rewrite Eb. }
  apply andb_true_iff in Eb as [El Er].
  destruct l as [|cl l1 kl vl l2]; [done|]. destruct r as [|cr r1 kr vr r2]; [done|]. simpl in El, Er. subst cl cr.
  apply wp_bind. eapply wp_set_red; [by rewrite (RbN_ndir false) in Ha|clear -HW; set_solver|].
  set (h1 := <[a:=_]> h). cbn [rb_l rb_r].
  assert (Hag1 : forall x, x <> a -> h1 !! x = h !! x) by (intros; by apply lookup_insert_ne).
  assert (Ha1 : h1 !! a = Some (CRb (ndir false true k v pl pr))) by apply lookup_insert. clearbody h1.
  assert (Hl1 : owned h1 pl (T true l1 kl vl l2) Fl).
  { eapply mrep_agree; [exact Hl|]. intros x Hx. apply Hag1. intros ->. done. }
  assert (Hr1 : owned h1 pr (T true r1 kr vr r2) Fr).
  { eapply mrep_agree; [exact Hr|]. intros x Hx. apply Hag1. intros ->. done. }
  apply wp_bind. eapply (set_red_owned _ _ _ _ _ _ _ _ Fl); [exact Hl1|clear -HW; set_solver|].
  intros h2 Hl2 Hag2.
  apply wp_bind. eapply (set_red_owned _ _ _ _ _ _ _ _ Fr).
  { eapply mrep_agree; [exact Hr1|]. intros x Hx. apply Hag2. clear -Hlr Hx. set_solver. }
  { clear -HW; set_solver. }
  intros h3 Hr3 Hag3. cbn [wp]. eapply HQ; [done|]. split; try done.
  - eapply crep_agree; [exact Hc|]. intros x Hx.
    rewrite Hag3, Hag2, Hag1; [done| | |]; clear -Hx Hac Hcl Hcr; set_solver.
  - rewrite Hag3, Hag2 by done. done.
  - eapply mrep_agree; [exact Hl2|]. intros x Hx. apply Hag3. clear -Hlr Hx. set_solver.
  - apply empty_sub.
Qed.

Lemma inplace_loop_wp fuel : forall h W ctx q t Fc0 Ft0 gp g p dir r v t',
  ins_loop cmp key fuel (map snd ctx) t v = Some t' ->
  dst h W ctx q t Fc0 Ft0 ->
  p = par fr ctx ->
  (hdred ctx = true -> g = par fr (tail ctx) /\ dir = hddir (tail ctx)) ->
  (r <? 0)%Z = hddir ctx -> r <> 0%Z ->
  wp (inplace_loop (Some cmp) fuel key gp g p (Some (hdloc fr ctx)) dir r) h W (fun n h' W' =>
    exists ctx' a c l k v0 r pl pr Fc Fl Fr, n = Some a /\ foc h' W' ctx' a c l k v0 r pl pr Fc Fl Fr /\
      plug (map snd ctx') (T c l k v r) = t' /\ Fc0 ∪ Ft0 ⊆ {[a]} ∪ Fl ∪ Fr ∪ Fc).
Proof.
  induction fuel as [|fuel IH]; intros h W ctx q t Fc0 Ft0 gp g p dir r v t' Hins Hdst -> Hv Hr Hr0; [done|].
  simpl in Hins. destruct (fixv (map snd ctx) (pre key t)) as [[ctx1 t1]|] eqn:Efix; [|done].
  cbn [inplace_loop]. rewrite (proj2 (Z.eqb_neq r 0) Hr0). rewrite Hr.
  pose proof (dst_ctx _ _ _ _ _ _ _ _ _ Hdst) as Hc.
  destruct (crep_hd _ _ _ _ _ _ Hc) as (kg & vg & pog & Hg & Hg0 & HgF & _).
  apply wp_bind. eapply wp_ld_rb; [exact Hg|]. rewrite rchld_near.
  apply wp_bind.
  eapply wp_mono with (Q := fun n h' W' => exists a c l k v0 r pl pr Fl Fr,
     n = Some a /\ pre key t = T c l k v0 r /\ foc h' W' ctx a c l k v0 r pl pr Fc0 Fl Fr /\ Ft0 ⊆ {[a]} ∪ Fl ∪ Fr).
  { destruct t as [|ct lt kt vt rt].
    - destruct Hdst as [_ [-> ->] Hd HW Hfz]. apply wp_bind, wp_alloc. intros b Hb.
      apply wp_bind. eapply (foc_set ∅ fr _ _ ctx None b true E key VNil E None None Fc0 ∅ ∅); [|done|done|].
      { apply focq_fresh; try done; clear -HW; set_solver. }
      intros h' Hf. cbn [wp]. exists b, true, E, key, VNil, E, None, None, ∅, ∅. split_and!; [done|done|done|]. apply empty_subseteq.
    - pose proof (dst_t _ _ _ _ _ _ _ _ _ Hdst) as Ht. apply owned_rooted in Ht.
      destruct (dst_owned _ _ _ _ _ _ _ _ _ _ _ _ _ Hdst Ht) as (a & pl & pr & Fl & Fr & -> & Hf & HFt).
      eapply inplace_flip_wp; [exact Hf|].
      intros h2 c' l' r' Hfl Hf2.
      exists a, c', l', kt, vt, r', pl, pr, Fl, Fr. split_and!; [done|done|done|]. by rewrite HFt. }
  intros x h1 W1 (a & c & l & k & v0 & rt & pl & pr & Fl & Fr & -> & Hpre & Hf & Hsub).
  apply wp_bind. rewrite Hpre in Efix. eapply fix_wp; [exact Hf|exact Hv|exact Efix|].
  intros h3 ctx' c' l' r' pl' pr' Fl' Fr' Fc' g' p' dbl <- -> Hf3 -> Hg3 _ _ Hall.
  cbn beta iota.
  apply wp_bind. eapply wp_ld_rb; [exact (foc_node _ _ _ _ _ _ _ _ _ _ _ _ _ _ _ _ _ Hf3)|].
  cbn [rb_key]. apply wp_bind. cbn [call_cmp wp].
  destruct (cmp k key =? 0)%Z eqn:Er.
  - injection Hins as <-.
    destruct fuel; cbn [inplace_loop]; rewrite Er; cbn [wp]; exists ctx', a, c', l', k, v0, r', pl', pr', Fc', Fl', Fr'; (split_and!; [done|done|done|]); rewrite Hall; clear -Hsub; set_solver.
  - set (d := todir cmp key k) in *.
    eapply wp_mono; [eapply (IH h3 W1 ((a, RbFun.Fr c' k v0 d (if d then l' else r') false) :: ctx'))|].
    + exact Hins.
    + apply foc_descend. exact Hf3.
    + done.
    + simpl. intros Hred. destruct (Hg3 Hred) as [-> <-]. done.
    + done.
    + by apply Z.eqb_neq.
    + cbn beta. intros n h' W' (ctx2 & a2 & c2 & l2 & k2 & v2 & r2 & pl2 & pr2 & Fc2 & Fl2 & Fr2 & H1 & H2 & H3 & H4).
      exists ctx2, a2, c2, l2, k2, v2, r2, pl2, pr2, Fc2, Fl2, Fr2. split_and!; [done|done|done|]. etrans; [|exact H4].
      transitivity ({[a]} ∪ Fl' ∪ Fr' ∪ Fc'); [rewrite Hall; clear -Hsub; set_solver|]. destruct d; clear; set_solver.
Qed.
End inplace.

Lemma inplace_insert_wp fuel h W p t v t' F :
  owned h p t F -> F ⊆ W -> f_ins cmp key fuel t v = Some t' ->
  wp (inplace_insert (Some cmp) fuel p key v) h W (fun r h' W' =>
    exists F', owned h' r t' F' /\ F' ⊆ W' /\ F ⊆ F').
Proof.
  intros Hp HFW Hins. destruct t as [|c l k v0 r].
  - destruct Hp as [-> ->]. injection Hins as <-. unfold inplace_insert. apply wp_bind, wp_alloc. intros a Ha. cbn [wp].
    exists {[a]}. split_and!.
    + right. exists a, None, None, ∅, ∅. split_and!; try done; [by rewrite lookup_insert|set_solver].
    + set_solver.
    + apply empty_subseteq.
  - destruct (owned_rooted _ _ _ _ _ _ _ _ Hp) as (a0 & -> & Ha0). unfold f_ins in Hins.
    apply fmap_Some in Hins as (t1 & Hins & ->).
    unfold inplace_insert. apply wp_bind, wp_alloc. intros fr Hfr. apply wp_bind.
    set (h1 := <[fr:=_]> h).
    pose proof (fresh_notin_m _ _ _ _ _ _ Hp Hfr) as Hfr'.
    eapply wp_mono; [eapply (inplace_loop_wp fr fuel h1 _ [] (Some a0)); [exact Hins| |done|done|done|done]|].
    + split.
      * split_and!; [by unfold h1; rewrite lookup_insert|done|reflexivity].
      * eapply mrep_agree; [exact Hp|]. intros x Hx. unfold h1. rewrite lookup_insert_ne; [done|]. intros ->. done.
      * clear -Hfr'. set_solver.
      * clear -HFW. set_solver.
      * apply empty_sub.
    + intros n h2 W2 (ctx & a & c1 & l1 & k1 & v1 & r1 & pl1 & pr1 & Fc & Fl & Fr & -> & Hf & <- & Hsub).
      eapply ins_end_wp; [exact Hf|]. intros b h' F' Hs Ht HF Hall. exists F'. split_and!; [done|done|]. clear -Hall Hfr' Hsub. set_solver.
Qed.

Lemma get_wp fuel : forall h W p t, rep h p t -> height t <= fuel ->
  wp (get (Some cmp) fuel p key) h W (fun r h' W' => r = f_get cmp key t /\ h' = h /\ W' = W).
Proof.
  induction fuel as [|fuel IH]; intros h W p t Ht Hh; destruct t as [|c l k v r]; try (simpl in Ht; subst; done); [simpl in Hh; lia|].
  destruct Ht as (a & pl & pr & -> & Ha & Hl & Hr). cbn [get]. apply wp_bind. eapply wp_ld_rb; [exact Ha|].
  apply wp_bind. cbn [call_cmp wp rb_key]. simpl f_get. simpl in Hh. fold (todir cmp key k).
  destruct (cmp k key =? 0)%Z; [done|]. unfold rchld. cbn [rb_l rb_r].
  destruct (todir cmp key k); apply IH; try done; lia.
Qed.

Lemma enumerate_wp fuel : forall h W p t, rep h p t -> height t <= fuel ->
  wp (enumerate fuel p) h W (fun r h' W' => r = inord t /\ h' = h /\ W' = W).
Proof.
  induction fuel as [|fuel IH]; intros h W p t Ht Hh; destruct t as [|c l k v r]; try (simpl in Ht; subst; done); [simpl in Hh; lia|].
  destruct Ht as (a & pl & pr & -> & Ha & Hl & Hr). cbn [enumerate]. simpl in Hh. apply wp_bind. eapply wp_ld_rb; [exact Ha|].
  cbn [rb_l rb_r rb_key rb_val].
  apply wp_bind. eapply wp_mono; [apply IH; [exact Hl|lia]|]. intros x ? ? (-> & -> & ->).
  apply wp_bind. eapply wp_mono; [apply IH; [exact Hr|lia]|]. intros x ? ? (-> & -> & ->).
  done.
Qed.
End ops.
