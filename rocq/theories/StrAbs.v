(** * strtree.Tree: the calls on memory against functional trees, histories. *)
From Verif Require Import Prog History RbModel RbSpec RbFun RbFunIns RbFunDel RbSim RbSimIns RbSimOps RbSimDel2 RbAbs StrSpec.

(** ** The client. *)
Section client.
Context {U : Type}.
Local Notation value := (value U).
Variable fuel : nat.

(** InplaceInsert of each pair in turn. *)
Fixpoint str_fill (t : ptr) (items : list (bytes * value)) : prog U unit :=
  match items with
  | [] => Ret tt
  | (k, v) :: items => str_inplace_insert fuel t k v ;;; str_fill t items
  end.
(** [Get]'s pair of results as an option; [(nil, false)] is [None]. *)
Definition opt_val (x : value * bool) : option value := if x.2 then Some x.1 else None.
(** One client operation: new versions are appended. *)
Definition str_exec (vs : list ptr) (o : sop value) : prog U (list ptr * sout value) :=
  match o with
  | SBuild cmp items =>
    t <- str_new_custom (Some cmp) ;; str_fill t items ;;; Ret (vs ++ [t], SONone)
  | SInsert i k v => t <- str_insert fuel (nth i vs None) k v ;; Ret (vs ++ [t], SONone)
  | SDelete i k => x <- str_delete fuel (nth i vs None) k ;; Ret (vs ++ [x.1], SOBool x.2)
  | SGet i k => x <- str_get fuel (nth i vs None) k ;; Ret (vs, SOVal (opt_val x))
  | SEnumerate i => l <- str_enumerate fuel (nth i vs None) ;; Ret (vs, SOList l)
  | SIsEmpty i => b <- str_is_empty (nth i vs None) ;; Ret (vs, SOBool b)
  end.
End client.

Definition crefl (cmp : bytes -> bytes -> Z) : Prop := forall k, cmp k k = 0%Z.

Section abs.
Context {U : Type}.
Local Notation heap := (heap U).
Local Notation value := (value U).
Local Notation tree := (tree U).
Local Notation cmpf := (bytes -> bytes -> Z).
Implicit Types h : heap.
Implicit Types p : ptr.

(** Version [p] is the functional tree [s.2] with the comparator [s.1]. *)
Definition str_rep h p (s : cmpf * tree) : Prop :=
  match p with
  | None => s = (str_compare, E)
  | Some a => exists r, h !! a = Some (CStr r (Some s.1)) /\ rep h r s.2
  end.
Definition str_inv (n : nat) (s : cmpf * tree) : Prop := crefl s.1 /\ rbt s.2 /\ size s.2 <= n.
Definition strR (n : nat) h p (s : cmpf * tree) : Prop := str_rep h p s /\ str_inv n s.

Lemma str_rep_mono h h' p s : h ⊆ h' -> str_rep h p s -> str_rep h' p s.
Proof.
  intros Hs. destruct p as [a|]; [|done]. intros (r & Ha & Hr). exists r.
  split; [by eapply lookup_weaken|by eapply rep_mono].
Qed.
Lemma strR_mono n n' h h' p s : h ⊆ h' -> n <= n' -> strR n h p s -> strR n' h' p s.
Proof. intros Hs Hn [H1 (H2 & H3 & H4)]. split; [by eapply str_rep_mono|]. split_and!; [done|done|lia]. Qed.
Lemma strR_Forall2 n n' h h' vs ss : h ⊆ h' -> n <= n' -> Forall2 (strR n h) vs ss -> Forall2 (strR n' h') vs ss.
Proof. intros Hs Hn H. eapply Forall2_impl; [exact H|]. intros. by eapply strR_mono. Qed.
Lemma str_nil_refl : crefl str_compare.
Proof. intros k. by apply str_compare_eq. Qed.
Lemma strR_nil n h : strR n h None (str_compare, E).
Proof. split; [done|]. split_and!; [apply str_nil_refl|apply rbt_E|unfold size; simpl; lia]. Qed.
Definition trees_nth (ss : list (cmpf * tree)) i : cmpf * tree := nth i ss (str_compare, E).
Lemma strR_nth n h vs ss i : Forall2 (strR n h) vs ss -> strR n h (nth i vs None) (trees_nth ss i).
Proof. unfold trees_nth. intros H. revert i. induction H; intros [|i]; simpl; auto using strR_nil. Qed.

(** ** Single calls. *)
Variable fuel : nat.

Lemma f_ins_enough (cmp : cmpf) (t : tree) k v : crefl cmp -> rbt t -> enough fuel (size t) ->
  exists t', f_ins cmp k fuel t v = Some t' /\ rbt t' /\ size t' <= size t + 1.
Proof.
  intros Hc Hb Hf. pose proof (rbt_height t Hb) as Hh. unfold enough in Hf.
  destruct (f_ins_ok cmp k (Hc k) fuel t v Hb) as (t' & Ht' & Hb' & _); [lia|]. exists t'. split_and!; [done|done|].
  apply f_ins_size in Ht'; [lia|apply Hc].
Qed.

Lemma str_insert_wp h p s k v t' : str_rep h p s -> f_ins s.1 k fuel s.2 v = Some t' ->
  wp (str_insert fuel p k v) h ∅ (fun p' h' _ => str_rep h' p' (s.1, t') /\ exists a, p' = Some a /\ h !! a = None).
Proof.
  intros Hp Hi. unfold str_insert. apply wp_bind.
  eapply (wp_mono _ _ _ (fun nc h' W' => nc.2 = Some s.1 /\ rep h nc.1 s.2 /\ h' = h /\ W' = ∅)).
  { destruct p as [a|]; cbn [wp].
    - destruct Hp as (r & Ha & Hr). eapply wp_ld_str; [exact Ha|]. done.
    - simpl in Hp. subst s. done. }
  cbn beta. intros [r f] h1 W1 (E & Hr & -> & ->). simpl in E, Hr. cbn [fst snd]. subst f. apply wp_bind.
  eapply wp_mono; [eapply insert_wp; [exact Hr|exact Hi]|].
  cbn beta. intros r' h' W' (F & Hs & Hm & _). apply wp_bind, wp_alloc. intros a Ha. cbn [wp].
  split.
  - exists r'. simpl. split; [by rewrite lookup_insert|].
    eapply rep_mono; [by apply insert_subseteq|]. by eapply mrep_rep.
  - exists a. split; [done|]. by eapply lookup_weaken_None.
Qed.
Lemma str_delete_wp h p s k : str_rep h p s -> rbt s.2 -> height s.2 <= fuel ->
  wp (str_delete fuel p k) h ∅ (fun x h' _ => str_rep h' x.1 (s.1, (f_del s.1 k s.2).1) /\ x.2 = (f_del s.1 k s.2).2 /\
    match p with None => x.1 = None | Some _ => exists a, x.1 = Some a /\ h !! a = None end).
Proof.
  intros Hp Hb Hf. destruct p as [a|].
  - destruct Hp as (r & Ha & Hr). cbn [str_delete]. apply wp_bind. eapply wp_ld_str; [exact Ha|]. cbn [fst snd].
    apply wp_bind. eapply wp_mono; [eapply del_wp; [exact Hr|exact Hb|exact Hf]|].
    cbn beta. intros x h' W' (F & Hx & Hs & Hm & _). apply wp_bind, wp_alloc. intros a' Ha'. cbn [wp fst snd]. split_and!.
    + exists x.1. simpl. split; [by rewrite lookup_insert|].
      eapply rep_mono; [by apply insert_subseteq|]. by eapply mrep_rep.
    + done.
    + exists a'. split; [done|]. by eapply lookup_weaken_None.
  - simpl in Hp. subst s. cbn. done.
Qed.
Lemma str_get_wp h p s k : str_rep h p s -> height s.2 <= fuel ->
  wp (str_get fuel p k) h ∅ (fun x h' _ => x = f_get s.1 k s.2 /\ h' = h).
Proof.
  intros Hp Hf. destruct p as [a|].
  - destruct Hp as (r & Ha & Hr). cbn [str_get]. apply wp_bind. eapply wp_ld_str; [exact Ha|]. cbn [fst snd].
    eapply wp_mono; [by eapply get_wp|]. naive_solver.
  - simpl in Hp. subst s. cbn. done.
Qed.
Lemma str_enumerate_wp h p s : str_rep h p s -> height s.2 <= fuel ->
  wp (str_enumerate fuel p) h ∅ (fun x h' _ => x = inord s.2 /\ h' = h).
Proof.
  intros Hp Hf. destruct p as [a|].
  - destruct Hp as (r & Ha & Hr). cbn [str_enumerate]. apply wp_bind. eapply wp_ld_str; [exact Ha|]. cbn [fst snd].
    eapply wp_mono; [by eapply enumerate_wp|]. naive_solver.
  - simpl in Hp. subst s. cbn. done.
Qed.
Definition is_nil {A} (l : list A) : bool := match l with [] => true | _ => false end.
Lemma str_is_empty_wp h p s : str_rep h p s ->
  wp (str_is_empty p) h ∅ (fun x h' _ => x = is_nil (inord s.2) /\ h' = h).
Proof.
  intros Hp. destruct p as [a|].
  - destruct Hp as (r & Ha & Hr). cbn [str_is_empty]. apply wp_bind. eapply wp_ld_str; [exact Ha|]. cbn [fst snd wp].
    split; [|done]. destruct s.2 as [|c l k v rr]; simpl in Hr.
    + subst r. done.
    + destruct Hr as (b & pl & pr & -> & _). simpl. by destruct (inord l).
  - simpl in Hp. subst s. cbn. done.
Qed.

(** ** InplaceInsert on an unshared tree. *)
Definition str_owned h (a : loc) (s : cmpf * tree) (F : gset loc) : Prop :=
  exists r, h !! a = Some (CStr r (Some s.1)) /\ owned h r s.2 F /\ a ∉ F.
Lemma str_owned_rep h a s F : str_owned h a s F -> str_rep h (Some a) s.
Proof. intros (r & Ha & Ho & _). exists r. split; [done|]. eapply mrep_rep; [apply map_empty_subseteq|exact Ho]. Qed.

Lemma str_inplace_sub h a s F W k v t' : str_owned h a s F -> {[a]} ∪ F ⊆ W -> f_ins s.1 k fuel s.2 v = Some t' ->
  wp (str_inplace_insert fuel (Some a) k v) h W (fun _ h' W' => exists F', str_owned h' a (s.1, t') F' /\ {[a]} ∪ F' ⊆ W' /\ F ⊆ F').
Proof.
  intros (r & Ha & Ho & HaF) HW Hi. unfold str_inplace_insert. apply wp_bind. eapply wp_ld_str; [exact Ha|]. cbn [fst snd].
  apply wp_bind. eapply wp_mono.
  { eapply (wp_call _ _ F W); [|clear -HW; set_solver]. eapply inplace_insert_wp; [exact Ho|done|exact Hi]. }
  cbn beta. intros r' h' W' [(W1 & (F' & Ho' & HF' & HFF) & HW1 & HG1) [Hun HG2]].
  pose proof (Hun _ _ Ha HaF) as Ha'.
  assert (HaF' : a ∉ F').
  { intros Hin. apply HF' in Hin. destruct HG1 as (_ & _ & HG1). apply HG1 in Hin as [?|?]; [done|congruence]. }
  cbn [wp store]. split.
  { destruct HG2 as [HG2 _]. clear -HW HG2. set_solver. }
  split; [by eexists|].
  exists F'. split_and!; [..|exact HFF].
  - exists r'. cbn [fst snd]. split_and!; [by rewrite lookup_insert|..|done].
    eapply mrep_agree; [exact Ho'|]. intros x Hx. rewrite lookup_insert_ne; [done|]. by intros <-.
  - destruct HG2 as [HG2 _]. clear -HW HG2 HF' HW1. set_solver.
Qed.
Lemma str_inplace_wp h a s F W k v t' : str_owned h a s F -> {[a]} ∪ F ⊆ W -> f_ins s.1 k fuel s.2 v = Some t' ->
  wp (str_inplace_insert fuel (Some a) k v) h W (fun _ h' W' => exists F', str_owned h' a (s.1, t') F' /\ {[a]} ∪ F' ⊆ W').
Proof. intros Ho HW Hi. eapply wp_mono; [by eapply str_inplace_sub|]. cbn beta. intros _ h' W' (F' & H1 & H2 & _). eauto. Qed.

Fixpoint f_fill (cmp : cmpf) (items : list (bytes * value)) (t : tree) : option tree :=
  match items with
  | [] => Some t
  | (k, v) :: items => match f_ins cmp k fuel t v with Some t' => f_fill cmp items t' | None => None end
  end.
Lemma f_fill_enough cmp items : crefl cmp -> forall t : tree, rbt t -> enough fuel (size t + length items) ->
  exists t', f_fill cmp items t = Some t' /\ rbt t' /\ size t' <= size t + length items.
Proof.
  intros Hc. induction items as [|[k v] items IH]; intros t Hb Hf; simpl.
  { exists t. split_and!; [done|done|lia]. }
  destruct (f_ins_enough cmp t k v Hc Hb) as (t1 & -> & Hb1 & Hs1).
  { eapply enough_le; [exact Hf|lia]. }
  destruct (IH t1 Hb1) as (t2 & -> & Hb2 & Hs2).
  { eapply enough_le; [exact Hf|]. simpl. lia. }
  exists t2. split_and!; [done|done|lia].
Qed.
Lemma str_fill_wp cmp items : forall h a (t t' : tree) F W, str_owned h a (cmp, t) F -> {[a]} ∪ F ⊆ W ->
  f_fill cmp items t = Some t' ->
  wp (str_fill fuel (Some a) items) h W (fun _ h' W' => exists F', str_owned h' a (cmp, t') F' /\ {[a]} ∪ F' ⊆ W').
Proof.
  induction items as [|[k v] items IH]; intros h a t t' F W Ho HW Hf; cbn [str_fill wp].
  { injection Hf as <-. eauto. }
  simpl in Hf. destruct (f_ins cmp k fuel t v) as [t1|] eqn:E; [|done].
  apply wp_bind. eapply wp_mono; [eapply (str_inplace_wp h a (cmp, t)); [exact Ho|exact HW|exact E]|].
  cbn beta. intros _ h1 W1 (F1 & Ho1 & HW1). by eapply IH.
Qed.
Lemma str_build_wp h cmp items t : f_fill cmp items E = Some t ->
  wp (t <- str_new_custom (Some cmp) ;; str_fill fuel t items ;;; Ret t) h ∅ (fun p h' _ => str_rep h' p (cmp, t)).
Proof.
  intros Hf. apply wp_bind. unfold str_new_custom. apply wp_bind, wp_alloc. intros a Ha. cbn [wp]. apply wp_bind.
  eapply wp_mono.
  { eapply (str_fill_wp cmp items _ a E t ∅); [|clear; set_solver|exact Hf].
    exists None. cbn [fst snd]. split_and!; [by rewrite lookup_insert|done|clear; set_solver]. }
  cbn beta. intros _ h' W' (F' & Ho & _). cbn [wp]. by eapply str_owned_rep.
Qed.

(** ** Histories, against functional trees. *)
Definition tstep (ss : list (cmpf * tree)) (o : sop value) (ss' : list (cmpf * tree)) (x : sout value) : Prop :=
  match o with
  | SBuild cmp items => exists t, f_fill cmp items E = Some t /\ ss' = ss ++ [(cmp, t)] /\ x = SONone
  | SInsert i k v => let s := trees_nth ss i in
      exists t, f_ins s.1 k fuel s.2 v = Some t /\ ss' = ss ++ [(s.1, t)] /\ x = SONone
  | SDelete i k => let s := trees_nth ss i in
      ss' = ss ++ [(s.1, (f_del s.1 k s.2).1)] /\ x = SOBool (f_del s.1 k s.2).2
  | SGet i k => let s := trees_nth ss i in ss' = ss /\ x = SOVal (opt_val (f_get s.1 k s.2))
  | SEnumerate i => ss' = ss /\ x = SOList (inord (trees_nth ss i).2)
  | SIsEmpty i => ss' = ss /\ x = SOBool (is_nil (inord (trees_nth ss i).2))
  end.

Lemma height_le (t : tree) n : rbt t -> size t <= n -> enough fuel n -> height t <= fuel.
Proof. intros Hb Hs Hf. pose proof (rbt_height t Hb). apply (enough_le _ _ _ Hf) in Hs as Hf2. clear Hf. rename Hf2 into Hf. unfold enough in Hf. lia. Qed.

Lemma str_exec_ok N n h vs ss o : enough fuel N -> n + sop_weight o <= N -> Forall2 (strR n h) vs ss -> sop_refl o ->
  wp (str_exec fuel vs o) h ∅ (fun r h' _ => exists ss', tstep ss o ss' r.2 /\ Forall2 (strR (n + sop_weight o) h') r.1 ss').
Proof.
  intros HN Hn HR Ho. destruct o as [cmp items|i k v|i k|i k|i|i]; simpl sop_weight in Hn |- *; unfold str_exec.
  - simpl in Ho. destruct (f_fill_enough cmp items Ho E) as (t & Ht & Hb & Hs); [apply rbt_E| |].
    { eapply enough_le; [exact HN|]. simpl. lia. }
    pose proof (str_build_wp h cmp items t Ht) as Hw. apply wp_bind_inv in Hw.
    apply wp_bind. eapply wp_mono; [apply (wp_frame _ _ _ _ Hw)|]. cbn beta. intros p h1 W1 [Hw1 [Hun HG]].
    apply wp_bind_inv in Hw1. apply wp_bind. eapply wp_mono; [apply (wp_frame _ _ _ _ Hw1)|].
    cbn beta. intros _ h2 W2 [Hp [Hun2 HG2]]. cbn [wp fst snd] in Hp |- *.
    assert (h ⊆ h2) as Hsub.
    { apply map_subseteq_spec. intros x y Hx. apply Hun2; [by apply Hun; [|clear; set_solver]|].
      destruct HG as (_ & _ & HG). intros Hin%HG. destruct Hin as [?|?]; [set_solver|congruence]. }
    eexists. split; [exists t; done|]. apply Forall2_app; [by eapply strR_Forall2; [..|exact HR]; [done|lia]|].
    constructor; [|constructor]; split; [|split_and!]; cbn [fst snd]; [done|done|done|]. simpl in Hs. lia.
  - pose proof (strR_nth _ _ _ _ i HR) as [Hp (Hc & Hb & Hs)].
    destruct (f_ins_enough _ (trees_nth ss i).2 k v Hc Hb) as (t & Ht & Hb' & Hs').
    { eapply enough_le; [exact HN|lia]. }
    eapply wp_mono; [eapply wp_then with (Q := fun p' h' => str_rep h' p' ((trees_nth ss i).1, t))
      (R := fun (r : list ptr * sout value) h' => exists p, str_rep h' p ((trees_nth ss i).1, t) /\ r = (vs ++ [p], SONone))|].
    + eapply wp_mono; [by apply str_insert_wp|]. cbn beta. tauto.
    + intros p' h' _ Hp'. cbn [wp]. eauto.
    + cbn beta. intros r h' _ (Hsub & p' & Hp' & ->). cbn [fst snd]. eexists. split; [by eexists|].
      apply Forall2_app; [by eapply strR_Forall2; [..|exact HR]; [done|lia]|].
      constructor; [|constructor]; split; [|split_and!]; cbn [fst snd]; [done|done|done|]. lia.
  - pose proof (strR_nth _ _ _ _ i HR) as [Hp (Hc & Hb & Hs)].
    set (s := trees_nth ss i) in *.
    eapply wp_mono; [eapply wp_then with (Q := fun x h' => str_rep h' x.1 (s.1, (f_del s.1 k s.2).1) /\ x.2 = (f_del s.1 k s.2).2)
      (R := fun (r : list ptr * sout value) h' => exists p, str_rep h' p (s.1, (f_del s.1 k s.2).1) /\ r = (vs ++ [p], SOBool (f_del s.1 k s.2).2))|].
    + eapply wp_mono; [apply str_delete_wp; [exact Hp|done|]|]. { eapply height_le; [done|exact Hs|]. eapply enough_le; [exact HN|lia]. }
      cbn beta. tauto.
    + intros x h' _ [Hp' Hx]. cbn [wp]. exists x.1. by rewrite Hx.
    + cbn beta. intros r h' _ (Hsub & p' & Hp' & ->). cbn [fst snd]. eexists. split; [done|].
      apply Forall2_app; [by eapply strR_Forall2; [..|exact HR]; [done|lia]|].
      constructor; [|constructor]; split; [|split_and!]; cbn [fst snd]; [done|done|by apply f_del_ok|].
      pose proof (f_del_size s.1 k s.2). fold s. lia.
  - pose proof (strR_nth _ _ _ _ i HR) as [Hp (Hc & Hb & Hs)]. apply wp_bind.
    eapply wp_mono; [apply str_get_wp; [exact Hp|]|]. { eapply height_le; [done|exact Hs|]. eapply enough_le; [exact HN|lia]. }
    cbn beta. intros x h' W' [-> ->]. cbn [wp fst snd]. eexists. split; [done|]. eapply strR_Forall2; [..|exact HR]; [done|lia].
  - pose proof (strR_nth _ _ _ _ i HR) as [Hp (Hc & Hb & Hs)]. apply wp_bind.
    eapply wp_mono; [apply str_enumerate_wp; [exact Hp|]|]. { eapply height_le; [done|exact Hs|]. eapply enough_le; [exact HN|lia]. }
    cbn beta. intros x h' W' [-> ->]. cbn [wp fst snd]. eexists. split; [done|]. eapply strR_Forall2; [..|exact HR]; [done|lia].
  - pose proof (strR_nth _ _ _ _ i HR) as [Hp (Hc & Hb & Hs)]. apply wp_bind.
    eapply wp_mono; [by apply str_is_empty_wp|].
    cbn beta. intros x h' W' [-> ->]. cbn [wp fst snd]. eexists. split; [done|]. eapply strR_Forall2; [..|exact HR]; [done|lia].
Qed.

Lemma str_history h ops : Forall sop_refl ops -> enough fuel (weight sop_weight ops) ->
  wp (run_hist (str_exec fuel) ops []) h ∅ (fun r h' _ => h ⊆ h' /\
    exists ts, spec_run tstep ops [] ts r.2 /\ Forall2 (strR (weight sop_weight ops) h') r.1 ts).
Proof.
  intros Hops Hf. apply wp_cow0. 
  apply (run_hist_wp_n (str_exec fuel) tstep strR sop_refl sop_weight (weight sop_weight ops)) with (n := 0); [|done|constructor|lia].
  intros n h1 vs ss o Hn HR Ho. by apply str_exec_ok with (N := weight sop_weight ops).
Qed.

(** ** Functional trees against sorted maps. *)
Definition tmap (s : cmpf * tree) (m : smap value) : Prop :=
  s.1 = m.1 /\ lawful s.1 /\ inord s.2 = m.2 /\ ordered s.1 m.2.
Lemma tmap_nil : tmap (str_compare, E) (str_compare, []).
Proof. split_and!; [done|apply str_compare_lawful|done|constructor]. Qed.
Lemma tmap_nth ts ms i : Forall2 tmap ts ms -> tmap (trees_nth ts i) (smaps_nth str_compare ms i).
Proof. unfold trees_nth, smaps_nth. intros H. revert i. induction H; intros [|i]; simpl; auto using tmap_nil. Qed.
Lemma tmap_fill cmp items : lawful cmp -> forall (t : tree) l t', tmap (cmp, t) (cmp, l) -> f_fill cmp items t = Some t' ->
  tmap (cmp, t') (cmp, fold_left (fun l x => a_insert cmp l x.1 x.2) items l).
Proof.
  intros Hl. induction items as [|[k v] items IH]; intros t l t' Ht Hf; simpl in *; [by injection Hf as <-|].
  destruct (f_ins cmp k fuel t v) as [t1|] eqn:E1; [|done]. eapply IH; [|exact Hf].
  destruct Ht as (_ & _ & H1 & H2). simpl in *. subst l. split_and!; simpl; [done|done|by eapply f_ins_content|by apply ordered_a_insert].
Qed.
Lemma opt_val_get (cmp : cmpf) (t : tree) k : lawful cmp -> ordered cmp (inord t) ->
  opt_val (f_get cmp k t) = a_get cmp (inord t) k.
Proof. intros Hl Ho. rewrite f_get_content by done. by destruct (a_get cmp (inord t) k). Qed.
Lemma tmap_step ts ms o ts' x : sop_lawful o -> Forall2 tmap ts ms -> tstep ts o ts' x ->
  Forall2 tmap ts' (sstep str_compare ms o).1 /\ x = (sstep str_compare ms o).2.
Proof.
  intros Ho H Hst. destruct o as [cmp items|i k v|i k|i k|i|i]; cbn [tstep sstep] in Hst |- *.
  - destruct Hst as (t & Ht & -> & ->). split; [|done]. apply Forall2_app; [done|]. constructor; [|constructor].
    eapply tmap_fill; [done| |exact Ht]. split_and!; [done|done|done|constructor].
  - destruct Hst as (t & Ht & -> & ->). pose proof (tmap_nth _ _ i H) as (H1 & H2 & H3 & H4).
    destruct (smaps_nth str_compare ms i) as [cmp l]; cbn [fst snd] in *. subst cmp l. split; [|done].
    apply Forall2_app; [done|]. constructor; [|constructor].
    split_and!; simpl; [done|done|by eapply f_ins_content|by apply ordered_a_insert].
  - destruct Hst as [-> ->]. pose proof (tmap_nth _ _ i H) as (H1 & H2 & H3 & H4).
    destruct (smaps_nth str_compare ms i) as [cmp l]; cbn [fst snd] in *. subst cmp l.
    destruct (f_del_content _ k H2 _ H4) as [E1 E2]. rewrite E2. split; [|done].
    apply Forall2_app; [done|]. constructor; [|constructor].
    split_and!; simpl; [done|done|done|by apply ordered_a_delete].
  - destruct Hst as [-> ->]. pose proof (tmap_nth _ _ i H) as (H1 & H2 & H3 & H4).
    destruct (smaps_nth str_compare ms i) as [cmp l]; cbn [fst snd] in *. subst cmp l. split; [done|]. by rewrite opt_val_get.
  - destruct Hst as [-> ->]. pose proof (tmap_nth _ _ i H) as (H1 & H2 & H3 & H4). by rewrite H3.
  - destruct Hst as [-> ->]. pose proof (tmap_nth _ _ i H) as (H1 & H2 & H3 & H4). rewrite H3. done.
Qed.
Lemma tmap_run ops : Forall sop_lawful ops -> forall ts ms ts' outs, Forall2 tmap ts ms -> spec_run tstep ops ts ts' outs ->
  Forall2 tmap ts' (smaps str_compare ops ms) /\ outs = souts str_compare ops ms.
Proof.
  induction 1 as [|o ops Ho Hops IH]; intros ts ms ts' [|x outs] H Hr; simpl in Hr |- *; try done.
  - by subst.
  - destruct Hr as (ts1 & Hst & Hr). eapply tmap_step in Hst as [H1 ->]; [|done|exact H].
    eapply IH in Hr as [H2 ->]; [|exact H1]. done.
Qed.
Lemma sop_lawful_refl (ops : list (sop value)) : Forall sop_lawful ops -> Forall sop_refl ops.
Proof. intros H. eapply Forall_impl; [exact H|]. intros [] Ho; simpl in *; try done. intros. by apply cmp_refl. Qed.

(** ** Any calls after any history. *)
Definition str_at h p (m : smap value) (n : nat) : Prop := exists t, strR n h p (m.1, t) /\ tmap (m.1, t) m.
Lemma str_at_mono h h' p m n n' : h ⊆ h' -> n <= n' -> str_at h p m n -> str_at h' p m n'.
Proof. intros Hs Hn (t & H & ?). exists t. split; [by eapply strR_mono|done]. Qed.

Lemma str_history_maps h ops : Forall sop_lawful ops -> enough fuel (weight sop_weight ops) ->
  wp (run_hist (str_exec fuel) ops []) h ∅ (fun r h' _ => h ⊆ h' /\ r.2 = souts str_compare ops [] /\
    forall ver, str_at h' (nth ver r.1 None) (smaps_nth str_compare (smaps str_compare ops []) ver) (weight sop_weight ops)).
Proof.
  intros Hops Hf. eapply wp_mono; [apply str_history; [by apply sop_lawful_refl|done]|].
  cbn beta. intros r h' _ (Hs & ts & Hr & HR). eapply tmap_run in Hr as [Hm Ho]; [|done|constructor].
  split_and!; [done|done|]. intros ver. pose proof (strR_nth _ _ _ _ ver HR) as H1. pose proof (tmap_nth _ _ ver Hm) as H2.
  exists (trees_nth ts ver).2. destruct (trees_nth ts ver) as [cmp t]. destruct H2 as [E H2]. simpl in E. subst cmp. done.
Qed.

Lemma str_insert_at h p m n k v : str_at h p m n -> enough fuel n ->
  wp (str_insert fuel p k v) h ∅ (fun p' h' _ => h ⊆ h' /\ str_at h' p' (m.1, a_insert m.1 m.2 k v) (n + 1) /\ exists a, p' = Some a /\ h !! a = None).
Proof.
  intros (t & [Hp (Hc & Hb & Hs)] & (_ & H2 & H3 & H4)) Hf. simpl in *.
  destruct (f_ins_enough _ t k v Hc Hb) as (t' & Ht & Hb' & Hs'); [by eapply enough_le|].
  apply wp_cow0. eapply wp_mono; [by apply (str_insert_wp h p (m.1, t))|].
  cbn beta. intros p' h' _ [Hp' Hfr]. split; [|done]. exists t'. cbn [fst snd]. split.
  - split; [done|]. split_and!; cbn [fst snd]; [done|done|lia].
  - rewrite <- H3 in *. split_and!; simpl; [done|done|by eapply f_ins_content|by apply ordered_a_insert].
Qed.
Lemma str_delete_at h p m n k : str_at h p m n -> enough fuel n ->
  wp (str_delete fuel p k) h ∅ (fun x h' _ => h ⊆ h' /\ str_at h' x.1 (m.1, a_delete m.1 m.2 k) n /\ x.2 = a_deleted m.1 m.2 k /\
     match p with None => x.1 = None | Some _ => exists a, x.1 = Some a /\ h !! a = None end).
Proof.
  intros (t & [Hp (Hc & Hb & Hs)] & (_ & H2 & H3 & H4)) Hf. simpl in *.
  apply wp_cow0. eapply wp_mono; [apply (str_delete_wp h p (m.1, t)); [done|done|by eapply height_le]|].
  cbn beta. intros x h' _ (Hp' & Hx & Hfr). cbn [fst snd] in *. rewrite <- H3 in *.
  destruct (f_del_content _ k H2 _ H4) as [E1 E2]. split_and!; [|congruence|done].
  eexists. cbn [fst snd]. split.
  - split; [exact Hp'|]. split_and!; cbn [fst snd]; [done|by apply f_del_ok|]. pose proof (f_del_size m.1 k t). lia.
  - split_and!; simpl; [done|done|done|by apply ordered_a_delete].
Qed.
Lemma str_get_at h p m n k : str_at h p m n -> 2 * Nat.log2 (length m.2 + 1) <= fuel ->
  wp (str_get fuel p k) h ∅ (fun x h' _ => h' = h /\ x = match a_get m.1 m.2 k with Some v => (v, true) | None => (VNil, false) end).
Proof.
  intros (t & [Hp (Hc & Hb & Hs)] & (_ & H2 & H3 & H4)) Hf. simpl in *.
  pose proof (rbt_height t Hb) as Hh. unfold size in Hh. rewrite H3 in Hh.
  eapply wp_mono; [apply (str_get_wp h p (m.1, t)); [done|simpl; lia]|].
  cbn beta. intros x h' _ [-> ->]. split; [done|]. cbn [fst snd]. rewrite <- H3 in *. by apply f_get_content.
Qed.
Lemma str_enumerate_at h p m n : str_at h p m n -> enough fuel n ->
  wp (str_enumerate fuel p) h ∅ (fun x h' _ => h' = h /\ x = m.2).
Proof.
  intros (t & [Hp (Hc & Hb & Hs)] & (_ & H2 & H3 & H4)) Hf. simpl in *.
  eapply wp_mono; [apply (str_enumerate_wp h p (m.1, t)); [done|by eapply height_le]|].
  cbn beta. intros x h' _ [-> ->]. done.
Qed.
Lemma str_is_empty_at h p m n : str_at h p m n ->
  wp (str_is_empty p) h ∅ (fun x h' _ => h' = h /\ x = is_nil m.2).
Proof.
  intros (t & [Hp _] & (_ & H2 & H3 & H4)). simpl in *.
  eapply wp_mono; [by apply (str_is_empty_wp h p (m.1, t))|].
  cbn beta. intros x h' _ [-> ->]. cbn [snd]. by rewrite H3.
Qed.
Lemma str_at_log n h p m : str_at h p m n -> length m.2 <= n /\ lawful m.1 /\ ordered m.1 m.2.
Proof. intros (t & [_ (_ & _ & Hs)] & (_ & ? & H3 & ?)). unfold size in Hs. simpl in *. rewrite H3 in Hs. done. Qed.
End abs.
