(** * strtree with any comparison function whatever: calls return or loop for ever, and which. *)
From Verif Require Import Prog History RbModel RbSpec RbFun RbFunIns RbFunDel RbSim RbSimOps RbAbs RbHang StrSpec StrAbs.
Open Scope nat_scope.

Section any.
Context {U : Type}.
Local Notation heap := (heap U).
Local Notation value := (value U).
Local Notation tree := (tree U).
Local Notation cmpf := (bytes -> bytes -> Z).
Implicit Types h : heap.
Implicit Types p : ptr.

Lemma ins_loop_mono cmp k v : forall fuel fuel' (ctx : list (frame U)) t t', fuel <= fuel' ->
  ins_loop cmp k fuel ctx t v = Some t' -> ins_loop cmp k fuel' ctx t v = Some t'.
Proof.
  induction fuel as [|fuel IH]; intros [|fuel'] ctx t t' Hle H; try done; [lia|]. cbn [ins_loop] in *.
  destruct (fixv ctx (pre k t)) as [[ctx1 [|c l k0 v0 r]]|]; try done. destruct (cmp k0 k =? 0)%Z; [done|]. cbv zeta in *. eapply IH; [|exact H]. lia.
Qed.
Lemma f_ins_mono cmp k v fuel fuel' (t t' : tree) : fuel <= fuel' -> f_ins cmp k fuel t v = Some t' -> f_ins cmp k fuel' t v = Some t'.
Proof.
  intros Hle. destruct t as [|c l k0 v0 r]; [done|]. unfold f_ins. intros H. apply fmap_Some in H as (t1 & H & ->).
  by rewrite (ins_loop_mono _ _ _ _ _ _ _ _ Hle H).
Qed.

(** The insertion of [k] into a tree returns. *)
Definition takes (cmp : cmpf) (k : bytes) (t : tree) : Prop := t = E \/ stops cmp k t.
Lemma takes_dec cmp k t : takes cmp k t \/ (t <> E /\ cmp k k <> 0%Z /\ unfound cmp k t).
Proof.
  unfold takes, stops, unfound. destruct t as [|c l k0 v0 r]; [by left; left|]. destruct (Z.eq_dec (cmp k k) 0%Z); [by left; right; left|].
  destruct ((f_get cmp k (T c l k0 v0 r)).2) eqn:E; [by left; right; right|by right].
Qed.
Definition fuel_for (n : nat) : nat := 4 * Nat.log2 (n + 1) + 2.
Lemma any_ins cmp (t : tree) k v N : rbt t -> size t <= N -> takes cmp k t ->
  exists t', rbt t' /\ size t' <= S (size t) /\ forall fuel, enough fuel N -> f_ins cmp k fuel t v = Some t'.
Proof.
  intros Hb Hs Ht. pose proof (rbt_height t Hb) as Hh.
  assert (Nat.log2 (size t + 1) <= Nat.log2 (N + 1)) as Hl by (apply Nat.log2_le_mono; lia).
  destruct (f_ins_stops cmp k (fuel_for N) t v Hb Ht) as (t' & Ht' & Hb' & _); [unfold fuel_for, size in *; lia|].
  exists t'. split; [done|]. split; [by eapply f_ins_size_any|]. intros fuel Hf. eapply f_ins_mono; [exact Hf|exact Ht'].
Qed.

Definition anyI (n : nat) (s : cmpf * tree) : Prop := rbt s.2 /\ size s.2 <= n.
Definition anyR (n : nat) h p (s : cmpf * tree) : Prop := str_rep h p s /\ anyI n s.
Lemma anyI_nil n : anyI n (str_compare, E).
Proof. split; [apply rbt_E|unfold size; simpl; lia]. Qed.
Lemma anyR_nil n h : anyR n h None (str_compare, E).
Proof. split; [done|apply anyI_nil]. Qed.
Lemma anyR_nth n h vs ss i : Forall2 (anyR n h) vs ss -> anyR n h (nth i vs None) (trees_nth ss i).
Proof. unfold trees_nth. intros H. revert i. induction H; intros [|i]; simpl; auto using anyR_nil. Qed.
Lemma anyI_nth n ss i : Forall (anyI n) ss -> anyI n (trees_nth ss i).
Proof. unfold trees_nth. intros H. revert i. induction H; intros [|i]; simpl; auto using anyI_nil. Qed.
Lemma anyR_mono n n' h h' vs ss : h ⊆ h' -> n <= n' -> Forall2 (anyR n h) vs ss -> Forall2 (anyR n' h') vs ss.
Proof. intros Hs Hn H. eapply Forall2_impl; [exact H|]. intros p s [H1 [H2 H3]]. split; [by eapply str_rep_mono|]. split; [done|lia]. Qed.
Lemma anyI_mono n n' ss : n <= n' -> Forall (anyI n) ss -> Forall (anyI n') ss.
Proof. intros Hn H. eapply Forall_impl; [exact H|]. intros s [H2 H3]. split; [done|lia]. Qed.

Lemma str_insert_hang fuel h p s k v : str_rep h p s -> rbt s.2 -> s.2 <> E -> s.1 k k <> 0%Z -> unfound s.1 k s.2 ->
  fails (str_insert fuel p k v) h EFuel.
Proof.
  intros Hp Hb Hne Hk Hu. destruct p as [a|]; [|simpl in Hp; by subst s]. destruct Hp as (r & Ha & Hr). unfold str_insert.
  apply (fails_bind_k _ _ _ ∅). eapply wp_ld_str; [exact Ha|]. cbn [fst snd]. apply fails_bind_l. by eapply insert_hang.
Qed.
Lemma str_inplace_hang fuel h a s F k v : str_owned h a s F -> rbt s.2 -> s.2 <> E -> s.1 k k <> 0%Z -> unfound s.1 k s.2 ->
  fails (str_inplace_insert fuel (Some a) k v) h EFuel.
Proof.
  intros (r & Ha & Hr & _) Hb Hne Hk Hu. unfold str_inplace_insert.
  apply (fails_bind_k _ _ _ ∅). eapply wp_ld_str; [exact Ha|]. cbn [fst snd]. apply fails_bind_l. by eapply inplace_hang.
Qed.

Lemma any_fill N cmp items : forall t, rbt t -> size t + length items <= N ->
  (exists t', rbt t' /\ size t' <= size t + length items /\ forall fuel, enough fuel N -> f_fill fuel cmp items t = Some t') \/
  (forall fuel, enough fuel N -> forall h a F, str_owned h a (cmp, t) F -> fails (str_fill fuel (Some a) items) h EFuel).
Proof.
  induction items as [|[k v] items IH]; intros t Hb Hs; cbn [length] in Hs |- *.
  { left. exists t. split; [done|]. split; [lia|done]. }
  destruct (takes_dec cmp k t) as [Ht|(Hne & Hk & Hu)].
  - destruct (any_ins cmp t k v N Hb) as (t1 & Hb1 & Hs1 & H1); [lia|done|].
    destruct (IH t1 Hb1) as [(t2 & Hb2 & Hs2 & H2)|H2]; [lia|left|right].
    + exists t2. split; [done|]. split; [lia|]. intros fuel Hf. cbn [f_fill]. rewrite (H1 _ Hf). by apply H2.
    + intros fuel Hf h a F Ho. cbn [str_fill]. eapply (fails_bind_r _ _ _ ({[a]} ∪ F)); [eapply (str_inplace_wp fuel h a (cmp, t)); [exact Ho|done|by apply H1]|].
      cbn beta. intros _ h' W' (F' & Ho' & _). by eapply H2.
  - right. intros fuel Hf h a F Ho. cbn [str_fill]. apply fails_bind_l. by eapply (str_inplace_hang fuel h a (cmp, t)).
Qed.

(** One call: it returns, the same for all sufficient fuel, or never returns. *)
Definition w := @sop_weight value.
Lemma any_step N n ss o : n + w o <= N -> Forall (anyI n) ss ->
  (exists ss' x, Forall (anyI (n + w o)) ss' /\ (forall gs, map fst ss = map fst gs -> map fst ss' = map fst (slog_step (V := value) str_compare gs o)) /\
     forall fuel, enough fuel N -> forall h vs, Forall2 (anyR n h) vs ss ->
     wp (str_exec fuel vs o) h ∅ (fun r h' _ => r.2 = x /\ Forall2 (anyR (n + w o) h') r.1 ss')) \/
  (forall fuel, enough fuel N -> forall h vs, Forall2 (anyR n h) vs ss -> fails (str_exec fuel vs o) h EFuel).
Proof.
  intros Hn HI.
  assert (Hnth : forall gs i, map fst ss = map fst gs -> (trees_nth ss i).1 = (slogs_nth (V := value) str_compare gs i).1).
  { intros gs i Eg. unfold trees_nth, slogs_nth. rewrite <- (map_nth fst ss), Eg. exact (map_nth fst gs (str_compare, []) i). }
  destruct o as [cmp items|i k v|i k|i k|i|i]; unfold w in *; simpl sop_weight in Hn |- *; unfold str_exec.
  - destruct (any_fill N cmp items E (rbt_E)) as [(t & Hb & Hs & Ht)|Hfl]; [unfold size; simpl; lia|left|right].
    + exists (ss ++ [(cmp, t)]), SONone. assert (HIt : anyI (n + length items) (cmp, t)) by (split; [done|unfold size in *; simpl in *; lia]).
      split; [apply Forall_app; split; [eapply anyI_mono; [|exact HI]; lia|constructor; [exact HIt|constructor]]|].
      split; [intros gs Eg; rewrite !map_app; cbn [slog_step]; rewrite map_app, Eg; done|].
      intros fuel Hf h vs HR. pose proof (str_build_wp fuel h cmp items t (Ht fuel Hf)) as Hw. apply wp_bind_inv in Hw.
      apply wp_bind. eapply wp_mono; [apply (wp_frame _ _ _ _ Hw)|]. cbn beta. intros p h1 W1 [Hw1 [Hun HG]].
      apply wp_bind_inv in Hw1. apply wp_bind. eapply wp_mono; [apply (wp_frame _ _ _ _ Hw1)|].
      cbn beta. intros _ h2 W2 [Hp [Hun2 HG2]]. cbn [wp fst snd] in Hp |- *.
      assert (h ⊆ h2) as Hsub.
      { apply map_subseteq_spec. intros x y Hx. apply Hun2; [by apply Hun; [|clear; set_solver]|].
        destruct HG as (_ & _ & HG). intros Hin%HG. destruct Hin as [?|?]; [set_solver|congruence]. }
      split; [done|]. apply Forall2_app; [by eapply anyR_mono; [..|exact HR]; [done|lia]|]. constructor; [by split|constructor].
    + intros fuel Hf h vs HR. unfold str_new_custom. cbn [bind fails alloc]. intros a Ha. apply fails_bind_l. eapply (Hfl fuel Hf _ a ∅).
      exists None. cbn [fst snd]. split_and!; [by rewrite lookup_insert|done|clear; set_solver].
  - pose proof (anyI_nth _ _ i HI) as [Hb Hs]. set (s := trees_nth ss i) in *.
    destruct (takes_dec s.1 k s.2) as [Htk|(Hne & Hk & Hu)]; [left|right].
    + destruct (any_ins s.1 s.2 k v N Hb) as (t & Hb' & Hs' & Ht); [lia|done|].
      exists (ss ++ [(s.1, t)]), SONone. assert (HIt : anyI (n + 1) (s.1, t)) by (split; [done|simpl; lia]).
      split; [apply Forall_app; split; [eapply anyI_mono; [|exact HI]; lia|constructor; [exact HIt|constructor]]|].
      split; [intros gs Eg; cbn [slog_step]; rewrite !map_app, Eg; simpl; by rewrite <- (Hnth gs i Eg)|].
      intros fuel Hf h vs HR. pose proof (anyR_nth _ _ _ _ i HR) as [Hp _]. fold s in Hp.
      eapply wp_mono; [eapply wp_then with (Q := fun p' h' => str_rep h' p' (s.1, t))
        (R := fun (r : list ptr * sout value) h' => exists p, str_rep h' p (s.1, t) /\ r = (vs ++ [p], SONone))|].
      * eapply wp_mono; [apply str_insert_wp; [exact Hp|by apply Ht]|]. cbn beta. tauto.
      * intros p' h' _ Hp'. cbn [wp]. eauto.
      * cbn beta. intros r h' _ (Hsub & p' & Hp' & ->). cbn [fst snd]. split; [done|].
        apply Forall2_app; [by eapply anyR_mono; [..|exact HR]; [done|lia]|]. constructor; [by split|constructor].
    + intros fuel Hf h vs HR. pose proof (anyR_nth _ _ _ _ i HR) as [Hp _]. apply fails_bind_l. by eapply str_insert_hang.
  - left. pose proof (anyI_nth _ _ i HI) as [Hb Hs]. set (s := trees_nth ss i) in *.
    exists (ss ++ [(s.1, (f_del s.1 k s.2).1)]), (SOBool (f_del s.1 k s.2).2).
    assert (HIt : anyI (n + 1) (s.1, (f_del s.1 k s.2).1)) by (split; [by apply f_del_ok|pose proof (f_del_size s.1 k s.2); cbn [snd]; lia]).
    split; [apply Forall_app; split; [eapply anyI_mono; [|exact HI]; lia|constructor; [exact HIt|constructor]]|].
    split; [intros gs Eg; cbn [slog_step]; rewrite !map_app, Eg; simpl; by rewrite <- (Hnth gs i Eg)|].
    intros fuel Hf h vs HR. pose proof (anyR_nth _ _ _ _ i HR) as [Hp _]. fold s in Hp.
    eapply wp_mono; [eapply wp_then with (Q := fun x h' => str_rep h' x.1 (s.1, (f_del s.1 k s.2).1) /\ x.2 = (f_del s.1 k s.2).2)
      (R := fun (r : list ptr * sout value) h' => exists p, str_rep h' p (s.1, (f_del s.1 k s.2).1) /\ r = (vs ++ [p], SOBool (f_del s.1 k s.2).2))|].
    + eapply wp_mono; [apply str_delete_wp; [exact Hp|done|]|]. { eapply height_le; [done|exact Hs|]. eapply enough_le; [exact Hf|lia]. }
      cbn beta. tauto.
    + intros x h' _ [Hp' Hx]. cbn [wp]. exists x.1. by rewrite Hx.
    + cbn beta. intros r h' _ (Hsub & p' & Hp' & ->). cbn [fst snd]. split; [done|].
      apply Forall2_app; [by eapply anyR_mono; [..|exact HR]; [done|lia]|]. constructor; [by split|constructor].
  - left. pose proof (anyI_nth _ _ i HI) as [Hb Hs]. exists ss, (SOVal (opt_val (f_get (trees_nth ss i).1 k (trees_nth ss i).2))).
    split; [eapply anyI_mono; [|exact HI]; lia|]. split; [done|]. intros fuel Hf h vs HR. pose proof (anyR_nth _ _ _ _ i HR) as [Hp _]. apply wp_bind.
    eapply wp_mono; [apply str_get_wp; [exact Hp|]|]. { eapply height_le; [done|exact Hs|]. eapply enough_le; [exact Hf|lia]. }
    cbn beta. intros x h' W' [-> ->]. cbn [wp fst snd]. split; [done|]. eapply anyR_mono; [..|exact HR]; [done|lia].
  - left. pose proof (anyI_nth _ _ i HI) as [Hb Hs]. exists ss, (SOList (inord (trees_nth ss i).2)).
    split; [eapply anyI_mono; [|exact HI]; lia|]. split; [done|]. intros fuel Hf h vs HR. pose proof (anyR_nth _ _ _ _ i HR) as [Hp _]. apply wp_bind.
    eapply wp_mono; [apply str_enumerate_wp; [exact Hp|]|]. { eapply height_le; [done|exact Hs|]. eapply enough_le; [exact Hf|lia]. }
    cbn beta. intros x h' W' [-> ->]. cbn [wp fst snd]. split; [done|]. eapply anyR_mono; [..|exact HR]; [done|lia].
  - left. exists ss, (SOBool (is_nil (inord (trees_nth ss i).2))).
    split; [eapply anyI_mono; [|exact HI]; lia|]. split; [done|]. intros fuel Hf h vs HR. pose proof (anyR_nth _ _ _ _ i HR) as [Hp _]. apply wp_bind.
    eapply wp_mono; [by apply str_is_empty_wp|].
    cbn beta. intros x h' W' [-> ->]. cbn [wp fst snd]. split; [done|]. eapply anyR_mono; [..|exact HR]; [done|lia].
Qed.
Lemma any_run N ops : forall n ss gs, n + weight sop_weight ops <= N -> Forall (anyI n) ss -> map fst ss = map fst gs ->
  (exists ss' outs, map fst ss' = map fst (fold_left (slog_step (V := value) str_compare) ops gs) /\
     forall fuel, enough fuel N -> forall h vs, Forall2 (anyR n h) vs ss ->
     wp (run_hist (str_exec fuel) ops vs) h ∅ (fun r h' _ => r.2 = outs /\ Forall2 (anyR (n + weight sop_weight ops) h') r.1 ss')) \/
  (forall fuel, enough fuel N -> forall h vs, Forall2 (anyR n h) vs ss -> fails (run_hist (str_exec fuel) ops vs) h EFuel).
Proof.
  unfold weight. induction ops as [|o ops IH]; intros n ss gs Hn HI Hgs; cbn [fold_left].
  { left. exists ss, []. split; [done|]. intros fuel Hf h vs HR. cbn [run_hist wp map]. change (list_sum []) with 0. by rewrite Nat.add_0_r. }
  change (list_sum (map sop_weight (o :: ops))) with (sop_weight o + list_sum (map sop_weight ops)) in *.
  destruct (any_step N n ss o) as [(ss1 & x & HI1 & Hg1 & H1)|H1]; [unfold w; lia|done| |].
  - destruct (IH (n + w o) ss1 (slog_step str_compare gs o)) as [(ss2 & outs & Hg2 & H2)|H2]; [unfold w; lia|done|by apply Hg1|left|right].
    + exists ss2, (x :: outs). split; [done|]. intros fuel Hf h vs HR. apply wp_bind. eapply wp_mono; [by apply H1|]. cbn beta.
      intros r h1 W1 [Hx HR1]. apply wp_bind. eapply wp_mono; [eapply (wp_weaken_W _ _ ∅); [by apply (H2 fuel Hf h1 r.1)|apply empty_subseteq]|].
      cbn beta. intros y h2 W2 (W3 & [Hy HR2] & _). cbn [wp fst snd]. rewrite Hx, Hy. split; [done|]. unfold w in HR2. by rewrite Nat.add_assoc.
    + intros fuel Hf h vs HR. eapply fails_bind_r; [by apply H1|]. cbn beta. intros r h1 W1 [_ HR1]. apply fails_bind_l. by apply H2.
  - right. intros fuel Hf h vs HR. apply fails_bind_l. by apply H1.
Qed.
End any.
