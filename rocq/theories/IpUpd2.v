(** * iptree on memory: the located view and the contents. *)
From Verif Require Import Prog NumModel NumBits NumFun NumSim NumOrder NumSpec NumAbs NumFoot NumLoc IpModel IpSpec IpBits IpAbs IpAbs2 IpAbs3 IpEnum IpPropProofs IpUpd.
From Coq Require Import ZifyBool ZifyNat ZifyN.
Open Scope N_scope.

Section upd.
Context {U : Type}.
Local Notation heap := (heap U).
Local Notation value := (value U).
Local Notation numnode := (numnode U).
Local Notation nmap := (@gmap pfx (@prod_eq_dec N N_eq_dec N N_eq_dec) (@prod_countable N N_eq_dec N_countable N N_eq_dec N_countable) (prod N value)).
Local Notation prog := (prog U).
Local Notation pair_ := (pair_ (U := U)).
Local Notation item := (loc * numnode)%type.
Implicit Types h : heap.

Lemma choose_list {A B} (P : A -> B -> Prop) (ys : list A) : (forall y, y ∈ ys -> exists z, P y z) ->
  exists yz, map fst yz = ys /\ forall y z, (y, z) ∈ yz -> P y z.
Proof.
  induction ys as [|y ys IH]; intros H.
  - exists []. split; [done|]. by intros y z ?%elem_of_nil.
  - destruct (H y ltac:(by left)) as [z Hz]. destruct IH as (yz & E & Hyz). { intros y' Hy'. apply H. by right. }
    exists ((y, z) :: yz). split; [cbn [map fst]; by rewrite E|]. intros y' z' [[= -> ->]|Hin]%elem_of_cons; [done|by apply Hyz].
Qed.
Lemma s_enum_vals (W : N) (m : nmap) (xs : list item) : s_enum W m (map as_entry xs) -> forall x, x ∈ xs -> m !! norm W (nn_key x.2) (nn_bits x.2) = Some (nn_key x.2, nn_val x.2).
Proof. intros [_ Hm] x Hx. apply Hm. split; [|done]. by apply (elem_of_list_fmap_1 as_entry) in Hx. Qed.

Lemma itree_itl h a G : itree h (Some a) G -> exists xs yz, itl h a xs yz.
Proof.
  intros (r4 & r6 & F4 & F6 & Ha & H4 & H6 & Hd & A4 & A6). destruct H4 as (m4 & H4 & P4 & G4). destruct H6 as (m & ss & F0 & Fs & I1 & I2 & I3 & I4 & I5 & I6).
  destruct (ntree_in_tr c32 c32_ok _ _ _ _ H4) as (xs & T4 & E4). destruct (ntree_in_tr c64 c64_ok _ _ _ _ I1) as (ys & T6 & E6).
  change (cW c32) with 32 in *. change (cW c64) with 64 in *. pose proof I1 as I1'. apply ntree_in_at in I1'.
  destruct (choose_list (fun y z => match nn_val y.2 with VSub s => tr c64 h (Fs (nn_key y.2)) s z /\ z <> [] /\ forall x, x ∈ z -> plain (nn_val x.2) | _ => z = [] end) ys) as (yz & Eyz & Hyz).
  { intros y Hy. destruct (vsub_dec (nn_val y.2)) as [Hp|[s Es]].
    - exists []. by destruct (nn_val y.2).
    - rewrite Es. destruct (ys_sub h m ss F0 Fs r6 (map as_entry ys) I2 I1' E6 (as_entry y) s) as [B Hs]; [by apply elem_of_list_fmap_1|done|].
      cbn [as_entry fst snd] in Hs, B. destruct (ntree_in_tr c64 c64_ok _ _ _ _ Hs) as (z & Tz & Ez). change (cW c64) with 64 in *. exists z. split_and!; [done| |].
      + intros ->. destruct (sub_at _ _ _ _ _ I2 (nn_key y.2)) as (s' & Hs' & Hm). pose proof (s_enum_vals _ _ _ E6 y Hy) as El. rewrite B, norm64 in El.
        destruct (m !! (64, nn_key y.2)) as [[k' v']|] eqn:Em; [|by pose proof (eq_trans (eq_sym Em) El)].
        destruct Hm as [_ Hne]. apply some_of_nonempty in Hne as (q & k & v & Hq). apply Ez in Hq as [Hq _]. by apply elem_of_nil in Hq.
      + intros x Hx. eapply (sub_plain' _ _ _ _ _ I2). by apply (s_enum_vals _ _ _ Ez). }
  assert (Hin : forall y z, (y, z) ∈ yz -> y ∈ ys) by (intros y z H; rewrite <- Eyz; by apply (elem_of_list_fmap_1 fst) in H).
  exists xs, yz. split.
  - exists r4, r6, F4, F0, Fs. split_and!; try done.
    + by rewrite Eyz.
    + intros y z s Hy Es. specialize (Hyz y z Hy). rewrite Es in Hyz. apply Hyz.
    + clear -Hd I3. set_solver.
    + intros k. specialize (I4 k). clear -Hd I4. set_solver.
    + intros k. pose proof (sub_disj0 _ _ _ _ _ I2 k) as H. clear -H. set_solver.
    + intros k k' Hk. by apply (sub_disj _ _ _ _ _ I2).
    + clear -A6 I3. set_solver.
    + intros k. specialize (I4 k). clear -A6 I4. set_solver.
  - intros y z s Hy Es. destruct (ys_sub h m ss F0 Fs r6 (map as_entry ys) I2 I1' E6 (as_entry y) s) as [B _]; [apply elem_of_list_fmap_1; by eapply Hin|done|].
    split; [exact B|]. specialize (Hyz y z Hy). rewrite Es in Hyz. apply Hyz.
  - intros y z Hy Hp. split.
    + apply (ys_plain h m ss F0 Fs r6 (map as_entry ys) I2 I1' E6 (as_entry y)); [apply elem_of_list_fmap_1; by eapply Hin|done].
    + specialize (Hyz y z Hy). by destruct (nn_val y.2).
  - intros x Hx. eapply P4. by apply (s_enum_vals _ _ _ E4).
  - intros y z x Hy Hx. specialize (Hyz y z Hy). destruct (vsub_dec (nn_val y.2)) as [Hp|[s Es]].
    + assert (z = []) as -> by (by destruct (nn_val y.2)). by apply elem_of_nil in Hx.
    + rewrite Es in Hyz. by apply Hyz.
Qed.

Definition has_sub (k : N) (yz : item * list item) : bool := match nn_val yz.1.2 with VSub _ => nn_key yz.1.2 =? k | _ => false end.
Lemma tr_in_dom c h F p xs : tr c h F p xs -> F ⊆ dom h.
Proof. intros (h0 & t & Hs & <- & _). by apply subseteq_dom. Qed.

Lemma itl_itree h a xs yz : itl h a xs yz -> exists G, itree h (Some a) G.
Proof.
  intros Hi. destruct (il_trees _ _ _ _ Hi) as (r4 & r6 & F4 & F0 & Fs & Ha & T4 & T6 & Ts & D1 & D2 & D3 & D4 & A1 & A2 & A3).
  destruct (tr_ntree_in c32 c32_ok _ _ _ _ T4) as (m4 & N4 & E4). destruct (tr_ntree_in c64 c64_ok _ _ _ _ T6) as (m & N6 & E6).
  change (cW c32) with 32 in *. change (cW c64) with 64 in *.
  destruct (choose_list (fun (x : item * list item) (mz : nmap) => match nn_val x.1.2 with VSub s => ntree_in c64 h (Fs (nn_key x.1.2)) s mz /\ s_enum 64 mz (map as_entry x.2) | _ => mz = ∅ end) yz) as (yzm & Eyz & Hyz).
  { intros [y z] Hy. cbn [fst snd]. destruct (vsub_dec (nn_val y.2)) as [Hp|[s Es]].
    - exists ∅. by destruct (nn_val y.2).
    - rewrite Es. destruct (tr_ntree_in c64 c64_ok _ _ _ _ (Ts _ _ _ Hy Es)) as (mz & Hz & Ez). by exists mz. }
  set (sel := fun x : N => find (fun w : item * list item * nmap => has_sub x w.1) yzm).
  assert (Hsel : forall x, match sel x with
    | Some (y, z, mz) => (y, z) ∈ yz /\ nn_key y.2 = x /\ exists s, nn_val y.2 = VSub s /\ ntree_in c64 h (Fs x) s mz /\ s_enum 64 mz (map as_entry z)
    | None => forall y z s, (y, z) ∈ yz -> nn_val y.2 = VSub s -> nn_key y.2 <> x end).
  { intros x. unfold sel. destruct (find _ yzm) as [[[y z] mz]|] eqn:Ef.
    - apply find_some in Ef as [Hin Hh]. apply elem_of_list_In in Hin. unfold has_sub in Hh. cbn [fst snd] in Hh.
      specialize (Hyz _ _ Hin). cbn [fst snd] in Hyz. split; [rewrite <- Eyz; by apply (elem_of_list_fmap_1 fst) in Hin|].
      destruct (nn_val y.2) as [| |s|] eqn:Ev; try done. apply N.eqb_eq in Hh. split; [done|]. exists s. by rewrite Hh in Hyz.
    - intros y z s Hin Es Ek. rewrite <- Eyz in Hin. apply elem_of_list_fmap in Hin as ([[y' z'] mz] & [= <- <-] & Hin). apply elem_of_list_In in Hin.
      pose proof (find_none _ _ Ef _ Hin) as Hn. unfold has_sub in Hn. cbn [fst snd] in Hn. rewrite Es in Hn. by apply N.eqb_neq in Hn. }
  set (ss := fun x : N => match sel x with Some w => w.2 | None => ∅ end).
  set (Fs' := fun x : N => match sel x with Some _ => Fs x | None => ∅ end).
  assert (HFs : forall x, Fs' x ⊆ Fs x) by (intros x; unfold Fs'; destruct (sel x); clear; set_solver).
  assert (HFd : forall x, Fs' x ⊆ dom h).
  { intros x. unfold Fs'. specialize (Hsel x). destruct (sel x) as [[[y z] mz]|]; [|clear; set_solver]. destruct Hsel as (_ & _ & s & _ & Hn & _). by eapply ntree_in_dom. }
  assert (Hsubs : subs h m ss F0 Fs').
  { split.
    - intros x. unfold ss, Fs'. specialize (Hsel x). destruct (sel x) as [[[y z] mz]|].
      + destruct Hsel as (Hin & <- & s & Es & Hn & He). cbn [snd]. exists s. split; [done|]. destruct (il_sub _ _ _ _ Hi _ _ _ Hin Es) as [B Hz].
        pose proof (s_enum_vals _ _ _ E6 y ltac:(by apply (elem_of_list_fmap_1 fst) in Hin)) as El. rewrite B, norm64 in El.
        destruct (m !! (64, nn_key y.2)) as [[k' v']|] eqn:Em; [|by pose proof (eq_trans (eq_sym Em) El)].
        pose proof (eq_trans (eq_sym Em) El) as [= -> ->]. split; [done|]. destruct z as [|x z]; [done|]. intros E0.
        pose proof (s_enum_vals _ _ _ He x ltac:(by left)) as Hx. rewrite E0 in Hx. done.
      + exists None. split; [apply ntree_in_nil|]. destruct (m !! (64, x)) as [[k' v']|] eqn:Em; [|done]. exfalso. destruct E6 as [_ Hm]. apply Hm in Em as [Hin Hq].
        apply elem_of_list_fmap in Hin as (y & E & Hin). apply elem_of_list_fmap in Hin as ([y' z] & -> & Hin). cbn [fst snd as_entry] in E. unfold as_entry in E. injection E as Ek Eb Ev.
        rewrite norm64 in Hq. injection Hq as Hq. destruct (vsub_dec (nn_val y'.2)) as [Hp|[s Es]].
        * destruct (il_low _ _ _ _ Hi _ _ Hin Hp) as [H _]. lia.
        * apply (Hsel _ _ _ Hin Es). congruence.
    - intros q k v Hq Hne. destruct E6 as [_ Hm]. apply Hm in Hq as [Hin Hq].
      apply elem_of_list_fmap in Hin as (y & E & Hin). apply elem_of_list_fmap in Hin as ([y' z] & -> & Hin). unfold as_entry in E. injection E as Ek Eb Ev. cbn [fst snd] in *.
      subst v. destruct (vsub_dec (nn_val y'.2)) as [Hp|[s Es]]; [done|]. destruct (il_sub _ _ _ _ Hi _ _ _ Hin Es) as [H _]. congruence.
    - intros x q k v Hq. unfold ss in Hq. specialize (Hsel x). destruct (sel x) as [[[y z] mz]|]; [|done]. destruct Hsel as (Hin & _ & s & Es & _ & _ & Hm). cbn [snd] in Hq.
      apply Hm in Hq as [Hin' _]. apply elem_of_list_fmap in Hin' as (x' & E & Hin'). unfold as_entry in E. injection E as _ _ ->. by eapply (il_plain6 _ _ _ _ Hi).
    - intros x. specialize (HFs x). specialize (D3 x). clear -HFs D3. set_solver.
    - intros x y Hxy. pose proof (HFs x). pose proof (HFs y). specialize (D4 x y Hxy). set_solver. }
  exists (fun q : net => if q.1 then six m ss q.2 else vals m4 q.2). 
  exists r4, r6, F4, (dom h ∖ ({[a]} ∪ F4)). split_and!; try done.
  - exists m4. split_and!; [done| |done]. intros q k v Hq. destruct E4 as [_ Hm]. apply Hm in Hq as [Hin _]. apply elem_of_list_fmap in Hin as (x & E & Hin). unfold as_entry in E. injection E as _ _ ->.
    by apply (il_plain4 _ _ _ _ Hi).
  - exists m, ss, F0, Fs'. split_and!; try done.
    + pose proof (tr_in_dom _ _ _ _ _ T6). set_solver.
    + intros x. pose proof (HFd x). pose proof (HFs x). pose proof (D2 x). pose proof (A3 x). set_solver.
    + set_solver.
  - set_solver.
  - set_solver.
Qed.

(** A log with the content given by an enumeration. *)
Lemma enum_log (G : net -> option value) e : enum_of G e -> exists l : ilog value, forall q, G q = ilog_get l q.
Proof.
  intros (ps & Hs & Hg & _). exists (map (fun x : net * value => ILIns x.1 x.2) ps). intros q.
  assert (Hl : forall v, ilog_get (map (fun x : net * value => ILIns x.1 x.2) ps) q = Some v <-> (q, v) ∈ ps).
  { clear Hg. induction Hs as [|[q0 v0] l Hs IH Hf]; intros v; cbn [map ilog_get fst snd].
    - split; [done|]. by intros ?%elem_of_nil.
    - rewrite elem_of_cons. destruct (decide (q0 = q)) as [->|Hn].
      + split; [intros [= ->]; by left|]. intros [[= ->]|Hin]; [done|]. rewrite Forall_forall in Hf. specialize (Hf _ Hin). by apply nlt_irrefl in Hf.
      + rewrite IH. split; [by right|]. intros [[= -> ->]|Hin]; done. }
  destruct (ilog_get _ q) as [v|] eqn:E.
  - apply Hg. by apply Hl.
  - destruct (G q) as [v|] eqn:EG; [|done]. apply Hg, Hl in EG. congruence.
Qed.
End upd.
