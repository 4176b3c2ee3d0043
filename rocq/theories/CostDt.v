(** * Cost of the domaintree operations. *)
From Verif Require Import Prog History RbModel RbSpec RbFun RbFunIns RbSim RbSimOps RbAbs StrSpec StrAbs StrPropProofs.
From Verif Require Import DomModel DomSpec DomCodec DomNames DomPropProofs DlModel DlSpec DlAbs DlPropProofs DtModel DtSpec DtFun DtSim DtSim2 DtSim3 DtSim4 DtAbs DtPropProofs.
From Verif Require Import Handle DtOwnSpec DtOwn DtOwnAbs CostSpec Cost CostRb CostProps.
Open Scope nat_scope.

Section labels.
Context {U S : Type}.
Lemma cost_bind_impl {A B} (m : prog U A) (k k' : A -> prog U B) : (forall x s a, cost (k x) s a -> cost (k' x) s a) -> forall s a, cost (bind m k) s a -> cost (bind m k') s a.
Proof.
  intros H. induction m as [x|e|c j IH|l j IH|l c j IH]; intros s a; simpl; try done; [by apply H|..].
  - intros (H1 & H2 & H3). split_and!; [done|done|]. intros l. by apply IH.
  - intros (H1 & H3). split; [done|]. intros c. by apply IH.
  - intros (H1 & H3). split; [done|]. by apply IH.
Qed.
Lemma cost_get_labels_loop (f : S -> bytes -> prog U (S * bool)) :
  forall ls p fuel st s a, Forall (fun l => 1 <= length l <= 63) ls -> length (wire ls) < fuel ->
  cost (visit f ls st) s a -> cost (get_labels_loop f fuel (p ++ wire ls) (length p) st) s a.
Proof.
  induction ls as [|l ls IH]; intros p fuel st s a Hls Hf Hv.
  - destruct fuel as [|fuel]; [done|]. cbn [get_labels_loop]. unfold wire. cbn [map concat]. rewrite app_nil_r.
    destruct (Nat.ltb_spec (length p) (length p)); [lia|]. done.
  - destruct fuel as [|fuel]; [lia|]. cbn [get_labels_loop]. inversion Hls as [|? ? Hl Hls']; subst.
    assert (Ew : wire (l :: ls) = [len_byte (length l)] ++ l ++ wire ls) by done.
    assert (Hlt : (length p <? length (p ++ wire (l :: ls))) = true).
    { apply Nat.ltb_lt. rewrite Ew, !app_length. simpl. lia. }
    rewrite Hlt. rewrite Ew in Hf |- *. rewrite !app_length in Hf. cbn [length] in Hf.
    rewrite nth_error_app2, Nat.sub_diag by lia. cbn [nth_error Datatypes.app].
    rewrite len_byte_N by lia.
    replace (p ++ len_byte (length l) :: l ++ wire ls) with ((p ++ [len_byte (length l)]) ++ l ++ wire ls) by by rewrite <- app_assoc.
    replace (Datatypes.S (length p)) with (length (p ++ [len_byte (length l)])) by (rewrite app_length; simpl; lia).
    rewrite slice_mid. cbn [visit] in Hv. eapply cost_bind_impl; [|exact Hv]. cbn beta.
    intros [st' b] s' a' Hk. cbn [fst snd] in *. destruct b; [|done].
    rewrite app_assoc, <- app_length. apply IH; [done|lia|done].
Qed.
Lemma cost_visit (f : S -> bytes -> prog U (S * bool)) s a : (forall st l, cost (f st l) s a) -> forall ls st, cost (visit f ls st) (length ls * s) (length ls * a).
Proof.
  intros Hf. induction ls as [|l ls IH]; intros st; cbn [visit length Nat.mul]; [done|].
  eapply cost_step; [apply Hf|lia|lia|]. intros [st' b]. cbn [fst snd]. destruct b; [|done]. eapply cost_mono; [apply IH|lia|lia].
Qed.
Lemma cost_get_labels (f : S -> bytes -> prog U (S * bool)) s a n ls st : nm_c n = wire ls -> Forall good_label ls -> (forall st l, cost (f st l) s a) ->
  cost (get_labels f n st) (length ls * s) (length ls * a).
Proof.
  intros E H Hf. unfold get_labels. rewrite E. apply (cost_get_labels_loop f ls []); [|lia|by apply cost_visit].
  eapply Forall_impl; [exact H|]. by intros l [? _].
Qed.
Lemma approx_get_labels (f f' : S -> bytes -> prog U (S * bool)) n st : (forall st l, approx (f st l) (f' st l)) -> approx (get_labels f n st) (get_labels f' n st).
Proof.
  intros Hf. unfold get_labels. generalize (Datatypes.S (length (nm_c n))) as fu, 0 as off. intros fu off. revert off st.
  induction fu as [|fu IH]; intros off st; cbn [get_labels_loop]; ap_go.
Qed.
End labels.

Section dt.
Context {U : Type}.
Local Notation heap := (heap U).
Local Notation value := (value U).
Local Notation dtree := (dtree value).
Implicit Types h : heap.
Implicit Types t : dtree.

Lemma cost_set_branches n b : cost (set_branches (U := U) n b) 2 0.
Proof. unfold set_branches. c_go. apply cost_st_dom. Qed.
Lemma cost_set_has n b : cost (set_has (U := U) n b) 2 0.
Proof. unfold set_has. c_go. apply cost_st_dom. Qed.
Lemma cost_set_dval n (v : value) : cost (set_dval n v) 2 0.
Proof. unfold set_dval. c_go. apply cost_st_dom. Qed.
Lemma cost_dt_new : cost (dt_new (U := U)) 1 1.
Proof. unfold dt_new. c_go. Qed.
Lemma cost_dt_node b : cost (dt_node (U := U) b) 1 1.
Proof. unfold dt_node. c_go. Qed.
Lemma cost_dl_new : cost (dl_new (U := U)) 1 1.
Proof. unfold dl_new. c_go. Qed.
Lemma cost_as_node v : cost (as_node (U := U) v) 0 0.
Proof. by destruct v. Qed.
Lemma cost_dt_copy n : cost (dt_copy (U := U) n) 2 1.
Proof. unfold dt_copy. destruct n; [c_go|]. eapply cost_mono; [apply cost_dt_new|lia|lia]. Qed.
Lemma cost_dl_is_empty n : cost (dl_is_empty (U := U) n) 1 0.
Proof. unfold dl_is_empty. c_go. Qed.
Lemma cost_arr_set {A} (a : list A) i x : cost (arr_set (U := U) a i x) 0 0.
Proof. unfold arr_set. by destruct (_ && _)%bool. Qed.
Lemma cost_arr_get {A} (a : list A) i : cost (arr_get (U := U) a i) 0 0.
Proof. unfold arr_get. destruct (0 <=? i)%Z; [|done]. by destruct (nth_error _ _). Qed.
Ltac d_go := repeat match goal with
  | |- cost (Ret _) _ _ => exact I
  | |- cost (Fail _) _ _ => exact I
  | |- cost (bind (Ret _) _) _ _ => apply cost_ret; cbn beta iota
  | |- cost (bind (bind _ _) _) _ _ => apply cost_assoc
  | |- cost (bind _ _) _ _ => eapply cost_step; [first [apply cost_ld_dom|apply cost_alloc|apply cost_set_branches|apply cost_set_has|apply cost_set_dval|apply cost_dt_new|apply cost_dt_node|apply cost_dl_new|apply cost_as_node|apply cost_dt_copy|apply cost_dl_is_empty|apply cost_dl_get|apply cost_dl_insert|apply cost_dl_delete|apply cost_dl_inplace|apply cost_arr_set|apply cost_arr_get]|lia..|intros]
  | |- cost (set_branches _ _) _ _ => eapply cost_mono; [apply cost_set_branches|lia..]
  | |- cost (set_dval _ _) _ _ => eapply cost_mono; [apply cost_set_dval|lia..]
  | |- context [if ?b then _ else _] => destruct b
  | |- context [match ?x with _ => _ end] => destruct x
  end.
Variable f : nat.
Lemma cost_insert_step n l : cost (dt_insert_step (U := U) f n l) (f * 49 + 15) (f * 3 + 3).
Proof. unfold dt_insert_step. d_go. Qed.
Lemma cost_inplace_step n l : cost (dt_inplace_step (U := U) f n l) (f * 41 + 13) (f + 3).
Proof. unfold dt_inplace_step. d_go. Qed.
Lemma cost_get_step st l : cost (dt_get_step (U := U) f st l) (f + 3) 0.
Proof. unfold dt_get_step. d_go. Qed.
Lemma cost_branch_step st l : cost (dt_branch_step (U := U) f st l) (f + 2) 0.
Proof. unfold dt_branch_step. d_go. Qed.
Lemma cost_dt_insert p d ls v : nm_c d = wire ls -> Forall good_label ls -> cost (dt_insert (U := U) f p d v) (length ls * (f * 49 + 15) + 6) (length ls * (f * 3 + 3) + 1).
Proof.
  intros E Hg. unfold dt_insert. eapply cost_step; [apply cost_dt_copy|lia|lia|]. intros.
  eapply cost_step; [eapply cost_get_labels; [exact E|exact Hg|apply cost_insert_step]|lia|lia|]. intros. d_go.
Qed.
Lemma cost_dt_inplace p d ls v : nm_c d = wire ls -> Forall good_label ls -> cost (dt_inplace_insert (U := U) f p d v) (length ls * (f * 41 + 13) + 8) (length ls * (f + 3) + 1).
Proof.
  intros E Hg. unfold dt_inplace_insert. eapply cost_step; [apply cost_ld_dom|lia|lia|]. intros nn.
  eapply cost_step with (s1 := 3) (a1 := 1); [destruct (dn_branches nn); d_go|lia|lia|]. intros.
  eapply cost_step; [eapply cost_get_labels; [exact E|exact Hg|apply cost_inplace_step]|lia|lia|]. intros. d_go.
Qed.
Lemma cost_dt_get p d ls : nm_c d = wire ls -> Forall good_label ls -> cost (dt_get (U := U) f p d) (length ls * (f + 3)) 0.
Proof.
  intros E Hg. unfold dt_get. destruct p; [|done].
  eapply cost_step with (a1 := 0); [eapply cost_mono; [eapply cost_get_labels; [exact E|exact Hg|apply cost_get_step]|reflexivity|lia]|lia|lia|]. intros. d_go.
Qed.
Lemma cost_dt_get_branch p d ls labels nodes : nm_c d = wire ls -> Forall good_label ls -> cost (dt_get_branch (U := U) f p d labels nodes) (length ls * (f + 2)) 0.
Proof.
  intros E Hg. unfold dt_get_branch. eapply cost_step; [apply cost_arr_set|lia|lia|]. intros.
  eapply cost_step with (a1 := 0); [eapply cost_mono; [eapply cost_get_labels; [exact E|exact Hg|apply cost_branch_step]|reflexivity|lia]|lia|lia|]. intros [[[[? ?] ?] ?] ?]. done.
Qed.
Lemma cost_copy_branch nodes : forall n labels, cost (dt_copy_branch (U := U) f n labels nodes) (length nodes * (f * 58 + 23)) (length nodes * (f * 3 + 3)).
Proof.
  induction nodes as [|p nodes IH]; intros n [|lb labels]; cbn [dt_copy_branch length Nat.mul]; [done|done|..].
  { eapply cost_step; [apply cost_dt_copy|lia|lia|]. intros. eapply cost_step; [apply cost_ld_dom|lia|lia|]. intros nn.
    eapply cost_step with (s1 := 1) (a1 := 0); [destruct (dn_has nn); [done|apply cost_dl_is_empty]|lia|lia|done]. }
  eapply cost_step; [apply cost_dt_copy|lia|lia|]. intros. eapply cost_step; [apply cost_ld_dom|lia|lia|]. intros nn.
  eapply cost_step with (s1 := 1) (a1 := 0); [destruct (dn_has nn); [done|apply cost_dl_is_empty]|lia|lia|]. intros dead.
  eapply cost_step; [apply cost_ld_dom|lia|lia|]. intros pn. eapply cost_step with (s1 := f * 58 + 18) (a1 := f * 3 + 2); [destruct dead; d_go|lia|lia|]. intros.
  eapply cost_mono; [apply IH|lia|lia].
Qed.
Lemma wf_size N : forall d t p, wf N d t -> wf (length (d_enum d p t)) d t.
Proof.
  assert (Hpos : forall d t p, wf N d t -> dead t = false -> 1 <= length (d_enum d p t)).
  { intros d t p Ht Hd. destruct (alive _ _ _ Ht Hd) as (q & v & E). assert (Hin : (p ++ q, v) ∈ d_enum d p t) by (apply (d_enum_in N); [done|]; by exists q).
    destruct (d_enum d p t); [by apply elem_of_nil in Hin|]. simpl. lia. }
  induction d as [|d IH]; intros t p Ht; [done|]. apply wf_S in Ht as (H1 & H2 & H3). apply wf_S. cbn [d_enum].
  set (own := match d_val t with Some v => [(p, v)] | None => [] end).
  assert (Hcs : forall cs : list (bytes * dtree), Forall (fun x => good x.1 /\ wf N d x.2 /\ dead x.2 = false) cs ->
    length cs <= length (List.concat (map (fun x => d_enum d (p ++ [x.1]) x.2) cs)) /\
    Forall (fun x => length (d_enum d (p ++ [x.1]) x.2) <= length (List.concat (map (fun x => d_enum d (p ++ [x.1]) x.2) cs))) cs).
  { induction 1 as [|[a c] cs (Hg & Hc & Hd) H [IH1 IH2]]; [done|]. cbn [map List.concat length fst snd]. rewrite app_length. specialize (Hpos d c (p ++ [a]) Hc Hd). split; [lia|].
    constructor; [cbn [fst snd]; lia|]. eapply Forall_impl; [exact IH2|]. cbn beta. intros. lia. }
  destruct (Hcs _ H3) as [H4 H5]. rewrite app_length. split_and!; [done|lia|].
  apply Forall_forall. intros [a c] Hin. rewrite Forall_forall in H3, H5. destruct (H3 _ Hin) as (Hg & Hc & Hd). specialize (H5 _ Hin). cbn [fst snd] in *.
  split_and!; [done| |done]. apply (wf_mono (length (d_enum d (p ++ [a]) c))); [lia|by apply IH].
Qed.
Lemma cost_delete_rest N d h p t nm ls : enough f N -> droot (S d) h p t -> wf N (S d) t -> nm_c nm = wire ls -> Forall good_label ls -> length ls <= 127 -> length ls <= 126 \/ d_find t ls = None ->
  costs (dt_delete f p nm) h (length ls * (f * 59 + 25) + 24) (length ls * (f * 3 + 3) + 2).
Proof.
  intros Hf [[-> ->]|Hp] Hwf Hnm Hg Hle Hls; [done|]. assert (Hp2 := Hp). destruct Hp2 as (a0 & nn0 & l0 & -> & _). cbn [dt_delete].
  eapply costs_mono; [eapply (costs_bind _ _ (length ls * (f * 58 + 23) + 24) (length ls * (f * 3 + 3) + 2)); [apply cost_costs; by apply cost_dt_get_branch|eapply get_branch_wp; [exact Hf|exact Hp|exact Hwf|exact Hnm|exact Hg|exact Hls|lia]|]|lia|lia].
  cbn beta. intros [[i labs] nods] h' W' [-> Hr]. apply cost_costs.
  destruct (d_find t ls) as [x|] eqn:Ex.
  2: { destruct Hr as [E1 E2]. cbn [fst snd] in *. rewrite E2, E1. change (Z.of_nat 127 <=? 127)%Z with true. done. }
  destruct Hr as (q & fr & y & LA & As & d' & [= -> -> ->] & H1 & H2 & H3 & H4 & H5 & H6 & H7).
  assert (Elen : length (As ++ q :: map f_ptr fr) = 127). { rewrite app_length. cbn [length]. rewrite map_length. lia. } rewrite Elen.
  destruct (Z.leb_spec (Z.of_nat 127) (Z.of_nat (length As))); [lia|]. rewrite arr_get_mid.
  cbn [bind]. eapply cost_step with (s1 := 1) (a1 := 0); [d_go|lia|lia|]. intros stop. destruct stop; [done|].
  eapply cost_step; [apply cost_ld_dom|lia|lia|]. intros nn. eapply cost_step; [apply cost_dl_is_empty|lia|lia|]. intros em.
  destruct (Z.leb_spec (Z.of_nat 127) (Z.of_nat (length As) + 1)); [d_go|].
  destruct fr as [|[[k pp] tp] fr]; cbn [length] in H6; [lia|].
  eapply cost_step; [apply cost_arr_get|lia|lia|]. intros. eapply cost_step; [apply cost_dt_copy|lia|lia|]. intros.
  eapply cost_step; [apply cost_arr_get|lia|lia|]. intros. eapply cost_step; [apply cost_ld_dom|lia|lia|]. intros.
  eapply cost_step with (s1 := f * 58 + 18) (a1 := f * 3 + 3); [destruct em; d_go|rewrite <- H6; lia|rewrite <- H6; lia|]. intros.
  eapply cost_step; [apply cost_copy_branch|..].
  all: cbn [map]; rewrite ?drop_mid2 by lia; rewrite ?map_length.
  - rewrite <- H6. lia.
  - rewrite <- H6. lia.
  - intros. done.
Qed.
Lemma cost_delete_sub_rest N d h p t nm ls : enough f N -> droot (S d) h p t -> wf N (S d) t -> nm_c nm = wire ls -> Forall good_label ls -> length ls <= 127 -> length ls <= 126 \/ d_find t ls = None ->
  costs (dt_delete_subdomains f p nm) h (length ls * (f * 59 + 25) + 24) (length ls * (f * 3 + 3) + 2).
Proof.
  intros Hf [[-> ->]|Hp] Hwf Hnm Hg Hle Hls; [done|]. assert (Hp2 := Hp). destruct Hp2 as (a0 & nn0 & l0 & -> & _). cbn [dt_delete_subdomains].
  eapply costs_mono; [eapply (costs_bind _ _ (length ls * (f * 58 + 23) + 24) (length ls * (f * 3 + 3) + 2)); [apply cost_costs; by apply cost_dt_get_branch|eapply get_branch_wp; [exact Hf|exact Hp|exact Hwf|exact Hnm|exact Hg|exact Hls|lia]|]|lia|lia].
  cbn beta. intros [[i labs] nods] h' W' [-> Hr]. apply cost_costs.
  destruct (d_find t ls) as [x|] eqn:Ex.
  2: { destruct Hr as [E1 E2]. cbn [fst snd] in *. rewrite E2, E1. change (Z.of_nat 127 <=? 127)%Z with true. done. }
  destruct Hr as (q & fr & y & LA & As & d' & [= -> -> ->] & H1 & H2 & H3 & H4 & H5 & H6 & H7).
  assert (Elen : length (As ++ q :: map f_ptr fr) = 127). { rewrite app_length. cbn [length]. rewrite map_length. lia. } rewrite Elen.
  destruct (Z.leb_spec (Z.of_nat 127) (Z.of_nat (length As))); [lia|]. rewrite arr_get_mid.
  cbn [bind]. eapply cost_step with (s1 := 3) (a1 := 0).
  { eapply cost_step; [apply cost_ld_dom|lia|lia|]. intros nin. destruct (dn_has nin); [done|]. eapply cost_step; [apply cost_ld_dom|lia|lia|]. intros. eapply cost_mono; [apply cost_dl_is_empty|lia|lia]. }
  1-2: lia. intros stop. destruct stop; [done|].
  destruct (Z.leb_spec (Z.of_nat 127) (Z.of_nat (length As) + 1)); [d_go|].
  destruct fr as [|[[k pp] tp] fr]; cbn [length] in H6; [lia|].
  eapply cost_step; [apply cost_arr_get|lia|lia|]. intros. eapply cost_step; [apply cost_dt_copy|lia|lia|]. intros.
  eapply cost_step; [apply cost_ld_dom|lia|lia|]. intros. eapply cost_step; [apply cost_arr_get|lia|lia|]. intros.
  eapply cost_step; [apply cost_dl_delete|rewrite <- H6; lia|rewrite <- H6; lia|]. intros.
  eapply cost_step; [apply cost_set_branches|rewrite <- H6; lia|rewrite <- H6; lia|]. intros.
  eapply cost_step; [apply cost_copy_branch|..].
  all: cbn [map]; rewrite ?drop_mid2 by lia; rewrite ?map_length.
  - rewrite <- H6. lia.
  - rewrite <- H6. lia.
  - intros. done.
Qed.
End dt.

Section ap.
Context {U : Type}.
Local Notation value := (value U).
Variables f f' : nat.
Hypothesis Hf : f <= f'.
Ltac a_go := repeat match goal with
  | |- approx ?m ?m => apply approx_refl
  | |- approx (dl_raw_get _ _ _) _ => by apply approx_dl_get
  | |- approx (dl_raw_insert _ _ _ _) _ => by apply approx_dl_insert
  | |- approx (dl_raw_delete _ _ _) _ => by apply approx_dl_delete
  | |- approx (dl_raw_inplace_insert _ _ _ _) _ => by apply approx_dl_inplace
  | |- approx (get_labels _ _ _) _ => apply approx_get_labels; intros
  | H : forall _, _ |- approx _ _ => by apply H
  | |- approx (bind _ _) (bind _ _) => apply approx_bind; [|intros]
  | |- context [if ?b then _ else _] => destruct b
  | |- context [match ?x with _ => _ end] => destruct x
  end.
Lemma approx_dt_insert p d (v : value) : approx (dt_insert f p d v) (dt_insert f' p d v).
Proof. unfold dt_insert, dt_insert_step. a_go. Qed.
Lemma approx_dt_inplace p d (v : value) : approx (dt_inplace_insert f p d v) (dt_inplace_insert f' p d v).
Proof. unfold dt_inplace_insert, dt_inplace_step. a_go. Qed.
Lemma approx_dt_get p d : approx (dt_get (U := U) f p d) (dt_get f' p d).
Proof. unfold dt_get, dt_get_step. a_go. Qed.
Lemma approx_copy_branch nodes : forall n labels, approx (dt_copy_branch (U := U) f n labels nodes) (dt_copy_branch f' n labels nodes).
Proof. induction nodes as [|p nodes IH]; intros n [|lb labels]; cbn [dt_copy_branch]; a_go. Qed.
Lemma approx_get_branch p d labels nodes : approx (dt_get_branch (U := U) f p d labels nodes) (dt_get_branch f' p d labels nodes).
Proof. unfold dt_get_branch, dt_branch_step. a_go. Qed.
Lemma approx_dt_delete p d : approx (dt_delete (U := U) f p d) (dt_delete f' p d).
Proof. pose proof approx_get_branch. pose proof approx_copy_branch. unfold dt_delete. a_go. Qed.
Lemma approx_dt_delete_sub p d : approx (dt_delete_subdomains (U := U) f p d) (dt_delete_subdomains f' p d).
Proof. pose proof approx_get_branch. pose proof approx_copy_branch. unfold dt_delete_subdomains. a_go. Qed.
Lemma approx_costs2 {A} (m m' : prog U A) : approx m m' -> forall h W Q s a, wp m h W Q -> costs m h s a -> costs m' h s a.
Proof.
  clear. induction 1 as [m|x|e|c k k' H IH|l k k' H IH|l c k k' H IH]; intros h W Q s a Hw Hc; simpl in *; try done.
  - destruct Hc as (? & ? & Hc). split_and!; [done|done|]. intros l Hl. eapply IH; [by apply Hw|by apply Hc].
  - destruct Hc as (? & Hc), Hw as (c & Hl & Hw). split; [done|]. intros c' Hc'. rewrite Hl in Hc'. injection Hc' as <-. eapply IH; [exact Hw|by apply Hc].
  - destruct Hc as (? & Hc), Hw as (_ & _ & Hw). split; [done|]. eapply IH; [exact Hw|apply Hc].
Qed.
End ap.

Section hist.
Context {U : Type}.
Local Notation heap := (heap U).
Local Notation value := (value U).
Implicit Types h : heap.
Lemma bt_history fuel h ops rops : Forall2 tresolves ops rops -> ~ del_panics [] rops -> enough fuel (tnames ops) -> 128 <= fuel ->
  wp (run_hist (dt_exec fuel) ops []) h ∅ (fun r h1 _ => forall ver, bR (tnames ops) h1 (nth ver r.1 None) (@bver value rops ver)).
Proof.
  intros Hops Hs Hf Hf2. eapply wp_mono.
  - by apply (bt_run fuel (tnames ops) h ops rops Hops Hs Hf).
  - cbn beta. intros r h' _ (gs' & Hr & HR). destruct (bspec_run _ _ Hops _ _ _ Hr) as [E1 E2]. rewrite E1 in HR.
    intros ver. exact (bR_nth _ _ _ _ ver HR).
Qed.
Lemma lab k a b c c' : a <= b -> c <= c' -> k * a + c <= k * b + c'.
Proof. intros H1 H2. pose proof (Nat.mul_le_mono_l _ _ k H1). lia. Qed.
Lemma use2 {A} (m m' : prog U A) h W Q s a s' a' : approx m m' -> wp m h W Q -> costs m h s a -> s <= s' -> a <= a' -> within m' h s' a'.
Proof.
  intros H1 H2 H3 Hs Ha. split; [exists W; eapply wp_mono; [eapply approx_wp; [exact H1|exact H2]|done]|].
  eapply costs_mono; [eapply approx_costs2; [exact H1|exact H2|exact H3]|lia|lia].
Qed.
Lemma dt_cost fuel h ops rops : Forall2 tresolves ops rops -> ~ del_panics [] rops -> enough fuel (tnames ops + 1) -> 128 <= fuel ->
  wp (run_hist (dt_exec fuel) ops []) h ∅ (fun r h1 _ => forall ver, let p := nth ver r.1 None in
    wp (dt_enumerate fuel p) h1 ∅ (fun e _ _ => let L := Nat.log2 (length e + 1) in forall d q (v : value), name_is d q -> let k := length q in
      within (dt_get fuel p d) h1 (k * (4 * L + 5)) 0 /\
      within (dt_insert fuel p d v) h1 (k * (196 * L + 113) + 6) (k * (12 * L + 9) + 1) /\
      (~ too_deep (tver rops ver) q -> within (dt_delete fuel p d) h1 (k * (236 * L + 143) + 24) (k * (12 * L + 9) + 2)) /\
      (~ too_deep (tver rops ver) q -> within (dt_delete_subdomains fuel p d) h1 (k * (236 * L + 143) + 24) (k * (12 * L + 9) + 2)) /\
      (p <> None -> ~ blocked (bver rops ver) q -> within (dt_inplace_insert fuel p d v) h1 (k * (164 * L + 259) + 8) (k * (4 * L + 9) + 1)))).
Proof.
  intros Hops Hs Hf Hf2. assert (Hf3 : enough fuel (tnames ops)) by (eapply enough_le; [exact Hf|lia]).
  eapply wp_mono; [by apply bt_history|]. cbn beta. intros r h1 _ H ver p. specialize (H ver). fold p in H. destruct H as (t & Hp & Hl).
  assert (Hd := oroot_droot _ _ _ _ _ Hp). assert (Hwf := proj1 Hl).
  eapply wp_mono; [eapply (dt_enumerate_wp fuel _ 128); [exact Hf3|exact Hf2|exact Hd|exact Hwf]|]. cbn beta. intros e h2 W2 [-> ->] L d q v (Hw & Hv) k. assert (Hv2 := Hv). destruct Hv2 as (P1 & P2 & P3).
  assert (HF : exists F N, F <= fuel /\ F <= 4 * L + 2 /\ enough F N /\ wf N 128 t).
  { destruct (decide (4 * L + 2 <= fuel)) as [Hle|Hgt].
    - exists (4 * L + 2), (length (d_enum 128 [] t)). split; [exact Hle|]. split; [lia|]. split; [unfold L, penum; rewrite map_length; unfold enough; lia|by eapply wf_size].
    - exists fuel, (tnames ops). split; [lia|]. split; [lia|]. by split. }
  assert (HG : exists F N, F <= fuel /\ F <= 4 * L + 6 /\ enough F N /\ wf N 128 t /\ wf (N - 1) 128 t /\ 1 <= N).
  { destruct (decide (4 * L + 6 <= fuel)) as [Hle|Hgt].
    - exists (4 * L + 6), (length (d_enum 128 [] t) + 1). pose proof (wf_size _ _ _ [] Hwf) as Hz. split; [exact Hle|]. split; [lia|]. split; [|split; [eapply wf_mono; [|exact Hz]; lia|split; [eapply wf_mono; [|exact Hz]; lia|lia]]].
      unfold enough. assert (E : L = Nat.log2 (length (d_enum 128 [] t) + 1)) by (unfold L, penum; by rewrite map_length).
      pose proof (Nat.log2_succ_le (length (d_enum 128 [] t) + 1)). rewrite <- E in *. replace (length (d_enum 128 [] t) + 1 + 1) with (S (length (d_enum 128 [] t) + 1)) by lia. lia.
    - exists fuel, (tnames ops + 1). split; [lia|]. split; [lia|]. split; [exact Hf|]. split; [eapply wf_mono; [|exact Hwf]; lia|split; [eapply wf_mono; [|exact Hwf]; lia|lia]]. }
  clearbody L. destruct HF as (F & N & F1 & F2 & F3 & F4), HG as (G & M & G1 & G2 & G3 & G4 & G5 & G6). split_and!.
  - eapply use; [apply (approx_dt_get F fuel F1)|eapply (dt_get_wp F N 128); [exact F3|exact Hd|exact F4|exact Hw|exact P3]|apply (cost_dt_get F p d q Hw P3)|apply Nat.mul_le_mono_l; lia|lia].
  - eapply use; [apply (approx_dt_insert F fuel F1)|eapply (dt_insert_wp F N 127); [exact F3|exact Hd|exact F4|exact Hw|exact P3|lia]|apply (cost_dt_insert F p d q v Hw P3)|apply lab; lia|apply lab; lia].
  - intros Hk. rewrite bver_plain in Hk. assert (Hk' := dlike_shallow _ _ _ _ Hl Hv Hk). eapply use2; [apply (approx_dt_delete F fuel F1)|eapply (dt_delete_wp F N 127); [exact F3|exact Hd|exact F4|exact Hw|exact P3|exact Hk'|lia]|eapply (cost_delete_rest F N 127); [exact F3|exact Hd|exact F4|exact Hw|exact P3|exact P1|exact Hk']|apply lab; lia|apply lab; lia].
  - intros Hk. rewrite bver_plain in Hk. assert (Hk' := dlike_shallow _ _ _ _ Hl Hv Hk). eapply use2; [apply (approx_dt_delete_sub F fuel F1)|eapply (dt_delete_sub_wp F N 127); [exact F3|exact Hd|exact F4|exact Hw|exact P3|exact Hk'|lia]|eapply (cost_delete_sub_rest F N 127); [exact F3|exact Hd|exact F4|exact Hw|exact P3|exact P1|exact Hk']|apply lab; lia|apply lab; lia].
  - intros Hp0 Hb. eapply use; [apply (approx_dt_inplace G fuel G1)| |apply (cost_dt_inplace G p d q v Hw P3)|apply lab; lia|apply lab; lia].
    eapply (bt_inplace_ok G M (M - 1)); [exact G3|lia| |exact Hp0|split; [exact Hw|exact Hv]|exact Hb].
    exists t. split; [exact Hp|]. destruct Hl as (_ & L1 & L2). split; [exact G5|by split].
Qed.
End hist.
