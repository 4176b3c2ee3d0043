(** * domaintree on memory: Get, the deletions, Enumerate. *)
From Verif Require Import Prog History RbModel RbSpec RbFun RbFunIns RbFunDel RbSim RbSimIns RbSimOps RbSimDel2 RbAbs StrSpec StrAbs StrPropProofs.
From Verif Require Import DomModel DomSpec DomCodec DomNames DomPropProofs DlModel DlSpec DlAbs DlPropProofs DtModel DtSpec DtFun DtSim.

Local Notation cmp := dl_compare.
Lemma fails_bind_mono {U A B} (m : prog U A) (f g : A -> prog U B) e : (forall a h, fails (f a) h e -> fails (g a) h e) ->
  forall h, fails (bind m f) h e -> fails (bind m g) h e.
Proof.
  intros Hfg. induction m as [a|e'|c k IH|l k IH|l c k IH]; intros h; simpl; intros H; try done; eauto.
  - destruct H as (c & ? & ?). eauto.
  - destruct H as (? & ?). eauto.
Qed.
Lemma fails_get_labels_loop {U S} (f : S -> bytes -> prog U (S * bool)) e :
  forall ls p fuel st h, Forall (fun l => 1 <= length l <= 63) ls -> length (wire ls) < fuel ->
  fails (visit f ls st) h e -> fails (get_labels_loop f fuel (p ++ wire ls) (length p) st) h e.
Proof.
  induction ls as [|l ls IH]; intros p fuel st h Hls Hf Hv; [done|].
  destruct fuel as [|fuel]; [lia|]. cbn [get_labels_loop]. inversion Hls as [|? ? Hl Hls']; subst.
  assert (Ew : wire (l :: ls) = [len_byte (length l)] ++ l ++ wire ls) by done.
  assert (Hlt : (length p <? length (p ++ wire (l :: ls))) = true).
  { apply Nat.ltb_lt. rewrite Ew, !app_length. simpl. lia. }
  rewrite Hlt. rewrite Ew in Hf |- *. rewrite !app_length in Hf. cbn [length] in Hf.
  rewrite nth_error_app2, Nat.sub_diag by lia. cbn [nth_error Datatypes.app].
  rewrite len_byte_N by lia.
  replace (p ++ len_byte (length l) :: l ++ wire ls) with ((p ++ [len_byte (length l)]) ++ l ++ wire ls) by by rewrite <- app_assoc.
  replace (Datatypes.S (length p)) with (length (p ++ [len_byte (length l)])) by (rewrite app_length; simpl; lia).
  rewrite slice_mid. cbn [visit] in Hv. eapply fails_bind_mono; [|exact Hv].
  intros [st' b] h' Hk. cbn [fst snd] in *. destruct b; [|done].
  rewrite app_assoc, <- app_length. apply IH; [done|lia|done].
Qed.
Lemma fails_get_labels {U S} (f : S -> bytes -> prog U (S * bool)) n ls st h e : nm_c n = wire ls -> Forall good_label ls ->
  fails (visit f ls st) h e -> fails (get_labels f n st) h e.
Proof.
  intros E H Hv. unfold get_labels. rewrite E. apply (fails_get_labels_loop f e ls []); [|lia|done].
  eapply Forall_impl; [exact H|]. by intros l [? _].
Qed.

Section sim.
Context {U : Type}.
Local Notation heap := (heap U).
Local Notation value := (value U).
Local Notation dtree := (dtree value).
Implicit Types h : heap.
Implicit Types t : dtree.
Variable fuel : nat.

(** ** Get. *)
Fixpoint d_closest t (ls : path) (acc : option value) : option value :=
  match ls with
  | [] => acc
  | a :: ls => match a_get cmp (d_cs t) a with
               | None => acc
               | Some c => d_closest c ls (match d_val c with Some v => Some v | None => acc end)
               end
  end.
Definition ores (o : option value) : value * bool := match o with Some v => (v, true) | None => (VNil, false) end.
Lemma get_loop_wp N : enough fuel N -> forall ls d h p t acc, drep d h p t -> wf N d t ->
  wp (visit (dt_get_step fuel) ls (p, ores acc)) h ∅ (fun r h' _ => h' = h /\ r.1.2 = ores (d_closest t ls acc)).
Proof.
  intros Hf. induction ls as [|a ls IH]; intros d h p t acc Hp Hwf; [done|].
  destruct d as [|d]; [done|]. destruct Hp as (n & nn & l & -> & Hn & Hv & Hl & Hc). fold (crel d h) in Hc.
  cbn [visit d_closest]. apply wp_bind. unfold dt_get_step at 1. cbn [fst]. apply wp_bind. eapply wp_ld_dom; [exact Hn|].
  apply wp_bind. eapply wp_mono; [apply (wp_cow _ _ _ (fun x h' => h' = h /\ x = match a_get cmp l a with Some v => (v, true) | None => (VNil, false) end));
      eapply wp_mono; [eapply dl_get_at; [exact Hl|eapply enough_get; [exact Hf|by eapply wf_len]]|cbn beta; tauto]|].
  cbn beta. intros x h1 W1 ([-> ->] & _). pose proof (F2_get _ (crel_key d h) l (d_cs t) a Hc) as Hg.
  destruct (a_get cmp l a) as [q|], (a_get cmp (d_cs t) a) as [c|] eqn:Ec; try done; cbn [fst snd].
  destruct Hg as (_ & q' & Eq & Hq). simpl in Eq, Hq. subst q. cbn [as_node bind].
  assert (Hwc : wf N d c). { apply ag_in in Ec. destruct Hwf as (_ & _ & H3). rewrite Forall_forall in H3. by apply H3 in Ec as (_ & ? & _). }
  assert (Hq2 := Hq). destruct d as [|d]; [done|]. destruct Hq as (n' & nn' & l' & -> & Hn' & Hv' & _).
  apply wp_bind. eapply wp_ld_dom; [exact Hn'|].
  assert (Hres : wp (visit (dt_get_step fuel) ls (Some n', ores (match d_val c with Some v => Some v | None => acc end))) h ∅
     (fun r h' _ => h' = h /\ r.1.2 = ores (d_closest c ls (match d_val c with Some v => Some v | None => acc end)))) by by eapply IH.
  unfold dval in Hv'. destruct (dn_has nn') eqn:Eh; rewrite <- Hv' in Hres |- *; cbn [wp fst snd];
    (eapply wp_mono; [eapply wp_weaken_W; [exact Hres|apply empty_subseteq]|]); cbn beta; intros r h' W' (_ & ? & _); done.
Qed.
Lemma dt_get_wp N d h p t nm ls : enough fuel N -> droot d h p t -> wf N d t -> nm_c nm = wire ls -> Forall good_label ls ->
  wp (dt_get fuel p nm) h ∅ (fun r h' _ => h' = h /\ r = ores (d_closest t ls None)).
Proof.
  intros Hf [[-> ->]|Hp] Hwf Hnm Hg.
  - cbn [dt_get wp]. split; [done|]. by destruct ls.
  - assert (exists a, p = Some a) as [a ->]. { destruct d; [done|]. destruct Hp as (a & ? & ? & -> & _). eauto. }
    cbn [dt_get]. apply wp_bind. eapply wp_get_labels; [exact Hnm|exact Hg|].
    eapply wp_mono; [apply (get_loop_wp N Hf ls d h (Some a) t None Hp Hwf)|]. cbn beta. intros r h' W' [-> Hr]. cbn [wp]. done.
Qed.
Lemma d_closest_spec N : forall ls d t acc, wf N d t ->
  match d_closest t ls acc with
  | Some v => (exists n, 1 <= n <= length ls /\ d_get t (take n ls) = Some v /\ forall m, n < m <= length ls -> d_get t (take m ls) = None) \/
              (acc = Some v /\ forall m, 1 <= m <= length ls -> d_get t (take m ls) = None)
  | None => acc = None /\ forall m, 1 <= m <= length ls -> d_get t (take m ls) = None
  end.
Proof.
  induction ls as [|a ls IH]; intros d t acc Hwf.
  { simpl. destruct acc; [right|]; (split; [done|]); intros; lia. }
  cbn [d_closest]. destruct (a_get cmp (d_cs t) a) as [c|] eqn:Ec.
  2: { assert (Hn : forall m, 1 <= m <= length (a :: ls) -> d_get t (take m (a :: ls)) = None).
       { intros [|m] ?; [lia|]. cbn [take]. rewrite d_get_cons. unfold child. rewrite Ec. simpl. apply d_get_nil. }
       destruct acc; [right|]; done. }
  destruct d as [|d]; [done|].
  assert (Hwc : wf N d c). { apply ag_in in Ec. destruct Hwf as (_ & _ & H3). rewrite Forall_forall in H3. by apply H3 in Ec as (_ & ? & _). }
  assert (Hg : forall m, d_get t (take (S m) (a :: ls)) = d_get c (take m ls)).
  { intros m. cbn [take]. rewrite d_get_cons. unfold child. by rewrite Ec. }
  assert (H0 : d_get c [] = d_val c) by by destruct c.
  pose proof (IH d c (match d_val c with Some v => Some v | None => acc end) Hwc) as H. cbn [length].
  destruct (d_closest c ls _) as [v|].
  - destruct H as [(n & H1 & H2 & H3)|[E H]].
    + left. exists (S n). split; [lia|]. rewrite Hg. split; [done|]. intros [|m] ?; [lia|]. rewrite Hg. apply H3. lia.
    + destruct (d_val c) as [w|] eqn:Ew.
      * injection E as ->. left. exists 1. split; [lia|]. rewrite Hg. cbn [take]. split; [done|]. intros [|[|m]] ?; [lia..|]. rewrite Hg. apply H. lia.
      * right. split; [done|]. intros [|[|m]] ?; [lia|by rewrite Hg, take_0, H0|]. rewrite Hg. apply H. lia.
  - destruct H as [E H]. destruct (d_val c) as [w|] eqn:Ew; [done|]. split; [done|].
    intros [|[|m]] ?; [lia|by rewrite Hg, take_0, H0|]. rewrite Hg. apply H. lia.
Qed.

(** ** getBranch: the frames from a node up to the root. *)
Notation frame := (bytes * ptr * dtree)%type.
Definition f_lab (f : frame) : bytes := f.1.1.
Definition f_ptr (f : frame) : ptr := f.1.2.
Definition f_tree (f : frame) : dtree := f.2.
Fixpoint frames h (N d : nat) (fr : list frame) (D : nat) : Prop :=
  match fr with
  | [] => d = D
  | f :: fr => drep (S d) h (f_ptr f) (f_tree f) /\ wf N (S d) (f_tree f) /\ frames h N (S d) fr D
  end.
Definition refold (fr : list frame) t : dtree := fold_left (fun m f => put (f_tree f) (f_lab f) m) fr t.
Lemma frames_mono h h' N fr : h ⊆ h' -> forall d D, frames h N d fr D -> frames h' N d fr D.
Proof. intros Hs. induction fr as [|f fr IH]; intros d D; cbn [frames]; [done|]. intros (? & ? & ?). split_and!; [by eapply drep_mono|done|by apply IH]. Qed.

Lemma arr_set_mid {A} (l1 : list A) y l2 x : arr_set (U := U) (l1 ++ y :: l2) (Z.of_nat (length l1)) x = Ret (l1 ++ x :: l2).
Proof.
  unfold arr_set. rewrite app_length. cbn [length]. destruct (Z.leb_spec 0 (Z.of_nat (length l1))); [|lia].
  destruct (Z.ltb_spec (Z.of_nat (length l1)) (Z.of_nat (length l1 + S (length l2)))); [|lia]. cbn [andb].
  rewrite Nat2Z.id. f_equal. rewrite <- (Nat.add_0_r (length l1)). by rewrite insert_app_r.
Qed.
Lemma arr_get_mid {A} (l1 : list A) y l2 : arr_get (U := U) (l1 ++ y :: l2) (Z.of_nat (length l1)) = Ret y.
Proof.
  unfold arr_get. destruct (Z.leb_spec 0 (Z.of_nat (length l1))); [|lia]. rewrite Nat2Z.id, nth_error_app2, Nat.sub_diag by lia. done.
Qed.

Definition branch_post h N D t ls fr0 (A : nat) (r : dt_branch * bool) h' : Prop :=
  h' = h /\
  match d_find t ls with
  | None => r.2 = false /\ exists n i labs nods, r.1 = (n, i, labs, nods) /\ length labs = S A + length fr0 /\ length nods = S A + length fr0
  | Some x => r.2 = true /\ exists q fr y (LA : list bytes) (As : list ptr) d', r.1 = (q, Z.of_nat (A - length ls), LA ++ y :: map f_lab fr, As ++ q :: map f_ptr fr) /\
      length LA = A - length ls /\ length As = A - length ls /\ frames h N d' fr D /\ drep d' h q x /\ wf N d' x /\
      length fr = length fr0 + length ls /\ (forall m, refold fr m = refold fr0 (d_upd t ls m))
  end.
Lemma branch_wp N D h : enough fuel N -> forall ls d p t fr0 (LA : list bytes) (As : list ptr) y,
  drep d h p t -> wf N d t -> frames h N d fr0 D -> length LA = length As -> length ls <= S (length As) ->
  if (S (length As) =? length ls) && (match d_find t ls with Some _ => true | None => false end)
  then fails (visit (dt_branch_step fuel) ls (p, Z.of_nat (length As), LA ++ y :: map f_lab fr0, As ++ p :: map f_ptr fr0)) h EIndex
  else wp (visit (dt_branch_step fuel) ls (p, Z.of_nat (length As), LA ++ y :: map f_lab fr0, As ++ p :: map f_ptr fr0)) h ∅
     (fun r h' _ => branch_post h N D t ls fr0 (length As) r h').
Proof.
  intros Hf. induction ls as [|a ls IH]; intros d p t fr0 LA As y Hp Hwf Hfr HL Hls.
  { cbn [d_find length Nat.eqb andb visit wp]. split; [done|]. cbn [d_find fst snd]. split; [done|].
    exists p, fr0, y, LA, As, d. cbn [length]. rewrite Nat.sub_0_r. split_and!; try done; lia. }
  destruct d as [|d]; [done|]. assert (Hp2 := Hp). destruct Hp as (n & nn & l & -> & Hn & Hv & Hl & Hc). fold (crel d h) in Hc.
  pose proof (F2_get _ (crel_key d h) l (d_cs t) a Hc) as Hg.
  assert (Hget : wp (dl_raw_get fuel (dn_branches nn) a) h ∅ (fun x h' W' => h' = h /\ x = match a_get cmp l a with Some v => (v, true) | None => (VNil, false) end)).
  { eapply dl_get_at; [exact Hl|eapply enough_get; [exact Hf|by eapply wf_len]]. }
  cbn [length] in Hls.
  destruct (a_get cmp (d_cs t) a) as [c|] eqn:Ec.
  2: { (* not found *)
    destruct (a_get cmp l a) as [q|]; [done|]. cbn [d_find]. rewrite Ec, andb_false_r. cbn [visit]. apply wp_bind. unfold dt_branch_step at 1.
    rewrite <- HL, arr_set_mid. cbn [bind]. apply wp_bind. eapply wp_ld_dom; [exact Hn|]. apply wp_bind. eapply wp_mono; [exact Hget|].
    cbn beta. intros x h' W' [-> ->]. cbn [wp fst snd]. split; [done|]. cbn [d_find]. rewrite Ec. split; [done|].
    eexists _, _, _, _. split_and!; [done|..]; rewrite !app_length; cbn [length]; rewrite map_length; lia. }
  destruct (a_get cmp l a) as [q|]; [|done]. destruct Hg as (_ & q' & Eq & Hq). simpl in Eq, Hq. subst q.
  assert (Hwc : wf N d c). { apply ag_in in Ec. destruct Hwf as (_ & _ & H3). rewrite Forall_forall in H3. by apply H3 in Ec as (_ & ? & _). }
  destruct (decide (As = [])) as [->|HA].
  { (* no room: nodes[-1] *)
    cbn [length] in *. assert (ls = []) as -> by (apply nil_length_inv; lia). cbn [d_find length Nat.eqb andb]. rewrite Ec.
    cbn [visit]. apply fails_bind_l. unfold dt_branch_step. change (Z.of_nat 0) with (Z.of_nat (@length bytes [])). rewrite (nil_length_inv LA) by lia.
    rewrite arr_set_mid. cbn [bind]. eapply (fails_bind_r _ _ _ ∅ _ (fun x h' _ => x = nn /\ h' = h)); [by eapply wp_ld_dom|].
    intros x h' _ [-> ->]. eapply fails_bind_r; [exact Hget|]. cbn beta. intros x h' W' [-> ->]. cbn [fst snd as_node bind]. done. }
  destruct (exists_last HA) as (As' & z & ->). assert (HLA : LA <> []) by (intros ->; rewrite app_length in HL; simpl in HL; lia).
  destruct (exists_last HLA) as (LA' & y' & ->). rewrite !app_length in *. cbn [length] in *.
  pose proof (IH d q' c ((a, Some n, t) :: fr0) LA' As' y' Hq Hwc ltac:(by split_and!) ltac:(lia) ltac:(lia)) as IH'.
  assert (Hstep : wp (dt_branch_step fuel (Some n, Z.of_nat (length As' + 1), (LA' ++ [y']) ++ y :: map f_lab fr0, (As' ++ [z]) ++ Some n :: map f_ptr fr0) a) h ∅
    (fun r h' W' => h' = h /\ r = ((q', Z.of_nat (length As'), LA' ++ y' :: map f_lab ((a, Some n, t) :: fr0), As' ++ q' :: map f_ptr ((a, Some n, t) :: fr0)), true))).
  { unfold dt_branch_step. replace (Z.of_nat (length As' + 1)) with (Z.of_nat (length (LA' ++ [y']))) by (rewrite app_length; simpl; lia).
    rewrite arr_set_mid. cbn [bind]. apply wp_bind. eapply wp_ld_dom; [exact Hn|]. apply wp_bind. eapply wp_mono; [exact Hget|].
    cbn beta. intros x h' W' [-> ->]. cbn [fst snd as_node bind].
    replace (Z.of_nat (length (LA' ++ [y'])) - 1)%Z with (Z.of_nat (length As')) by (rewrite app_length; simpl; lia).
    rewrite <- app_assoc. cbn [app]. rewrite arr_set_mid. cbn [bind wp]. split; [done|]. by rewrite <- app_assoc. }
  cbn [d_find visit]. rewrite Ec. replace (S (length As' + 1) =? S (length ls)) with (S (length As') =? length ls) by (cbn [Nat.eqb]; by rewrite Nat.add_1_r).
  destruct ((S (length As') =? length ls) && _) eqn:Econd.
  - eapply fails_bind_r; [exact Hstep|]. cbn beta. intros x h' W' [-> ->]. exact IH'.
  - apply wp_bind. eapply wp_mono; [exact Hstep|]. cbn beta. intros x h' W' [-> ->]. cbn [fst snd].
    eapply wp_mono; [eapply wp_weaken_W; [exact IH'|apply empty_subseteq]|]. cbn beta. intros r h' W'' (_ & [-> Hr] & _).
    split; [done|]. cbn [d_find]. rewrite Ec. destruct (d_find c ls) as [x|].
    + destruct Hr as (Hr & q & fr & y0 & LA0 & As0 & d' & E & H1 & H2 & H3 & H4 & H5 & H6 & H7). split; [done|].
      exists q, fr, y0, LA0, As0, d'. cbn [length] in *.
      replace (length As' + 1 - S (length ls)) with (length As' - length ls) by lia. split_and!; try done; try lia.
      intros m. rewrite H7. cbn [refold fold_left d_upd]. unfold f_tree, f_lab. simpl. unfold child. by rewrite Ec.
    + destruct Hr as (Hr & n0 & i0 & l0 & m0 & E & H1 & H2). split; [done|]. exists n0, i0, l0, m0. cbn [length] in *. split_and!; [done|lia..].
Qed.

(** ** copyBranch. *)
Lemma dead_wp h d p t : drep d h p t -> forall W,
  wp (nn <- ld_dom p ;; if dn_has nn then Ret false else dl_is_empty (dn_branches nn)) h W (fun b h' W' => b = dead t /\ h' = h /\ W ⊆ W').
Proof.
  intros Hp W. destruct d as [|d]; [done|]. destruct Hp as (n & nn & l & -> & Hn & Hv & Hl & Hc).
  apply wp_bind. eapply wp_ld_dom; [exact Hn|]. unfold dval in Hv. destruct t as [w cs]. simpl in *. destruct (dn_has nn).
  - cbn [wp]. subst w. done.
  - subst w. eapply wp_mono; [apply (wp_cow _ _ _ (fun x h' => x = is_nil l /\ h' = h)); apply (dl_is_empty_at h _ l Hl)|].
    cbn beta. intros x h' W' ([-> ->] & _ & ? & _). destruct Hc; done.
Qed.
Lemma copy_wp d h p t W : drep (S d) h p t -> wp (dt_copy p) h W (fun r h' W' => exists a nn l, r = Some a /\ h !! a = None /\
  h' = <[a := CDom nn]> h /\ W' = {[a]} ∪ W /\ dval nn = d_val t /\ dl_at h (dn_branches nn) l /\ Forall2 (crel d h) l (d_cs t)).
Proof.
  intros (b & nn & l & -> & Hb & Hv & Hl & Hc). unfold dt_copy. apply wp_bind. eapply wp_ld_dom; [exact Hb|].
  apply wp_bind, wp_alloc. intros a Ha. cbn [wp]. exists a, nn, l. by split_and!.
Qed.
Lemma copy_branch_wp N D : enough fuel N -> forall fr d h m tm, drep d h m tm -> frames h N d fr D ->
  wp (dt_copy_branch fuel m (map f_lab fr) (map f_ptr fr)) h ∅ (fun r h' _ => drep D h' r (refold fr tm)).
Proof.
  intros Hf. induction fr as [|[[a p] t] fr IH]; intros d h m tm Hm Hfr.
  { cbn in Hfr. by subst d. }
  destruct Hfr as (Hp & Hwf & Hfr). cbn [f_ptr f_tree fst snd] in Hp, Hwf. cbn [map dt_copy_branch f_ptr f_lab fst snd].
  apply wp_bind. eapply wp_mono; [by apply copy_wp|]. cbn beta. intros r h1 W1 (b & nn & l & -> & Hb & -> & -> & Hv & Hl & Hc).
  pose proof (wf_len N _ t h l Hwf Hc) as HN.
  assert (Hs1 : h ⊆ <[b := CDom nn]> h) by by apply insert_subseteq.
  assert (Hdead := dead_wp _ d m tm (drep_mono _ _ Hs1 _ _ _ Hm) ({[b]} ∪ ∅)). apply wp_bind_inv in Hdead.
  apply wp_bind. eapply wp_mono; [exact Hdead|]. cbn beta. intros mn h2 W2 Hd2. apply wp_bind. eapply wp_mono; [exact Hd2|].
  cbn beta. clear mn h2 W2 Hd2. intros dd h2 W2 (-> & -> & HW2).
  apply wp_bind. eapply wp_ld_dom; [by rewrite lookup_insert|].
  apply wp_bind.
  assert (Hput : wp (if dead tm then x <- dl_raw_delete fuel (dn_branches nn) a ;; set_branches (Some b) x.1
            else b0 <- dl_raw_insert fuel (dn_branches nn) a (VDom m) ;; set_branches (Some b) b0) (<[b:=CDom nn]> h) W2
     (fun _ h' W' => h ⊆ h' /\ W2 ⊆ W' /\ drep (S d) h' (Some b) (put t a tm))).
  { unfold put. destruct (dead tm).
    - apply (put_del_wp fuel N d h _ b nn l t a); try done; [by rewrite lookup_insert|clear -HW2; set_solver].
    - apply (put_ins_wp fuel N d h _ b nn l t a); try done; [by rewrite lookup_insert|clear -HW2; set_solver]. }
  eapply wp_mono; [exact Hput|]. cbn beta. intros _ h3 W3 (Hs3 & _ & Hd3).
  eapply wp_mono; [eapply wp_weaken_W; [eapply (IH (S d) h3 (Some b)); [exact Hd3|by eapply frames_mono]|apply empty_subseteq]|].
  cbn beta. intros r h4 W4 (_ & Hr & _). exact Hr.
Qed.

(** ** Delete and DeleteSubdomains. *)
Definition d_deleted t ls : option dtree := match d_find t ls with Some (DT (Some _) cs) => Some (d_upd t ls (DT None cs)) | _ => None end.
Definition d_deleted_sub t ls : option dtree :=
  match d_find t ls with Some x => if (match ls with [] => dead x | _ => false end) then None else Some (d_upd t ls d_nil) | None => None end.
Definition del_post d h p (o : option dtree) t (r : ptr * bool) h' : Prop :=
  match o with
  | Some t' => r.2 = true /\ drep d h' r.1 t'
  | None => r = (p, false) /\ droot d h' p t
  end.
Lemma no_nodes_eq : no_nodes = repeat None 126 ++ [None].
Proof. done. Qed.
Lemma no_labels_eq : no_labels = repeat [] 126 ++ [[]].
Proof. done. Qed.
Lemma get_branch_wp N d h p t nm ls : enough fuel N -> drep d h p t -> wf N d t -> nm_c nm = wire ls -> Forall good_label ls -> length ls <= 126 \/ d_find t ls = None -> length ls <= 127 ->
  wp (dt_get_branch fuel p nm no_labels no_nodes) h ∅ (fun r h' _ => h' = h /\
    match d_find t ls with
    | None => r.1.1 = 127%Z /\ length r.2 = 127
    | Some x => exists q fr y (LA : list bytes) (As : list ptr) d', r = (Z.of_nat (length As), LA ++ y :: map f_lab fr, As ++ q :: map f_ptr fr) /\
        length LA = length As /\ length As + length ls = 126 /\ frames h N d' fr d /\ drep d' h q x /\ wf N d' x /\
        length fr = length ls /\ (forall m, refold fr m = d_upd t ls m)
    end).
Proof.
  intros Hf Hp Hwf Hnm Hg Hls Hls2. unfold dt_get_branch. rewrite no_nodes_eq, no_labels_eq.
  assert (El : @length bytes (repeat [] 126 ++ [[]]) = 127) by done. rewrite El.
  replace (Z.of_nat 127 - 1)%Z with (Z.of_nat (length (repeat (@None loc) 126))) by done. rewrite arr_set_mid. cbn [bind].
  pose proof (branch_wp N d h Hf ls d p t [] (repeat [] 126) (repeat None 126) [] Hp Hwf eq_refl eq_refl) as H.
  rewrite repeat_length in H. specialize (H ltac:(lia)).
  destruct ((127 =? length ls) && _) eqn:Ec.
  { apply andb_true_iff in Ec as [E1%Nat.eqb_eq E2]. destruct Hls as [?|Hn]; [lia|]. by rewrite Hn in E2. }
  apply wp_bind. eapply wp_get_labels; [exact Hnm|exact Hg|]. rewrite repeat_length. cbn [map] in H. eapply wp_mono; [exact H|].
  cbn beta. intros [st b] h' W' [-> Hr]. cbn [fst snd] in *. destruct (d_find t ls) as [x|].
  - destruct Hr as (-> & q & fr & y & LA & As & d' & -> & H1 & H2 & H3 & H4 & H5 & H6 & H7). cbn [wp]. split; [done|].
    exists q, fr, y, LA, As, d'. cbn [length] in *.
    assert (length ls <= 126). { destruct Hls as [?|?]; [done|done]. }
    split_and!; try done; try lia. do 2 f_equal. lia.
  - destruct Hr as (-> & n & i & labs & nods & -> & H1 & H2). cbn [wp fst snd]. cbn [length] in *. split_and!; [done| |lia]. rewrite H1. done.
Qed.
Lemma drop_mid2 {A} (l1 : list A) x y l2 i : i = (Z.of_nat (length l1) + 1)%Z -> drop (Z.to_nat (i + 1)) (l1 ++ x :: y :: l2) = l2.
Proof. intros ->. replace (Z.to_nat _) with (2 + length l1) by lia. by induction l1. Qed.
Lemma arr_get_mid2 {A} (l1 : list A) x y l2 i : i = (Z.of_nat (length l1) + 1)%Z -> arr_get (U := U) (l1 ++ x :: y :: l2) i = Ret y.
Proof. intros ->. unfold arr_get. destruct (Z.leb_spec 0 (Z.of_nat (length l1) + 1)); [|lia]. replace (Z.to_nat _) with (S (length l1)) by lia. clear; by induction l1. Qed.

Lemma dt_delete_wp N d h p t nm ls : enough fuel N -> droot (S d) h p t -> wf N (S d) t -> nm_c nm = wire ls -> Forall good_label ls -> length ls <= 126 \/ d_find t ls = None -> length ls <= 127 ->
  wp (dt_delete fuel p nm) h ∅ (fun r h' _ => h ⊆ h' /\ del_post (S d) h p (d_deleted t ls) t r h').
Proof.
  intros Hf Hp Hwf Hnm Hg Hls Hls2. apply wp_cow0. destruct Hp as [[-> ->]|Hp].
  { cbn [dt_delete wp]. unfold d_deleted. assert (match d_find (@d_nil value) ls with Some (DT (Some _) _) => false | _ => true end = true) as Hx by by destruct ls.
    destruct (d_find d_nil ls) as [[[v|] cs]|]; [done|..]; simpl; (split; [done|by left]). }
  assert (Hp0 := Hp). destruct Hp as (a & nn & l & -> & _). cbn [dt_delete].
  apply wp_bind. eapply wp_mono; [by eapply get_branch_wp|]. cbn beta. intros [[i labs] nods] h' W' [-> Hr]. unfold d_deleted.
  destruct (d_find t ls) as [x|] eqn:Ex.
  2: { destruct Hr as [E1 E2]. cbn [fst snd] in *. rewrite E2, E1. cbn [Z.leb]. change (Z.of_nat 127 <=? 127)%Z with true. cbn [bind wp]. split; [done|by right]. }
  destruct Hr as (q & fr & y & LA & As & d' & [= -> -> ->] & H1 & H2 & H3 & H4 & H5 & H6 & H7).
  assert (Elen : length (As ++ q :: map f_ptr fr) = 127). { rewrite app_length. cbn [length]. rewrite map_length. lia. } rewrite Elen.
  destruct (Z.leb_spec (Z.of_nat 127) (Z.of_nat (length As))); [lia|].
  rewrite arr_get_mid. cbn [bind]. destruct d' as [|d']; [done|]. assert (H4' := H4). destruct H4 as (b & bn & lb & -> & Hb & Hbv & Hbl & Hbc). fold (crel d' h) in Hbc.
  apply bind_assoc, wp_bind. eapply wp_ld_dom; [exact Hb|]. cbn [bind]. destruct x as [w cs]. simpl in Hbv. unfold dval in Hbv.
  destruct (dn_has bn) eqn:Ehas; cbn [negb]; subst w; [|cbn [wp]; split; [done|by right]].
  cbn [bind]. apply wp_bind. eapply wp_ld_dom; [exact Hb|].
  apply wp_bind. eapply wp_mono; [apply (wp_cow _ _ _ (fun x h' => x = is_nil lb /\ h' = h)); apply (dl_is_empty_at h _ lb Hbl)|].
  cbn beta. intros e h1 W1 ([-> ->] & _ & _ & _).
  assert (Ene : is_nil lb = is_nil cs) by (cbn [d_cs] in Hbc; by inversion Hbc). rewrite Ene.
  destruct fr as [|[[k pp] tp] fr].
  { (* the root *)
    cbn [length map] in *. destruct ls as [|]; [|done]. simpl in Ex. injection Ex as ->.
    destruct (Z.leb_spec (Z.of_nat 127) (Z.of_nat (length As) + 1)); [|lia]. cbn in H3. injection H3 as <-. destruct (is_nil cs) eqn:Ecs.
    - unfold dt_new. apply wp_bind, wp_bind, wp_alloc. intros a' Ha'. cbn [wp fst snd del_post d_upd]. split; [done|]. destruct cs; [|done].
      apply drep_new. by rewrite lookup_insert.
    - unfold dt_node. apply wp_bind, wp_bind, wp_alloc. intros a' Ha'. cbn [wp fst snd del_post d_upd]. split; [done|].
      eexists a', _, lb. split_and!; [done|by rewrite lookup_insert|done|..]; cbn [dn_branches d_cs].
      + eapply dl_at_mono; [by apply insert_subseteq|done].
      + eapply crel_mono; [by apply insert_subseteq|done]. }
  cbn [length] in H6. destruct (Z.leb_spec (Z.of_nat 127) (Z.of_nat (length As) + 1)); [lia|].
  cbn [frames] in H3. destruct H3 as (Hpp & Hwp & Hfr). cbn [f_ptr f_tree fst snd] in Hpp, Hwp.
  cbn [map]. rewrite arr_get_mid2 by done. cbn [bind f_ptr f_lab fst snd]. apply wp_bind. eapply wp_mono; [by apply copy_wp|].
  cbn beta. intros r h1 W2 (n & nn' & ln & -> & Hn & -> & -> & Hnv & Hnl & Hnc).
  rewrite arr_get_mid2 by lia. cbn [bind]. apply wp_bind. eapply wp_ld_dom; [by rewrite lookup_insert|].
  pose proof (wf_len N _ tp h ln Hwp Hnc) as HN.
  apply wp_bind.
  assert (Hput : wp (if is_nil cs then x <- dl_raw_delete fuel (dn_branches nn') k ;; set_branches (Some n) x.1
      else m <- dt_node (dn_branches bn) ;; b0 <- dl_raw_insert fuel (dn_branches nn') k (VDom m) ;; set_branches (Some n) b0)
      (<[n:=CDom nn']> h) ({[n]} ∪ W1) (fun _ h' W' => h ⊆ h' /\ drep (S (S d')) h' (Some n) (put tp k (DT None cs)))).
  { unfold put. destruct (is_nil cs) eqn:Ecs.
    - destruct cs; [|done]. cbn [dead]. eapply wp_mono; [apply (put_del_wp fuel N (S d') h _ n nn' ln tp k); try done; [by apply insert_subseteq|by rewrite lookup_insert|clear; set_solver]|cbn beta; tauto].
    - assert (dead (DT None cs) = false) as -> by by destruct cs. unfold dt_node. apply bind_assoc, wp_bind, wp_alloc. intros m Hm. cbn [bind].
      assert (Nmn : m <> n) by (intros ->; by rewrite lookup_insert in Hm).
      assert (Hmh : h !! m = None) by by rewrite lookup_insert_ne in Hm.
      set (hm := <[m := CDom (DomN (dn_branches bn) false VNil)]> h).
      assert (Hsm : h ⊆ hm) by by apply insert_subseteq.
      eapply wp_mono; [apply (put_ins_wp fuel N (S d') hm _ n nn' ln tp k (Some m) (DT None cs)); try done|cbn beta].
      + unfold hm. rewrite insert_commute by done. apply insert_subseteq. by rewrite lookup_insert_ne.
      + rewrite lookup_insert_ne by done. by rewrite lookup_insert.
      + unfold hm. by rewrite lookup_insert_ne.
      + clear; set_solver.
      + by eapply dl_at_mono.
      + by eapply crel_mono.
      + eexists m, _, lb. split_and!; [done|unfold hm; by rewrite lookup_insert|done|..]; cbn [dn_branches d_cs]; [by eapply dl_at_mono|by eapply crel_mono].
      + intros _ h' W9 (Hs' & _ & Hd'). split; [by etrans|done]. }
  eapply wp_mono; [exact Hput|]. cbn beta. intros _ h3 W3 [Hs3 Hd3].
  rewrite !drop_mid2 by lia.
  apply wp_bind. eapply wp_mono; [eapply wp_weaken_W; [eapply (copy_branch_wp N (S d) Hf fr (S (S d')) h3 (Some n)); [exact Hd3|by eapply frames_mono]|apply empty_subseteq]|].
  cbn beta. intros r h4 W4 (_ & Hr & _). cbn [wp fst snd del_post]. split; [done|].
  rewrite <- H7. exact Hr.
Qed.

Lemma dt_delete_sub_wp N d h p t nm ls : enough fuel N -> droot (S d) h p t -> wf N (S d) t -> nm_c nm = wire ls -> Forall good_label ls -> length ls <= 126 \/ d_find t ls = None -> length ls <= 127 ->
  wp (dt_delete_subdomains fuel p nm) h ∅ (fun r h' _ => h ⊆ h' /\ del_post (S d) h p (d_deleted_sub t ls) t r h').
Proof.
  intros Hf Hp Hwf Hnm Hg Hls Hls2. apply wp_cow0. destruct Hp as [[-> ->]|Hp].
  { cbn [dt_delete_subdomains wp]. unfold d_deleted_sub. destruct ls; simpl; (split; [done|by left]). }
  assert (Hp0 := Hp). destruct Hp as (a & nn & l & -> & Ha & Hav & Hal & Hac). fold (crel d h) in Hac. cbn [dt_delete_subdomains].
  apply wp_bind. eapply wp_mono; [by eapply get_branch_wp|]. cbn beta. intros [[i labs] nods] h' W' [-> Hr]. unfold d_deleted_sub.
  destruct (d_find t ls) as [x|] eqn:Ex.
  2: { destruct Hr as [E1 E2]. cbn [fst snd] in *. rewrite E2, E1. change (Z.of_nat 127 <=? 127)%Z with true. cbn [bind wp]. split; [done|by right]. }
  destruct Hr as (q & fr & y & LA & As & d' & [= -> -> ->] & H1 & H2 & H3 & H4 & H5 & H6 & H7).
  assert (Elen : length (As ++ q :: map f_ptr fr) = 127). { rewrite app_length. cbn [length]. rewrite map_length. lia. } rewrite Elen.
  destruct (Z.leb_spec (Z.of_nat 127) (Z.of_nat (length As))); [lia|].
  rewrite arr_get_mid. cbn [bind]. destruct d' as [|d']; [done|]. assert (H4' := H4). destruct H4 as (b & bn & lb & -> & Hb & Hbv & Hbl & Hbc). fold (crel d' h) in Hbc.
  apply wp_bind.
  assert (Hstop : wp (nin <- ld_dom (Some b) ;; if dn_has nin then Ret false else nn <- ld_dom (Some a) ;; dl_is_empty (dn_branches nn)) h W'
     (fun r h' _ => h' = h /\ r = match ls with [] => dead x | _ => false end)).
  { apply wp_bind. eapply wp_ld_dom; [exact Hb|]. unfold dval in Hbv. destruct x as [w cs]. cbn [d_val] in Hbv. destruct (dn_has bn); subst w.
    { cbn [wp]. split; [done|]. by destruct ls. }
    apply wp_bind. eapply wp_ld_dom; [exact Ha|].
    eapply wp_mono; [apply (wp_cow _ _ _ (fun x h' => x = is_nil l /\ h' = h)); apply (dl_is_empty_at h _ l Hal)|].
    cbn beta. intros e h1 W1 ([-> ->] & _ & _ & _). split; [done|]. destruct ls as [|k ls]; simpl in Ex.
    - injection Ex as ->. simpl in Hac. by inversion Hac.
    - destruct (d_cs t); [done|]. by inversion Hac. }
  eapply wp_mono; [exact Hstop|]. cbn beta. intros e h1 W1 [-> ->].
  destruct fr as [|[[k pp] tp] fr].
  { (* the root *)
    cbn [length map] in *. destruct ls as [|]; [|done]. simpl in Ex. injection Ex as ->. cbn in H3. injection H3 as <-.
    destruct (dead x); [cbn [wp]; split; [done|by right]|].
    destruct (Z.leb_spec (Z.of_nat 127) (Z.of_nat (length As) + 1)); [|lia].
    unfold dt_new. apply wp_bind, wp_bind, wp_alloc. intros a' Ha'. cbn [wp fst snd del_post d_upd]. split; [done|].
    apply drep_new. by rewrite lookup_insert. }
  cbn [length] in H6. destruct ls as [|k0 ls]; [done|]. cbn [length] in *. destruct (Z.leb_spec (Z.of_nat 127) (Z.of_nat (length As) + 1)); [lia|].
  cbn [frames] in H3. destruct H3 as (Hpp & Hwp & Hfr). cbn [f_ptr f_tree fst snd] in Hpp, Hwp.
  cbn [map]. rewrite arr_get_mid2 by done. cbn [bind f_ptr f_lab fst snd]. apply wp_bind. eapply wp_mono; [by apply copy_wp|].
  cbn beta. intros r h1 W2 (n & nn' & ln & -> & Hn & -> & -> & Hnv & Hnl & Hnc).
  apply wp_bind. eapply wp_ld_dom; [by rewrite lookup_insert|]. rewrite arr_get_mid2 by lia. cbn [bind].
  pose proof (wf_len N _ tp h ln Hwp Hnc) as HN.
  assert (Hput : wp (x <- dl_raw_delete fuel (dn_branches nn') k ;; set_branches (Some n) x.1)
      (<[n:=CDom nn']> h) ({[n]} ∪ W1) (fun _ h' W' => h ⊆ h' /\ drep (S (S d')) h' (Some n) (put tp k d_nil))).
  { eapply wp_mono; [apply (put_del_wp fuel N (S d') h _ n nn' ln tp k); try done; [by apply insert_subseteq|by rewrite lookup_insert|clear; set_solver]|cbn beta; tauto]. }
  apply wp_bind_inv in Hput. apply wp_bind. eapply wp_mono; [exact Hput|]. cbn beta. intros y0 h2 W3 Hy0. apply wp_bind. eapply wp_mono; [exact Hy0|].
  cbn beta. intros _ h3 W4 [Hs3 Hd3].
  rewrite !drop_mid2 by lia.
  apply wp_bind. eapply wp_mono; [eapply wp_weaken_W; [eapply (copy_branch_wp N (S d) Hf fr (S (S d')) h3 (Some n)); [exact Hd3|by eapply frames_mono]|apply empty_subseteq]|].
  cbn beta. intros r h4 W5 (_ & Hr & _). cbn [wp fst snd del_post]. split; [done|].
  rewrite <- H7. exact Hr.
Qed.

(** ** The panic: a name of 127 labels which the tree has a node for. *)
Lemma get_branch_fails N d h p t nm ls x : enough fuel N -> drep d h p t -> wf N d t -> nm_c nm = wire ls -> Forall good_label ls -> length ls = 127 -> d_find t ls = Some x ->
  fails (dt_get_branch fuel p nm no_labels no_nodes) h EIndex.
Proof.
  intros Hf Hp Hwf Hnm Hg Hls Hx. unfold dt_get_branch. rewrite no_nodes_eq, no_labels_eq.
  assert (El : @length bytes (repeat [] 126 ++ [[]]) = 127) by done. rewrite El.
  replace (Z.of_nat 127 - 1)%Z with (Z.of_nat (length (repeat (@None loc) 126))) by done. rewrite arr_set_mid. cbn [bind].
  pose proof (branch_wp N d h Hf ls d p t [] (repeat [] 126) (repeat None 126) [] Hp Hwf eq_refl eq_refl) as H.
  rewrite repeat_length in H. specialize (H ltac:(lia)). rewrite Hls, Hx in H. cbn [Nat.eqb andb map] in H.
  apply fails_bind_l. rewrite repeat_length. eapply fails_get_labels; [exact Hnm|exact Hg|exact H].
Qed.
Lemma dt_delete_fails N d h p t nm ls x : enough fuel N -> droot (S d) h p t -> wf N (S d) t -> nm_c nm = wire ls -> Forall good_label ls -> length ls = 127 -> d_find t ls = Some x ->
  fails (dt_delete fuel p nm) h EIndex /\ fails (dt_delete_subdomains fuel p nm) h EIndex.
Proof.
  intros Hf Hp Hwf Hnm Hg Hls Hx. destruct Hp as [[-> ->]|Hp]; [by destruct ls|]. assert (Hp2 := Hp). destruct Hp as (a & nn & l & -> & _).
  split; cbn [dt_delete dt_delete_subdomains]; apply fails_bind_l; by eapply get_branch_fails.
Qed.
End sim.
