(** * domaintree on memory: Enumerate. *)
From Verif Require Import Prog History RbModel RbSpec RbFun RbFunIns RbFunDel RbSim RbSimIns RbSimOps RbSimDel2 RbAbs StrSpec StrAbs StrPropProofs.
From Verif Require Import DomModel DomSpec DomCodec DomNames DomPropProofs DlModel DlSpec DlAbs DlPropProofs DtModel DtSpec DtFun DtSim DtSim2.

Local Notation cmp := dl_compare.

(** ** The text of a path. *)
Definition hl (a : bytes) : bytes := default [] (make_human_label a).
Definition pstep (s a : bytes) : bytes := match s with [] => hl a | _ => hl a ++ dot :: s end.
Definition ptext (p : path) : bytes := fold_left pstep p [].
Lemma ptext_snoc p a : ptext (p ++ [a]) = pstep (ptext p) a.
Proof. unfold ptext. by rewrite fold_left_app. Qed.
Lemma hl_human a : length a <= 63 -> make_human_label a = Some (hl a) /\ hl a = concat (map human a).
Proof.
  intros Hl. unfold hl. destruct (pf_roundtrip a Hl) as (h & E & _). rewrite E. cbn [default]. split; [done|].
  pose proof (human_loop_spec a [] ltac:(simpl; lia)) as S. unfold make_human_label in E. rewrite E in S.
  destruct S as (p & r & -> & -> & A & B). destruct r as [|c r]; [by rewrite app_nil_r|].
  exfalso. cbn [Datatypes.app] in B. rewrite human_length in B. pose proof (human_sum_bounds p). pose proof (human_size_bounds c).
  rewrite app_length in Hl. simpl in Hl. lia.
Qed.
Lemma map_upper_id a : Forall (fun c => upper c = c) a -> map upper a = a.
Proof. intros H. induction H; simpl; congruence. Qed.
Lemma hl_text a : good a -> exists l, label_text (hl a) l /\ map upper l = a /\ l <> [].
Proof.
  intros [Hl Hu]. destruct (hl_human a ltac:(lia)) as [_ ->]. destruct (human_text a) as (l & H1 & H2).
  rewrite (map_upper_id a) in H2 by done. exists l. split_and!; [done|done|]. intros ->. simpl in H2. subst a. simpl in Hl. lia.
Qed.
Lemma ptext_denotes p : Forall good p -> exists ls, toks (ptext p) (dotted ls) /\ Forall (fun l => l <> []) ls /\ canon ls = p.
Proof.
  induction p as [|a p IH] using rev_ind; intros Hp.
  - exists []. split_and!; [constructor|constructor|done].
  - apply Forall_app in Hp as [Hp Ha]. inversion Ha as [|? ? Ha' _]; subst. destruct (IH Hp) as (ls & H1 & H2 & H3).
    destruct (hl_text a Ha') as (l & L1 & L2 & L3). exists (l :: ls). split_and!; [|by constructor|].
    + rewrite ptext_snoc. unfold pstep. destruct ls as [|l' ls].
      * apply toks_nil_inv in H1. rewrite H1. done.
      * destruct (ptext p) as [|c s] eqn:E.
        { exfalso. destruct (dotted_nonempty (l' :: ls) H2 ltac:(done)) as (b & ts & Ed). rewrite Ed in H1. inversion H1 as [|w t s ts' Hw Hts Es]; subst.
          apply spells_nonempty in Hw. by destruct w. }
        cbn [dotted]. apply toks_app; [done|]. by apply toks_dot.
    + unfold canon in *. cbn [map rev]. by rewrite H3, L2.
Qed.
Lemma canon_length ls : length (canon ls) = length ls.
Proof. unfold canon. by rewrite rev_length, map_length. Qed.
Lemma canon_size ls : name_size (canon ls) = name_size ls.
Proof. unfold canon. rewrite name_size_rev. unfold name_size. rewrite map_map. f_equal. apply map_ext. intros l. by rewrite map_length. Qed.
Lemma ptext_name p : valid_path p -> exists d, make_name (ptext p) = DOk d /\ nm_c d = wire p.
Proof.
  intros (H1 & H2 & H3). destruct (ptext_denotes p H3) as (ls & A & B & C).
  assert (Hd : denotes (ptext p) ls) by (split; [done|by left]).
  exists (Name (ptext p) (wire p)). split; [|done]. apply outcome_make_name. exists ls.
  assert (Hlen : length ls = length p) by by rewrite <- C, canon_length.
  assert (Hs : name_size ls = name_size p) by by rewrite <- C, canon_size.
  split; [done|]. split; [|cbn [nm_c nm_h]; by rewrite C].
  split; [lia|]. split; [|lia]. subst p. clear -H3. unfold canon in H3. rewrite Forall_rev_iff in H3. rewrite Forall_map in H3.
  eapply Forall_impl; [exact H3|]. cbn beta. intros l [Hl _]. rewrite map_length in Hl. lia.
Qed.

Section sim.
Context {U : Type}.
Local Notation heap := (heap U).
Local Notation value := (value U).
Local Notation dtree := (dtree value).
Implicit Types h : heap.
Implicit Types t : dtree.
Variable fuel : nat.

Definition penum (l : list (path * value)) : list (bytes * value) := map (fun x => (ptext x.1, x.2)) l.
Lemma print_all_hl (l : list (bytes * value)) : Forall (fun x : bytes * value => length x.1 <= 63) l -> print_all l = Some (map (fun x => (hl x.1, x.2)) l).
Proof.
  intros H. induction H as [|[k v] l Hk H IH]; [done|]. cbn [print_all map]. rewrite IH. unfold print1. cbn [fst snd] in *.
  destruct (hl_human k Hk) as [-> _]. done.
Qed.
Lemma enum_loop_wp (rec : bytes -> ptr -> prog U (list (bytes * value))) d h pp :
  forall l (cs : list (bytes * dtree)), Forall2 (crel d h) l cs ->
  (forall a c q, (a, c) ∈ cs -> drep d h q c -> wp (rec (ptext (pp ++ [a])) q) h ∅ (fun r h' _ => h' = h /\ r = penum (d_enum d (pp ++ [a]) c))) ->
  wp (dt_enumerate_loop rec (ptext pp) (map (fun x => (hl x.1, x.2)) l)) h ∅
    (fun r h' _ => h' = h /\ r = penum (List.concat (map (fun x => d_enum d (pp ++ [x.1]) x.2) cs))).
Proof.
  intros l cs Hc. induction Hc as [|[k v] [a c] l cs (Hk & q & Hv & Hq) Hc IH]; intros Hrec; [done|].
  cbn [fst snd] in *. subst k v. cbn [map dt_enumerate_loop fst snd as_node bind].
  assert (Es : match ptext pp with [] => hl a | _ => hl a ++ dot :: ptext pp end = ptext (pp ++ [a])) by by rewrite ptext_snoc.
  apply wp_bind. eapply wp_mono.
  { match goal with |- wp (rec ?s _) _ _ _ => replace s with (ptext (pp ++ [a])) end. eapply (Hrec a c q); [by left|done]. }
  cbn beta. intros r1 h' W' [-> ->]. apply wp_bind. eapply wp_mono; [eapply wp_weaken_W; [apply IH; intros; apply Hrec; [by right|done]|apply empty_subseteq]|].
  cbn beta. intros r2 h' W'' (_ & [-> ->] & _). cbn [wp]. split; [done|]. unfold penum. cbn [map List.concat fst snd]. by rewrite map_app.
Qed.
Lemma node_enumerate_wp N : enough fuel N -> forall depth d h p t pp, d <= depth -> drep d h p t -> wf N d t ->
  wp (dt_node_enumerate fuel depth (ptext pp) p) h ∅ (fun r h' _ => h' = h /\ r = penum (d_enum d pp t)).
Proof.
  intros Hf. induction depth as [|depth IH]; intros d h p t pp Hd Hp Hwf.
  { by assert (d = 0) as -> by lia. }
  destruct d as [|d]; [done|]. destruct Hp as (a & nn & l & -> & Ha & Hv & Hl & Hc). fold (crel d h) in Hc.
  pose proof (wf_len N _ t h l Hwf Hc) as HN. cbn [dt_node_enumerate]. apply wp_bind. eapply wp_ld_dom; [exact Ha|].
  pose proof (dl_enumerate_text_at fuel h _ l Hl (enough_get fuel _ _ Hf HN)) as He. destruct Hwf as (_ & _ & Hcs).
  rewrite print_all_hl in He.
  2: { clear -Hc Hcs. induction Hc as [|x y l cs [E _] Hc IH]; [constructor|]. inversion Hcs as [|? ? (Hy & _) Hcs']; subst. constructor; [|by apply IH].
       destruct x as [xk xv], y as [yk yc]. cbn [fst snd] in *. subst xk. destruct Hy as [Hy _]. lia. }
  apply wp_bind. eapply wp_mono; [exact He|]. cbn beta. intros x h' W' [-> ->]. apply wp_bind.
  eapply wp_mono; [eapply wp_weaken_W; [eapply (enum_loop_wp _ d h pp l (d_cs t) Hc)|apply empty_subseteq]|].
  - intros k c q Hin Hq. apply IH; [lia|done|]. rewrite Forall_forall in Hcs. by apply Hcs in Hin as (_ & ? & _).
  - cbn beta. intros r h' W'' (_ & [-> ->] & _). cbn [wp]. split; [done|]. cbn [d_enum]. unfold penum. rewrite map_app. f_equal.
    unfold dval in Hv. rewrite <- Hv. by destruct (dn_has nn).
Qed.
Lemma dt_enumerate_wp N d h p t : enough fuel N -> d <= fuel -> droot d h p t -> wf N d t ->
  wp (dt_enumerate fuel p) h ∅ (fun r h' _ => h' = h /\ r = penum (d_enum d [] t)).
Proof.
  intros Hf Hd [[-> ->]|Hp] Hwf; unfold dt_enumerate.
  - assert (dt_node_enumerate (U := U) fuel fuel [] None = Ret []) as -> by by destruct fuel. cbn [wp]. split; [done|]. by destruct d.
  - by apply (node_enumerate_wp N Hf fuel d h p t []).
Qed.
End sim.
