(** * The memory model of deletion implements the functional version: the loop
    and the whole operation. *)
From Verif Require Import Prog RbModel RbSpec RbFun RbFunIns RbFunDel RbSim RbSimFix RbSimIns RbSimDel.

Section del.
Context {U : Type}.
Local Notation heap := (heap U).
Local Notation tree := (tree U).
Local Notation frame := (frame U).
Local Notation value := (value U).
Implicit Types h : heap.

Section fr.
Variable h0 : heap.
Variable fr : loc.
Notation lctx := (list (loc * frame)).
Local Notation mrep := (mrep h0).
Local Notation crep := (crep h0 fr).
Local Notation focq := (focq h0 fr).
Local Notation foc h W ctx a := (focq h W ctx (Some a%positive) a%positive).
Local Notation dst := (dst h0 fr).

Lemma del_fix_wp h W ctx a c l k v r pl pr Fc Fl Fr dir mark :
  foc h W ctx a c l k v r pl pr Fc Fl Fr ->
  wp (del_fix (par fr ctx) (Some (hdloc fr ctx)) (Some a) (hddir ctx) dir) h W
    (del_post h0 fr ctx a (if dir then r else l) (del_step (map snd ctx) c l k v r dir mark) mark dir).
Proof.
  intros Hf. pose proof Hf as [Hc _ Ha0 _ _ _ _ _ Hac _ _ _ Hfz].
  destruct (foc_dir _ _ _ _ _ _ _ _ _ _ _ _ _ _ _ _ dir Hf) as (pn & po & Fn & Fo & Ha & Hn & Ho & Han & Hao & Hno & Hcn & Hco & HW).
  assert (Hplain : del_post h0 fr ctx a (if dir then r else l)
            (RbFun.Fr c k v dir (if dir then l else r) mark :: map snd ctx) mark dir (Some (hdloc fr ctx)) h W).
  { exists ctx, (RbFun.Fr c k v dir (if dir then l else r) mark), pn, ({[a]} ∪ Fo ∪ Fc), Fn. split_and!; try done.
    split; [|done| | |done].
    - exists po, Fo, Fc. cbn [f_dir f_red f_k f_v f_oth]. split_and!; try done.
    - clear -Han Hno Hcn. set_solver.
    - clear -HW. set_solver. }
  unfold del_fix, del_step.
  set (near := if dir then r else l) in *. set (oth := if dir then l else r) in *.
  apply wp_bind. eapply wp_ld_rb; [exact Ha|]. rewrite rchld_near, rchld_far, ndir_red.
  apply wp_bind. eapply rep_isred; [by eapply mrep_rep|].
  destruct (negb c && negb (isred near)) eqn:E1; [|cbn [wp]; exact Hplain].
  apply andb_true_iff in E1 as [E1 _]. destruct c; [done|]. clear E1.
  apply wp_bind. eapply rep_isred; [by eapply mrep_rep|].
  destruct (isred oth) eqn:Eo.
  { destruct oth as [|oc ol sk sv orr]; [done|]. simpl in Eo. subst oc.
    eapply del_other_red; eassumption. }
  match goal with |- wp _ _ _ (del_post _ _ _ _ _ ?st _ _) => 
    replace st with (match map snd ctx with
      | [] => [RbFun.Fr false k v dir oth mark]
      | f1 :: rest =>
        let pd := f_dir f1 in
        match f_oth f1 with
        | E => RbFun.Fr false k v dir oth mark :: map snd ctx
        | T sc sl sk sv sr as s =>
          if negb (isred sl) && negb (isred sr) then
            RbFun.Fr true k v dir oth mark :: RbFun.Fr false (f_k f1) (f_v f1) pd (recolor true s) (f_mark f1) :: rest
          else
            match child pd s with
            | T true _ qk qv _ as q =>
              RbFun.Fr true k v dir oth mark :: RbFun.Fr false (f_k f1) (f_v f1) pd (child pd q) (f_mark f1) ::
              RbFun.Fr true qk qv pd (mk pd false (child (negb pd) q) sk sv (child (negb pd) s)) false :: rest
            | _ =>
              RbFun.Fr true k v dir oth mark :: RbFun.Fr false (f_k f1) (f_v f1) pd (child pd s) (f_mark f1) ::
              RbFun.Fr true sk sv pd (recolor false (child (negb pd) s)) false :: rest
            end
        end
      end) by (destruct oth as [|[] ? ? ? ?]; done) end.
  destruct ctx as [|[a1 f1] ctx].
  { destruct Hc as (Hr & _ & _). apply wp_bind. eapply wp_ld_rb; [exact Hr|]. cbn [wp]. exact Hplain. }
  cbn [map snd hdloc hddir par].
  pose proof Hc as (po1 & Fo1 & Fc1 & Ha1 & Ha10 & Ho1 & Hc1 & H11 & H12 & H13 & ->).
  apply wp_bind. eapply wp_ld_rb; [exact Ha1|]. rewrite rchld_far.
  destruct (f_oth f1) as [|sc sl sk sv sr] eqn:Ef.
  { destruct Ho1 as [-> _]. cbn [wp]. exact Hplain. }
  destruct po1 as [po1|]. 2: { apply (mrep_ptr h0) in Ho1 as [Ho1 _]. by specialize (Ho1 eq_refl). }
  apply wp_bind. eapply (copy_open_wp h0 (f_dir f1)) with (F := Fo1); [exact Hfz|exact Ho1|clear -HW; set_solver|].
  intros s h1 sn sf Fsn Fsf Hs Hs0 Hfz1 Hs1 Hsn Hsf Hsd Nsn Nsf Hsub1 Hsub2 Hag1.
  assert (N : s <> a /\ s <> a1) by (split; congruence). destruct N as [N1 N2].
  pose proof (fresh_notin_c _ _ _ _ _ _ _ Hc1 Hs) as Nc.
  pose proof (fresh_notin_m _ _ _ _ _ _ Hn Hs) as Nn.
  pose proof (fresh_notin_m _ _ _ _ _ _ Ho Hs) as No.
  apply wp_bind. eapply wp_set_rchld_far; [rewrite Hag1 by done; exact Ha1|done|clear -HW; set_solver|].
  set (h2 := <[a1:=_]> h1).
  assert (Ka1 : h2 !! a1 = Some (CRb (ndir (f_dir f1) (f_red f1) (f_k f1) (f_v f1) (Some a) (Some s)))) by apply lookup_insert.
  assert (Ks : h2 !! s = Some (CRb (ndir (f_dir f1) sc sk sv sn sf))) by (unfold h2; by rewrite lookup_insert_ne).
  assert (Hag2 : forall z, z <> a1 -> h2 !! z = h1 !! z) by (intros; by apply lookup_insert_ne).
  assert (Hfz2 : h0 ⊆ h2) by (by apply frozen_insert).
  clearbody h2.
  assert (Nal : a <> a1 /\ a ∉ Fo1 /\ a ∉ Fc1) by (clear -Hac; set_solver). destruct Nal as (N3 & N4 & N5).
  assert (Na1 : a1 ∉ Fn /\ a1 ∉ Fo) by (clear -Hcn Hco; set_solver). destruct Na1 as [N6 N7].
  assert (Na1s : a1 ∉ Fsn /\ a1 ∉ Fsf) by (clear -H11 Hsub1 Hsub2; set_solver). destruct Na1s as [N8 N9].
  assert (Ka : h2 !! a = Some (CRb (ndir dir false k v pn po))) by (rewrite Hag2, Hag1 by congruence; done).
  assert (Kn : mrep h2 pn near Fn).
  { eapply mrep_agree; [exact Hn|]. intros z Hz. rewrite Hag2, Hag1; [done| |]; intros ->; done. }
  assert (Ko : mrep h2 po oth Fo).
  { eapply mrep_agree; [exact Ho|]. intros z Hz. rewrite Hag2, Hag1; [done| |]; intros ->; done. }
  assert (Kc : crep h2 ctx (Some a1) Fc1).
  { eapply crep_agree; [exact Hc1|]. intros z Hz. rewrite Hag2, Hag1; [done| |]; intros ->; done. }
  assert (Ksn : mrep h2 sn (if f_dir f1 then sr else sl) Fsn).
  { eapply mrep_agree; [exact Hsn|]. intros z Hz. apply Hag2. intros ->; done. }
  assert (Ksf : mrep h2 sf (if f_dir f1 then sl else sr) Fsf).
  { eapply mrep_agree; [exact Hsf|]. intros z Hz. apply Hag2. intros ->; done. }
  assert (Hlr : rep h2 (rb_l (ndir (f_dir f1) sc sk sv sn sf)) sl /\ rep h2 (rb_r (ndir (f_dir f1) sc sk sv sn sf)) sr).
  { apply (mrep_rep h0) in Ksn; [|done]. apply (mrep_rep h0) in Ksf; [|done]. by destruct (f_dir f1). }
  destruct Hlr as [Hrl Hrr].
  assert (Hdis : a ∉ Fn /\ a ∉ Fo /\ Fn ## Fo /\ a1 ∉ Fn /\ a1 ∉ Fo /\ s ∉ Fn /\ s ∉ Fo /\
     a ∉ Fc1 /\ a1 ∉ Fc1 /\ s ∉ Fc1 /\ a <> a1 /\ a <> s /\ a1 <> s /\ Fn ## Fc1 /\ Fo ## Fc1).
  { split_and!; try done; clear -Hcn Hco; set_solver. }
  assert (HW2 : {[a; a1; s]} ∪ Fn ∪ Fo ∪ Fc1 ⊆ {[s]} ∪ W) by (clear -HW; set_solver).
  assert (Dx : {[a; a1; s]} ∪ Fn ∪ Fo ∪ Fc1 ## Fsn).
  { clear -N4 N8 Nsn Hcn Hco H13 Hsub1. set_solver. }
  assert (Dy : {[a; a1; s]} ∪ Fn ∪ Fo ∪ Fc1 ## Fsf).
  { clear -N4 N9 Nsf Hcn Hco H13 Hsub2. set_solver. }
  assert (HWxy : Fsn ∪ Fsf ⊆ {[s]} ∪ W) by (clear -HW Hsub1 Hsub2; set_solver).
  apply wp_bind. eapply wp_ld_rb; [exact Ks|].
  apply wp_bind. eapply rep_isred; [exact Hrl|]. apply wp_bind. eapply rep_isred; [exact Hrr|].
  cbv zeta.
  destruct (negb (isred sl) && negb (isred sr)) eqn:Es.
  - replace (recolor true (T sc sl sk sv sr)) with (mk (f_dir f1) true (if f_dir f1 then sr else sl) sk sv (if f_dir f1 then sl else sr)) by (by destruct (f_dir f1)).
    eapply (del_recolor h0 fr h2 ({[s]} ∪ W) ctx a1 f1 a k v pn po near oth Fn Fo dir mark s sk sv Fc1); eassumption.
  - replace (child (negb (f_dir f1)) (T sc sl sk sv sr)) with (if f_dir f1 then sl else sr) by (by destruct (f_dir f1)).
    set (xt := child (f_dir f1) (T sc sl sk sv sr)).
    set (yt := if f_dir f1 then sl else sr).
    assert (Hst : negb (isred xt) && negb (isred yt) = false).
    { unfold xt, yt. destruct (f_dir f1); [|done]. by rewrite andb_comm. }
    pose proof (del_rotate h0 fr h2 ({[s]} ∪ W) ctx a1 f1 a k v pn po near oth Fn Fo dir mark s sk sv Fc1
      Ka Ha0 Kn Ko Ka1 Ha10 Hs0 Hfz2 Kc Hdis HW2 sc sn sf xt yt Fsn Fsf Ks Ksn Ksf Hsd Dx Dy HWxy Hst) as Hrot.
    clearbody xt yt. clear -Hrot. destruct xt as [|[] ? ? ? ?]; exact Hrot.
Qed.

Section loop.
Variable cmp : bytes -> bytes -> Z.
Variable key : bytes.

Lemma del_loop_wp fuel : forall h W ctx q t Fc Ft g,
  dst h W ctx q t Fc Ft -> height t <= fuel ->
  wp (del_loop (Some cmp) fuel key g (par fr ctx) (Some (hdloc fr ctx)) (tvar ctx) (hddir ctx)) h W
    (fun x h' W' => exists ctx' Fc', x = (par fr ctx', Some (hdloc fr ctx'), tvar ctx') /\
       map snd ctx' = del_walk cmp key (map snd ctx) t /\ crep h' ctx' None Fc' /\ Fc' ⊆ W' /\ h0 ⊆ h').
Proof.
  induction fuel as [|fuel IH]; intros h W ctx q t Fc Ft g Hd Hh.
  - destruct t as [|c l k v r]; [|simpl in Hh; lia].
    pose proof Hd as [Hc [-> ->] Hdj HW Hfz].
    destruct (crep_hd _ _ _ _ _ _ Hc) as (kg & vg & pog & Hg & _).
    cbn [del_loop]. apply wp_bind. eapply wp_ld_rb; [exact Hg|]. rewrite rchld_near. cbn [wp].
    exists ctx, Fc. split_and!; try done. clear -HW; set_solver.
  - cbn [del_loop]. pose proof Hd as [Hc Ht Hdj HW Hfz].
    destruct (crep_hd _ _ _ _ _ _ Hc) as (kg & vg & pog & Hg & _).
    apply wp_bind. eapply wp_ld_rb; [exact Hg|]. rewrite rchld_near.
    destruct t as [|c l k v r].
    { destruct Ht as [-> ->]. cbn [wp]. exists ctx, Fc. split_and!; try done. clear -HW; set_solver. }
    destruct q as [q|]. 2: { apply (mrep_ptr h0) in Ht as [Ht _]. by specialize (Ht eq_refl). }
    apply wp_bind. eapply full_copy_wp; [exact Hd|]. intros h1 W1 a pl pr Fl Fr Hf.
    apply wp_bind. eapply foc_set; [exact Hf|done|done|]. clear Hf. intros h2 Hf.
    apply wp_bind. eapply wp_ld_rb; [exact (foc_node _ _ _ _ _ _ _ _ _ _ _ _ _ _ _ _ _ Hf)|].
    cbn [rb_key]. apply wp_bind. cbn [call_cmp wp].
    fold (todir cmp key k).
    apply wp_bind. eapply wp_mono; [eapply (del_fix_wp _ _ _ _ _ _ _ _ _ _ _ _ _ _ (todir cmp key k) (cmp k key =? 0)%Z); exact Hf|].
    intros p' h3 W3 (ctx' & f' & q' & Fc' & Ft' & -> & Hst & Hdir & Hm & Hd' & Htv).
    assert (Htv' : tvar ((a, f') :: ctx') = if (cmp k key =? 0)%Z then Some a else tvar ctx).
    { simpl. rewrite Hm. by destruct (cmp k key =? 0)%Z. }
    rewrite <- Htv'.
    change (Some (hdloc fr ctx')) with (par fr ((a, f') :: ctx')).
    change (Some a) with (Some (hdloc fr ((a, f') :: ctx'))).
    rewrite <- Hdir at 1. change (f_dir f') with (hddir ((a, f') :: ctx')).
    eapply wp_mono; [eapply IH; [exact Hd'|]|].
    + simpl in Hh. destruct (todir cmp key k); lia.
    + intros x h4 W4 (ctx4 & Fc4 & -> & Hw & Hrest). exists ctx4, Fc4. split; [done|]. split; [|done].
      rewrite Hw. cbn [map snd]. rewrite Hst. simpl del_walk. by destruct (todir cmp key k).
Qed.
End loop.

Lemma tvar_marked (ctx : lctx) : match tvar ctx with None => marked (map snd ctx) = false | Some _ => marked (map snd ctx) = true end.
Proof.
  induction ctx as [|[a f] ctx IH]; simpl; [done|]. destruct (f_mark f); [done|]. exact IH.
Qed.

(** Writing the marked node's key and value. *)
Lemma crep_set_marked (k : bytes) (v : value) h ctx : forall q F b, crep h ctx q F -> tvar ctx = Some b ->
  exists d c k0 v0 x y, h !! b = Some (CRb (ndir d c k0 v0 x y)) /\ b ∈ F /\ h0 !! b = None /\
    forall h', h' !! b = Some (CRb (ndir d c k v x y)) -> (forall z, z ∈ F -> z <> b -> h' !! z = h !! z) ->
      exists ctx', crep h' ctx' q F /\ map snd ctx' = set_marked k v (map snd ctx) /\
        hdloc fr ctx' = hdloc fr ctx /\ hddir ctx' = hddir ctx.
Proof.
  induction ctx as [|[a f] ctx IH]; intros q F b; simpl; [done|].
  intros (po & Fo & Fc & Ha & H0 & Ho & Hc & H1 & H2 & H3 & ->).
  destruct (f_mark f) eqn:Em.
  - intros [= <-]. exists (f_dir f), (f_red f), (f_k f), (f_v f), q, po. split_and!; try done; [set_solver|].
    intros h' Hb Hag. exists ((a, RbFun.Fr (f_red f) k v (f_dir f) (f_oth f) true) :: ctx).
    split_and!; try done. exists po, Fo, Fc. cbn [f_dir f_red f_k f_v f_oth]. split_and!; try done.
    + eapply mrep_agree; [exact Ho|]. intros z Hz. apply Hag; [clear -Hz; set_solver|]. intros ->. done.
    + eapply crep_agree; [exact Hc|]. intros z Hz. apply Hag; [clear -Hz; set_solver|]. intros ->. done.
  - intros Hb. destruct (IH _ _ _ Hc Hb) as (d & c & k0 & v0 & x & y & Hb1 & HbF & Hb0 & Hrec).
    exists d, c, k0, v0, x, y. split_and!; try done; [set_solver|].
    intros h' Hb' Hag. destruct (Hrec h' Hb') as (ctx' & Hc' & Hm & Hl & Hd).
    { intros z Hz Hzb. apply Hag; [clear -Hz; set_solver|done]. }
    exists ((a, f) :: ctx'). split_and!; try done; [|simpl; by rewrite Hm].
    exists po, Fo, Fc. split_and!; try done.
    + rewrite Hag; [done|clear; set_solver|]. intros ->. done.
    + eapply mrep_agree; [exact Ho|]. intros z Hz. apply Hag; [clear -Hz; set_solver|]. intros ->. clear -H3 HbF Hz. set_solver.
Qed.

Lemma del_root_wp h W ctx q t F Ft (b : bool) :
  crep h ctx q F -> mrep h q t Ft -> F ## Ft -> F ∪ Ft ⊆ W -> h0 ⊆ h -> (ctx = [] -> t = E) ->
  wp (rn <- ld_rb (Some fr) ;;
      let n := rb_r rn in
      (match n with None => Ret tt | Some _ => set_red n false end) ;;; Ret (n, b)) h W
    (fun x h' W' => exists F', x.2 = b /\ h0 ⊆ h' /\ mrep h' x.1 (recolor false (plug (map snd ctx) t)) F' /\ F' ⊆ W').
Proof.
  intros Hc Ht Hd HW Hfz HE.
  destruct (crep_plug h0 fr h ctx q t F Ft Hc Ht Hd) as (qr & Fr & Hq1 & Hq2 & Hq3 & Hq4 & Hq5 & Hq6 & _ & Hq7).
  apply wp_bind. eapply wp_ld_rb; [exact Hq1|]. cbn [ndir rb_r]. cbv zeta.
  assert (HFW : Fr ⊆ W) by (etrans; [exact Hq6|done]).
  destruct (plug (map snd ctx) t) as [|c' l' k' v' r'] eqn:Ep.
  { destruct Hq4 as [-> ->]. cbn [bind wp]. exists ∅. split_and!; [done|done|done|set_solver]. }
  destruct Hq7 as (b' & -> & HbF).
  { left. intros ->. simpl in Ep. by rewrite HE in Ep. }
  destruct (mrep_open _ _ _ _ _ _ _ _ _ false Hfz Hq4) as (b'' & pl' & pr' & Fl' & Fr' & [= <-] & Hb & Hl' & Hr' & Hlr' & Hal' & Har' & HF).
  destruct HF as [(_ & Hb0 & ->)|(_ & -> & _)]; [|clear -HbF; set_solver].
  apply wp_bind. eapply wp_set_red; [exact Hb|clear -HFW; set_solver|].
  cbn [wp]. exists ({[b']} ∪ Fl' ∪ Fr'). split_and!; [done|by apply frozen_insert| |done].
  cbn [recolor fst]. apply (mrep_node h0 _ b' false _ _ _ _ _ pl' pr'); try done.
  - by rewrite lookup_insert.
  - eapply mrep_agree; [exact Hl'|]. intros x Hx. rewrite lookup_insert_ne; [done|]. intros ->. done.
  - eapply mrep_agree; [exact Hr'|]. intros x Hx. rewrite lookup_insert_ne; [done|]. intros ->. done.
Qed.
End fr.

Lemma other_child d c k v (po : ptr) :
  rchld (ndir (U:=U) d c k v None po) (ptr_eqb (rb_l (ndir (U:=U) d c k v None po)) None) = po.
Proof.
  destruct d; simpl; [|done]. destruct po; [|done]. by rewrite ptr_eqb_ne.
Qed.

Lemma del_wp cmp key fuel h W p t :
  rep h p t -> rbt t -> height t <= fuel ->
  wp (del (Some cmp) fuel p key) h W (fun x h' W' =>
    exists F, x.2 = (f_del cmp key t).2 /\ h ⊆ h' /\ mrep h h' x.1 (f_del cmp key t).1 F /\ F ⊆ W').
Proof.
  intros Hp Hrb Hh. unfold del. apply wp_bind, wp_alloc. intros fr Hfr. apply wp_bind.
  set (h1 := <[fr:=_]> h).
  eapply wp_mono; [eapply (del_loop_wp h fr cmp key fuel h1 _ [] p t {[fr]} ∅); [|done]|].
  { split.
    - split_and!; [by unfold h1; rewrite lookup_insert|done|reflexivity].
    - by apply mrep_shared.
    - set_solver.
    - set_solver.
    - by apply insert_subseteq. }
  clear h1. intros x h2 W2 (ctx & Fc & -> & Hw & Hc & HFW & Hfz). simpl map in Hw. cbn beta iota.
  pose proof (del_walk_end cmp key t Hrb) as Hend. unfold f_del. rewrite <- Hw in *.
  pose proof (tvar_marked ctx) as Hmk. cbn [fst snd]. apply wp_bind.
  destruct (tvar ctx) as [b|] eqn:Et.
  - (* found *)
    destruct ctx as [|[a f] rest]; [done|]. unfold del_end. rewrite Hmk. cbn [map snd]. rewrite ptr_eqb_ne by done.
    pose proof Hc as (po & Fo & Fr & Ha & Ha0 & Ho & Hcr & H1 & H2 & H3 & ->).
    cbn [hdloc par]. simpl in Hend. rewrite Hend in *. destruct Ho as [-> ->].
    apply wp_bind. eapply wp_ld_rb; [exact Ha|]. rewrite ndir_key, ndir_val.
    assert (Hstep : exists ctx2, map snd ctx2 = (if f_mark f then map snd rest else set_marked (f_k f) (f_v f) (map snd rest)) /\
      hdloc fr ctx2 = hdloc fr rest /\ hddir ctx2 = hddir rest /\
      exists d c k0 v0 x y, h2 !! b = Some (CRb (ndir d c k0 v0 x y)) /\ b ∈ W2 /\ h !! b = None /\
      (forall h3, h3 !! b = Some (CRb (ndir d c (f_k f) (f_v f) x y)) -> (forall z, z <> b -> h3 !! z = h2 !! z) ->
         crep h fr h3 ctx2 (Some a) Fr /\ h3 !! a = Some (CRb (ndir (f_dir f) (f_red f) (f_k f) (f_v f) None None)))).
    { simpl in Et. destruct (f_mark f) eqn:Em.
      - injection Et as <-. exists rest. split_and!; try done.
        exists (f_dir f), (f_red f), (f_k f), (f_v f), None, None. split_and!; try done; [set_solver|].
        intros h3 Hb Hag. split; [|done]. eapply crep_agree; [exact Hcr|]. intros z Hz. apply Hag. intros ->. done.
      - destruct (crep_set_marked h fr (f_k f) (f_v f) h2 rest _ _ _ Hcr Et) as (d & c & k0 & v0 & x & y & Hb & HbF & Hb0 & Hrec).
        assert (b <> a) by (intros ->; done).
        assert (exists ctx2, map snd ctx2 = set_marked (f_k f) (f_v f) (map snd rest) /\ hdloc fr ctx2 = hdloc fr rest /\ hddir ctx2 = hddir rest /\
           forall h3, h3 !! b = Some (CRb (ndir d c (f_k f) (f_v f) x y)) -> (forall z, z <> b -> h3 !! z = h2 !! z) -> crep h fr h3 ctx2 (Some a) Fr)
          as (ctx2 & E1 & E2 & E3 & E4).
        { destruct (Hrec (<[b:=CRb (ndir d c (f_k f) (f_v f) x y)]> h2)) as (ctx2 & Hc2 & E1 & E2 & E3).
          - by rewrite lookup_insert.
          - intros. by rewrite lookup_insert_ne.
          - exists ctx2. split_and!; try done. intros h3 Hb3 Hag. eapply crep_agree; [exact Hc2|].
            intros z Hz. destruct (decide (z = b)) as [->|]; [by rewrite lookup_insert|].
            rewrite lookup_insert_ne by done. by apply Hag. }
        exists ctx2. split_and!; try done. exists d, c, k0, v0, x, y. split_and!; try done.
        + clear -HbF HFW. set_solver.
        + intros h3 Hb3 Hag. split; [by apply E4|]. rewrite Hag by done. done. }
    destruct Hstep as (ctx2 & E1 & E2 & E3 & d & c & k0 & v0 & x & y & Hb & HbW & Hb0 & Hrec).
    apply wp_bind. eapply wp_set_key; [exact Hb|done|].
    apply wp_bind. eapply wp_set_val; [by rewrite lookup_insert|done|].
    rewrite insert_insert. set (h3 := <[b:=_]> h2).
    destruct (Hrec h3) as [Hc3 Ha3]. { unfold h3. by rewrite lookup_insert. } { intros. unfold h3. by rewrite lookup_insert_ne. }
    assert (Hfz3 : h ⊆ h3) by (by apply frozen_insert). clearbody h3. clear Hrec.
    destruct (crep_hd _ _ _ _ _ _ Hc3) as (kg & vg & pog & Hg & Hg0 & HgF & Hset).
    rewrite <- E2.
    apply wp_bind. eapply wp_ld_rb; [exact Hg|].
    pose proof (crep_dir _ _ _ _ _ _ _ Hc3 Ha0 H2 Hg) as Hgd. unfold rchld in Hgd at 1. rewrite Hgd.
    apply wp_bind. eapply wp_ld_rb; [exact Ha3|]. rewrite other_child.
    eapply wp_set_rchld; [exact Hg|done|clear -HgF HFW; set_solver|].
    rewrite <- E1.
    eapply wp_mono; [eapply (del_root_wp h fr _ _ ctx2 None E Fr ∅)|].
    + apply Hset; [by rewrite lookup_insert|]. intros. by rewrite lookup_insert_ne.
    + done.
    + set_solver.
    + clear -HFW. set_solver.
    + by apply frozen_insert.
    + done.
    + intros [xr xb] h4 W4 (F' & Hb4 & Hfz4 & Hm4 & HF4). exists F'. done.
  - cbn [wp]. rewrite ptr_eqb_refl. rewrite Hmk.
    assert (del_end (map snd ctx) = plug (map snd ctx) E) as ->.
    { unfold del_end. destruct ctx; [done|]. by rewrite Hmk. }
    eapply wp_mono; [eapply (del_root_wp h fr _ _ ctx None E Fc ∅)|]; try done.
    + clear -HFW; set_solver.
Qed.
End del.
