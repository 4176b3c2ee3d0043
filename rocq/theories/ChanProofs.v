(** * The goroutines of Enumerate send what the sequential models collect. *)
From Verif Require Import Prog RbModel NumModel DomModel DlModel DtModel IpModel UxModel Channel ChanModel.
Open Scope nat_scope.

Section proofs.
Context {U : Type}.
Local Notation heap := (heap U).

Definition reads {A} (m : prog U A) : Prop := forall (h : heap) W Q, wp m h W Q ->
  exists a, (forall k, den h (sdo m k) = den h (k a)) /\ Q a h W.
Definition sends {A} (s : stmt U (msg U)) (m : prog U A) (f : A -> list (msg U)) : Prop := forall (h : heap) W Q, wp m h W Q ->
  exists a, den h s = Some (f a) /\ Q a h W.

Lemma reads_ret {A} (a : A) : reads (Ret a).
Proof. intros h W Q H. exists a. done. Qed.
Lemma reads_fail {A} e : reads (Fail e : prog U A).
Proof. intros h W Q H. done. Qed.
Lemma reads_load {A} p (f : cell U -> prog U A) : (forall c, reads (f c)) -> reads (c <- load p ;; f c).
Proof.
  intros Hf h W Q H. destruct p as [l|]; [|done]. cbn [load bind wp] in H. destruct H as (c & Hc & H).
  destruct (Hf c h W Q H) as (a & Ha & HQ). exists a. split; [|done]. intros k. cbn [load bind sdo den]. rewrite Hc. apply Ha.
Qed.
Lemma reads_rb p : reads (ld_rb p).
Proof. apply reads_load. intros []; first [apply reads_ret|apply reads_fail]. Qed.
Lemma reads_num p : reads (ld_num p).
Proof. apply reads_load. intros []; first [apply reads_ret|apply reads_fail]. Qed.
Lemma reads_dom p : reads (ld_dom p).
Proof. apply reads_load. intros []; first [apply reads_ret|apply reads_fail]. Qed.
Lemma reads_dl p : reads (ld_dl p).
Proof. apply reads_load. intros []; first [apply reads_ret|apply reads_fail]. Qed.
Lemma reads_str p : reads (ld_str p).
Proof. apply reads_load. intros []; first [apply reads_ret|apply reads_fail]. Qed.
Lemma reads_ip p : reads (ld_ip p).
Proof. apply reads_load. intros []; first [apply reads_ret|apply reads_fail]. Qed.
Lemma reads_human k : reads (human k).
Proof. unfold human. destruct (make_human_label k); [apply reads_ret|apply reads_fail]. Qed.
Lemma reads_as_node v : reads (as_node v).
Proof. destruct v; first [apply reads_ret|apply reads_fail]. Qed.

Lemma sends_read {A B} (m : prog U A) (k : A -> prog U B) s f : reads m -> (forall a, sends (s a) (k a) f) -> sends (sdo m s) (a <- m ;; k a) f.
Proof.
  intros Hm Hk h W Q H. apply wp_bind_inv in H. destruct (Hm _ _ _ H) as (a & Ha & H1). destruct (Hk _ _ _ _ H1) as (b & Hb & HQ).
  exists b. rewrite Ha. done.
Qed.
Lemma sends_ret {A} (a : A) s f : (forall h, den h s = Some (f a)) -> sends s (Ret a) f.
Proof. intros Hs h W Q H. exists a. done. Qed.
Lemma sends_fail {A} e s (f : A -> list (msg U)) : sends s (Fail e) f.
Proof. intros h W Q H. done. Qed.

Definition kvs (l : list (bytes * value U)) : list (msg U) := map (fun x => MKv x.1 x.2) l.
Definition nodes (l : list (loc * numnode U)) : list (msg U) := map (fun x => MNode x.1 x.2) l.

Lemma s_node_enumerate_ok fuel n : sends (s_node_enumerate (fun k => Ret k) fuel n) (enumerate fuel n) kvs.
Proof.
  revert n. induction fuel as [|fuel IH]; intros [l|]; cbn [s_node_enumerate enumerate]; try apply sends_fail; try (by apply sends_ret).
  apply sends_read; [apply reads_rb|]. intros nn h W Q H.
  apply wp_bind_inv in H. destruct (IH _ _ _ _ H) as (el & El & H1). apply wp_bind_inv in H1. destruct (IH _ _ _ _ H1) as (er & Er & H2).
  eexists; split; [|exact H2]. cbn [den sdo]. rewrite El, Er. cbn [oapp]. unfold kvs. rewrite map_app. done.
Qed.
Lemma s_node_enumerate_human_ok fuel n : sends (s_node_enumerate human fuel n) (dl_node_enumerate fuel n) kvs.
Proof.
  revert n. induction fuel as [|fuel IH]; intros [l|]; cbn [s_node_enumerate dl_node_enumerate]; try apply sends_fail; try (by apply sends_ret).
  apply sends_read; [apply reads_rb|]. intros nn h W Q H.
  apply wp_bind_inv in H. destruct (IH _ _ _ _ H) as (el & El & H1).
  apply wp_bind_inv in H1. change (wp (human (rb_key nn)) h W (fun k h' W' => wp (r <- dl_node_enumerate fuel (rb_r nn) ;; Ret (el ++ (k, rb_val nn) :: r)) h' W' Q)) in H1.
  destruct (reads_human _ _ _ _ H1) as (k & Ek & H2).
  apply wp_bind_inv in H2. destruct (IH _ _ _ _ H2) as (er & Er & H3).
  eexists; split; [|exact H3]. cbn [den]. rewrite El, Er, Ek. cbn [oapp den]. unfold kvs. rewrite map_app. done.
Qed.
Lemma s_str_ok fuel t : sends (s_str_enumerate fuel t) (str_enumerate fuel t) kvs.
Proof. destruct t; [|by apply sends_ret]. apply sends_read; [apply reads_str|]. intros a. apply s_node_enumerate_ok. Qed.
Lemma s_dl_raw_ok fuel t : sends (s_dl_raw_enumerate fuel t) (dl_raw_enumerate fuel t) kvs.
Proof. destruct t; [|by apply sends_ret]. apply sends_read; [apply reads_dl|]. intros a. apply s_node_enumerate_ok. Qed.
Lemma s_dl_ok fuel t : sends (s_dl_enumerate fuel t) (dl_enumerate fuel t) kvs.
Proof. destruct t; [|by apply sends_ret]. apply sends_read; [apply reads_dl|]. intros a. apply s_node_enumerate_human_ok. Qed.

Lemma s_enumerate_ok c fuel n : sends (s_enumerate_ fuel n) (enumerate_ c fuel n) nodes.
Proof.
  revert n. induction fuel as [|fuel IH]; intros [l|]; cbn [s_enumerate_ enumerate_]; try apply sends_fail.
  apply sends_read; [apply reads_num|]. intros nn h W Q H.
  assert (IH' : forall p, sends (match p with None => SSkip | Some _ => s_enumerate_ fuel p end) (match p with None => Ret [] | Some _ => enumerate_ c fuel p end) nodes).
  { intros [q|]; [apply IH|by apply sends_ret]. }
  apply wp_bind_inv in H. destruct (IH' _ _ _ _ H) as (el & El & H1). apply wp_bind_inv in H1. destruct (IH' _ _ _ _ H1) as (er & Er & H2).
  eexists; split; [|exact H2]. cbn [den]. rewrite El, Er. unfold nodes. rewrite !map_app. destruct (nn_leaf nn); done.
Qed.
Lemma s_n_ok c n : sends (s_n_enumerate c n) (n_enumerate c n) nodes.
Proof. destruct n; [apply s_enumerate_ok|by apply sends_ret]. Qed.

Lemma s_dt_ok fuel depth : forall s n, sends (s_dt_node_enumerate fuel depth s n) (dt_node_enumerate fuel depth s n) kvs.
Proof.
  induction depth as [|depth IH]; intros s [l|]; cbn [s_dt_node_enumerate dt_node_enumerate]; try apply sends_fail; try (by apply sends_ret).
  apply sends_read; [apply reads_dom|]. intros nn h W Q H.
  apply wp_bind_inv in H. destruct (s_dl_ok _ _ _ _ _ H) as (items & Ei & H1). clear H.
  set (body := fun m : msg U => match m with
              | MKv key v =>
                let sub := match s with [] => key | _ => key ++ dot :: s end in
                sdo (as_node v) (fun node => s_dt_node_enumerate fuel depth sub node)
              | _ => SFail
              end).
  assert (Hl : forall items Q, wp (dt_enumerate_loop (dt_node_enumerate fuel depth) s items) h W Q ->
    exists e, oconcat (fun m => den h (body m)) (kvs items) = Some (kvs e) /\ Q e h W).
  { clear -IH. induction items as [|[key v] items IHi]; intros Q H; cbn [dt_enumerate_loop] in H.
    - exists []. done.
    - apply wp_bind_inv in H. destruct (reads_as_node _ _ _ _ H) as (node & En & H1). apply wp_bind_inv in H1. destruct (IH _ _ _ _ _ H1) as (e1 & E1 & H2).
      apply wp_bind_inv in H2. destruct (IHi _ H2) as (e2 & E2 & H3). exists (e1 ++ e2). split; [|done].
      cbn [kvs map oconcat fst snd]. change (map (fun x : bytes * value U => MKv x.1 x.2) items) with (kvs items). rewrite E2. unfold body. cbv zeta. rewrite En, E1. cbn [oapp]. unfold kvs. by rewrite map_app. }
  apply wp_bind_inv in H1. destruct (Hl _ _ H1) as (e & Ee & H2). eexists; split; [|exact H2].
  cbn [den]. rewrite Ei. fold body. rewrite Ee. unfold kvs. rewrite map_app. destruct (dn_has nn); done.
Qed.

Lemma den_seq (h : heap) (a b : stmt U (msg U)) : den h (SSeq a b) = oapp (den h a) (den h b).
Proof. done. Qed.
Lemma oconcat_map {A} (f : msg U -> option (list (msg U))) (g : A -> msg U) (F : A -> list (msg U)) l :
  (forall a, f (g a) = Some (F a)) -> oconcat f (map g l) = Some (concat (map F l)).
Proof. intros Hf. induction l as [|a l IH]; cbn [oconcat map concat]; [done|]. by rewrite Hf, IH. Qed.
Lemma concat_one {A B} (f : A -> B) l : concat (map (fun a => [f a]) l) = map f l.
Proof. induction l as [|a l IH]; cbn; [done|by rewrite IH]. Qed.
Definition nets (l : list (pair_ (U := U))) : list (msg U) := map (fun p => MNet p.1.1 p.1.2 p.2) l.

Lemma range_nodes (h : heap) c p (mk : numnode U -> pair_) e : den h (s_n_enumerate c p) = Some (nodes e) ->
  den h (SRange (s_n_enumerate c p) (fun m => match m with MNode _ n => SSend (net_msg (mk n)) | _ => SFail end)) = Some (nets (map (fun x => mk x.2) e)).
Proof.
  intros E. cbn [den]. rewrite E. unfold nodes. rewrite (oconcat_map _ _ (fun x => [net_msg (mk x.2)])) by done.
  rewrite concat_one. unfold nets. by rewrite map_map.
Qed.
Lemma mapM_sends {A} (h : heap) (f : A -> prog U (list pair_)) (g : A -> msg U) body l : (forall a, sends (body (g a)) (f a) nets) ->
  forall W Q, wp (mapM f l) h W Q -> exists zs, oconcat (fun m => den h (body m)) (map g l) = Some (nets (concat zs)) /\ Q zs h W.
Proof.
  intros Hf. induction l as [|a l IH]; intros W Q H; cbn [mapM] in H.
  - exists []. done.
  - apply wp_bind_inv in H. destruct (Hf _ _ _ _ H) as (e1 & E1 & H1). apply wp_bind_inv in H1. destruct (IH _ _ H1) as (e2 & E2 & H2).
    exists (e1 :: e2). split; [|done]. cbn [map oconcat concat]. rewrite E1, E2. unfold nets. by rewrite map_app.
Qed.
Lemma s_ip_ok t : sends (s_ip_enumerate t) (ip_enumerate t) nets.
Proof.
  destruct t as [l|]; [|by apply sends_ret]. cbn [s_ip_enumerate ip_enumerate]. apply sends_read; [apply reads_ip|]. intros r h W Q H.
  apply wp_bind_inv in H. destruct (s_n_ok _ _ _ _ _ H) as (xs & Ex & H1). clear H.
  apply wp_bind_inv in H1. destruct (s_n_ok _ _ _ _ _ H1) as (ys & Ey & H2). clear H1.
  apply wp_bind_inv in H2.
  pose proof (mapM_sends h (fun y : loc * numnode U => enum6 y.2) (fun x => MNode x.1 x.2) (fun m : msg U =>
            match m with
            | MNode _ n =>
              match nn_val n with
              | VSub s => SRange (s_n_enumerate c64 s) (fun m' => match m' with MNode _ n' => SSend (net_msg (pair6s (msip n) n')) | _ => SFail end)
              | _ => SSend (net_msg (pair6 n))
              end
            | _ => SFail
            end) ys) as Hm.
  destruct (Hm) with (2 := H2) as (zs & Ez & H3).
  { clear. intros [l n] h W Q H. cbn [snd]. unfold enum6 in H. cbn [snd] in H. destruct (nn_val n) as [| |s|]; try (eexists; split; [|exact H]; done).
    apply wp_bind_inv in H. destruct (s_n_ok _ _ _ _ _ H) as (xs & Ex & H1). eexists; split; [|exact H1]. by apply range_nodes. }
  eexists; split; [|exact H3]. rewrite den_seq. rewrite (range_nodes _ _ _ pair4 _ Ex). cbn [den]. rewrite Ey. unfold nodes. rewrite Ez. unfold nets. by rewrite map_app.
Qed.
Lemma s_ux_ok t : sends (s_ux_enumerate t) (ux_enumerate t) nets.
Proof.
  destruct t as [l|]; [|by apply sends_ret]. cbn [s_ux_enumerate ux_enumerate]. apply sends_read; [apply reads_ip|]. intros r h W Q H.
  apply wp_bind_inv in H. destruct (s_n_ok _ _ _ _ _ H) as (xs & Ex & H1). clear H.
  apply wp_bind_inv in H1. destruct (s_n_ok _ _ _ _ _ H1) as (ys & Ey & H2). clear H1.
  apply wp_bind_inv in H2.
  pose proof (mapM_sends h (fun y : loc * numnode U => ux_enum6 y.2) (fun x => MNode x.1 x.2) (fun m : msg U =>
            match m with
            | MNode _ n => SRange (s_n_enumerate c64 (sub_of (nn_val n))) (fun m' => match m' with MNode _ n' => SSend (net_msg (ux_pair6 n n')) | _ => SFail end)
            | _ => SFail
            end) ys) as Hm.
  destruct (Hm) with (2 := H2) as (zs & Ez & H3).
  { clear. intros [l n] h W Q H. cbn [snd]. unfold ux_enum6 in H. cbn [snd] in H.
    apply wp_bind_inv in H. destruct (s_n_ok _ _ _ _ _ H) as (xs & Ex & H1). eexists; split; [|exact H1]. by apply range_nodes. }
  eexists; split; [|exact H3]. rewrite den_seq. rewrite (range_nodes _ _ _ pair4 _ Ex). cbn [den]. rewrite Ey. unfold nodes. rewrite Ez. unfold nets. by rewrite map_app.
Qed.

(** A node that is sent has been read from its address. *)
Lemma n_enumerate_at c fuel : forall n (h : heap) W Q, wp (enumerate_ c fuel n) h W Q ->
  wp (enumerate_ c fuel n) h W (fun e h' W' => h' = h /\ W' = W /\ Q e h W /\ Forall (fun x => h !! x.1 = Some (CNum x.2)) e).
Proof.
  induction fuel as [|fuel IH]; intros [l|] h W Q H; cbn [enumerate_] in *; try done.
  cbn [ld_num load bind wp] in H. destruct H as (cc & Hc & H). cbn [ld_num load bind wp]. exists cc. split; [done|].
  destruct cc as [|nn| | | |]; try (exfalso; exact H).
  cbn [bind] in H |- *.
  assert (IH' : forall p Q, wp (match p with None => Ret [] | Some _ => enumerate_ c fuel p end) h W Q ->
    wp (match p with None => Ret [] | Some _ => enumerate_ c fuel p end) h W (fun e h' W' => h' = h /\ W' = W /\ Q e h W /\ Forall (fun x => h !! x.1 = Some (CNum x.2)) e)).
  { intros [q|] Q' H'; [by apply IH|]. cbn [wp] in *. repeat split; [done|constructor]. }
  apply wp_bind_inv in H. apply IH' in H. apply wp_bind. eapply wp_mono; [exact H|]. cbv beta. intros xs h' W' (-> & -> & H1 & Hx). clear H.
  apply wp_bind_inv in H1. apply IH' in H1. apply wp_bind. eapply wp_mono; [exact H1|]. cbv beta. intros ys h' W' (-> & -> & H2 & Hy).
  cbn [wp] in H2 |- *. repeat split; [done|]. rewrite !Forall_app. split; [|done]. destruct (nn_leaf nn); [|constructor]. constructor; [done|constructor].
Qed.

(** Enumerate after a history. *)
Lemma chan_after {A B} (run : prog U A) (m : A -> prog U B) (s : A -> stmt U (msg U)) f h (P : B -> Prop) :
  (forall a, sends (s a) (m a) f) -> wp (a <- run ;; m a) h ∅ (fun e h' _ => h ⊆ h' /\ P e) ->
  wp run h ∅ (fun r h1 _ => h ⊆ h1 /\ exists e, delivers h1 (s r) (f e) /\ P e).
Proof.
  intros Hs H. apply wp_bind_inv in H. eapply wp_mono; [exact H|]. cbv beta. intros a h1 W1 H1.
  destruct (Hs _ _ _ _ H1) as (e & Ee & Hh & HP). split; [done|]. exists e. split; [by apply chan_delivers|done].
Qed.
End proofs.

(** ** Executing one schedule (for examples): a waiting loop makes its child run. *)
Section exec.
Context {U M : Type} (h : heap U).
Fixpoint gnext (g : gor U M) : option (option M * gor U M) :=
  match g with
  | GRet => Some (None, GEnd)
  | GEnd => None
  | GDo SSkip g => Some (None, g)
  | GDo SFail g => None
  | GDo (SLoad l k) g => match h !! l with Some c => Some (None, GDo (k c) g) | None => None end
  | GDo (SSend m) g => Some (Some m, g)
  | GDo (SSeq a b) g => Some (None, GDo a (GDo b g))
  | GDo (SRange p body) g => Some (None, GLoop (GDo p GRet) body g)
  | GLoop GEnd body g => Some (None, g)
  | GLoop c body g =>
    match gnext c with
    | Some (Some m, c') => Some (None, GDo (body m) (GLoop c' body g))
    | Some (None, c') => Some (None, GLoop c' body g)
    | None => None
    end
  end.
Lemma gnext_sound g : forall o g', gnext g = Some (o, g') -> gstep h g o g'.
Proof.
  induction g as [| |s g IH|c IHc body g IH]; intros o g' E; cbn [gnext] in E.
  - injection E as <- <-. constructor.
  - done.
  - destruct s; try (injection E as <- <-; constructor); try done. destruct (h !! l) eqn:El; [|done]. injection E as <- <-. by constructor.
  - destruct c; [| injection E as <- <-; constructor | |];
      (destruct (gnext _) as [[[m|] c']|] eqn:Ec; [| |done]; injection E as <- <-;
       [apply gs_recv; by apply IHc|apply gs_child, bs_child; by apply IHc]).
Qed.
Fixpoint gdrain (want : list M -> bool) (n : nat) (x : gor U M * list M) : gor U M * list M :=
  match n with
  | O => x
  | S n =>
    match gnext x.1 with
    | Some (None, g) => gdrain want n (g, x.2)
    | Some (Some m, g) => if want x.2 then gdrain want n (g, x.2 ++ [m]) else x
    | None => x
    end
  end.
Lemma gdrain_sound want n x : exists k, nsteps (gustep h want) k x (gdrain want n x).
Proof.
  revert x. induction n as [|n IH]; intros [g out]; cbn [gdrain]; [exists 0; constructor|]. cbn [fst snd].
  destruct (gnext g) as [[[m|] g']|] eqn:E; [| |exists 0; constructor].
  - destruct (want out) eqn:Ew; [|exists 0; constructor]. destruct (IH (g', out ++ [m])) as [k Hk]. exists (S k). econstructor; [|exact Hk].
    exists h. split; [done|]. constructor; [by apply gnext_sound|done].
  - destruct (IH (g', out)) as [k Hk]. exists (S k). econstructor; [|exact Hk]. exists h. split; [done|]. constructor. by apply gnext_sound.
Qed.
End exec.
