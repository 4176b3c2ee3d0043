(** * The text of Dot on any version. *)
From Verif Require Import Prog History RbModel RbSpec RbFun RbFunIns RbSim RbSimOps RbAbs StrSpec StrAbs.
From Verif Require Import DomModel DomSpec DlModel DlSpec DlAbs NumModel NumSpec NumFun NumSim NumAbs.
From Verif Require Import NumPropProofs StrPropProofs DlPropProofs DotModel DotSpec DotProofs DotPropProofs.
From Verif Require Import DotText DotTextSpec DotTextProofs DotTextProps.
Open Scope nat_scope.

(** Dot with any sufficient fuel returns a file that is a graph and draws [d]. *)
Definition dot_prints {U C} (show : option C -> bytes -> list tok -> Prop) (h : heap U) (dot : nat -> prog U bytes) (d : shape C) : Prop :=
  exists m, forall fuel, m <= fuel -> wp (dot fuel) h ∅ (fun s h' _ => h' = h /\ exists ls, graph show s ls /\ drawing ls d).
Section prints.
Context {U : Type}.
Local Notation heap := (heap U).
Variable is_print : N -> bool.
Variable gosyntax : value U -> bytes.
Lemma draws_prints {C} (str : option C -> bytes) show (h : heap) dot d : readable str show -> dot_draws h dot d ->
  dot_prints show h (fun fuel => ls <- dot fuel ;; Ret (dot_text str ls)) d.
Proof.
  intros Hr (m & H). exists m. intros fuel Hf. apply wp_bind. eapply wp_mono; [by apply H|]. cbn beta. intros ls h' W (-> & Hd). cbn [wp].
  split; [done|]. exists ls. split; [by apply text_graph|done].
Qed.
Lemma text_str_gen (str : option (bytes * value U * bool) -> bytes) show fuel (h : heap) (ops : list (sop (value U))) ver : readable str show -> Forall sop_lawful ops -> enough fuel (keys ops) ->
  wp (run_hist (str_exec fuel) ops []) h ∅ (fun r h1 _ => h ⊆ h1 /\ exists e,
    match nth ver r.1 None with
    | None => e = [] /\ exists s, graph show s [] /\ forall fuel, (ls <- str_dot fuel (nth ver r.1 None) ;; Ret (dot_text str ls)) = (Ret s : prog U _)
    | Some l => exists root cmp d, h1 !! l = Some (CStr root cmp) /\ rb_shape h1 root d /\ map fst (inorder d) = e /\
        dot_prints show h1 (fun fuel => (ls <- str_dot fuel (nth ver r.1 None) ;; Ret (dot_text str ls))) d
    end /\
    StronglySorted (fun x y => ver_cmp ops ver x.1 y.1 < 0)%Z e /\
    (forall k v, (k, v) ∈ e -> log_get (ver_cmp ops ver) (ver_log ops ver) k = Some v) /\
    (forall k v, log_get (ver_cmp ops ver) (ver_log ops ver) k = Some v -> exists k', (k', v) ∈ e /\ ver_cmp ops ver k' k = 0%Z)).
Proof.
  intros Hr H1 H2. eapply wp_mono; [by apply (dot_str fuel h ops ver)|]. cbn beta. intros r h1 W (Hs & e & Hm & He). split; [done|]. exists e. split; [|done].
  destruct (nth ver r.1 None) as [l|].
  - destruct Hm as (root & cmp & d & Hl & Hd & Hi & Hp). exists root, cmp, d. split; [done|]. split; [done|]. split; [done|]. apply draws_prints; done.
  - destruct Hm as [-> Hd]. split; [done|]. exists (dot_text str []). split; [by apply text_graph|].
    intros fuel'. rewrite Hd. done.
Qed.
Lemma text_str fuel (h : heap) (ops : list (sop (value U))) ver : Forall sop_lawful ops -> enough fuel (keys ops) ->
  wp (run_hist (str_exec fuel) ops []) h ∅ (fun r h1 _ => h ⊆ h1 /\ exists e,
    match nth ver r.1 None with
    | None => e = [] /\ exists s, graph (rb_shows gosyntax) s [] /\ forall fuel, str_dot_text is_print gosyntax fuel (nth ver r.1 None) = (Ret s : prog U _)
    | Some l => exists root cmp d, h1 !! l = Some (CStr root cmp) /\ rb_shape h1 root d /\ map fst (inorder d) = e /\
        dot_prints (rb_shows gosyntax) h1 (fun fuel => str_dot_text is_print gosyntax fuel (nth ver r.1 None)) d
    end /\
    StronglySorted (fun x y => ver_cmp ops ver x.1 y.1 < 0)%Z e /\
    (forall k v, (k, v) ∈ e -> log_get (ver_cmp ops ver) (ver_log ops ver) k = Some v) /\
    (forall k v, log_get (ver_cmp ops ver) (ver_log ops ver) k = Some v -> exists k', (k', v) ∈ e /\ ver_cmp ops ver k' k = 0%Z)).
Proof. intros H1 H2. exact (text_str_gen _ _ fuel h ops ver (rb_readable is_print gosyntax) H1 H2). Qed.
Lemma text_str_d (uint : value U -> N) fuel (h : heap) (ops : list (sop (value U))) ver : Forall sop_lawful ops -> enough fuel (keys ops) ->
  wp (run_hist (str_exec fuel) ops []) h ∅ (fun r h1 _ => h ⊆ h1 /\ exists e,
    match nth ver r.1 None with
    | None => e = [] /\ exists s, graph (rb_shows_d uint) s [] /\ forall fuel, str_dot_text_d is_print uint fuel (nth ver r.1 None) = (Ret s : prog U _)
    | Some l => exists root cmp d, h1 !! l = Some (CStr root cmp) /\ rb_shape h1 root d /\ map fst (inorder d) = e /\
        dot_prints (rb_shows_d uint) h1 (fun fuel => str_dot_text_d is_print uint fuel (nth ver r.1 None)) d
    end /\
    StronglySorted (fun x y => ver_cmp ops ver x.1 y.1 < 0)%Z e /\
    (forall k v, (k, v) ∈ e -> log_get (ver_cmp ops ver) (ver_log ops ver) k = Some v) /\
    (forall k v, log_get (ver_cmp ops ver) (ver_log ops ver) k = Some v -> exists k', (k', v) ∈ e /\ ver_cmp ops ver k' k = 0%Z)).
Proof. intros H1 H2. exact (text_str_gen _ _ fuel h ops ver (rb_readable_d is_print uint) H1 H2). Qed.
Lemma text_dl fuel (h : heap) (ops : list (dop (value U))) rops ver : Forall2 resolves ops rops -> enough fuel (dkeys ops) ->
  wp (run_hist (dl_exec fuel) ops []) h ∅ (fun r h1 _ => h ⊆ h1 /\ exists e,
    match nth ver r.1 None with
    | None => e = [] /\ exists s, graph (rb_shows gosyntax) s [] /\ forall fuel, dl_dot_text is_print gosyntax fuel (nth ver r.1 None) = (Ret s : prog U _)
    | Some l => exists root d, h1 !! l = Some (CDl root) /\ rb_shape h1 root d /\ map fst (inorder d) = e /\
        dot_prints (rb_shows gosyntax) h1 (fun fuel => dl_dot_text is_print gosyntax fuel (nth ver r.1 None)) d
    end /\
    StronglySorted (fun x y => shortlex_lt x.1 y.1) e /\ forall k v, (k, v) ∈ e <-> klog_get (dl_log rops ver) k = Some v).
Proof.
  intros H1 H2. eapply wp_mono; [by apply (dot_dl fuel h ops rops ver)|]. cbn beta. intros r h1 W (Hs & e & Hm & He). split; [done|]. exists e. split; [|done].
  destruct (nth ver r.1 None) as [l|].
  - destruct Hm as (root & d & Hl & Hd & Hi & Hp). exists root, d. split; [done|]. split; [done|]. split; [done|]. apply draws_prints; [apply rb_readable|done].
  - destruct Hm as [-> Hd]. split; [done|]. exists (dot_text (rb_string is_print gosyntax) []). split; [apply text_graph, rb_readable|].
    intros fuel'. unfold dl_dot_text. rewrite Hd. done.
Qed.
Lemma text_num c w (h : heap) ops ver : num_cfg c -> Forall (nop_ok (cW c)) ops ->
  wp (run_hist (n_exec c) ops [None]) h ∅ (fun r h1 _ => h ⊆ h1 /\ exists d,
    num_shape h1 (nth ver r.1 None) d /\
    dot_prints (num_shows gosyntax w) h1 (fun fuel => n_dot_text is_print gosyntax w fuel (nth ver r.1 None)) d /\
    s_enum (cW c) (nth ver (n_contents (cW c) ops [∅]) ∅) (leaves (preorder d))).
Proof.
  intros H1 H2. eapply wp_mono; [by apply (dot_num c h ops ver)|]. cbn beta. intros r h1 W (Hs & d & Hm & Hd & He). split; [done|]. exists d. split; [done|]. split; [|done].
  apply draws_prints; [apply num_readable|done].
Qed.
End prints.
