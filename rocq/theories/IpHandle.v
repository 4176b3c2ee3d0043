(** * numtree, iptree and uintX iptrees: clients that mix in-place and copy-on-write
    calls on one handle. *)
From Verif Require Import Prog History NumModel NumSim NumSpec NumAbs NumPropProofs NumFoot Handle.
From Verif Require Import IpModel IpSpec IpUpdSpec IpBits IpAbs IpAbs2 IpAbs4 IpEnum IpHist IpPropProofs IpUpd IpUpd2 IpUpd3 IpUpd4 IpUpdProofs.
From Verif Require Import UxModel UxSpec UxAbs UxAbs2 UxHist UxPropProofs.
Open Scope nat_scope.

Lemma Forall2_last {A B} (P : A -> B -> Prop) l k a b : Forall2 P l k -> P a b -> P (List.last l a) (List.last k b).
Proof. intros H Hab. induction H as [|x y l k Hxy H IH]; [done|]. destruct H; simpl in *; done. Qed.

(** What a program returns, when it returns. *)
Section returns.
Context {U A : Type}.
Fixpoint returns (m : prog U A) (P : A -> Prop) : Prop :=
  match m with
  | Ret a => P a
  | Fail _ => True
  | Alloc _ k => forall l, returns (k l) P
  | Load _ k => forall c, returns (k c) P
  | Store _ _ k => returns k P
  end.
Lemma returns_wp m : forall (h : heap U) W Q P, wp m h W Q -> returns m P -> wp m h W (fun a h' W' => Q a h' W' /\ P a).
Proof.
  induction m as [a|e|c k IH|l k IH|l c k IH]; intros h W Q P; cbn [wp returns].
  - done.
  - done.
  - intros H HP l Hl. apply IH; auto.
  - intros (c & E & H) HP. exists c. split; [done|]. by apply IH.
  - intros (A1 & A2 & H) HP. split_and!; [done|done|]. by apply IH.
Qed.
Lemma returns_all m (P : A -> Prop) : (forall a, P a) -> returns m P.
Proof. intros H. induction m; cbn [returns]; auto. Qed.
End returns.
Lemma returns_bind {U A B} (m : prog U A) (f : A -> prog U B) P : (forall a, returns (f a) P) -> returns (bind m f) P.
Proof. intros H. induction m; cbn [bind returns]; auto. Qed.

Lemma returns_bind2 {U A B} (m : prog U A) (f : A -> prog U B) P Q : returns m P -> (forall a, P a -> returns (f a) Q) -> returns (bind m f) Q.
Proof. intros Hm H. induction m; cbn [bind returns] in *; auto. Qed.

(** ** numtree *)
Section num.
Context {U : Type}.
Local Notation value := (value U).
Variable c : cfg.
Definition n_inplace (p : ptr) (x : N * Z * value) : prog U ptr := n_inplace_insert c p x.1.1 x.1.2 x.2.
Definition n_mut (m : nmap U) (x : N * Z * value) (m' : nmap U) : Prop := m' = s_insert (cW c) m x.1.1 (adj (cW c) x.1.2) x.2.
Definition n_key_ok (x : N * Z * value) : Prop := (x.1.1 < 2 ^ cW c)%N.
Lemma n_handle (h : heap U) ops : num_cfg c -> Forall (hop_ok (nop_ok (cW c)) n_key_ok) ops ->
  wp (run_handle (n_exec c) n_inplace ops None) h ∅ (fun r h' _ => h ⊆ h' /\ exists m', h_spec (nstep (cW c)) n_mut ops ∅ m' r.2).
Proof.
  intros Hc Hops. apply num_cfg_ok in Hc.
  apply (start_handle_ok (n_exec c) n_inplace (nstep (cW c)) n_mut (fun _ => ntree_at c) (nop_ok (cW c)) n_key_ok (length ops)) with (start := Ret None); [..|done|done].
  - done.
  - intros n h' p m o _ HR Ho. eapply wp_mono; [apply wp_cow0, (n_exec_ok c Hc h' [p] [m] o)|]; [by repeat constructor|done|].
    cbn beta. intros r h2 _ (Hs & ms & Hst & HF). exists ms. split; [done|]. apply Forall2_last; [done|]. by eapply ntree_at_mono.
  - intros n h' p m [[k b] v] _ HR Hk. unfold n_inplace. cbn [fst snd].
    eapply wp_mono; [apply (n_inplace_in c Hc h' (dom h') (dom h') p m k b v); [exact Hk|by exists h'|done]|]. cbn beta.
    intros r h2 W2 (F' & Hin & _). eexists. split; [done|]. by eapply ntree_in_at.
  - cbn [wp]. apply ntree_at_nil.
Qed.
Lemma n_inplace_any (h : heap U) ops : num_cfg c -> Forall (nop_ok (cW c)) ops ->
  wp (run_hist (n_exec c) ops [None]) h ∅ (fun r h1 _ => h ⊆ h1 /\ forall ver k b v, (k < 2 ^ cW c)%N ->
    wp (p <- n_inplace_insert c (nth ver r.1 None) k b v ;; n_enumerate c p) h1 (dom h1)
       (fun e _ _ => s_enum (cW c) (s_insert (cW c) (nth ver (n_contents (cW c) ops [∅]) ∅) k (adj (cW c) b) v) (map as_entry e))).
Proof.
  intros Hc Hops. apply num_cfg_ok in Hc. eapply wp_mono; [apply wp_cow0, (n_history c Hc h ops Hops)|]. cbn beta.
  intros r h1 _ (Hs & ms & Hsp & HF). split; [done|]. intros ver k b v Hk. apply spec_run_contents in Hsp as ->.
  pose proof (nth_R c h1 _ _ ver HF) as Hat.
  apply wp_bind. eapply wp_mono; [apply (n_inplace_in c Hc h1 (dom h1) (dom h1) _ (nth ver (n_contents (cW c) ops [∅]) ∅) k b v Hk); [by exists h1|done]|]. cbn beta.
  intros p h2 W2 (F' & Hin%ntree_in_at & _). eapply wp_mono; [apply (n_enumerate_in c Hc h2 W2 _ _ Hin)|]. cbn beta. tauto.
Qed.
End num.

(** ** iptree *)
Section ip.
Context {U St : Type}.
Local Notation value := (value U).
Local Notation callback := (St -> bytes * bytes * value -> St * option value).
(** In-place calls: InplaceInsertNet and InplaceInsertIP, UpdateDescendants. *)
Inductive imut := MIns (k : ikey) (v : value) | MUpd (cb : callback) (n : ipnet) (s : St).
Definition ip_inplace (t : ptr) (x : imut) : prog U ptr :=
  match x with
  | MIns k v => ip_inplace_key t k v ;;; Ret t
  | MUpd cb n s => _ <- ip_update cb t n s ;; Ret t
  end.
Definition i_mut (l : ilog value) (x : imut) (l' : ilog value) : Prop :=
  match x with
  | MIns k v => exists q, ikey_is k q /\ l' = ins_log q v l
  | MUpd cb n s => exists p e e' s', net_is n p /\ nenumerates l e /\ nenumerates l' e' /\
      (is_target l n p -> uwalk cb p s e s' e') /\ (~ is_target l n p -> e' = e)
  end.
Definition i_mut_ok (x : imut) : Prop :=
  match x with MIns k v => plain v | MUpd cb n s => cb_plain cb /\ exists p, net_is n p end.
Definition i_on_handle (o : iop ikey value) : Prop :=
  iop_ok o /\ match o with IBuild _ => False | IInsert i _ _ | IDelete i _ | IGet i _ | IEnumerate i => i = 0 end.

Ltac rets := repeat first [apply returns_bind; intros ?|match goal with |- context [match ?x with _ => _ end] => destruct x end]; try done.
Lemma ip_insert_nonnil a k (v : value) : returns (ip_insert_key (Some a) k v) (fun p => p <> None).
Proof. rewrite insert_key_eq. unfold ip_insert_net. destruct (key_net k) as [n|]; [|done]. rets. Qed.
Lemma ip_delete_nonnil a k : returns (U := U) (ip_delete_key (Some a) k) (fun x => x.1 <> None).
Proof. rewrite delete_key_eq. unfold ip_delete_net. destruct (key_net k) as [n|]; [|done]. rets. Qed.

Definition ip_hR (n : nat) (h : heap U) (t : ptr) (l : ilog value) : Prop := t <> None /\ ipR h t l.
Lemma ip_hexec n (h : heap U) t l o : ip_hR n h t l -> i_on_handle o ->
  wp (ip_exec [t] o) h ∅ (fun r h' _ => exists ms, istep [l] o ms r.2 /\ ip_hR (n + 1) h' (List.last r.1 t) (List.last ms l)).
Proof.
  intros [Ht HR] [Hok Ho]. destruct t as [a|]; [|done].
  assert (Hret : returns (ip_exec [Some a] o) (fun r => List.last r.1 (Some a) <> None)).
  { destruct o as [items|i k v|i k|i k|i]; [done|..]; subst i; cbn [ip_exec nth].
    - eapply returns_bind2; [apply ip_insert_nonnil|]. intros p Hp. done.
    - eapply returns_bind2; [apply ip_delete_nonnil|]. intros p Hp. done.
    - by apply returns_bind.
    - by apply returns_bind. }
  eapply wp_mono; [eapply returns_wp; [apply wp_cow0, (ip_exec_ok h [Some a] [l] o); [by repeat constructor|done]|exact Hret]|].
  cbn beta. intros r h' _ [(Hs & ms & Hst & HF) Hnn]. exists ms. split; [done|]. split; [done|]. apply Forall2_last; [done|]. by eapply ipR_mono.
Qed.
Lemma ip_update_at (h : heap U) a l (cb : callback) n p s : cb_plain cb -> itree h (Some a) (ilog_get l) -> net_is n p ->
  wp (ip_update cb (Some a) n s) h (dom h) (fun s' h' _ => exists e e' l', nenumerates l e /\ nenumerates l' e' /\ itree h' (Some a) (ilog_get l') /\
      (is_target l n p -> uwalk cb p s e s' e') /\ (~ is_target l n p -> e' = e)).
Proof.
  intros Hcb Ht Hn. eapply wp_mono; [apply (ip_update_by_at (fun s x => Ret (cb s x)) (fun _ s x r => r = cb s x) (fun _ _ => True) h a l n p s (dom h)); [done|intros; by apply pure_acts|done|done|done]|].
  cbn beta. intros s' h' _ (e & e' & l' & H1 & H2 & H3 & _ & _ & H4 & H5 & _). exists e, e', l'. split_and!; [done|done|done| |].
  - intros Htg. destruct (uwalk_const (fun _ s x r => r = cb s x) cb p (fun _ _ _ _ H => H) _ _ _ _ _ (H4 Htg)) as (e2 & -> & Hw). exact Hw.
  - intros Hno. by destruct (H5 Hno) as (_ & -> & _).
Qed.
Lemma ip_handle (h : heap U) ops : Forall (hop_ok i_on_handle i_mut_ok) ops ->
  wp (t <- ip_new ;; run_handle ip_exec ip_inplace ops t) h ∅ (fun r h' _ => h ⊆ h' /\ exists l', h_spec istep i_mut ops [] l' r.2).
Proof.
  intros Hops. apply (start_handle_ok ip_exec ip_inplace istep i_mut ip_hR i_on_handle i_mut_ok (length ops)); [..|done|done].
  - done.
  - intros n h' t l o _ HR Ho. by apply ip_hexec.
  - intros n h' [a|] l x _ [Hnn HR] Hx; [|done]. destruct x as [k v|cb nt s]; cbn [ip_inplace i_mut i_mut_ok] in *; apply wp_bind.
    + destruct (itree_own _ _ _ HR) as (F & Ho & HF). destruct (ikey_total k) as [q Hq]. rewrite inplace_key_eq.
      eapply wp_mono; [apply (ip_inplace_at h' _ _ _ F _ q v Ho HF Hx); by apply key_isnet|]. cbn beta. intros _ h2 W2 (F' & Ho' & _). cbn [wp].
      exists (ins_log q v l). split; [by exists q|]. split; [done|]. eapply itree_ext; [|by eapply iown_itree]. intros q'. apply ins_log_upd.
    + destruct Hx as [Hcb [p Hp]]. eapply wp_mono; [by apply (ip_update_at h' a l cb nt p s)|]. cbn beta. intros s' h2 W2 (e & e' & l' & H1 & H2 & H3 & H4 & H5). cbn [wp].
      exists l'. split; [by exists p, e, e', s'|]. done.
  - eapply wp_mono; [apply iown_new|]. cbn beta. intros t h1 W1 (F & Ho & _). split; [|by eapply iown_itree].
    by destruct Ho as (a & r4 & r6 & F4 & F6 & -> & _).
Qed.

(** ** uintX iptrees *)
Definition ux_inplace (t : ptr) (x : ikey * value) : prog U ptr := ux_inplace_key t x.1 x.2 ;;; Ret t.
Definition u_mut (l : ilog value) (x : ikey * value) (l' : ilog value) : Prop := exists q, ikey_is x.1 q /\ l' = ins_log q x.2 l.
Lemma ux_insert_nonnil a k (v : value) : returns (ux_insert_key (Some a) k v) (fun p => p <> None).
Proof. rewrite ux_insert_key_eq. unfold ux_insert_net. destruct (key_net k) as [n|]; [|done]. rets. Qed.
Lemma ux_delete_nonnil a k : returns (U := U) (ux_delete_key (Some a) k) (fun x => x.1 <> None).
Proof. rewrite ux_delete_key_eq. unfold ux_delete_net. destruct (key_net k) as [n|]; [|done]. rets. Qed.
Definition ux_hR (n : nat) (h : heap U) (t : ptr) (l : ilog value) : Prop := t <> None /\ uxR h t l.
Lemma ux_hexec n (h : heap U) t l o : ux_hR n h t l -> i_on_handle o ->
  wp (ux_exec [t] o) h ∅ (fun r h' _ => exists ms, ustep [l] o ms r.2 /\ ux_hR (n + 1) h' (List.last r.1 t) (List.last ms l)).
Proof.
  intros [Ht HR] [Hok Ho]. destruct t as [a|]; [|done].
  assert (Hret : returns (ux_exec [Some a] o) (fun r => List.last r.1 (Some a) <> None)).
  { destruct o as [items|i k v|i k|i k|i]; [done|..]; subst i; cbn [ux_exec nth].
    - eapply returns_bind2; [apply ux_insert_nonnil|]. intros p Hp. done.
    - eapply returns_bind2; [apply ux_delete_nonnil|]. intros p Hp. done.
    - by apply returns_bind.
    - by apply returns_bind. }
  eapply wp_mono; [eapply returns_wp; [apply wp_cow0, (ux_exec_ok h [Some a] [l] o); [by repeat constructor|done]|exact Hret]|].
  cbn beta. intros r h' _ [(Hs & ms & Hst & HF) Hnn]. exists ms. split; [done|]. split; [done|]. apply Forall2_last; [done|]. by eapply uxR_mono.
Qed.
Lemma ux_handle (h : heap U) ops : Forall (hop_ok i_on_handle (fun x => plain x.2)) ops ->
  wp (t <- ip_new ;; run_handle ux_exec ux_inplace ops t) h ∅ (fun r h' _ => h ⊆ h' /\ exists l', h_spec ustep u_mut ops [] l' r.2).
Proof.
  intros Hops. apply (start_handle_ok ux_exec ux_inplace ustep u_mut ux_hR i_on_handle (fun x => plain x.2) (length ops)); [..|done|done].
  - done.
  - intros n h' t l o _ HR Ho. by apply ux_hexec.
  - intros n h' [a|] l [k v] _ [Hnn HR] Hx; [|done]. unfold ux_inplace, u_mut. cbn [fst snd] in *. apply wp_bind.
    destruct (utree_own _ _ _ HR) as (F & Ho & HF). destruct (ikey_total k) as [q Hq]. rewrite ux_inplace_key_eq.
    eapply wp_mono; [apply (ux_inplace_at h' _ _ _ F _ q v Ho HF Hx); by apply key_isnet|]. cbn beta. intros _ h2 W2 (F' & Ho' & _). cbn [wp].
    exists (ins_log q v l). split; [by exists q|]. split; [done|]. eapply utree_ext; [|by eapply uown_utree]. intros q'. apply ins_log_upd.
  - eapply wp_mono; [apply uown_new|]. cbn beta. intros t h1 W1 (F & Ho & _). split; [|by eapply uown_utree].
    by destruct Ho as (a & r4 & r6 & F4 & F6 & -> & _).
Qed.
End ip.
