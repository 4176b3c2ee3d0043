(** * Memory, programs and the correctness judgement.

    The Go code is modelled as programs over an explicit memory ("heap").
    A program is a tree of elementary instructions (allocate a struct, load a
    struct, store a struct, panic); it can be run sequentially ([run]),
    interleaved with other programs (Concurrent.v), or reasoned about
    ([wp], [fails]). *)
From Coq.Init Require Export Byte.
From stdpp Require Export gmap.
Set Default Proof Using "Type".

(** Addresses; a Go pointer is [None] (nil) or an address. *)
Notation loc := positive.
Definition ptr := option loc.
(** Go strings, []byte, net.IP, net.IPMask: sequences of bytes. *)
Definition bytes := list byte.

(** Reasons why a program stops abnormally.  [ENil] nil dereference, [EIndex]
    index out of range, [EPanic] explicit panic, [EType] failed type assertion
    (or a cell of the wrong Go type, impossible in Go), [EFuel] the model ran
    out of fuel: not a Go behaviour, the theorems exclude it. *)
Inductive err := ENil | EIndex | EPanic | EType | EFuel.

Section prog.
Context {U : Type}. (* user values: what callers store, never inspected *)

(** interface{} values held in nodes: nil, a caller's value, an
    iptree.subTree64 (iptree/iptree.go:33) or a *domaintree.Node stored in a
    label tree (domaintree/domaintree.go:43). *)
Inductive value := VNil | VUser (u : U) | VSub (p : ptr) | VDom (p : ptr).

(** strtree/node.go:10-16 and dltree/node.go:15-21 [type node struct];
    [chld[0]] is [rb_l], [chld[1]] is [rb_r]. *)
Record rbnode := RbN {
  rb_key : bytes; rb_val : value; rb_l : ptr; rb_r : ptr; rb_red : bool }.

(** numtree/node32.go:26-37, numtree/node64.go:33-44, uintX/iptree8/node64s.go:11-22. *)
Record numnode := NumN {
  nn_key : N; nn_bits : N; nn_leaf : bool; nn_val : value; nn_c0 : ptr; nn_c1 : ptr }.

(** domaintree/domaintree.go:12-17 [type Node struct]. *)
Record domnode := DomN { dn_branches : ptr; dn_has : bool; dn_val : value }.

(** Go struct types that live in memory. [CStr] is strtree.Tree
    (strtree/strtree.go:10-13; the comparison function may be nil), [CDl] is
    dltree.Tree (dltree/dltree.go:7-9), [CIp] is iptree.Tree
    (iptree/iptree.go:22-25). *)
Inductive cell :=
| CRb (n : rbnode)
| CNum (n : numnode)
| CDom (n : domnode)
| CDl (root : ptr)
| CStr (root : ptr) (cmp : option (bytes -> bytes -> Z))
| CIp (root32 root64 : ptr).

Local Notation heap := (gmap loc cell).

Inductive prog (A : Type) : Type :=
| Ret (a : A)
| Fail (e : err)
| Alloc (c : cell) (k : loc -> prog A)
| Load (l : loc) (k : cell -> prog A)
| Store (l : loc) (c : cell) (k : prog A).

Global Arguments Ret {A}.
Global Arguments Fail {A}.
Global Arguments Alloc {A}.
Global Arguments Load {A}.
Global Arguments Store {A}.

Fixpoint bind {A B} (m : prog A) (f : A -> prog B) : prog B :=
  match m with
  | Ret a => f a
  | Fail e => Fail e
  | Alloc c k => Alloc c (fun l => bind (k l) f)
  | Load l k => Load l (fun c => bind (k c) f)
  | Store l c k => Store l c (bind k f)
  end.

(** Sequential execution with a bump allocator: [next] is the first address
    never used so far. A load or store of an address that was never allocated
    cannot happen in Go; it is reported as [EType]. *)
Fixpoint run {A} (m : prog A) (h : heap) (next : loc) : (A + err) * heap * loc :=
  match m with
  | Ret a => (inl a, h, next)
  | Fail e => (inr e, h, next)
  | Alloc c k => run (k next) (<[next := c]> h) (Pos.succ next)
  | Load l k => match h !! l with
                | Some c => run (k c) h next
                | None => (inr EType, h, next)
                end
  | Store l c k => match h !! l with
                   | Some _ => run k (<[l := c]> h) next
                   | None => (inr EType, h, next)
                   end
  end.

Definition result {A} (x : (A + err) * heap * loc) : A + err := x.1.1.

(** [wp m h W Q]: whatever fresh addresses the allocator picks, [m] started in
    [h] finishes without panic, stores only to addresses in [W] or allocated by
    itself, and the result, final memory and final write set satisfy [Q]. *)
Fixpoint wp {A} (m : prog A) (h : heap) (W : gset loc)
    (Q : A -> heap -> gset loc -> Prop) : Prop :=
  match m with
  | Ret a => Q a h W
  | Fail _ => False
  | Alloc c k => forall l, h !! l = None -> wp (k l) (<[l := c]> h) ({[l]} ∪ W) Q
  | Load l k => exists c, h !! l = Some c /\ wp (k c) h W Q
  | Store l c k => l ∈ W /\ is_Some (h !! l) /\ wp k (<[l := c]> h) W Q
  end.

(** [fails m h e]: whatever the allocator does, [m] panics with [e]. *)
Fixpoint fails {A} (m : prog A) (h : heap) (e : err) : Prop :=
  match m with
  | Ret _ => False
  | Fail e' => e' = e
  | Alloc c k => forall l, h !! l = None -> fails (k l) (<[l := c]> h) e
  | Load l k => exists c, h !! l = Some c /\ fails (k c) h e
  | Store l c k => is_Some (h !! l) /\ fails k (<[l := c]> h) e
  end.

(** ** Elementary accesses. *)
Definition alloc (c : cell) : prog loc := Alloc c (fun l => Ret l).

Definition load (p : ptr) : prog cell :=
  match p with None => Fail ENil | Some l => Load l (fun c => Ret c) end.

Definition store (p : ptr) (c : cell) : prog unit :=
  match p with None => Fail ENil | Some l => Store l c (Ret tt) end.

End prog.

Global Arguments value : clear implicits.
Global Arguments rbnode : clear implicits.
Global Arguments numnode : clear implicits.
Global Arguments domnode : clear implicits.
Global Arguments cell : clear implicits.
Notation heap U := (gmap loc (cell U)).
Global Arguments prog U A : clear implicits.

Declare Scope prog_scope.
Delimit Scope prog_scope with prog.
Notation "x <- m ;; k" := (bind m (fun x => k))
  (at level 100, m at next level, right associativity) : prog_scope.
Notation "m ;;; k" := (bind m (fun _ => k))
  (at level 100, right associativity) : prog_scope.
Global Open Scope prog_scope.

Definition ptr_eqb (p q : ptr) : bool := bool_decide (p = q).

Section accesses.
Context {U : Type}.
Local Notation prog := (prog U).

Definition ld_rb (p : ptr) : prog (rbnode U) :=
  c <- load p ;; match c with CRb n => Ret n | _ => Fail EType end.
Definition st_rb (p : ptr) (n : rbnode U) : prog unit := store p (CRb n).
Definition ld_num (p : ptr) : prog (numnode U) :=
  c <- load p ;; match c with CNum n => Ret n | _ => Fail EType end.
Definition st_num (p : ptr) (n : numnode U) : prog unit := store p (CNum n).
Definition ld_dom (p : ptr) : prog (domnode U) :=
  c <- load p ;; match c with CDom n => Ret n | _ => Fail EType end.
Definition st_dom (p : ptr) (n : domnode U) : prog unit := store p (CDom n).
Definition ld_dl (p : ptr) : prog ptr :=
  c <- load p ;; match c with CDl r => Ret r | _ => Fail EType end.
Definition ld_str (p : ptr) : prog (ptr * option (bytes -> bytes -> Z)) :=
  c <- load p ;; match c with CStr r f => Ret (r, f) | _ => Fail EType end.
Definition ld_ip (p : ptr) : prog (ptr * ptr) :=
  c <- load p ;; match c with CIp r32 r64 => Ret (r32, r64) | _ => Fail EType end.

Fixpoint mapM {A B} (f : A -> prog B) (l : list A) : prog (list B) :=
  match l with
  | [] => Ret []
  | x :: l => y <- f x ;; ys <- mapM f l ;; Ret (y :: ys)
  end.
End accesses.

(** ** Laws of the judgement. *)
Section laws.
Context {U : Type}.
Local Notation prog := (prog U).
Local Notation heap := (heap U).

Lemma wp_mono {A} (m : prog A) h W (Q Q' : A -> heap -> gset loc -> Prop) :
  wp m h W Q -> (forall a h' W', Q a h' W' -> Q' a h' W') -> wp m h W Q'.
Proof.
  revert h W. induction m as [a|e|c k IH|l k IH|l c k IH]; intros h W; simpl; intros H HQ.
  - auto.
  - auto.
  - intros l Hl. eapply IH; eauto.
  - destruct H as (c & ? & ?). eauto.
  - destruct H as (? & ? & ?). eauto.
Qed.

Lemma wp_bind {A B} (m : prog A) (f : A -> prog B) h W Q :
  wp m h W (fun a h' W' => wp (f a) h' W' Q) -> wp (bind m f) h W Q.
Proof.
  revert h W. induction m as [a|e|c k IH|l k IH|l c k IH]; intros h W; simpl; intros H.
  - auto.
  - auto.
  - intros l Hl. eapply IH; eauto.
  - destruct H as (c & ? & ?). eauto.
  - destruct H as (? & ? & ?). eauto.
Qed.

Lemma wp_bind_inv {A B} (m : prog A) (f : A -> prog B) h W Q :
  wp (bind m f) h W Q -> wp m h W (fun a h' W' => wp (f a) h' W' Q).
Proof.
  revert h W. induction m as [a|e|c k IH|l k IH|l c k IH]; intros h W; simpl; intros H.
  - auto.
  - auto.
  - intros l Hl. eapply IH; eauto.
  - destruct H as (c & ? & ?). eauto.
  - destruct H as (? & ? & ?). eauto.
Qed.

(** Standard composition: a specification of [m] followed by one of [f a]. *)
Lemma wp_seq {A B} (m : prog A) (f : A -> prog B) h W Q R :
  wp m h W R ->
  (forall a h' W', R a h' W' -> wp (f a) h' W' Q) ->
  wp (bind m f) h W Q.
Proof. intros Hm Hf. apply wp_bind. eapply wp_mono; eauto. Qed.

Lemma bind_assoc {A B C} (m : prog A) (f : A -> prog B) (g : B -> prog C) h W Q :
  wp (bind m (fun a => bind (f a) g)) h W Q -> wp (bind (bind m f) g) h W Q.
Proof.
  intros H. apply wp_bind, wp_bind. apply wp_bind_inv in H.
  eapply wp_mono; [exact H|]. intros a h' W' H'. by apply wp_bind_inv in H'.
Qed.

(** The memory outside the write set is untouched and nothing disappears. *)
Definition untouched (W : gset loc) (h h' : heap) : Prop :=
  forall l c, h !! l = Some c -> l ∉ W -> h' !! l = Some c.

Definition grows (W W' : gset loc) (h h' : heap) : Prop :=
  W ⊆ W' /\ dom h ⊆ dom h' /\ (forall l, l ∈ W' -> l ∈ W \/ h !! l = None).

Lemma wp_frame {A} (m : prog A) h W Q :
  wp m h W Q ->
  wp m h W (fun a h' W' => Q a h' W' /\ untouched W h h' /\ grows W W' h h').
Proof.
  revert h W. induction m as [a|e|c k IH|l k IH|l c k IH]; intros h W; simpl; intros H.
  - split; [done|]. split.
    + by intros ?.
    + split; [done|]. split; [done|]. auto.
  - done.
  - intros l Hl. specialize (H l Hl). apply IH in H.
    eapply wp_mono; [exact H|]. cbn beta. intros a h' W' (HQ & Hu & HW & Hd & Hf).
    split; [done|]. split; [|split; [|split]].
    + intros l' c' Hl' Hn. apply Hu.
      * rewrite lookup_insert_ne; [done|]. intros ->. congruence.
      * intros [Hx%elem_of_singleton|Hx]%elem_of_union; [subst; congruence|done].
    + set_solver.
    + rewrite dom_insert in Hd. set_solver.
    + intros l' Hl'. destruct (Hf l' Hl') as [[->%elem_of_singleton|Hx]%elem_of_union|Hx].
      * by right.
      * by left.
      * right. destruct (decide (l = l')) as [->|Hne]; [done|].
        by rewrite lookup_insert_ne in Hx.
  - destruct H as (c & Hl & H). exists c. split; [done|]. by apply IH.
  - destruct H as (Hl & Hs & H). split; [done|]. split; [done|].
    apply IH in H. eapply wp_mono; [exact H|]. cbn beta.
    intros a h' W' (HQ & Hu & HW & Hd & Hf).
    split; [done|]. split; [|split; [|split]].
    + intros l' c' Hl' Hn. apply Hu; [|done].
      rewrite lookup_insert_ne; [done|]. by intros ->.
    + done.
    + rewrite dom_insert in Hd. set_solver.
    + intros l' Hl'. destruct (Hf l' Hl') as [Hx|Hx]; [by left|].
      destruct (decide (l = l')) as [->|Hne]; [by rewrite lookup_insert in Hx|].
      rewrite lookup_insert_ne in Hx; [|done]. by right.
Qed.

(** A larger permission to write is harmless. *)
Lemma wp_weaken_W {A} (m : prog A) h W1 W2 Q :
  wp m h W1 Q -> W1 ⊆ W2 ->
  wp m h W2 (fun a h' W' => exists W1', Q a h' W1' /\ W1' ⊆ W' /\ W2 ⊆ W').
Proof.
  revert h W1 W2. induction m as [a|e|c k IH|l k IH|l c k IH]; intros h W1 W2; simpl; intros H Hs.
  - eauto.
  - done.
  - intros l Hl. eapply wp_mono; [eapply (IH l _ ({[l]} ∪ W1)); [by apply H|set_solver]|].
    cbn beta. intros a h' W' (W1' & ? & ? & ?). exists W1'. split_and!; [done..|set_solver].
  - destruct H as (c & ? & ?). eauto.
  - destruct H as (? & ? & ?). split_and!; [set_solver|done|]. eauto.
Qed.

(** Copy-on-write calls ([W = ∅]) inside a larger computation: whatever the
    caller may write, the callee changes nothing that exists. *)
Lemma wp_cow {A} (m : prog A) h W (Q : A -> heap -> Prop) :
  wp m h ∅ (fun a h' _ => Q a h') ->
  wp m h W (fun a h' W' => Q a h' /\ h ⊆ h' /\ W ⊆ W' /\
                           (forall l, l ∈ W' -> l ∈ W \/ h !! l = None)).
Proof.
  intros H. apply wp_frame in H.
  eapply wp_weaken_W in H; [|apply (empty_subseteq W)].
  apply wp_frame in H. eapply wp_mono; [exact H|]. cbn beta.
  intros a h' W' [(W1 & (HQ & Hu & _) & _ & _) [_ (HW & _ & Hf)]].
  split_and!; try done. apply map_subseteq_spec. intros l c Hl. apply Hu; [done|set_solver].
Qed.

(** Calling [m], specified with write set [W1], from a caller who may write [W2]. *)
Lemma wp_call {A} (m : prog A) h W1 W2 Q :
  wp m h W1 Q -> W1 ⊆ W2 ->
  wp m h W2 (fun a h' W' => (exists W1', Q a h' W1' /\ W1' ⊆ W' /\ grows W1 W1' h h') /\
                            untouched W1 h h' /\ grows W2 W' h h').
Proof.
  intros H Hs. apply wp_frame in H.
  eapply wp_weaken_W in H; [|exact Hs].
  apply wp_frame in H. eapply wp_mono; [exact H|]. cbn beta.
  intros a h' W' [(W1' & (HQ & Hu & Hg) & HW1 & _) [_ Hg']].
  split_and!; [|done|done]. exists W1'. done.
Qed.

(** [wp] speaks about [run]. *)
Lemma wp_run {A} (m : prog A) h W Q next :
  (forall l, (next <= l)%positive -> h !! l = None) ->
  wp m h W Q ->
  exists a h' next' W', run m h next = (inl a, h', next') /\ Q a h' W' /\
    (forall l, (next' <= l)%positive -> h' !! l = None).
Proof.
  revert h W next. induction m as [a|e|c k IH|l k IH|l c k IH]; intros h W next Hn; simpl; intros H.
  - eauto 10.
  - done.
  - eapply IH; [|apply H; apply Hn; lia].
    intros l Hl. rewrite lookup_insert_ne by lia. apply Hn. lia.
  - destruct H as (c & Hl & H). rewrite Hl. eauto.
  - destruct H as (Hl & [c' Hc] & H). rewrite Hc. eapply IH; [|exact H].
    intros l' Hl'. rewrite lookup_insert_ne; [by apply Hn|].
    intros ->. rewrite Hn in Hc; congruence.
Qed.

Lemma fails_run {A} (m : prog A) h e next :
  (forall l, (next <= l)%positive -> h !! l = None) ->
  fails m h e -> result (run m h next) = inr e.
Proof.
  revert h next. induction m as [a|e'|c k IH|l k IH|l c k IH]; intros h next Hn; simpl; intros H.
  - done.
  - by subst.
  - eapply IH; [|apply H; apply Hn; lia].
    intros l Hl. rewrite lookup_insert_ne by lia. apply Hn. lia.
  - destruct H as (c & Hl & H). rewrite Hl. eauto.
  - destruct H as ([c' Hc] & H). rewrite Hc. eapply IH; [|exact H].
    intros l' Hl'. rewrite lookup_insert_ne; [by apply Hn|].
    intros ->. rewrite Hn in Hc; congruence.
Qed.

Lemma fails_bind_l {A B} (m : prog A) (f : A -> prog B) h e :
  fails m h e -> fails (bind m f) h e.
Proof.
  revert h. induction m as [a|e'|c k IH|l k IH|l c k IH]; intros h; simpl; intros H; try done.
  - eauto.
  - destruct H as (c & ? & ?). eauto.
  - destruct H as (? & ?). eauto.
Qed.

Lemma fails_bind_r {A B} (m : prog A) (f : A -> prog B) h W e Q :
  wp m h W Q -> (forall a h' W', Q a h' W' -> fails (f a) h' e) ->
  fails (bind m f) h e.
Proof.
  revert h W. induction m as [a|e'|c k IH|l k IH|l c k IH]; intros h W; simpl; intros H HQ.
  - eauto.
  - done.
  - intros l Hl. eauto.
  - destruct H as (c & ? & ?). eauto.
  - destruct H as (? & ? & ?). eauto.
Qed.

(** Access rules. *)
Lemma wp_alloc c (h : heap) W (Q : loc -> heap -> gset loc -> Prop) :
  (forall l, h !! l = None -> Q l (<[l := c]> h) ({[l]} ∪ W)) -> wp (alloc c) h W Q.
Proof. done. Qed.

Lemma wp_load l c (h : heap) W (Q : cell U -> heap -> gset loc -> Prop) : h !! l = Some c -> Q c h W -> wp (load (Some l)) h W Q.
Proof. simpl. eauto. Qed.

Lemma wp_ld_rb l n (h : heap) W (Q : rbnode U -> heap -> gset loc -> Prop) : h !! l = Some (CRb n) -> Q n h W -> wp (ld_rb (Some l)) h W Q.
Proof. intros. simpl. eauto. Qed.
Lemma wp_st_rb l n (h : heap) W (Q : unit -> heap -> gset loc -> Prop) : l ∈ W -> is_Some (h !! l) ->
  Q tt (<[l := CRb n]> h) W -> wp (st_rb (Some l) n) h W Q.
Proof. intros. simpl. eauto. Qed.
Lemma wp_ld_num l n (h : heap) W (Q : numnode U -> heap -> gset loc -> Prop) : h !! l = Some (CNum n) -> Q n h W -> wp (ld_num (Some l)) h W Q.
Proof. intros. simpl. eauto. Qed.
Lemma wp_st_num l n (h : heap) W (Q : unit -> heap -> gset loc -> Prop) : l ∈ W -> is_Some (h !! l) ->
  Q tt (<[l := CNum n]> h) W -> wp (st_num (Some l) n) h W Q.
Proof. intros. simpl. eauto. Qed.
Lemma wp_ld_dom l n (h : heap) W (Q : domnode U -> heap -> gset loc -> Prop) : h !! l = Some (CDom n) -> Q n h W -> wp (ld_dom (Some l)) h W Q.
Proof. intros. simpl. eauto. Qed.
Lemma wp_st_dom l n (h : heap) W (Q : unit -> heap -> gset loc -> Prop) : l ∈ W -> is_Some (h !! l) ->
  Q tt (<[l := CDom n]> h) W -> wp (st_dom (Some l) n) h W Q.
Proof. intros. simpl. eauto. Qed.
Lemma wp_ld_dl l n (h : heap) W (Q : ptr -> heap -> gset loc -> Prop) : h !! l = Some (CDl n) -> Q n h W -> wp (ld_dl (Some l)) h W Q.
Proof. intros. simpl. eauto. Qed.
Lemma wp_ld_str l r f (h : heap) W (Q : _ -> heap -> gset loc -> Prop) : h !! l = Some (CStr r f) -> Q (r, f) h W -> wp (ld_str (Some l)) h W Q.
Proof. intros. simpl. eauto. Qed.
Lemma wp_ld_ip l r f (h : heap) W (Q : _ -> heap -> gset loc -> Prop) : h !! l = Some (CIp r f) -> Q (r, f) h W -> wp (ld_ip (Some l)) h W Q.
Proof. intros. simpl. eauto. Qed.

Lemma ptr_eqb_spec p q : reflect (p = q) (ptr_eqb p q).
Proof. unfold ptr_eqb. case_bool_decide; by constructor. Qed.
End laws.
