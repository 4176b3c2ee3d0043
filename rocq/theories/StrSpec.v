(** * Specification of strtree: versions are immutable sorted maps, or, even
    more simply, logs of insertions and deletions. Independent of the model of the
    trees. *)
From Verif Require Import Prog RbSpec.

(** Byte-wise lexicographic order, the order of a tree without its own comparator. *)
Inductive lex_lt : bytes -> bytes -> Prop :=
| lex_nil b y : lex_lt [] (y :: b)
| lex_head x y a b : (Byte.to_N x < Byte.to_N y)%N -> lex_lt (x :: a) (y :: b)
| lex_tail x a b : lex_lt a b -> lex_lt (x :: a) (x :: b).
(** Shorter first, then lexicographic: the order of dltree. *)
Definition shortlex_lt (a b : bytes) : Prop :=
  length a < length b \/ (length a = length b /\ lex_lt a b).

Section spec.
Context {V : Type}.
Local Notation cmpf := (bytes -> bytes -> Z).

(** Client operations. A version is denoted by its position in the list of all
    versions obtained so far; a position without a version denotes nil. [SBuild]
    makes a tree with the given comparator and fills it by InplaceInsert. *)
Inductive sop :=
| SBuild (cmp : cmpf) (items : list (bytes * V))
| SInsert (i : nat) (k : bytes) (v : V)
| SDelete (i : nat) (k : bytes)
| SGet (i : nat) (k : bytes)
| SEnumerate (i : nat)
| SIsEmpty (i : nat).
Inductive sout :=
| SONone | SOBool (b : bool) | SOVal (v : option V) | SOList (l : list (bytes * V)).

(** Keys a history can add at most. *)
Definition sop_weight (o : sop) : nat :=
  match o with SBuild _ items => length items | _ => 1 end.
Definition sop_lawful (o : sop) : Prop :=
  match o with SBuild cmp _ => lawful cmp | _ => True end.
Definition sop_refl (o : sop) : Prop :=
  match o with SBuild cmp _ => forall k, cmp k k = 0%Z | _ => True end.

(** ** Versions as sorted maps. *)
Definition smap : Type := cmpf * list (bytes * V).
Section maps.
Variable dflt : cmpf.
Definition smaps_nth (ss : list smap) (i : nat) : smap := nth i ss (dflt, []).
Definition sstep (ss : list smap) (o : sop) : list smap * sout :=
  match o with
  | SBuild cmp items => (ss ++ [(cmp, fold_left (fun l x => a_insert cmp l x.1 x.2) items [])], SONone)
  | SInsert i k v => let '(cmp, l) := smaps_nth ss i in (ss ++ [(cmp, a_insert cmp l k v)], SONone)
  | SDelete i k => let '(cmp, l) := smaps_nth ss i in (ss ++ [(cmp, a_delete cmp l k)], SOBool (a_deleted cmp l k))
  | SGet i k => let '(cmp, l) := smaps_nth ss i in (ss, SOVal (a_get cmp l k))
  | SEnumerate i => (ss, SOList (smaps_nth ss i).2)
  | SIsEmpty i => (ss, SOBool (match (smaps_nth ss i).2 with [] => true | _ => false end))
  end.
Fixpoint smaps (ops : list sop) (ss : list smap) : list smap :=
  match ops with [] => ss | o :: ops => smaps ops (sstep ss o).1 end.
Fixpoint souts (ops : list sop) (ss : list smap) : list sout :=
  match ops with [] => [] | o :: ops => (sstep ss o).2 :: souts ops (sstep ss o).1 end.

(** ** Versions as logs, newest entry first. *)
Inductive lop := LIns (k : bytes) (v : V) | LDel (k : bytes).
Definition slog : Type := cmpf * list lop.
Definition slogs_nth (ss : list slog) (i : nat) : slog := nth i ss (dflt, []).
Definition slog_step (ss : list slog) (o : sop) : list slog :=
  match o with
  | SBuild cmp items => ss ++ [(cmp, rev (map (fun x => LIns x.1 x.2) items))]
  | SInsert i k v => ss ++ [((slogs_nth ss i).1, LIns k v :: (slogs_nth ss i).2)]
  | SDelete i k => ss ++ [((slogs_nth ss i).1, LDel k :: (slogs_nth ss i).2)]
  | _ => ss
  end.
Definition slogs (ops : list sop) : list slog := fold_left slog_step ops [].
(** The newest entry about [k] decides. *)
Fixpoint log_get (cmp : cmpf) (l : list lop) (k : bytes) : option V :=
  match l with
  | [] => None
  | LIns k' v :: l => if (cmp k' k =? 0)%Z then Some v else log_get cmp l k
  | LDel k' :: l => if (cmp k' k =? 0)%Z then None else log_get cmp l k
  end.
End maps.
End spec.
Global Arguments sop : clear implicits.
Global Arguments sout : clear implicits.
Global Arguments smap : clear implicits.
Global Arguments slog : clear implicits.
Global Arguments lop : clear implicits.

(** The two views agree: the sorted map of a version has what its log says. *)
Section agree.
Context {V : Type}.
Local Notation cmpf := (bytes -> bytes -> Z).
Variable dflt : cmpf.
Hypothesis Hdflt : lawful dflt.

Definition log_ok (s : smap V) (g : slog V) : Prop :=
  s.1 = g.1 /\ lawful s.1 /\ ordered s.1 s.2 /\ forall k, a_get s.1 s.2 k = log_get s.1 g.2 k.

Lemma eqb_sym (cmp : cmpf) a b : lawful cmp -> (cmp a b =? 0)%Z = (cmp b a =? 0)%Z.
Proof. intros Hl. pose proof (cmp_anti _ Hl a b). lia. Qed.
Lemma log_insert (s : smap V) (g : slog V) k v : log_ok s g -> log_ok (s.1, a_insert s.1 s.2 k v) (g.1, LIns k v :: g.2).
Proof.
  intros (E & Hl & Ho & Hg). unfold log_ok. simpl. split_and!; [done|done|by apply ordered_a_insert|].
  intros k'. rewrite a_get_insert by done. rewrite Hg. unfold same_key. by rewrite (eqb_sym s.1 k k').
Qed.
Lemma log_delete (s : smap V) (g : slog V) k : log_ok s g -> log_ok (s.1, a_delete s.1 s.2 k) (g.1, LDel k :: g.2).
Proof.
  intros (E & Hl & Ho & Hg). unfold log_ok. simpl. split_and!; [done|done|by apply ordered_a_delete|].
  intros k'. rewrite a_get_delete by done. rewrite Hg. unfold same_key. by rewrite (eqb_sym s.1 k k').
Qed.
Lemma log_build (cmp : cmpf) (items : list (bytes * V)) : lawful cmp -> forall s g, s.1 = cmp -> log_ok s g ->
  log_ok (cmp, fold_left (fun l x => a_insert cmp l x.1 x.2) items s.2) (g.1, rev (map (fun x => LIns x.1 x.2) items) ++ g.2).
Proof.
  intros Hl. induction items as [|[k v] items IH]; intros s g E Hok; simpl.
  { destruct s, g. simpl in *. subst. done. }
  rewrite <- app_assoc. simpl.
  pose proof (log_insert s g k v Hok) as H1. rewrite E in H1.
  exact (IH (cmp, a_insert cmp s.2 k v) (g.1, LIns k v :: g.2) eq_refl H1).
Qed.
Lemma log_nil cmp : lawful cmp -> log_ok (cmp, []) (cmp, []).
Proof. intros Hl. split_and!; simpl; [done|done|constructor|done]. Qed.
Lemma log_nth ss gs i : Forall2 log_ok ss gs -> log_ok (smaps_nth dflt ss i) (slogs_nth dflt gs i).
Proof using Hdflt.
  unfold smaps_nth, slogs_nth. intros H. revert i. induction H; intros [|i]; simpl; auto using log_nil.
Qed.
Lemma log_step (o : sop V) ss gs : sop_lawful o -> Forall2 log_ok ss gs -> Forall2 log_ok (sstep dflt ss o).1 (slog_step dflt gs o).
Proof using Hdflt.
  intros Ho H. destruct o as [cmp items|i k v|i k|i k|i|i]; simpl.
  - apply Forall2_app; [done|]. constructor; [|constructor]. simpl in Ho.
    pose proof (log_build cmp items Ho (cmp, []) (cmp, []) eq_refl (log_nil cmp Ho)) as H1.
    simpl in H1. by rewrite app_nil_r in H1.
  - pose proof (log_insert _ _ k v (log_nth _ _ i H)) as H1. destruct (smaps_nth dflt ss i) as [cmp l]; simpl in *.
    apply Forall2_app; [done|]. by constructor; [|constructor].
  - pose proof (log_delete _ _ k (log_nth _ _ i H)) as H1. destruct (smaps_nth dflt ss i) as [cmp l]; simpl in *.
    apply Forall2_app; [done|]. by constructor; [|constructor].
  - by destruct (smaps_nth dflt ss i).
  - done.
  - done.
Qed.
Lemma smaps_logs (ops : list (sop V)) : Forall sop_lawful ops -> forall ss gs, Forall2 log_ok ss gs ->
  Forall2 log_ok (smaps dflt ops ss) (fold_left (slog_step dflt) ops gs).
Proof using Hdflt.
  induction 1 as [|o ops Ho Hops IH]; intros ss gs H; simpl; [done|]. apply IH. by apply log_step.
Qed.
(** Every version of every history. *)
Lemma smap_log (ops : list (sop V)) i : Forall sop_lawful ops ->
  log_ok (smaps_nth dflt (smaps dflt ops []) i) (slogs_nth dflt (slogs dflt ops) i).
Proof using Hdflt. intros H. apply log_nth. apply smaps_logs; [done|constructor]. Qed.
End agree.
