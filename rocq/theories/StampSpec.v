(** * Specification: which versions of a radix tree an in-place insertion reaches.
    Independent of the model. *)
From Verif Require Import Prog NumSpec NumNavSpec VersSpec.
Open Scope N_scope.

(** ** Deciding the predicates used below. *)
Global Instance occupied_dec {U} (m : nmap U) q : Decision (occupied m q).
Proof.
  destruct (decide (Exists (fun x => covers q x.1) (map_to_list m))) as [H|H]; [left|right].
  - apply Exists_exists in H as ([p x] & Hin & Hc). exists p, x. split; [by apply elem_of_map_to_list|done].
  - intros (p & x & E & Hc). apply H, Exists_exists. exists (p, x). split; [by apply elem_of_map_to_list|done].
Defined.
Global Instance branching_dec {U} (m : nmap U) q : Decision (branching m q).
Proof. unfold branching. apply _. Defined.

Section spec.
Context {U : Type}.
Variable W : N.
Local Notation nmap := (gmap pfx (N * value U)).

(** A version: what it stores, and for each prefix at which it branches or stores
    something the number of the call that made this part of it. *)
Record ver := Ver { content : nmap; since : pfx -> nat }.
Definition ver0 : ver := Ver ∅ (fun _ => 0%nat).

(** [X] is the longest prefix of [q] at which [m] branches or stores something. *)
Definition lowest (m : nmap) (q X : pfx) : Prop :=
  branching m X /\ covers X q /\ forall Y, branching m Y -> covers Y q -> covers Y X.
(** The two versions have the part around [q] from the same call. *)
Definition sharing (g1 g2 : ver) (q : pfx) : Prop :=
  exists X, lowest (content g1) q X /\ branching (content g2) X /\ since g1 X = since g2 X.

(** The version made by call number [n] from [g]: the parts around [q] are new. *)
Definition remade (n : nat) (g : ver) (q : pfx) (m' : nmap) : ver :=
  Ver m' (fun X => if decide (covers X q) then n else since g X).
(** What in-place insertion makes of a version it reaches: only the parts that were not there are new. *)
Definition updated (n : nat) (g : ver) (key len : N) (v : value U) : ver :=
  Ver (s_insert W (content g) key len v) (fun X => if decide (branching (content g) X) then since g X else n).

(** Call number [n]. *)
Inductive sstep (n : nat) (gs : list ver) : vop U -> list ver -> nout U -> Prop :=
| ss_insert i key bits v :
    sstep n gs (VCall (NInsert i key bits v))
      (gs ++ [remade n (nth i gs ver0) (norm W key (adj W bits)) (s_insert W (content (nth i gs ver0)) key (adj W bits) v)]) ONone
| ss_delete i key bits : s_deleted W (content (nth i gs ver0)) key (adj W bits) true ->
    sstep n gs (VCall (NDelete i key bits))
      (gs ++ [remade n (nth i gs ver0) (norm W key (adj W bits)) (s_delete W (content (nth i gs ver0)) key (adj W bits))]) (OBool true)
| ss_delete_not i key bits : s_deleted W (content (nth i gs ver0)) key (adj W bits) false ->
    sstep n gs (VCall (NDelete i key bits)) (gs ++ [nth i gs ver0]) (OBool false)
| ss_match i key bits r : s_longest (content (nth i gs ver0)) (norm W key (adj W bits)) r ->
    sstep n gs (VCall (NMatch i key bits)) gs (OVal r)
| ss_exact i key bits :
    sstep n gs (VCall (NExact i key bits)) gs (OVal (s_exact W (content (nth i gs ver0)) key (adj W bits)))
| ss_enumerate i l : s_enum W (content (nth i gs ver0)) l ->
    sstep n gs (VCall (NEnumerate i)) gs (OList l)
| ss_inplace i key bits v gs' : length gs' = length gs ->
    (forall j, (j < length gs)%nat ->
       (j = i \/ sharing (nth i gs ver0) (nth j gs ver0) (norm W key (adj W bits)) -> nth j gs' ver0 = updated n (nth j gs ver0) key (adj W bits) v) /\
       (j <> i -> ~ sharing (nth i gs ver0) (nth j gs ver0) (norm W key (adj W bits)) -> nth j gs' ver0 = nth j gs ver0)) ->
    sstep n gs (VInplace i key bits v) gs' ONone.

(** A history; the calls are numbered from [n]. *)
Fixpoint srun (n : nat) (ops : list (vop U)) (gs gs' : list ver) (outs : list (nout U)) : Prop :=
  match ops, outs with
  | [], [] => gs' = gs
  | o :: ops, x :: outs => exists gs1, sstep n gs o gs1 x /\ srun (S n) ops gs1 gs' outs
  | _, _ => False
  end.
End spec.
Global Arguments ver : clear implicits.
Global Arguments ver0 : clear implicits.
