(** * Specification of radix trees as finite maps from prefixes.
    Independent of the model. *)
From Coq Require Export Sorted.
From Verif Require Import Prog.
Open Scope N_scope.

(** A prefix: its length and the number formed by its bits. *)
Definition pfx := (N * N)%type.
(** The prefix of length [len] of a [W]-bit key. *)
Definition norm (W key len : N) : pfx := (len, key / 2 ^ (W - len)).
(** First key having the prefix. *)
Definition start (W : N) (q : pfx) : N := q.2 * 2 ^ (W - q.1).
(** [p] is an initial part of [q]: p "contains" q. *)
Definition covers (p q : pfx) : Prop := p.1 <= q.1 /\ q.2 / 2 ^ (q.1 - p.1) = p.2.
Global Instance covers_dec p q : Decision (covers p q).
Proof. unfold covers. apply _. Defined.
(** Lengths out of range are taken to the nearest end of [0..W]. *)
Definition adj (W : N) (bits : Z) : N := Z.to_N (Z.max 0 (Z.min bits (Z.of_N W))).

Section spec.
Context {U : Type}.
Local Notation value := (value U).
Variable W : N.

(** What a tree stores: for each prefix the key it was last inserted with (bits
    beyond the prefix included) and the value. *)
Local Notation nmap := (gmap pfx (N * value)).

Definition s_insert (m : nmap) (key len : N) (v : value) : nmap := <[norm W key len := (key, v)]> m.
Definition s_delete (m : nmap) (key len : N) : nmap := filter (fun x => ~ covers (norm W key len) x.1) m.
Definition s_deleted (m : nmap) (key len : N) (flag : bool) : Prop :=
  flag = true <-> exists q, is_Some (m !! q) /\ covers (norm W key len) q.
Definition s_exact (m : nmap) (key len : N) : value * bool :=
  match m !! norm W key len with Some x => (x.2, true) | None => (VNil, false) end.
(** The longest stored prefix covering [q]. *)
Definition s_longest (m : nmap) (q : pfx) (r : value * bool) : Prop :=
  (exists p k v, m !! p = Some (k, v) /\ covers p q /\ r = (v, true) /\
     forall p' x, m !! p' = Some x -> covers p' q -> p'.1 <= p.1) \/
  (r = (VNil, false) /\ forall p x, m !! p = Some x -> ~ covers p q).

Definition nentry := (N * N * value)%type.
Definition nentry_lt (e1 e2 : nentry) : Prop :=
  let a1 := start W (norm W e1.1.1 e1.1.2) in
  let a2 := start W (norm W e2.1.1 e2.1.2) in
  a1 < a2 \/ (a1 = a2 /\ e1.1.2 < e2.1.2).
Definition s_enum (m : nmap) (l : list nentry) : Prop :=
  StronglySorted nentry_lt l /\
  forall q k v, m !! q = Some (k, v) <-> ((k, q.1, v) ∈ l /\ q = norm W k q.1).

Inductive nop :=
| NInsert (ver : nat) (key : N) (bits : Z) (v : value)
| NDelete (ver : nat) (key : N) (bits : Z)
| NMatch (ver : nat) (key : N) (bits : Z)
| NExact (ver : nat) (key : N) (bits : Z)
| NEnumerate (ver : nat).

(** keys are uintW *)
Definition nop_ok (o : nop) : Prop :=
  match o with
  | NInsert _ key _ _ | NDelete _ key _ | NMatch _ key _ | NExact _ key _ => key < 2 ^ W
  | NEnumerate _ => True
  end.

Inductive nout := ONone | OBool (b : bool) | OVal (r : value * bool) | OList (l : list nentry).

Definition nstep (ms : list nmap) (o : nop) (ms' : list nmap) (x : nout) : Prop :=
  match o with
  | NInsert i key bits v =>
    ms' = ms ++ [s_insert (nth i ms ∅) key (adj W bits) v] /\ x = ONone
  | NDelete i key bits =>
    ms' = ms ++ [s_delete (nth i ms ∅) key (adj W bits)] /\
    exists b, x = OBool b /\ s_deleted (nth i ms ∅) key (adj W bits) b
  | NMatch i key bits =>
    ms' = ms /\ exists r, x = OVal r /\ s_longest (nth i ms ∅) (norm W key (adj W bits)) r
  | NExact i key bits => ms' = ms /\ x = OVal (s_exact (nth i ms ∅) key (adj W bits))
  | NEnumerate i => ms' = ms /\ exists l, x = OList l /\ s_enum (nth i ms ∅) l
  end.

(** The contents of all versions after a history. *)
Fixpoint n_contents (ops : list nop) (ms : list nmap) : list nmap :=
  match ops with
  | [] => ms
  | NInsert i key bits v :: ops => n_contents ops (ms ++ [s_insert (nth i ms ∅) key (adj W bits) v])
  | NDelete i key bits :: ops => n_contents ops (ms ++ [s_delete (nth i ms ∅) key (adj W bits)])
  | _ :: ops => n_contents ops ms
  end.
End spec.
Notation nmap U := (gmap pfx (N * value U)).
Global Arguments nop : clear implicits.
Global Arguments nout : clear implicits.
