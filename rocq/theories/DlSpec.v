(** * Specification of dltree: versions are finite maps from binary labels; keys
    are given in binary or in text form. *)
From Verif Require Import Prog RbSpec RbModel StrSpec DomSpec.

(** ** Keys. *)
Inductive dkey := KRaw (k : bytes) | KText (s : bytes).
(** Text that is no label: too long, or a bad escape in its first 63 bytes. *)
Definition invalid_label (s : bytes) : Prop :=
  (exists w l r, s = w ++ r /\ label_text w l /\ 63 < length l) \/
  (exists w l r, s = w ++ r /\ label_text w l /\ length l <= 63 /\ bad_escape r).
(** The label a text denotes: with or without final dot, in upper case. *)
Definition label_of (s m : bytes) : Prop :=
  exists l, (label_text s l \/ exists w, s = w ++ [c_dot] /\ label_text w l) /\ length l <= 63 /\ m = map upper l.
(** The binary label the tree uses; invalid text stands for the empty label. (Text
    with a dot inside stands for nothing: MakeLabel panics.) *)
Inductive key_is : dkey -> bytes -> Prop :=
| ki_raw k : key_is (KRaw k) k
| ki_text s m : label_of s m -> key_is (KText s) m
| ki_invalid s : invalid_label s -> key_is (KText s) [].

(** ** Client operations on versions, as in StrSpec.v. *)
Inductive dop (V : Type) :=
| DBuild (items : list (dkey * V))
| DInsert (i : nat) (k : dkey) (v : V)
| DDelete (i : nat) (k : dkey)
| DGet (i : nat) (k : dkey)
| DEnumerate (i : nat)
| DIsEmpty (i : nat).
Global Arguments DBuild {V}.
Global Arguments DInsert {V}.
Global Arguments DDelete {V}.
Global Arguments DGet {V}.
Global Arguments DEnumerate {V}.
Global Arguments DIsEmpty {V}.
(** The same operation on binary labels. *)
Inductive resolves {V} : dop V -> sop V -> Prop :=
| rs_build items items' : Forall2 (fun x y => key_is x.1 y.1 /\ x.2 = y.2) items items' ->
    resolves (DBuild items) (SBuild dl_compare items')
| rs_insert i k k' v : key_is k k' -> resolves (DInsert i k v) (SInsert i k' v)
| rs_delete i k k' : key_is k k' -> resolves (DDelete i k) (SDelete i k')
| rs_get i k k' : key_is k k' -> resolves (DGet i k) (SGet i k')
| rs_enumerate i : resolves (DEnumerate i) (SEnumerate i)
| rs_is_empty i : resolves (DIsEmpty i) (SIsEmpty i).

(** The log of a version; the newest entry with exactly this key decides. *)
Definition bytes_eqb (a b : bytes) : bool := if List.list_eq_dec Byte.byte_eq_dec a b then true else false.
Fixpoint klog_get {V} (l : list (lop V)) (k : bytes) : option V :=
  match l with
  | [] => None
  | LIns k' v :: l => if bytes_eqb k' k then Some v else klog_get l k
  | LDel k' :: l => if bytes_eqb k' k then None else klog_get l k
  end.
Definition dl_log {V} (ops : list (sop V)) (ver : nat) : list (lop V) := (slogs_nth dl_compare (slogs dl_compare ops) ver).2.
