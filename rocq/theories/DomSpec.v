(** * The grammar of domain names in text form, independent of the scanners of
    the model. *)
From Verif Require Import Prog.

Definition c_dot : byte := Byte.x2e.
Definition c_bslash : byte := Byte.x5c.
(** [c] is the ASCII digit for [d]. *)
Definition digit (c : byte) (d : N) : Prop := (d <= 9)%N /\ Byte.to_N c = (48 + d)%N.

(** A text is a sequence of words: a dot, a plain byte, a backslash before a
    non-digit, or a backslash with three digits giving the code of a byte. *)
Inductive tok := TDot | TByte (b : byte).
Inductive spells : bytes -> tok -> Prop :=
| sp_dot : spells [c_dot] TDot
| sp_plain c : c <> c_dot -> c <> c_bslash -> spells [c] (TByte c)
| sp_char c : (forall d, ~ digit c d) -> spells [c_bslash; c] (TByte c)
| sp_code c1 c2 c3 d1 d2 d3 b : digit c1 d1 -> digit c2 d2 -> digit c3 d3 ->
    Byte.to_N b = (100 * d1 + 10 * d2 + d3)%N -> spells [c_bslash; c1; c2; c3] (TByte b).
Inductive toks : bytes -> list tok -> Prop :=
| toks_nil : toks [] []
| toks_cons w t s ts : spells w t -> toks s ts -> toks (w ++ s) (t :: ts).

(** A text at which no word begins. *)
Definition bad_escape (r : bytes) : Prop := r <> [] /\ forall w t r', spells w t -> r <> w ++ r'.

(** Text of one label. *)
Definition label_text (s l : bytes) : Prop := toks s (map TByte l).
(** Labels, left to right, separated by dots; each followed by a dot. *)
Fixpoint dotted (ls : list bytes) : list tok :=
  match ls with
  | [] => []
  | [l] => map TByte l
  | l :: ls => map TByte l ++ TDot :: dotted ls
  end.
Definition terminated (ls : list bytes) : list tok := concat (map (fun l => map TByte l ++ [TDot]) ls).

(** [s] is the text of the labels [ls] (left to right): separated by dots,
    none empty, possibly with a final dot. The root is "" or ".". *)
Definition denotes (s : bytes) (ls : list bytes) : Prop :=
  Forall (fun l => l <> []) ls /\ (toks s (dotted ls) \/ toks s (dotted ls ++ [TDot])).

(** ASCII upper case. *)
Definition upper (c : byte) : byte :=
  if ((97 <=? Byte.to_N c) && (Byte.to_N c <=? 122))%N
  then match Byte.of_N (Byte.to_N c - 32) with Some b => b | None => c end else c.
(** The labels as a name holds them: upper case, from the right end. *)
Definition canon (ls : list bytes) : list bytes := rev (map (map upper) ls).

(** RFC limits. *)
Definition name_size (ls : list bytes) : nat := list_sum (map (fun l => S (length l)) ls).
Definition within_limits (ls : list bytes) : Prop :=
  length ls <= 127 /\ Forall (fun l => length l <= 63) ls /\ name_size ls <= 255.

(** The binary form: each label after a byte with its length. *)
Definition len_byte (n : nat) : byte := match Byte.of_N (N.of_nat n) with Some b => b | None => Byte.x00 end.
Definition wire (ls : list bytes) : bytes := concat (map (fun l => len_byte (length l) :: l) ls).

(** ** What the errors mean. *)
(** The labels of a name are taken from the right; these can be taken. *)
Definition fits (ls : list bytes) : Prop := Forall (fun l => length l <= 63) ls /\ name_size ls <= 255.
(** A label is too long, the labels to its right are fine. *)
Definition too_long_label (s : bytes) : Prop :=
  exists ls a l b, denotes s ls /\ length ls <= 127 /\ ls = a ++ l :: b /\ fits b /\ 63 < length l.
(** All labels fit one by one, but not together. *)
Definition too_long_name (s : bytes) : Prop :=
  exists ls a l b, denotes s ls /\ length ls <= 127 /\ ls = a ++ l :: b /\ fits b /\ length l <= 63 /\ 255 < name_size (l :: b).
(** [s] begins with the labels [ls], each followed by a dot, then goes on with [r]. *)
Definition begins (s : bytes) (ls : list bytes) (r : bytes) : Prop :=
  Forall (fun l => l <> []) ls /\ exists p, toks p (terminated ls) /\ s = p ++ r.
(** A dot where a label should begin (except for the name "."). *)
Definition empty_label (s : bytes) : Prop :=
  s <> [c_dot] /\ exists ls r, begins s ls (c_dot :: r) /\ length ls <= 127.
(** After some labels and the beginning of one more, a bad escape. *)
Definition bad_escape_in (s : bytes) : Prop :=
  exists ls w l r, begins s ls (w ++ r) /\ length ls <= 127 /\ label_text w l /\ bad_escape r.
(** More than 127 labels, or 127 and one more without dot. *)
Definition too_many (s : bytes) : Prop :=
  exists ls r, begins s ls r /\ (127 < length ls \/ (length ls = 127 /\ exists l, l <> [] /\ label_text r l)).

(** ** Iteration over labels. *)
(** [g] sees the labels in order until it answers [false]. *)
Fixpoint visit_pure {S} (g : S -> bytes -> S * bool) (ls : list bytes) (st : S) : S * bool :=
  match ls with
  | [] => (st, true)
  | l :: ls => if (g st l).2 then visit_pure g ls (g st l).1 else ((g st l).1, false)
  end.
(** ** Printed labels: the number of bytes a byte of a label needs. *)
Definition human_size (c : byte) : nat :=
  if Byte.eqb c c_dot || Byte.eqb c c_bslash then 2
  else if (Byte.to_N c <? 33)%N || (126 <? Byte.to_N c)%N then 4 else 1.
