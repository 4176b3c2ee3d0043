(** * Reading a Graphviz file. *)
From Verif Require Import Prog DotModel.
From Coq Require Import String.
Open Scope nat_scope.
Local Notation B := list_byte_of_string.
Local Notation n := Byte.to_N.

(** ** Words of the DOT language (graphviz.org/doc/info/lang.html): identifiers,
    strings in double quotes, -> and punctuation. Inside a string a backslash
    takes the next character with it; [TStr] has the characters between the quotes
    as they are in the file. *)
Inductive tok := TId (s : bytes) | TStr (s : bytes) | TArrow | TPunct (b : byte).
Inductive lstate := LNone | LId (s : bytes) | LStr (s : bytes) | LEsc (s : bytes) | LDash.
Definition between (lo hi b : byte) : bool := (n lo <=? n b)%N && (n b <=? n hi)%N.
Definition letter (b : byte) : bool := between "a" "z" b || between "A" "Z" b || Byte.eqb b "_".
Definition is_digit (b : byte) : bool := between "0" "9" b.
Definition space (b : byte) : bool := Byte.eqb b x20 || Byte.eqb b x09 || Byte.eqb b x0a || Byte.eqb b x0d.
Definition punct (b : byte) : bool := existsb (Byte.eqb b) (B "{}[]=,;").
(** A character where no word is under way. *)
Definition first_char (b : byte) : option (list tok * lstate) :=
  if space b then Some ([], LNone)
  else if letter b then Some ([], LId [b])
  else if Byte.eqb b """" then Some ([], LStr [])
  else if Byte.eqb b "-" then Some ([], LDash)
  else if punct b then Some ([TPunct b], LNone)
  else None.
Definition next_char (st : lstate) (b : byte) : option (list tok * lstate) :=
  match st with
  | LNone => first_char b
  | LId s =>
    if letter b || is_digit b then Some ([], LId (s ++ [b]))
    else match first_char b with Some (ts, st) => Some (TId s :: ts, st) | None => None end
  | LStr s =>
    if Byte.eqb b """" then Some ([TStr s], LNone)
    else if Byte.eqb b "\" then Some ([], LEsc (s ++ [b]))
    else Some ([], LStr (s ++ [b]))
  | LEsc s => Some ([], LStr (s ++ [b]))
  | LDash => if Byte.eqb b ">" then Some ([TArrow], LNone) else None
  end.
Fixpoint lex (st : lstate) (s : bytes) : option (list tok * lstate) :=
  match s with
  | [] => Some ([], st)
  | b :: s =>
    match next_char st b with
    | None => None
    | Some (ts, st) => match lex st s with None => None | Some (ts', st') => Some (ts ++ ts', st') end
    end
  end.
(** [s] consists of the words [ts] (and white space, at the end too). *)
Definition words (s : bytes) (ts : list tok) : Prop := lex LNone s = Some (ts, LNone).

(** ** Numbers. *)
Definition digit_value (b : byte) : option N :=
  if between "0" "9" b then Some (n b - 48)%N else if between "a" "f" b then Some (n b - 87)%N else None.
Fixpoint number_from (base acc : N) (s : bytes) : option N :=
  match s with
  | [] => Some acc
  | b :: s => match digit_value b with
              | Some d => if (d <? base)%N then number_from base (acc * base + d) s else None
              | None => None
              end
  end.
(** A number is not empty. *)
Definition number (base : N) (s : bytes) : option N := match s with [] => None | _ => number_from base 0 s end.

(** ** Escapes in Go's strings (Go specification, "Rune literals", "String literals"). *)
(** The bytes of a Unicode code point. *)
Definition byte_of (x : N) : byte := match Byte.of_N x with Some b => b | None => x00 end.
Definition utf8 (r : N) : bytes :=
  (if r <? 0x80 then [byte_of r]
   else if r <? 0x800 then [byte_of (0xc0 + r / 64); byte_of (0x80 + r mod 64)]
   else if r <? 0x10000 then [byte_of (0xe0 + r / 4096); byte_of (0x80 + r / 64 mod 64); byte_of (0x80 + r mod 64)]
   else [byte_of (0xf0 + r / 262144); byte_of (0x80 + r / 4096 mod 64); byte_of (0x80 + r / 64 mod 64); byte_of (0x80 + r mod 64)])%N.
Definition simple (c : byte) : option byte :=
  match c with
  | "a" => Some x07 | "b" => Some x08 | "f" => Some x0c | "n" => Some x0a | "r" => Some x0d | "t" => Some x09 | "v" => Some x0b
  | "\" => Some c | """" => Some c
  | _ => None
  end%byte.
Definition add (a : option bytes) (b : option bytes) : option bytes :=
  match a, b with Some a, Some b => Some (a ++ b) | _, _ => None end.
(** The string written as [s] between double quotes. *)
Fixpoint unescape (s : bytes) : option bytes :=
  match s with
  | [] => Some []
  | c :: s =>
    if Byte.eqb c "\" then
      match s with
      | d :: s1 =>
        if Byte.eqb d "x" then
          match s1 with
          | a :: b :: s => add (option_map (fun r => [byte_of r]) (number 16 [a; b])) (unescape s)
          | _ => None
          end
        else if Byte.eqb d "u" then
          match s1 with
          | a :: b :: c :: d :: s => add (option_map utf8 (number 16 [a; b; c; d])) (unescape s)
          | _ => None
          end
        else if Byte.eqb d "U" then
          match s1 with
          | a :: b :: c :: d :: e :: f :: g :: h :: s => add (option_map utf8 (number 16 [a; b; c; d; e; f; g; h])) (unescape s)
          | _ => None
          end
        else add (option_map (fun x => [x]) (simple d)) (unescape s1)
      | [] => None
      end
    else if Byte.eqb c """" then None
    else option_map (cons c) (unescape s)
  end.

(** ** The statements of the graph. [show x label extra]: what the line of a node
    says about it, as the text of the attribute label and the words after it. *)
Section graph.
Context {C : Type}.
Variable show : option C -> bytes -> list tok -> Prop.
Definition node_id (i : nat) (t : tok) : Prop := exists ds, t = TId (x4e :: ds) /\ number 10 ds = Some (N.of_nat i).
Inductive statement : dline C -> list tok -> Prop :=
| st_node i x ti s extra : node_id i ti -> show x s extra ->
    statement (DNode i x) ([ti; TPunct "["; TId (B "label"); TPunct "="; TStr s] ++ extra ++ [TPunct "]"])
| st_edge i a b ti ta tb : node_id i ti -> node_id a ta -> node_id b tb ->
    statement (DEdge i a b) [ti; TArrow; TPunct "{"; ta; tb; TPunct "}"].
(** The file [s] is a directed graph with the statements [ls]. *)
Definition graph (s : bytes) (ls : list (dline C)) : Prop := exists tss,
  words s ([TId (B "digraph"); TId (B "d"); TPunct "{"] ++ List.concat tss ++ [TPunct "}"]) /\ Forall2 statement ls tss.
End graph.

(** ** What is shown of nodes. *)
Section shown.
Context {U : Type}.
Variable gosyntax : value U -> bytes.
Definition attribute (a b : string) : list tok := [TId (B a); TPunct "="; TId (B b)].
(** strtree, dltree: key, value if it is not nil, and colour. *)
Inductive rb_shows : option (bytes * value U * bool) -> bytes -> list tok -> Prop :=
| rs_nil : rb_shows None (B "nil") (attribute "style" "filled" ++ attribute "fontcolor" "white" ++ attribute "fillcolor" "black")
| rs_key k v red q s extra : unescape q = Some k ->
    match v with
    | VNil => s = q
    | _ => exists w, unescape w = Some (gosyntax v) /\ s = B "k: \""" ++ q ++ B "\"" v: \""" ++ w ++ B "\"""
    end ->
    extra = attribute "style" "filled" ++
      (if (red : bool) then attribute "fillcolor" "red" else attribute "fontcolor" "white" ++ attribute "fillcolor" "black") ->
    rb_shows (Some (k, v, red)) s extra.
(** strtreeN: key, number and colour. *)
Inductive rb_shows_d (uint : value U -> N) : option (bytes * value U * bool) -> bytes -> list tok -> Prop :=
| rd_nil : rb_shows_d uint None (B "nil") (attribute "style" "filled" ++ attribute "fontcolor" "white" ++ attribute "fillcolor" "black")
| rd_key k v red q w extra : unescape q = Some k -> number 10 w = Some (uint v) ->
    extra = attribute "style" "filled" ++
      (if (red : bool) then attribute "fillcolor" "red" else attribute "fontcolor" "white" ++ attribute "fillcolor" "black") ->
    rb_shows_d uint (Some (k, v, red)) (B "k: \""" ++ q ++ B "\"" v: \""" ++ w ++ B "\""") extra.
(** numtree: key in hexadecimal (at least [w] digits), bits and, for a leaf, the value. *)
Inductive num_shows (w : nat) : option (N * N * option (value U)) -> bytes -> list tok -> Prop :=
| ns_nil : num_shows w None (B "nil") []
| ns_node key bits v ks bs tl : number 16 ks = Some key -> w <= List.length ks -> number 10 bs = Some bits ->
    match v with
    | None => tl = []
    | Some v => exists q, unescape q = Some (gosyntax v) /\ tl = B ", v: \""" ++ q ++ B "\"""
    end ->
    num_shows w (Some (key, bits, v)) (B "k: " ++ ks ++ B ", b: " ++ bs ++ tl) [].
End shown.
