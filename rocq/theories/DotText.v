(** * The text of Dot: what package fmt makes of the lines of DotModel.v.

    Of package fmt: %d, %08x, %016x of unsigned numbers, %s and %q of strings
    (package strconv, Quote), from documentation and source of Go's standard
    library. Two things remain parameters: [is_print], strconv.IsPrint (a table of
    Unicode), and [gosyntax], the verb %#v of a value. *)
From Verif Require Import Prog RbModel NumModel IpModel DotModel.
From Coq Require Import String.
Open Scope N_scope.
Local Notation B := list_byte_of_string.

(** ** Numbers. *)
(** A digit: '0' to '9', 'a' to 'f'. *)
Definition digit (d : N) : byte := n2b (if d <? 10 then 48 + d else 87 + d).
(** fmt.fmtInteger: from the last digit on, at least one. *)
Fixpoint digits_loop (base : N) (fuel : nat) (n : N) (acc : bytes) : bytes :=
  match fuel with
  | O => acc
  | S fuel => let acc := digit (n mod base) :: acc in if n / base =? 0 then acc else digits_loop base fuel (n / base) acc
  end.
(** Sufficient fuel: the number of binary digits. *)
Definition digits (base n : N) : bytes := digits_loop base (S (N.size_nat n)) n [].
(** %d *)
Definition fmt_d (n : N) : bytes := digits 10 n.
(** %0<w>x *)
Definition fmt_x (w : nat) (n : N) : bytes := let ds := digits 16 n in repeat x30 (w - List.length ds) ++ ds.

(** ** UTF-8. *)
Definition cont (b : byte) : bool := (0x80 <=? b2n b) && (b2n b <=? 0xbf).
(** utf8.DecodeRuneInString of a string whose first byte is 0x80 or more, with the
    tables [first] and [acceptRanges] written out; None: (RuneError, 1). *)
Definition decode (s : bytes) : option (N * nat) :=
  let maskx := 0x3f in
  match s with
  | [] => None
  | b0 :: s =>
    let x := b2n b0 in
    if (0xc2 <=? x) && (x <=? 0xdf) then
      match s with
      | b1 :: _ => if cont b1 then Some (N.lor (N.shiftl (N.land x 0x1f) 6) (N.land (b2n b1) maskx), 2%nat) else None
      | _ => None
      end
    else if (0xe0 <=? x) && (x <=? 0xef) then
      let lo := if x =? 0xe0 then 0xa0 else 0x80 in
      let hi := if x =? 0xed then 0x9f else 0xbf in
      match s with
      | b1 :: b2 :: _ =>
        if (lo <=? b2n b1) && (b2n b1 <=? hi) && cont b2 then
          Some (N.lor (N.lor (N.shiftl (N.land x 0x0f) 12) (N.shiftl (N.land (b2n b1) maskx) 6)) (N.land (b2n b2) maskx), 3%nat)
        else None
      | _ => None
      end
    else if (0xf0 <=? x) && (x <=? 0xf4) then
      let lo := if x =? 0xf0 then 0x90 else 0x80 in
      let hi := if x =? 0xf4 then 0x8f else 0xbf in
      match s with
      | b1 :: b2 :: b3 :: _ =>
        if (lo <=? b2n b1) && (b2n b1 <=? hi) && cont b2 && cont b3 then
          Some (N.lor (N.lor (N.lor (N.shiftl (N.land x 0x07) 18) (N.shiftl (N.land (b2n b1) maskx) 12))
                             (N.shiftl (N.land (b2n b2) maskx) 6)) (N.land (b2n b3) maskx), 4%nat)
        else None
      | _ => None
      end
    else None
  end.
(** utf8.AppendRune. [r] is a rune that [decode] returns or less than 0x80: the
    case of invalid runes is left out. *)
Definition append_rune (r : N) : bytes :=
  if r <=? 0x7f then [n2b r]
  else if r <=? 0x7ff then [n2b (N.lor 0xc0 (N.shiftr r 6)); n2b (N.lor 0x80 (N.land r 0x3f))]
  else if r <=? 0xffff then
    [n2b (N.lor 0xe0 (N.shiftr r 12)); n2b (N.lor 0x80 (N.land (N.shiftr r 6) 0x3f)); n2b (N.lor 0x80 (N.land r 0x3f))]
  else
    [n2b (N.lor 0xf0 (N.shiftr r 18)); n2b (N.lor 0x80 (N.land (N.shiftr r 12) 0x3f));
     n2b (N.lor 0x80 (N.land (N.shiftr r 6) 0x3f)); n2b (N.lor 0x80 (N.land r 0x3f))].

Section text.
Context {U : Type}.
Variable is_print : N -> bool.
Variable gosyntax : value U -> bytes.

(** ** strconv.Quote *)
(** [n] hexadecimal digits of [r], from the first: "for s := 4*n-4; s >= 0; s -= 4
    { buf = append(buf, lowerhex[r>>uint(s)&0xF]) }". *)
Fixpoint hex_of (n : nat) (r : N) : bytes :=
  match n with O => [] | S n => digit (N.land (N.shiftr r (4 * N.of_nat n)) 0xf) :: hex_of n r end.
(** strconv.appendEscapedRune with double quotes. *)
Definition escaped_rune (r : N) : bytes :=
  if (r =? 0x22) || (r =? 0x5c) then [x5c; n2b r]
  else if is_print r then append_rune r
  else if r =? 7 then B "\a"
  else if r =? 8 then B "\b"
  else if r =? 12 then B "\f"
  else if r =? 10 then B "\n"
  else if r =? 13 then B "\r"
  else if r =? 9 then B "\t"
  else if r =? 11 then B "\v"
  else if (r <? 32) || (r =? 0x7f) then B "\x" ++ hex_of 2 r
  else if r <? 0x10000 then B "\u" ++ hex_of 4 r
  else B "\U" ++ hex_of 8 r.
(** strconv.appendQuotedWith, the loop: without the quotes at either end, which
    dotString cuts off ([1:len(k)-1]) or puts back. *)
Fixpoint quoted (fuel : nat) (s : bytes) : bytes :=
  match fuel, s with
  | S fuel, b :: t =>
    if b2n b <? 0x80 then escaped_rune (b2n b) ++ quoted fuel t
    else match decode s with
         | None => B "\x" ++ hex_of 2 (b2n b) ++ quoted fuel t
         | Some (r, w) => escaped_rune r ++ quoted fuel (skipn w s)
         end
  | _, _ => []
  end.
Definition quote (s : bytes) : bytes := quoted (List.length s) s.

(** ** dotString *)
(** strtree/node.go:41-58, dltree/node.go:46-63 *)
Definition rb_string (x : option (bytes * value U * bool)) : bytes :=
  match x with
  | None => B "[label=""nil"" style=filled fontcolor=white fillcolor=black]"
  | Some (key, v, red) =>
    let k := match v with
             | VNil => B """" ++ quote key ++ B """"
             | _ => B """k: \""" ++ quote key ++ B "\"" v: \""" ++ quote (gosyntax v) ++ B "\"""""
             end in
    let color := if (red : bool) then B "fillcolor=red" else B "fontcolor=white fillcolor=black" in
    B "[label=" ++ k ++ B " style=filled " ++ color ++ B "]"
  end.
(** uintX/strtree8/node.go:43-57 (16, 32, 64 the same): the value is a number, printed with %d.
    [uint] is the number stored (the parametric value type stands for uint8 to uint64). *)
Definition rb_string_d (uint : value U -> N) (x : option (bytes * value U * bool)) : bytes :=
  match x with
  | None => B "[label=""nil"" style=filled fontcolor=white fillcolor=black]"
  | Some (key, v, red) =>
    let k := B """k: \""" ++ quote key ++ B "\"" v: \""" ++ fmt_d (uint v) ++ B "\""""" in
    let color := if (red : bool) then B "fillcolor=red" else B "fontcolor=white fillcolor=black" in
    B "[label=" ++ k ++ B " style=filled " ++ color ++ B "]"
  end.
(** numtree/node32.go:184-195 ([w] = 8), numtree/node64.go:175-186 ([w] = 16). (The copies in
    uintX/iptreeN are methods of types that are not exported, and never called.) *)
Definition num_string (w : nat) (x : option (N * N * option (value U))) : bytes :=
  match x with
  | None => B "[label=""nil""]"
  | Some (key, bits, Some v) =>
    B "[label=""k: " ++ fmt_x w key ++ B ", b: " ++ fmt_d bits ++ B ", v: \""" ++ quote (gosyntax v) ++ B "\""""]"
  | Some (key, bits, None) => B "[label=""k: " ++ fmt_x w key ++ B ", b: " ++ fmt_d bits ++ B """]"
  end.

(** ** The text. strtree/node.go:26,30 (and the same lines of the others). *)
Definition line_text {C} (show : option C -> bytes) (l : dline C) : bytes :=
  match l with
  | DNode i x => B "N" ++ fmt_d (N.of_nat i) ++ B " " ++ show x ++ [x0a]
  | DEdge i a b => B "N" ++ fmt_d (N.of_nat i) ++ B " -> { N" ++ fmt_d (N.of_nat a) ++ B " N" ++ fmt_d (N.of_nat b) ++ B " }" ++ [x0a]
  end.
(** strtree/strtree.go:103, dltree/dltree.go:147, numtree/node32.go:60 *)
Definition dot_text {C} (show : option C -> bytes) (ls : list (dline C)) : bytes :=
  B "digraph d {" ++ [x0a] ++ List.concat (map (line_text show) ls) ++ B "}" ++ [x0a].
(** strtree/strtree.go:95-104, dltree/dltree.go:139-148, numtree/node32.go:39-61, numtree/node64.go:46-68 *)
Definition str_dot_text (fuel : nat) (t : ptr) : prog U bytes := ls <- str_dot fuel t ;; Ret (dot_text rb_string ls).
(** uintX/strtree8/strtree.go:97-106 *)
Definition str_dot_text_d (uint : value U -> N) (fuel : nat) (t : ptr) : prog U bytes := ls <- str_dot fuel t ;; Ret (dot_text (rb_string_d uint) ls).
Definition dl_dot_text (fuel : nat) (t : ptr) : prog U bytes := ls <- dl_dot fuel t ;; Ret (dot_text rb_string ls).
Definition n_dot_text (w : nat) (fuel : nat) (t : ptr) : prog U bytes := ls <- n_dot fuel t ;; Ret (dot_text (num_string w) ls).
End text.
