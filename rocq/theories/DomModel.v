(** * Model of package domain (domain/label.go, domain/name.go): labels and names
    as byte strings. Not modelled: the text of the panic messages. *)
From Verif Require Import Prog.

(** domain/name.go:10-21 *)
Inductive derr := ErrTooManyLabels | ErrEmptyLabel | ErrLabelTooLong | ErrNameTooLong | ErrInvalidEscape.
(** Outcome of a Go function with an error result; [DPanic] is a runtime or
    explicit panic. *)
Inductive dres (A : Type) := DOk (a : A) | DErr (e : derr) | DPanic.
Global Arguments DOk {A}.
Global Arguments DErr {A}.
Global Arguments DPanic {A}.

(** domain/name.go:29-36 *)
Definition max_name : nat := 255.
Definition max_labels : nat := 127.
Definition max_label : nat := 63.

(** Bytes as numbers; conversion to [byte] truncates like Go's. *)
Definition bN (c : byte) : N := Byte.to_N c.
Definition ofN (n : N) : byte := match Byte.of_N (n mod 256) with Some b => b | None => Byte.x00 end.
Definition dot : byte := Byte.x2e.
Definition bslash : byte := Byte.x5c.
Definition is_digit (c : byte) : bool := (48 <=? bN c)%N && (bN c <=? 57)%N.
Definition is_lower (c : byte) : bool := (97 <=? bN c)%N && (bN c <=? 122)%N.
Definition is_upper (c : byte) : bool := (65 <=? bN c)%N && (bN c <=? 90)%N.
(** [if c >= 'a' && c <= 'z' { c &= 0xdf }], domain/label.go:171-173, 195-197, 239-241 *)
Definition fold_case (c : byte) : byte := if is_lower c then ofN (N.land (bN c) 0xdf) else c.

(** domain/label.go:8-13 *)
Inductive esc := EReg | EFirst | ESecond | EThird.

(** domain/label.go:77-157 markLabels: [s] is the rest of the string from index
    [i]; [offs] the offsets stored so far; [cap] is [len(offs)] of the code. *)
Fixpoint mark_loop (cap : nat) (s : bytes) (i start : nat) (e : esc) (code : N) (offs : list nat) : dres (list nat) :=
  match s with
  | [] =>
    match e with
    | EReg =>
      if start <? i then
        if cap <=? length offs then DErr ErrTooManyLabels else DOk (offs ++ [start])
      else DOk offs
    | _ => DErr ErrInvalidEscape
    end
  | c :: s =>
    match e with
    | EReg =>
      if Byte.eqb c dot then
        if i <=? start then DErr ErrEmptyLabel
        else if cap <=? length offs then DErr ErrTooManyLabels
        else mark_loop cap s (S i) (S i) EReg code (offs ++ [start])
      else if Byte.eqb c bslash then mark_loop cap s (S i) start EFirst code offs
      else mark_loop cap s (S i) start EReg code offs
    | EFirst =>
      if negb (is_digit c) then mark_loop cap s (S i) start EReg code offs
      else let code := ((bN c - 48) * 100)%N in
           if (255 <? code)%N then DErr ErrInvalidEscape
           else mark_loop cap s (S i) start ESecond code offs
    | ESecond =>
      if negb (is_digit c) then DErr ErrInvalidEscape
      else let code := (code + (bN c - 48) * 10)%N in
           if (255 <? code)%N then DErr ErrInvalidEscape
           else mark_loop cap s (S i) start EThird code offs
    | EThird =>
      if negb (is_digit c) then DErr ErrInvalidEscape
      else let code := (code + (bN c - 48))%N in
           if (255 <? code)%N then DErr ErrInvalidEscape
           else mark_loop cap s (S i) start EReg code offs
    end
  end.
Definition mark_labels (s : bytes) : dres (list nat) := mark_loop max_labels s 0 0 EReg 0 [].

(** [if j >= len(out) { return 0, ErrLabelTooLong }; out[j] = c; j++], here [acc]
    is [out[1:j]] and [cap] is [len(out)]. *)
Definition put (cap : nat) (acc : bytes) (c : byte) (k : bytes -> dres bytes) : dres bytes :=
  if cap <=? S (length acc) then DErr ErrLabelTooLong else k (acc ++ [fold_case c]).

(** domain/label.go:159-261 getLabel; the result is [out[1:j]], [out[0]] is its
    length. *)
Fixpoint label_loop (cap : nat) (s : bytes) (e : esc) (code : N) (acc : bytes) : dres bytes :=
  match s with
  | [] => match e with EReg => DOk acc | _ => DErr ErrInvalidEscape end
  | c :: s =>
    match e with
    | EReg =>
      if Byte.eqb c dot then match s with [] => DOk acc | _ => DPanic end
      else if Byte.eqb c bslash then label_loop cap s EFirst code acc
      else put cap acc c (label_loop cap s EReg code)
    | EFirst =>
      if negb (is_digit c) then put cap acc c (label_loop cap s EReg code)
      else let code := ((bN c - 48) * 100)%N in
           if (255 <? code)%N then DErr ErrInvalidEscape
           else label_loop cap s ESecond code acc
    | ESecond =>
      if negb (is_digit c) then DErr ErrInvalidEscape
      else let code := (code + (bN c - 48) * 10)%N in
           if (255 <? code)%N then DErr ErrInvalidEscape
           else label_loop cap s EThird code acc
    | EThird =>
      if negb (is_digit c) then DErr ErrInvalidEscape
      else let code := (code + (bN c - 48))%N in
           if (255 <? code)%N then DErr ErrInvalidEscape
           else put cap acc (ofN code) (label_loop cap s EReg code)
    end
  end.
Definition get_label (s : bytes) : dres bytes := label_loop (S max_label) s EReg 0 [].

(** domain/label.go:16-25 MakeLabel; with an error the string result is "". *)
Definition make_label (s : bytes) : dres bytes := get_label s.
(** [dl, _ := domain.MakeLabel(key)]: the label, the error dropped. *)
Definition label_or_empty (s : bytes) : option bytes :=
  match make_label s with DOk l => Some l | DErr _ => Some [] | DPanic => None end.

(** domain/label.go:28-75 MakeHumanReadableLabel: [acc] is [label[:j]];
    [None] is the index panic of [label[j] = c | 0x20]. *)
Definition max_human : nat := 4 * max_label.
Fixpoint human_loop (s : bytes) (acc : bytes) : option bytes :=
  match s with
  | [] => Some acc
  | c :: s =>
    if Byte.eqb c dot || Byte.eqb c bslash then
      if max_human - 1 <=? length acc then Some acc
      else human_loop s (acc ++ [bslash; c])
    else if (bN c <? 33)%N || (126 <? bN c)%N then
      if max_human - 3 <=? length acc then Some acc
      else human_loop s (acc ++ [bslash; ofN (bN c / 10 / 10 + 48); ofN (bN c / 10 mod 10 + 48); ofN (bN c mod 10 + 48)])
    else if is_upper c then
      if length acc <? max_human then human_loop s (acc ++ [ofN (N.lor (bN c) 0x20)]) else None
    else
      if max_human <=? length acc then Some acc
      else human_loop s (acc ++ [c])
  end.
Definition make_human_label (s : bytes) : option bytes := human_loop s [].

(** domain/name.go:24-27 type Name *)
Record name := Name { nm_h : bytes; nm_c : bytes }.

(** [s[a:b]]; [None] is the slice panic. *)
Definition slice (s : bytes) (a b : nat) : option bytes :=
  if (a <=? b) && (b <=? length s) then Some (firstn (b - a) (skipn a s)) else None.

(** domain/name.go:62-79: the labels from the last to the first; [offs] are the
    remaining offsets in reverse order, [acc] is [name[:j]]. *)
Fixpoint name_loop (s : bytes) (offs : list nat) (end_ : nat) (acc : bytes) : dres bytes :=
  match offs with
  | [] => DOk acc
  | start :: offs =>
    match slice s start end_ with
    | None => DPanic
    | Some sub =>
      match get_label sub with
      | DPanic => DPanic
      | DErr e => DErr e
      | DOk l =>
        if max_name - length acc <? S (length l) then DErr ErrNameTooLong
        else name_loop s offs start (acc ++ ofN (N.of_nat (length l)) :: l)
      end
    end
  end.
(** domain/name.go:39-84 MakeNameFromString. (With an error the code returns the
    name [Name s []] as well.) *)
Definition make_name (s : bytes) : dres name :=
  if length s <? 1 then DOk (Name s [])
  else if (length s =? 1) && Byte.eqb (hd Byte.x00 s) dot then DOk (Name s [])
  else
    match mark_labels s with
    | DPanic => DPanic
    | DErr e => DErr e
    | DOk offs =>
      match name_loop s (rev offs) (length s) [] with
      | DPanic => DPanic
      | DErr e => DErr e
      | DOk c => DOk (Name s c)
      end
    end.

(** What MakeNameFromReflection can tell apart in a reflect.Value: the zero Value,
    a value of type string, of type Name, of a pointer kind (nil, or pointing to a
    value), and a value of any other type (defined string types, interfaces and
    structs with the fields of Name included). *)
Inductive rval := VInvalid | VString (s : bytes) | VName (n : name) | VPtr (v : option rval) | VOther.
(** The ways MakeNameFromReflection ends: it returns; it panics because the string
    is not a name (the error), because of the type, or inside package reflect. *)
Inductive rres := ROk (n : name) | RBadString (e : derr) | RBadType | RReflect.
(** reflect.Value.Elem on a pointer: nil gives the zero Value. *)
Definition elem (v : option rval) : rval := match v with Some v => v | None => VInvalid end.
(** domain/name.go:92-112 MakeNameFromReflection. Type() of the zero Value panics.
    A panic of MakeNameFromString (there is none, C18) counts as [RReflect]. *)
Definition make_name_from_reflection (v : rval) : rres :=
  match v with
  | VInvalid => RReflect
  | _ =>
    let v := match v with VPtr p => elem p | _ => v end in
    match v with
    | VInvalid => RReflect
    | VString s => match make_name s with DOk n => ROk n | DErr e => RBadString e | DPanic => RReflect end
    | VName n => ROk (Name (nm_h n) (nm_c n))
    | _ => RBadType
    end
  end.

(** domain/name.go:121-142 GetLabel; [None] is a panic. *)
Definition name_get_label (n : name) (off : Z) : option (bytes * Z) :=
  let c := nm_c n in
  let len := Z.of_nat (length c) in
  if (off =? 0)%Z && (len =? 0)%Z then Some ([], 0%Z)
  else if (off <? 0)%Z || (len <=? off)%Z then Some ([], (-1)%Z)
  else
    match nth_error c (Z.to_nat off) with
    | None => None
    | Some b =>
      let size := Z.of_N (bN b) in
      if (size <? 1)%Z || (63 <? size)%Z then Some ([], (-1)%Z)
      else
        let start := (off + 1)%Z in
        let end_ := (start + size)%Z in
        if (len <=? end_)%Z then
          match slice c (Z.to_nat start) (length c) with Some l => Some (l, 0%Z) | None => None end
        else
          match slice c (Z.to_nat start) (Z.to_nat end_) with Some l => Some (l, end_) | None => None end
    end.

(** domain/name.go:145-159 GetLabels with a callback that has a state [S] and
    effects in [prog]; it stops the iteration by returning [false] (an error).
    The result tells if it ran to the end. Each iteration consumes at least the
    length byte: [fuel] is the number of bytes. *)
Section getlabels.
Context {U : Type} {S : Type}.
Variable f : S -> bytes -> prog U (S * bool).
Fixpoint get_labels_loop (fuel : nat) (c : bytes) (off : nat) (st : S) : prog U (S * bool) :=
  match fuel with
  | O => Ret (st, true)
  | Datatypes.S fuel =>
    if off <? length c then
      match nth_error c off with
      | None => Fail EIndex
      | Some b =>
        let off := Datatypes.S off in
        let next := off + N.to_nat (bN b) in
        match slice c off next with
        | None => Fail EIndex
        | Some l =>
          x <- f st l ;;
          if x.2 then get_labels_loop fuel c next x.1 else Ret (x.1, false)
        end
      end
    else Ret (st, true)
  end.
Definition get_labels (n : name) (st : S) : prog U (S * bool) :=
  get_labels_loop (Datatypes.S (length (nm_c n))) (nm_c n) 0 st.
End getlabels.
