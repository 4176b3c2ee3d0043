(** * Model of etc, the program that executes a catalog of templates.

    Package path/filepath is the Unix one, modelled from its documentation and source in the Go
    library: a path is cleaned by its components instead of byte by byte. *)
From Verif Require Import Prog.
Open Scope nat_scope.

Definition slash : Byte.byte := Byte.x2f.
Definition dot : Byte.byte := Byte.x2e.
Definition is_nil_b {A} (l : list A) : bool := match l with [] => true | _ => false end.
Definition beqb (a b : bytes) : bool := if List.list_eq_dec Byte.byte_eq_dec a b then true else false.

(** ** Strings and paths (Go library) *)
(** strings.Split(s, c) for one byte: never empty. *)
Fixpoint split_on (c : Byte.byte) (s : bytes) : list bytes :=
  match s with
  | [] => [[]]
  | x :: s' => if Byte.eqb x c then [] :: split_on c s' else
      match split_on c s' with p :: ps => (x :: p) :: ps | [] => [[x]] end
  end.
(** strings.Join(l, c) for one byte. *)
Fixpoint join_with (c : Byte.byte) (l : list bytes) : bytes :=
  match l with [] => [] | [p] => p | p :: ps => p ++ c :: join_with c ps end.
(** strings.SplitN(s, c, 2): what is before the first [c] and, if there is one, what is after it. *)
Fixpoint split2 (c : Byte.byte) (s : bytes) : bytes * option bytes :=
  match s with
  | [] => ([], None)
  | x :: s' => if Byte.eqb x c then ([], Some s') else let '(a, b) := split2 c s' in (x :: a, b)
  end.
Definition rooted (p : bytes) : bool := match p with x :: _ => Byte.eqb x slash | [] => false end.
(** filepath.Clean: one component of the path against those kept so far, last first. *)
Definition clean_step (r : bool) (st : list bytes) (c : bytes) : list bytes :=
  if is_nil_b c || beqb c [dot] then st
  else if beqb c [dot; dot] then
    match st with
    | [] => if r then [] else [c]
    | x :: st' => if beqb x [dot; dot] then c :: st else st'
    end
  else c :: st.
Definition render (r : bool) (l : list bytes) : bytes :=
  match (if r then [slash] else []) ++ join_with slash l with [] => [dot] | p => p end.
Definition go_clean (p : bytes) : bytes := render (rooted p) (rev (fold_left (clean_step (rooted p)) (split_on slash p) [])).
(** filepath.Split: up to and after the last slash. *)
Fixpoint go_split (p : bytes) : bytes * bytes :=
  match p with
  | [] => ([], [])
  | x :: p' => let '(d, f) := go_split p' in
      if is_nil_b d then if Byte.eqb x slash then ([x], f) else ([], x :: f) else (x :: d, f)
  end.
(** path.Join, filepath.Join *)
Definition go_join (l : list bytes) : bytes :=
  if forallb is_nil_b l then [] else go_clean (join_with slash (List.filter (fun e => negb (is_nil_b e)) l)).
(** filepath.Abs, with the working directory. *)
Definition go_abs (cwd p : bytes) : bytes := if rooted p then go_clean p else go_join [cwd; p].
(** filepath.Base *)
Fixpoint strip (rp : bytes) : bytes := match rp with x :: rp' => if Byte.eqb x slash then strip rp' else rp | [] => [] end.
Definition go_base (p : bytes) : bytes :=
  if is_nil_b p then [dot] else
  match (go_split (rev (strip (rev p)))).2 with [] => [slash] | f => f end.

(** ** etc/names.go *)
Inductive etc_err := EtcIndex | EtcFuel | EtcFatal.
Definition pre_alloc : nat := 10.                                    (* names.go:32 *)
(** names.go:34-64 fullSplit, the loop. [out] is the buffer, [i] the value of i before i--. *)
Fixpoint full_split_loop (fuel : nat) (out : list bytes) (i : nat) (d : bytes) : list bytes + etc_err :=
  match fuel with
  | O => inr EtcFuel
  | S fuel =>
    match i with
    | O => full_split_loop fuel (repeat [] pre_alloc ++ out) pre_alloc d    (* 41-45 *)
    | S i =>
      if negb (i <? length out) then inr EtcIndex else
      let '(parent, f) := go_split d in                              (* 47 *)
      if is_nil_b f then inl (drop i (<[i := go_clean parent]> out)) (* 48-51 *)
      else if is_nil_b parent then inl (drop i (<[i := f]> out))     (* 53-56 *)
      else full_split_loop fuel (<[i := f]> out) i (go_clean parent) (* 58-60 *)
    end
  end.
(** names.go:34-64 *)
Definition full_split (fuel : nat) (p : bytes) : list bytes + etc_err :=
  full_split_loop fuel (repeat [] pre_alloc) pre_alloc (go_clean p).
(** names.go:66-78 hasPrefix, the loop at index [i] *)
Fixpoint has_prefix_loop (p prefix : list bytes) (i : nat) : bool + etc_err :=
  match prefix with
  | [] => inl true
  | item :: prefix => match p !! i with
    | None => inr EtcIndex
    | Some x => if negb (beqb x item) then inl false else has_prefix_loop p prefix (S i)
    end
  end.
Definition has_prefix (p prefix : list bytes) : bool + etc_err :=
  if length p <? length prefix then inl false else has_prefix_loop p prefix 0.
(** names.go:9-21 makePrefix; log.Fatal is [EtcFatal]. *)
Definition make_prefix (fuel : nat) (cwd p : bytes) : list bytes + etc_err :=
  let '(d, f) := go_split (go_abs cwd p) in
  if is_nil_b f then inr EtcFatal else full_split fuel d.
(** names.go:23-30 getRelName *)
Definition get_rel_name (fuel : nat) (p : bytes) (prefix : list bytes) : bytes + etc_err :=
  match full_split fuel p with
  | inr e => inr e
  | inl seq => match has_prefix seq prefix with
    | inr e => inr e
    | inl true => inl (go_join (drop (length prefix) seq))
    | inl false => inl (go_base p)
    end
  end.

(** ** etc/data.go *)
(** Decoded YAML. A map is a function from keys (strings or other values) to what is stored. *)
Inductive ykey := KStr (s : bytes) | KOther (n : nat).
Inductive yaml := YMap (m : ykey -> option yaml) | YLeaf (n : nat).
Inductive sel_err := SelMissing (part : bytes) | SelDeeper (part : bytes) | SelFuel.
(** data.go:34-55 sel; the recursive call gets a shorter path. *)
Fixpoint sel (fuel : nat) (path : bytes) (m : ykey -> option yaml) : yaml + sel_err :=
  match fuel with
  | O => inr SelFuel
  | S fuel =>
    if is_nil_b path then inl (YMap m) else                          (* 54 *)
    let '(part, rest) := split2 dot path in                          (* 36 *)
    match m (KStr part) with
    | None => inr (SelMissing part)                                  (* 38-40 *)
    | Some v => match rest with
      | Some rest => match v with
        | YMap m => sel fuel rest m                                  (* 48 *)
        | YLeaf _ => inr (SelDeeper part)                            (* 44-46 *)
        end
      | None => inl v                                                (* 51 *)
      end
    end
  end.

(** ** etc/main.go, file.go *)
(** A template: a file or a directory. *)
Inductive entry := FFile (content : bytes) | FDir (items : list (bytes * entry)).
(** What the program does to the file system. *)
Inductive action := AMkdirAll (name : bytes) | ACreate (name content : bytes).
Section execute.
(** text/template for the data of the run: executeString (template.go:9-22), which may stop the
    program; and for a file whether it parses, what is written, and whether it executes to the end. *)
Variable tpl : bytes -> option bytes.
Variable tpl_file : bytes -> option (bytes * bool).
Variable cwd : bytes.
(** main.go:17-52 execute (the messages logged are left out, as are errors of the file system):
    what is done and whether it runs to the end. *)
Fixpoint execute (name : bytes) (e : entry) : list action * bool :=
  let abs := go_abs cwd name in                                      (* 18 *)
  match tpl abs with
  | None => ([], false)
  | Some new =>                                                      (* 31 *)
    if beqb new abs then ([], false) else                            (* 32-34 *)
    match e with
    | FDir items =>                                                  (* 36-47 *)
      let '(acts, ok) := (fix go (items : list (bytes * entry)) : list action * bool :=
        match items with
        | [] => ([], true)
        | (n, e) :: items =>
          let '(a1, ok1) := execute (go_join [abs; n]) e in
          if ok1 : bool then let '(a2, ok2) := go items in (a1 ++ a2, ok2) else (a1, false)
        end) items in
      (AMkdirAll new :: acts, ok)
    | FFile content =>                                               (* 48-50; file.go:15-30 *)
      match tpl_file content with
      | None => ([], false)
      | Some (text, ok) => ([ACreate new text], ok)
      end
    end
  end.
End execute.
