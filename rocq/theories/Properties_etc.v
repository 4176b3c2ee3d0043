(** * etc, the program that executes a template catalog (C60, C61, C62).

    [names p r l] (EtcSpec.v): the path [p] is absolute iff [r], and its components simplify to
    [l] (no empty component, no ".", no "x/.."), by whatever steps. [abs_names cwd p l]: what [p]
    denotes in the working directory [cwd], as names from the root. The working directory is absolute. *)
From Verif Require Import Prog EtcModel EtcSpec EtcProofs.
From Coq Require Import String.
Open Scope nat_scope.
Local Notation B := list_byte_of_string.

(** ** C60 *)
Theorem C60_full_split : forall p, exists r l, names p r l /\ (forall r' l', names p r' l' -> r' = r /\ l' = l) /\
  forall fuel, 2 * List.length p + 6 <= fuel -> full_split fuel p = inl (listed r l).
Proof. exact full_split_all. Qed.
Print Assumptions C60_full_split.
(** More components than slots of the first buffer. *)
Example ex_split : full_split 100 (B "/a/b//c/./d/../e/f/g/h/i/j/k/l/m/") =
  inl (List.map B ["/"; "a"; "b"; "c"; "e"; "f"; "g"; "h"; "i"; "j"; "k"; "l"; "m"]%string).
Proof. vm_compute. reflexivity. Qed.
Example ex_split_rel : full_split 50 (B "../x/../../y") = inl (List.map B [".."; ".."; "y"]%string) /\
  full_split 50 (B "x/..") = inl [here].
Proof. vm_compute. done. Qed.

Theorem C60_rel_name : forall cwd t, (exists c, cwd = slash :: c) -> exists l, abs_names cwd t l /\
  match rev l with
  | [] => forall fuel, make_prefix fuel cwd t = inr EtcFatal
  | x :: dir => exists prefix, (forall fuel, 2 * List.length (abs_path l) + 6 <= fuel -> make_prefix fuel cwd t = inl prefix) /\
      forall items fuel, Forall proper items -> 2 * List.length (abs_path (l ++ items)) + 6 <= fuel ->
      get_rel_name fuel (abs_path (l ++ items)) prefix = inl (joined slash (x :: items))
  end.
Proof. exact (fun cwd t H => rel_all cwd t (proj2 (rooted_iff cwd) H)). Qed.
Print Assumptions C60_rel_name.
Example ex_rel : make_prefix 60 (B "/home/u") (B "tpl/../cat") = inl (List.map B ["/"; "home"; "u"]%string) /\
  get_rel_name 60 (B "/home/u/cat/a/b.go") (List.map B ["/"; "home"; "u"]%string) = inl (B "cat/a/b.go") /\
  make_prefix 60 (B "/home/u") (B "../..") = inr EtcFatal.
Proof. vm_compute. done. Qed.
Theorem C60_rel_name_total : forall p prefix, exists n, forall fuel, 2 * List.length p + 6 <= fuel -> get_rel_name fuel p prefix = inl n.
Proof. exact rel_total. Qed.
Print Assumptions C60_rel_name_total.
Example ex_rel_out : get_rel_name 60 (B "/srv/out") (List.map B ["/"; "home"; "u"]%string) = inl (B "out").
Proof. vm_compute. done. Qed.

(** ** C61 *)
Theorem C61_sel : forall fuel path m v, List.length path < fuel ->
  sel fuel path m = inl v <-> exists l map_only, wanted path l map_only /\ reached (YMap m) l v /\ (map_only -> is_map v).
Proof. exact sel_ok. Qed.
Print Assumptions C61_sel.
Theorem C61_sel_error : forall fuel path m e, List.length path < fuel -> sel fuel path m = inr e ->
  exists l map_only part rest, wanted path (l ++ part :: rest) map_only /\
  ((e = SelMissing part /\ exists m', reached (YMap m) l (YMap m') /\ m' (KStr part) = None) \/
   (e = SelDeeper part /\ (rest <> [] \/ map_only = True) /\ exists k, reached (YMap m) (l ++ [part]) (YLeaf k))).
Proof. exact sel_bad. Qed.
Print Assumptions C61_sel_error.
Definition ex_in (k : bytes) (v : yaml) : ykey -> option yaml := fun k' => match k' with KStr s => if beqb s k then Some v else None | KOther _ => None end.
Definition ex_yaml : ykey -> option yaml := ex_in (B "a") (YMap (ex_in (B "b") (YLeaf 7))).
Example ex_sel : sel 10 (B "a.b") ex_yaml = inl (YLeaf 7) /\ sel 10 (B "a.") ex_yaml = inl (YMap (ex_in (B "b") (YLeaf 7))) /\
  sel 10 (B "a.b.") ex_yaml = inr (SelDeeper (B "b")) /\ sel 10 (B "a..b") ex_yaml = inr (SelMissing []).
Proof. done. Qed.
(** A key that contains a dot is out of reach. *)
Example ex_sel_dot : sel 10 (B "a.b") (ex_in (B "a.b") (YLeaf 7)) = inr (SelMissing (B "a")).
Proof. done. Qed.

(** ** C62 *)
Theorem C62_execute : forall tpl tpl_file cwd t e, (exists c, cwd = slash :: c) -> proper_entry e -> exists l, abs_names cwd t l /\
  let '(acts, ok) := execute tpl tpl_file cwd t e in
  done_all tpl tpl_file (catalog l e) acts ok /\ Forall (stems_from tpl tpl_file (catalog l e)) acts /\
  (ok = true -> List.length acts = List.length (catalog l e)).
Proof. exact (fun tpl tpl_file cwd t e H => execute_all tpl tpl_file cwd t e (proj2 (rooted_iff cwd) H)). Qed.
Print Assumptions C62_execute.
(** [done_all] leaves no choice. *)
Theorem C62_done_unique : forall tpl tpl_file es a ok a' ok',
  done_all tpl tpl_file es a ok -> done_all tpl tpl_file es a' ok' -> a = a' /\ ok = ok'.
Proof. exact done_fun. Qed.
Print Assumptions C62_done_unique.
(** A template that replaces "@" by "32"; files are copied; one directory with two files. *)
Definition ex_tpl (s : bytes) : option bytes := Some (flat_map (fun b => if Byte.eqb b Byte.x40 then B "32" else [b]) s).
Definition ex_cat : entry := FDir [(B "node.go", FFile (B "n")); (B "t@", FDir [(B "u", FFile (B "x"))])].
Example ex_execute : execute ex_tpl (fun c => Some (c, true)) (B "/w") (B "uint@") ex_cat =
  ([ AMkdirAll (B "/w/uint32"); ACreate (B "/w/uint32/node.go") (B "n"); AMkdirAll (B "/w/uint32/t32"); ACreate (B "/w/uint32/t32/u") (B "x") ], true).
Proof. vm_compute. reflexivity. Qed.
Example ex_proper : proper_entry ex_cat.
Proof. unfold ex_cat, proper, here, up, slash, dot. cbn. repeat split; try done; intros H; repeat (apply elem_of_cons in H as [H|H]; [done|]); by apply elem_of_nil in H. Qed.
(** Nothing to replace in the name of the catalog: the program stops without creating anything. *)
Example ex_execute_same : execute ex_tpl (fun c => Some (c, true)) (B "/w") (B "cat") ex_cat = ([], false).
Proof. vm_compute. reflexivity. Qed.
