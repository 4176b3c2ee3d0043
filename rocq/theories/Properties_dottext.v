(** * Property C66: the text of Dot is a Graphviz file, whatever is stored. *)
(** [graph show s ls] (DotTextSpec.v): split into words as Graphviz does, the text [s]
    is "digraph d { ... }" with exactly the statements [ls], and the label of each
    node reads as [show] says; [rb_shows]: unescaped as a Go string it gives the key
    and %#v of the value. [dot_prints]: the text is that of lines that draw the tree
    [d], in the sense of C52. [is_print]: any table of printable characters.
    [gosyntax]: the verb %#v of package fmt, any function. *)
From Verif Require Import Prog History RbModel RbSpec RbFun RbFunIns RbSim RbSimOps RbAbs StrSpec StrAbs.
From Verif Require Import DomModel DomSpec DlModel DlSpec DlAbs NumModel NumSpec NumFun NumSim NumAbs.
From Verif Require Import NumPropProofs StrPropProofs DlPropProofs DotModel DotSpec DotProofs DotPropProofs.
From Verif Require Import DotText DotTextSpec DotTextProofs DotTextProps DotTextHist.
From Coq Require Import String.
Open Scope nat_scope.
Local Notation B := list_byte_of_string.

(** C66: any lines. *)
Theorem C66_graph : forall U is_print (gosyntax : value U -> bytes) ls, graph (rb_shows gosyntax) (dot_text (rb_string is_print gosyntax) ls) ls.
Proof. intros. apply text_graph, rb_readable. Qed.
Print Assumptions C66_graph.
Theorem C66_num_graph : forall U is_print (gosyntax : value U -> bytes) w ls, graph (num_shows gosyntax w) (dot_text (num_string is_print gosyntax w) ls) ls.
Proof. intros. apply text_graph, num_readable. Qed.
Print Assumptions C66_num_graph.
(** C66: after any history, as C52. *)
Theorem C66_strtree : forall U is_print (gosyntax : value U -> bytes) fuel (h : heap U) (ops : list (sop (value U))) ver,
  Forall sop_lawful ops -> enough fuel (keys ops) ->
  wp (run_hist (str_exec fuel) ops []) h ∅ (fun r h1 _ => h ⊆ h1 /\ exists e,
    match nth ver r.1 None with
    | None => e = [] /\ exists s, graph (rb_shows gosyntax) s [] /\ forall fuel, str_dot_text is_print gosyntax fuel (nth ver r.1 None) = (Ret s : prog U _)
    | Some l => exists root cmp d, h1 !! l = Some (CStr root cmp) /\ rb_shape h1 root d /\ map fst (inorder d) = e /\
        dot_prints (rb_shows gosyntax) h1 (fun fuel => str_dot_text is_print gosyntax fuel (nth ver r.1 None)) d
    end /\
    StronglySorted (fun x y => ver_cmp ops ver x.1 y.1 < 0)%Z e /\
    (forall k v, (k, v) ∈ e -> log_get (ver_cmp ops ver) (ver_log ops ver) k = Some v) /\
    (forall k v, log_get (ver_cmp ops ver) (ver_log ops ver) k = Some v -> exists k', (k', v) ∈ e /\ ver_cmp ops ver k' k = 0%Z)).
Proof. exact @text_str. Qed.
Print Assumptions C66_strtree.
(** strtreeN: the number of the value ([uint]) is printed. *)
Theorem C66_strtreeN : forall U is_print (uint : value U -> N) fuel (h : heap U) (ops : list (sop (value U))) ver,
  Forall sop_lawful ops -> enough fuel (keys ops) ->
  wp (run_hist (str_exec fuel) ops []) h ∅ (fun r h1 _ => h ⊆ h1 /\ exists e,
    match nth ver r.1 None with
    | None => e = [] /\ exists s, graph (rb_shows_d uint) s [] /\ forall fuel, str_dot_text_d is_print uint fuel (nth ver r.1 None) = (Ret s : prog U _)
    | Some l => exists root cmp d, h1 !! l = Some (CStr root cmp) /\ rb_shape h1 root d /\ map fst (inorder d) = e /\
        dot_prints (rb_shows_d uint) h1 (fun fuel => str_dot_text_d is_print uint fuel (nth ver r.1 None)) d
    end /\
    StronglySorted (fun x y => ver_cmp ops ver x.1 y.1 < 0)%Z e /\
    (forall k v, (k, v) ∈ e -> log_get (ver_cmp ops ver) (ver_log ops ver) k = Some v) /\
    (forall k v, log_get (ver_cmp ops ver) (ver_log ops ver) k = Some v -> exists k', (k', v) ∈ e /\ ver_cmp ops ver k' k = 0%Z)).
Proof. exact @text_str_d. Qed.
Print Assumptions C66_strtreeN.
Theorem C66_dltree : forall U is_print (gosyntax : value U -> bytes) fuel (h : heap U) (ops : list (dop (value U))) rops ver,
  Forall2 resolves ops rops -> enough fuel (dkeys ops) ->
  wp (run_hist (dl_exec fuel) ops []) h ∅ (fun r h1 _ => h ⊆ h1 /\ exists e,
    match nth ver r.1 None with
    | None => e = [] /\ exists s, graph (rb_shows gosyntax) s [] /\ forall fuel, dl_dot_text is_print gosyntax fuel (nth ver r.1 None) = (Ret s : prog U _)
    | Some l => exists root d, h1 !! l = Some (CDl root) /\ rb_shape h1 root d /\ map fst (inorder d) = e /\
        dot_prints (rb_shows gosyntax) h1 (fun fuel => dl_dot_text is_print gosyntax fuel (nth ver r.1 None)) d
    end /\
    StronglySorted (fun x y => shortlex_lt x.1 y.1) e /\ forall k v, (k, v) ∈ e <-> klog_get (dl_log rops ver) k = Some v).
Proof. exact @text_dl. Qed.
Print Assumptions C66_dltree.
Theorem C66_numtree : forall U is_print (gosyntax : value U -> bytes) c w (h : heap U) ops ver,
  num_cfg c -> Forall (nop_ok (cW c)) ops ->
  wp (run_hist (n_exec c) ops [None]) h ∅ (fun r h1 _ => h ⊆ h1 /\ exists d,
    num_shape h1 (nth ver r.1 None) d /\
    dot_prints (num_shows gosyntax w) h1 (fun fuel => n_dot_text is_print gosyntax w fuel (nth ver r.1 None)) d /\
    s_enum (cW c) (nth ver (n_contents (cW c) ops [∅]) ∅) (leaves (preorder d))).
Proof. exact @text_num. Qed.
Print Assumptions C66_numtree.

(** ** Awkward keys: quotes, a backslash, a newline, a byte that is not UTF-8, a
    printable and an unprintable character (a with diaeresis, U+FEFF, U+10FFFF). *)
Definition ex_print (r : N) : bool := ((32 <=? r) && (r <? 127) || (r =? 0xe4))%N.
Definition ex_syntax (v : value nat) : bytes := match v with VUser _ => B "main.T{A:""x""}" | _ => B "?" end.
Definition ex_key : bytes := B "a""] N9 [label=""\" ++ [x0a; xff; xc3; xa4; xef; xbb; xbf; xf4; x8f; xbf; xbf].
Example ex_text : result (run (r <- run_hist (str_exec 20) [ SBuild str_compare [(ex_key, VNil); ([x7f], VUser 1)] ] [] ;;
    str_dot_text ex_print ex_syntax 20 (nth 0 r.1 None)) ∅ 1%positive) = inl (
  B "digraph d {" ++ [x0a] ++
  B "N0 [label=""a\""] N9 [label=\""\\\n\xff" ++ [xc3; xa4] ++ B "\ufeff\U0010ffff"" style=filled fontcolor=white fillcolor=black]" ++ [x0a] ++
  B "N0 -> { N1 N2 }" ++ [x0a] ++
  B "N1 [label=""nil"" style=filled fontcolor=white fillcolor=black]" ++ [x0a] ++
  B "N2 [label=""k: \""\x7f\"" v: \""main.T{A:\""x\""}\"""" style=filled fillcolor=red]" ++ [x0a] ++
  B "}" ++ [x0a]).
Proof. vm_compute. reflexivity. Qed.
Example ex_num_text : dot_text (num_string ex_print ex_syntax 8) [DNode 0 (Some (0x0a000000, 7, None)%N); DEdge 0 1 2; DNode 1 (Some (0x0a010203%N, 32%N, Some (VUser 1))); DNode 2 None] =
  B "digraph d {" ++ [x0a] ++
  B "N0 [label=""k: 0a000000, b: 7""]" ++ [x0a] ++
  B "N0 -> { N1 N2 }" ++ [x0a] ++
  B "N1 [label=""k: 0a010203, b: 32, v: \""main.T{A:\""x\""}\""""]" ++ [x0a] ++
  B "N2 [label=""nil""]" ++ [x0a] ++
  B "}" ++ [x0a].
Proof. vm_compute. reflexivity. Qed.
