(** * Properties of package domain (C16 to C23, C55).

    The vocabulary is DomSpec.v: [spells]/[toks] (words of the text form),
    [label_text], [denotes] (text of a sequence of labels), [canon] (upper case,
    right to left), [within_limits], [wire], and the meaning of the errors. *)
From Verif Require Import Prog DomModel DomSpec DomCodec DomNames DomPropProofs.
From Coq Require Import String.

Local Notation B := list_byte_of_string.

(** ** C16 *)
(** The printed form of any label of at most 63 bytes reads back as the label in
    upper case. *)
Theorem C16_label_roundtrip : forall l, List.length l <= 63 ->
  exists h, make_human_label l = Some h /\ make_label h = DOk (map upper l).
Proof. exact pf_roundtrip. Qed.
Print Assumptions C16_label_roundtrip.
(** In particular labels without lower case letters read back exactly. *)
Theorem C16_canonical_roundtrip : forall l, List.length l <= 63 -> (forall c, In c l -> ~ (97 <= Byte.to_N c <= 122)%N) ->
  exists h, make_human_label l = Some h /\ make_label h = DOk l.
Proof. intros l H1 H2. destruct (pf_roundtrip l H1) as (h & A & C). exists h. rewrite (upper_id l H2) in C. auto. Qed.
Print Assumptions C16_canonical_roundtrip.
Example C16_example : List.length (B "A.b\" ++ [Byte.x00; Byte.xff]) <= 63 /\
  make_human_label (B "A.b\" ++ [Byte.x00; Byte.xff]) = Some (B "a\.b\\\000\255") /\
  make_label (B "a\.b\\\000\255") = DOk (B "A.B\" ++ [Byte.x00; Byte.xff]).
Proof. split_and!; [vm_compute; lia|vm_compute; reflexivity..]. Qed.

(** ** C17 *)
(** A name made from a string holds labels of 1 to 63 bytes in upper case, at
    most 127 of them, at most 255 bytes together; GetLabels (here with any
    callback that has no effect on the memory) visits them from the right end of
    the text. *)
Theorem C17_wellformed : forall s n, make_name s = DOk n ->
  exists ls, denotes s ls /\
    Forall (fun l => 1 <= List.length l <= 63 /\ Forall (fun c => upper c = c) l) (canon ls) /\
    List.length (canon ls) <= 127 /\ name_size (canon ls) <= 255 /\
    forall (U S : Type) (g : S -> bytes -> S * bool) (st : S),
      get_labels (U := U) (fun st l => Ret (g st l)) n st = Ret (visit_pure g (canon ls) st).
Proof.
  intros s n H. destruct (pf_wellformed s n H) as (ls & A & _ & C & D & E & F). exists ls.
  split_and!; try done. intros. by apply get_labels_pure.
Qed.
Print Assumptions C17_wellformed.
Example C17_example : exists n, make_name (B "www.Example.COM.") = DOk n /\
  get_labels (U := unit) (fun st l => Ret (st ++ [l], true)) n [] = Ret ([B "COM"; B "EXAMPLE"; B "WWW"], true).
Proof. eexists. split; vm_compute; reflexivity. Qed.

(** ** C18 *)
(** MakeNameFromString returns for every string. *)
Theorem C18_no_panic : forall s, make_name s <> DPanic.
Proof. intros s H. by apply make_name_iff in H. Qed.
Print Assumptions C18_no_panic.

(** ** C19 *)
(** Accepted exactly when it is the text of labels within the limits; the name
    keeps the text and holds the labels in canonical form. *)
Theorem C19_accepts : forall s n, make_name s = DOk n <->
  exists ls, denotes s ls /\ within_limits ls /\ nm_h n = s /\ nm_c n = wire (canon ls).
Proof.
  intros s n. rewrite make_name_iff. split.
  - intros (ls & A & C & ->). exists ls. auto.
  - intros (ls & A & C & D & E). exists ls. destruct n. simpl in *. subst. auto.
Qed.
Print Assumptions C19_accepts.
(** Each error is returned exactly in its case. *)
Theorem C19_errors : forall s,
  (make_name s = DErr ErrTooManyLabels <-> too_many s) /\
  (make_name s = DErr ErrEmptyLabel <-> empty_label s) /\
  (make_name s = DErr ErrInvalidEscape <-> bad_escape_in s) /\
  (make_name s = DErr ErrLabelTooLong <-> too_long_label s) /\
  (make_name s = DErr ErrNameTooLong <-> too_long_name s).
Proof. intros s. split_and!; apply make_name_iff. Qed.
Print Assumptions C19_errors.
(** The text determines the labels. *)
Theorem C19_unambiguous : forall s ls ls', denotes s ls -> denotes s ls' -> ls = ls'.
Proof. exact denotes_det. Qed.
Print Assumptions C19_unambiguous.
Definition x64 : bytes := repeat Byte.x61 64.
Definition x63d : bytes := repeat Byte.x61 63 ++ [Byte.x2e].
Definition many : bytes := List.concat (repeat (B "a.") 127).
Example C19_example :
  make_name (B "\065b.\.\000.") = DOk (Name (B "\065b.\.\000.") ([Byte.x02; Byte.x2e; Byte.x00; Byte.x02] ++ B "AB")) /\
  make_name (B ".") = DOk (Name (B ".") []) /\
  make_name (B "a..b") = DErr ErrEmptyLabel /\
  make_name (B "a.b\25") = DErr ErrInvalidEscape /\ make_name (B "\256") = DErr ErrInvalidEscape /\
  make_name (B "b." ++ x64) = DErr ErrLabelTooLong /\
  make_name (x63d ++ x63d ++ x63d ++ x63d) = DErr ErrNameTooLong /\
  make_name (many ++ B "a") = DErr ErrTooManyLabels /\
  (exists n, make_name many = DOk n).
Proof. split_and!; try (vm_compute; reflexivity). eexists. vm_compute. reflexivity. Qed.

(** ** C20 *)
Theorem C20_case_insensitive : forall s s', map upper s = map upper s' ->
  match make_name s, make_name s' with
  | DOk n, DOk n' => nm_c n = nm_c n'
  | DErr e, DErr e' => e = e'
  | _, _ => False
  end.
Proof. exact pf_case. Qed.
Print Assumptions C20_case_insensitive.
Example C20_example : map upper (B "wWw.eXaMpLe\.\097") = map upper (B "WWW.ExAmPlE\.\097").
Proof. vm_compute. reflexivity. Qed.

(** ** C21 *)
(** Following GetLabel from offset 0 until it returns offset 0 visits the labels
    GetLabels visits; an empty name gives ("", 0). *)
Theorem C21_walk : forall s n, make_name s = DOk n ->
  exists ls, get_labels (U := unit) (fun st l => Ret (st ++ [l], true)) n [] = Ret (ls, true) /\
    (ls <> [] -> walks n 0 ls) /\ (ls = [] -> name_get_label n 0 = Some ([], 0%Z)).
Proof.
  intros s n H. destruct (pf_wellformed s n H) as (ls & A & _ & C & D & _). exists (canon ls). split_and!.
  - rewrite (get_labels_pure (fun st l => (st ++ [l], true)) n (canon ls)) by done. f_equal.
    assert (G : forall ls st, visit_pure (fun st l => (st ++ [l], true)) ls st = (st ++ ls, true)).
    { clear. induction ls as [|l ls IH]; intros st; simpl; [by rewrite app_nil_r|]. by rewrite IH, <- app_assoc. }
    apply G.
  - intros Hne. by apply (pf_walk n (canon ls) []).
  - intros E. unfold name_get_label. by rewrite C, E.
Qed.
Print Assumptions C21_walk.
(** GetLabel never panics, whatever the name and the offset; outside the name it
    returns ("", -1). *)
Theorem C21_outside : forall n off,
  name_get_label n off <> None /\
  ((off < 0 \/ Z.of_nat (List.length (nm_c n)) <= off)%Z -> (off <> 0%Z \/ nm_c n <> []) ->
     name_get_label n off = Some ([], (-1)%Z)).
Proof. intros n off. split; [apply name_get_label_total|apply name_get_label_out]. Qed.
Print Assumptions C21_outside.
Example C21_example : exists n, make_name (B "www.Example.COM.") = DOk n /\
  name_get_label n 0 = Some (B "COM", 4%Z) /\ name_get_label n 4 = Some (B "EXAMPLE", 12%Z) /\
  name_get_label n 12 = Some (B "WWW", 0%Z) /\ name_get_label n 16 = Some ([], (-1)%Z).
Proof. eexists. split_and!; vm_compute; reflexivity. Qed.

(** ** C22 *)
(** MakeHumanReadableLabel does panic. *)
Theorem C22_total_refuted : exists l, make_human_label l = None.
Proof. exists (repeat Byte.x41 253). vm_compute. reflexivity. Qed.
Print Assumptions C22_total_refuted.
(** It panics exactly when an upper case letter comes after a prefix whose
    printed form takes exactly 252 bytes. *)
Theorem C22_panic_iff : forall l, make_human_label l = None <->
  exists p c r, l = p ++ c :: r /\ (65 <= Byte.to_N c <= 90)%N /\ list_sum (map human_size p) = 252.
Proof. exact pf_human_panic. Qed.
Print Assumptions C22_panic_iff.
(** Otherwise the result has at most 252 bytes and is the text (up to case) of the
    longest prefix that fits. *)
Theorem C22_result : forall l h, make_human_label l = Some h ->
  List.length h <= 252 /\ exists p r l', l = p ++ r /\ label_text h l' /\ map upper l' = map upper p /\
    match r with [] => True | c :: _ => 252 < List.length h + human_size c end.
Proof. exact pf_human_some. Qed.
Print Assumptions C22_result.
(** No panic for labels (at most 63 bytes); 64 bytes can panic, see the example. *)
Theorem C22_no_panic : forall l, List.length l <= 63 -> make_human_label l <> None.
Proof.
  intros l Hl H. apply pf_human_panic in H as (p & c & r & -> & _ & H). rewrite app_length in Hl. simpl in Hl.
  pose proof (human_sum_bounds p). lia.
Qed.
Print Assumptions C22_no_panic.
Example C22_example :
  make_human_label (repeat Byte.x61 253) = Some (repeat Byte.x61 252) /\
  make_human_label (repeat Byte.x00 63 ++ [Byte.x41]) = None /\
  make_human_label (repeat Byte.x00 70) = Some (List.concat (repeat (B "\000") 63)).
Proof. split_and!; vm_compute; reflexivity. Qed.

(** ** C23 *)
(** The outcomes of MakeLabel. *)
Theorem C23_panic_iff : forall s, make_label s = DPanic <->
  exists w l r, s = w ++ c_dot :: r /\ r <> [] /\ label_text w l /\ List.length l <= 63.
Proof. intros s. apply make_label_iff. Qed.
Print Assumptions C23_panic_iff.
Theorem C23_accepts : forall s m, make_label s = DOk m <->
  exists l, (label_text s l \/ exists w, s = w ++ [c_dot] /\ label_text w l) /\ List.length l <= 63 /\ m = map upper l.
Proof. intros s m. apply make_label_iff. Qed.
Print Assumptions C23_accepts.
Theorem C23_errors : forall s e, make_label s = DErr e <->
  (e = ErrLabelTooLong /\ exists w l r, s = w ++ r /\ label_text w l /\ 63 < List.length l) \/
  (e = ErrInvalidEscape /\ exists w l r, s = w ++ r /\ label_text w l /\ List.length l <= 63 /\ bad_escape r).
Proof.
  intros s e. rewrite make_label_iff. destruct e; simpl; split; try tauto; try (intros [[? _]|[? _]]; done).
  all: intros [[? ?]|[? ?]]; done.
Qed.
Print Assumptions C23_errors.
Example C23_example :
  make_label (B "a.b") = DPanic /\ make_label (B "a.") = DOk (B "A") /\ make_label (B "a\.b") = DOk (B "A.B") /\
  make_label x64 = DErr ErrLabelTooLong /\ make_label (B "a\0") = DErr ErrInvalidEscape /\
  make_label (x64 ++ B ".b") = DErr ErrLabelTooLong.
Proof. split_and!; vm_compute; reflexivity. Qed.

(** ** C55 *)
(** MakeNameFromReflection returns a name exactly for: a Name or a pointer to one
    (that very name), a string or a pointer to one that MakeNameFromString accepts
    (its result). [w] is the value itself or what it points to. *)
Theorem C55_returns : forall v n, make_name_from_reflection v = ROk n <->
  (exists w, (v = w \/ v = VPtr (Some w)) /\ (w = VName n \/ exists s, w = VString s /\ make_name s = DOk n)).
Proof. exact reflection_ok. Qed.
Print Assumptions C55_returns.
(** In terms of text and labels: a string is taken exactly when it is the text of
    labels within the limits. *)
Theorem C55_text : forall s n,
  (make_name_from_reflection (VString s) = ROk n <-> exists ls, denotes s ls /\ within_limits ls /\ n = Name s (wire (canon ls))) /\
  (make_name_from_reflection (VString s) = make_name_from_reflection (VPtr (Some (VString s)))).
Proof.
  intros s n. split; [|done]. rewrite reflection_ok. split.
  - intros (w & [<- | Hw] & H); [|done]. destruct H as [?|(s' & [= <-] & H)]; [done|].
    apply make_name_iff in H as (ls & A & D & ->). eauto.
  - intros (ls & A & D & ->). exists (VString s). split; [by left|]. right. exists s. split; [done|].
    apply make_name_iff. by exists ls.
Qed.
Print Assumptions C55_text.
(** It panics with the error of MakeNameFromString exactly for strings that are not
    names, panics inside reflect exactly for the zero Value and nil pointers, and
    panics naming the types for everything else. (No pointer points to the zero
    Value, so the last case does not occur.) *)
Theorem C55_bad_string : forall v e, make_name_from_reflection v = RBadString e <->
  exists s, (v = VString s \/ v = VPtr (Some (VString s))) /\ make_name s = DErr e.
Proof. exact reflection_bad. Qed.
Print Assumptions C55_bad_string.
Theorem C55_reflect_panic : forall v, make_name_from_reflection v = RReflect <->
  v = VInvalid \/ v = VPtr None \/ v = VPtr (Some VInvalid).
Proof. exact reflection_reflect. Qed.
Print Assumptions C55_reflect_panic.
Example C55_example :
  make_name_from_reflection (VPtr (Some (VString (B "a.b")))) = ROk (Name (B "a.b") (Byte.x01 :: B "B" ++ Byte.x01 :: B "A")) /\
  make_name_from_reflection (VString (B "a..b")) = RBadString ErrEmptyLabel /\
  make_name_from_reflection (VPtr None) = RReflect /\
  make_name_from_reflection (VPtr (Some (VPtr (Some (VName (Name [] [])))))) = RBadType.
Proof. split_and!; vm_compute; reflexivity. Qed.
