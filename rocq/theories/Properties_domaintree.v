(** * Properties of package domaintree (C24 to C31).

    [ops] is any history of client operations ([DtSpec.top]): create a tree and
    fill it in place, Insert, Delete, DeleteSubdomains, Get, Enumerate on any
    version obtained so far, in any memory [h]. [tresolves ops rops]: every name of
    the history has a sequence of labels (a path, from the top level domain down);
    [rops] is the history with these. [tver rops ver]: the changes that led to a
    version, newest first. [del_panics]: some call of the history deletes a stored name
    with 127 labels; exactly these histories panic (C28). *)
From Verif Require Import Prog History RbModel RbSpec RbFun RbFunIns RbSim RbSimOps RbAbs StrSpec StrAbs StrPropProofs.
From Verif Require Import DomModel DomSpec DomPropProofs DlModel DlSpec DlAbs DlPropProofs DtModel DtSpec DtSim4 DtAbs DtPropProofs.
From Coq Require Import String.

Local Notation B := list_byte_of_string.

(** Every name that MakeNameFromString accepts has a path. *)
Theorem C24_names : forall s d, make_name s = DOk d -> exists p, name_is d p.
Proof. exact dt_pf_names. Qed.
Print Assumptions C24_names.

(** ** C24 *)
Theorem C24_get_closest : forall U fuel (h : heap U) (ops : list (top name (value U))) rops ver d p,
  Forall2 tresolves ops rops -> ~ del_panics [] rops -> enough fuel (tnames ops) -> 128 <= fuel -> name_is d p ->
  wp (r <- run_hist (dt_exec fuel) ops [] ;; dt_get fuel (nth ver r.1 None) d) h ∅ (fun x h' _ => h ⊆ h' /\
    exists res, closest (tver rops ver) p res /\ x = match res with Some v => (v, true) | None => (VNil, false) end).
Proof. exact @dt_pf_get. Qed.
Print Assumptions C24_get_closest.
(** Refuted at the root: what is stored under the empty name is never found, not
    even under the empty name. *)
Theorem C24_root_refuted : exists root www : name, exists v : value nat,
  make_name [] = DOk root /\ make_name (B "www") = DOk www /\
  result (run (t <- dt_insert 200 None root v ;; x <- dt_get 200 t root ;; y <- dt_get 200 t www ;; e <- dt_enumerate 200 t ;; Ret (x, y, e)) ∅ 1%positive) =
  inl ((VNil, false), (VNil, false), [([], v)]).
Proof.
  eexists _, _, (VUser 1). split_and!; [vm_compute; reflexivity|vm_compute; reflexivity|]. vm_compute. reflexivity.
Qed.
Print Assumptions C24_root_refuted.

(** ** C25 *)
(** Insert on a version: the new tree lists what the old one listed, with [p] bound
    to [v]; the old tree lists what it listed before. *)
Theorem C25_insert : forall U fuel (h : heap U) (ops : list (top name (value U))) rops ver d p v,
  Forall2 tresolves ops rops -> ~ del_panics [] rops -> enough fuel (tnames ops + 1) -> 128 <= fuel -> name_is d p ->
  wp (r <- run_hist (dt_exec fuel) ops [] ;; n <- dt_insert fuel (nth ver r.1 None) d v ;;
      e <- dt_enumerate fuel (nth ver r.1 None) ;; e' <- dt_enumerate fuel n ;; Ret (e, e')) h ∅
    (fun x h' _ => h ⊆ h' /\ enumerates (tver rops ver) x.1 /\ enumerates (TLIns p v :: tver rops ver) x.2).
Proof. exact @dt_pf_insert. Qed.
Print Assumptions C25_insert.
(** All answers of the whole history are those of immutable maps. *)
Theorem C25_answers_for_ever : forall U fuel (h : heap U) (ops : list (top name (value U))) rops,
  Forall2 tresolves ops rops -> ~ del_panics [] rops -> enough fuel (tnames ops) -> 128 <= fuel ->
  wp (run_hist (dt_exec fuel) ops []) h ∅ (fun r h' _ => h ⊆ h' /\ tanswers [] rops r.2).
Proof. exact @dt_pf_answers. Qed.
Print Assumptions C25_answers_for_ever.
(** No memory cell that existed before is written. *)
Theorem C25_no_write : forall U fuel (h : heap U) (ops : list (top name (value U))) rops,
  Forall2 tresolves ops rops -> ~ del_panics [] rops -> enough fuel (tnames ops) -> 128 <= fuel ->
  wp (run_hist (dt_exec fuel) ops []) h ∅ (fun r h1 _ => forall ver d p v, name_is d p -> ~ too_deep (tver rops ver) p ->
    wp (dt_insert fuel (nth ver r.1 None) d v) h1 ∅ (fun _ h2 _ => h1 ⊆ h2) /\
    wp (dt_delete fuel (nth ver r.1 None) d) h1 ∅ (fun _ h2 _ => h1 ⊆ h2) /\
    wp (dt_delete_subdomains fuel (nth ver r.1 None) d) h1 ∅ (fun _ h2 _ => h1 ⊆ h2)).
Proof. exact @dt_pf_nowrite. Qed.
Print Assumptions C25_no_write.

(** ** C26 *)
Theorem C26_delete : forall U fuel (h : heap U) (ops : list (top name (value U))) rops ver d p,
  Forall2 tresolves ops rops -> ~ del_panics [] rops -> enough fuel (tnames ops) -> 128 <= fuel -> name_is d p -> ~ too_deep (tver rops ver) p ->
  wp (r <- run_hist (dt_exec fuel) ops [] ;; n <- dt_delete fuel (nth ver r.1 None) d ;;
      e <- dt_enumerate fuel (nth ver r.1 None) ;; e' <- dt_enumerate fuel n.1 ;; Ret (n.2, e, e')) h ∅
    (fun x h' _ => h ⊆ h' /\ let '(b, e, e') := x in (b = true <-> exists v, tlog_get (tver rops ver) p = Some v) /\
      enumerates (tver rops ver) e /\ enumerates (TLDel p :: tver rops ver) e').
Proof. exact @dt_pf_delete. Qed.
Print Assumptions C26_delete.

(** ** C27 *)
Theorem C27_delete_subdomains : forall U fuel (h : heap U) (ops : list (top name (value U))) rops ver d p,
  Forall2 tresolves ops rops -> ~ del_panics [] rops -> enough fuel (tnames ops) -> 128 <= fuel -> name_is d p -> ~ too_deep (tver rops ver) p ->
  wp (r <- run_hist (dt_exec fuel) ops [] ;; n <- dt_delete_subdomains fuel (nth ver r.1 None) d ;;
      e <- dt_enumerate fuel (nth ver r.1 None) ;; e' <- dt_enumerate fuel n.1 ;; Ret (n.2, e, e')) h ∅
    (fun x h' _ => h ⊆ h' /\ let '(b, e, e') := x in (b = true <-> exists r v, tlog_get (tver rops ver) (p ++ r) = Some v) /\
      enumerates (tver rops ver) e /\ enumerates (TLDelSub p :: tver rops ver) e').
Proof. exact @dt_pf_delete_sub. Qed.
Print Assumptions C27_delete_subdomains.

(** ** C28 *)
(** 127 labels, the most that MakeNameFromString accepts. *)
Definition a127 : bytes := List.concat (repeat (B "a.") 126) ++ B "a".
Theorem C28_refuted : exists s : bytes, exists d : name, exists v : value nat, make_name s = DOk d /\
  result (run (t <- dt_insert 300 None d v ;; dt_delete 300 t d) ∅ 1%positive) = inr EIndex /\
  result (run (t <- dt_insert 300 None d v ;; dt_delete_subdomains 300 t d) ∅ 1%positive) = inr EIndex.
Proof.
  exists a127. eexists _, (VUser 1). split_and!; [vm_compute; reflexivity| |]; vm_compute; reflexivity.
Qed.
Print Assumptions C28_refuted.
(** Exactly when: the name has 127 labels and is stored. A history panics iff it makes
    such a call, and gives all its answers otherwise. *)
Theorem C28_history : forall U fuel (h : heap U) (ops : list (top name (value U))) rops,
  Forall2 tresolves ops rops -> enough fuel (tnames ops) -> 128 <= fuel ->
  (~ del_panics [] rops -> wp (run_hist (dt_exec fuel) ops []) h ∅ (fun r h' _ => h ⊆ h' /\ tanswers [] rops r.2)) /\
  (del_panics [] rops -> fails (run_hist (dt_exec fuel) ops []) h EIndex).
Proof. exact @dt_pf_history. Qed.
Print Assumptions C28_history.
Theorem C28_panics_iff : forall U fuel (h : heap U) (ops : list (top name (value U))) rops,
  Forall2 tresolves ops rops -> ~ del_panics [] rops -> enough fuel (tnames ops) -> 128 <= fuel ->
  wp (run_hist (dt_exec fuel) ops []) h ∅ (fun r h1 _ => forall ver d p, name_is d p ->
    let q := nth ver r.1 None in
    if (List.length p =? 127)%nat && (match tlog_get (tver rops ver) p with Some _ => true | None => false end)
    then fails (dt_delete fuel q d) h1 EIndex /\ fails (dt_delete_subdomains fuel q d) h1 EIndex
    else wp (dt_delete fuel q d) h1 ∅ (fun _ h2 _ => h1 ⊆ h2) /\ wp (dt_delete_subdomains fuel q d) h1 ∅ (fun _ h2 _ => h1 ⊆ h2)).
Proof. exact @dt_pf_panic. Qed.
Print Assumptions C28_panics_iff.

(** ** C29 *)
(** [enumerates]: every stored name once, in the order of [path_lt] (a name comes
    before its subdomains), under a key that MakeNameFromString reads back. *)
Theorem C29_enumerate : forall U fuel (h : heap U) (ops : list (top name (value U))) rops ver,
  Forall2 tresolves ops rops -> ~ del_panics [] rops -> enough fuel (tnames ops) -> 128 <= fuel ->
  wp (r <- run_hist (dt_exec fuel) ops [] ;; dt_enumerate fuel (nth ver r.1 None)) h ∅ (fun e h' _ => h ⊆ h' /\ enumerates (tver rops ver) e).
Proof. exact @dt_pf_enumerate. Qed.
Print Assumptions C29_enumerate.

(** ** C30 *)
(** Refuted: Insert makes nodes without branches; InplaceInsert below them
    dereferences nil, although the tree is shared with nobody. *)
Theorem C30_refuted : exists com www : name, exists v : value nat,
  make_name (B "com") = DOk com /\ make_name (B "www.com") = DOk www /\
  result (run (t <- dt_insert 200 None com v ;; dt_inplace_insert 200 t www v) ∅ 1%positive) = inr ENil.
Proof.
  eexists _, _, (VUser 1). split_and!; [vm_compute; reflexivity|vm_compute; reflexivity|]. vm_compute. reflexivity.
Qed.
Print Assumptions C30_refuted.
(** InplaceInsert on a tree made by InplaceInsert alone: stores the values and
    writes nothing that existed before the tree. *)
Theorem C30_inplace : forall U fuel (h : heap U) items items' d' q,
  Forall2 (fun x y : _ * value U => name_is x.1 y.1 /\ x.2 = y.2) items items' -> enough fuel (List.length items) -> 128 <= fuel ->
  name_is d' q ->
  wp (n <- dt_new ;; dt_fill fuel n items ;;; x <- dt_get fuel n d' ;; e <- dt_enumerate fuel n ;; Ret (x, e)) h ∅
     (fun x h' _ => h ⊆ h' /\ (exists res, closest (rev (map (fun x => TLIns x.1 x.2) items')) q res /\
        x.1 = match res with Some v => (v, true) | None => (VNil, false) end) /\ enumerates (rev (map (fun x => TLIns x.1 x.2) items')) x.2).
Proof. exact @dt_pf_inplace. Qed.
Print Assumptions C30_inplace.

(** ** C31 *)
(** Every node of every version, other than its root, has a value or leads to a
    node with a value. *)
Theorem C31_no_dead_branches : forall U fuel (h : heap U) (ops : list (top name (value U))) rops,
  Forall2 tresolves ops rops -> ~ del_panics [] rops -> enough fuel (tnames ops) -> 128 <= fuel ->
  wp (run_hist (dt_exec fuel) ops []) h ∅ (fun r h1 _ => forall ver q, tc (dt_child h1) (nth ver r.1 None) q ->
    exists q', rtc (dt_child h1) q q' /\ has_value h1 q').
Proof. exact @dt_pf_alive. Qed.
Print Assumptions C31_no_dead_branches.

(** ** A history that meets the hypotheses. *)
Definition nm_of (s : bytes) : name := match make_name s with DOk d => d | _ => Name [] [] end.
Definition nm (s : string) : name := nm_of (B s).
Definition ex_dt : list (top name (value nat)) :=
  [ TBuild [(nm "com", VUser 1); (nm "www.example.com", VUser 2); (nm "Test.COM.", VUser 3)];
    TInsert 0 (nm "mail.example.com") (VUser 4);
    TInsert 1 (nm "a\.b.net") (VUser 5);
    TGet 2 (nm "x.y.mail.Example.com"); TGet 2 (nm "ftp.example.com"); TGet 2 (nm "net");
    TDelete 2 (nm "www.example.com"); TDelete 2 (nm "example.com");
    TDeleteSub 2 (nm "example.com"); TDeleteSub 2 (nm "org");
    TEnumerate 2; TEnumerate 3; TEnumerate 5; TEnumerate 0; TGet 9 (nm "com") ].
Definition ex_dt_paths : list (top path (value nat)) :=
  [ TBuild [([B "COM"], VUser 1); ([B "COM"; B "EXAMPLE"; B "WWW"], VUser 2); ([B "COM"; B "TEST"], VUser 3)];
    TInsert 0 [B "COM"; B "EXAMPLE"; B "MAIL"] (VUser 4);
    TInsert 1 [B "NET"; B "A.B"] (VUser 5);
    TGet 2 [B "COM"; B "EXAMPLE"; B "MAIL"; B "Y"; B "X"]; TGet 2 [B "COM"; B "EXAMPLE"; B "FTP"]; TGet 2 [B "NET"];
    TDelete 2 [B "COM"; B "EXAMPLE"; B "WWW"]; TDelete 2 [B "COM"; B "EXAMPLE"];
    TDeleteSub 2 [B "COM"; B "EXAMPLE"]; TDeleteSub 2 [B "ORG"];
    TEnumerate 2; TEnumerate 3; TEnumerate 5; TEnumerate 0; TGet 9 [B "COM"] ].
Lemma ex_name s p : bytes_eqb (nm_c (nm_of s)) (wire p) = true ->
  ((List.length p <=? 127)%nat && (name_size p <=? 255)%nat && forallb (fun l => ((1 <=? List.length l)%nat && (List.length l <=? 63)%nat) && forallb (fun c => Byte.eqb (upper c) c) l) p) = true ->
  name_is (nm_of s) p.
Proof.
  intros H1 H2. split; [by apply bytes_eqb_true|]. apply andb_true_iff in H2 as [[H2 H3]%andb_true_iff H4].
  apply Nat.leb_le in H2, H3. split_and!; [done|done|]. apply Forall_forall. intros l Hl. rewrite forallb_forall in H4.
  apply elem_of_list_In in Hl. specialize (H4 l Hl). apply andb_true_iff in H4 as [[H4 H5]%andb_true_iff H6]. apply Nat.leb_le in H4, H5.
  split; [done|]. apply Forall_forall. intros c Hc. rewrite forallb_forall in H6. apply elem_of_list_In in Hc. by apply Byte.byte_dec_bl, H6.
Qed.
Example ex_dt_resolves : Forall2 tresolves ex_dt ex_dt_paths.
Proof.
  repeat first [ apply Forall2_nil; exact I | apply Forall2_cons; split | apply tr_build | apply tr_insert | apply tr_delete
    | apply tr_delete_sub | apply tr_get | apply tr_enumerate | (apply ex_name; vm_compute; reflexivity) | reflexivity | constructor].
Qed.
Example ex_dt_fine : ~ del_panics [] ex_dt_paths.
Proof. apply short_fine. repeat constructor; vm_compute; lia. Qed.
(** A history at the maximal depth: it deletes a name of 127 labels that is not
    stored, stores it, and reads it; the same history with one deletion more panics. *)
Definition ex_deep : list (top name (value nat)) :=
  [ TInsert 0 (nm "a.a") (VUser 1); TDelete 0 (nm_of a127); TInsert 1 (nm_of a127) (VUser 2); TGet 2 (nm_of a127); TDeleteSub 2 (nm "a.a"); TGet 3 (nm_of a127) ].
Definition p127 : path := repeat (B "A") 127.
Definition ex_deep_paths : list (top path (value nat)) :=
  [ TInsert 0 [B "A"; B "A"] (VUser 1); TDelete 0 p127; TInsert 1 p127 (VUser 2); TGet 2 p127; TDeleteSub 2 [B "A"; B "A"]; TGet 3 p127 ].
Example ex_deep_resolves : Forall2 tresolves ex_deep ex_deep_paths.
Proof.
  assert (name_is (nm_of a127) p127) as H1 by (apply ex_name; vm_compute; reflexivity).
  assert (name_is (nm "a.a") [B "A"; B "A"]) as H2 by (apply ex_name; vm_compute; reflexivity).
  unfold ex_deep, ex_deep_paths. generalize dependent (nm_of a127). generalize dependent p127. intros p1 d1 H1.
  repeat apply Forall2_cons_2; try constructor; assumption.
Qed.
Example ex_deep_fine : ~ del_panics [] ex_deep_paths.
Proof.
  intros [[]|[_ H]]. destruct H as [[_ H]|[_ H]]; [vm_compute in H; congruence|]. destruct H as [[]|[_ H]]. destruct H as [[]|[_ H]].
  destruct H as [[H _]|[_ H]]; [discriminate H|]. destruct H as [[]|[_ []]].
Qed.
Example ex_deep_panics : del_panics [] (ex_deep_paths ++ [TDelete 2 p127]).
Proof.
  right. split; [intros []|]. right. split; [intros [_ H]; vm_compute in H; congruence|]. right. split; [intros []|]. right. split; [intros []|].
  right. split; [intros [H _]; discriminate H|]. right. split; [intros []|]. left. split; [reflexivity|]. vm_compute. discriminate.
Qed.
Example ex_deep_run : match run (run_hist (dt_exec 128) ex_deep []) ∅ 1%positive with (inl r, _, _) => r.2 | _ => [] end =
  [ TONone; TOBool false; TONone; TOVal (Some (VUser 2)); TOBool true; TOVal None ].
Proof. vm_compute. reflexivity. Qed.
Example ex_dt_fuel : enough 128 (tnames ex_dt).
Proof. vm_compute. lia. Qed.
Example ex_dt_run : match run (run_hist (dt_exec 128) ex_dt []) ∅ 1%positive with (inl r, _, _) => r.2 | _ => [] end =
  [ TONone; TONone; TONone; TOVal (Some (VUser 4)); TOVal (Some (VUser 1)); TOVal None;
    TOBool true; TOBool false; TOBool true; TOBool false;
    TOList [(B "com", VUser 1); (B "test.com", VUser 3); (B "www.example.com", VUser 2); (B "mail.example.com", VUser 4); (B "a\.b.net", VUser 5)];
    TOList [(B "com", VUser 1); (B "test.com", VUser 3); (B "mail.example.com", VUser 4); (B "a\.b.net", VUser 5)];
    TOList [(B "com", VUser 1); (B "test.com", VUser 3); (B "a\.b.net", VUser 5)];
    TOList [(B "com", VUser 1); (B "test.com", VUser 3); (B "www.example.com", VUser 2)];
    TOVal None ].
Proof. vm_compute. reflexivity. Qed.
