(** * Property C74: older versions of a red-black tree whose latest version is changed
    in place. *)
(** [str_lexec], [dl_lexec] (RbStaleProofs.v): the client changes the latest version only,
    by Insert, Delete and InplaceInsert in any order; it reads any version. [lvstep]
    (StaleSpec.v): what the calls return. Version 0 is the tree NewTree returns. *)
From Verif Require Import Prog History RbModel DomModel DtModel RbSpec StrSpec DlAbs StaleSpec RbStaleProofs.
From Coq Require Import String.
Open Scope nat_scope.

(** C74, strtree: the latest version is a map. An older version is the map it was left
    as until the first in-place insertion after it. From then on Get on it answers
    values, and Enumerate lists entries, of the maps that it and its successors were;
    entries may be missing, listed twice or out of order. It is empty exactly if it was
    left empty. No call panics or goes on for ever. No call writes to memory that was there
    before. *)
Theorem C74_strtree : forall U fuel (cmp : bytes -> bytes -> Z) (h : heap U) (ops : list (lvop (value U))), lawful cmp -> deep fuel (List.length ops) ->
  wp (p <- str_new_custom (Some cmp) ;; run_hist (str_lexec fuel) ops [p]) h ∅ (fun r h' _ => h ⊆ h' /\ exists css, spec_run (lvstep cmp) ops [[[]]] css r.2).
Proof. exact @pf_str_older. Qed.
Print Assumptions C74_strtree.

(** C74, dltree. *)
Theorem C74_dltree : forall U fuel (h : heap U) (ops : list (lvop (value U))), deep fuel (List.length ops) ->
  wp (p <- dl_new ;; run_hist (dl_lexec fuel) ops [p]) h ∅ (fun r h' _ => h ⊆ h' /\ exists css, spec_run (lvstep dl_compare) ops [[[]]] css r.2).
Proof. exact @pf_dl_older. Qed.
Print Assumptions C74_dltree.

(** C74: whatever such a history answers was stored by an earlier call of it: the value
    Get answers, under a key equal to the one asked for; a key listed, and the value
    listed with it, the latter under an equal key. *)
Theorem C74_stored : forall V (cmp : bytes -> bytes -> Z) (ops : list (lvop V)) css outs, lawful cmp -> spec_run (lvstep cmp) ops [[[]]] css outs ->
  forall j, match ops !! j, outs !! j with
    | Some (LGet i k), Some (SOVal (Some v)) => exists k', l_stored (take j ops) k' v /\ cmp k' k = 0%Z
    | Some (LEnumerate i), Some (SOList l) => forall e, e ∈ l ->
        (exists v', l_stored (take j ops) e.1 v') /\ exists k', l_stored (take j ops) k' e.2 /\ cmp k' e.1 = 0%Z
    | _, _ => True end.
Proof. intros V cmp ops css outs Hl. exact (pf_stored_start cmp Hl ops css outs). Qed.
Print Assumptions C74_stored.

(** ** The hypotheses hold of such histories, and the odd answers occur. After the
    in-place insertion version 2, which was 4, 5, lists 5 twice and has the new key, and
    version 1 is as it was left. In the second history version 2, left as
    2, 6, 9, lists 2 also after 6. In the third version 4, left as 10, 20, 30, 40, has
    lost 40. *)
Definition K1 (n : nat) : bytes := [Ascii.byte_of_ascii (Ascii.ascii_of_nat n)].
Definition stale_ops : list (lvop (value nat)) :=
  [ LInsert (K1 5) (VUser 1); LInsert (K1 4) (VUser 2); LInsert (K1 5) (VUser 3); LEnumerate 2; LInplace (K1 0) (VUser 4);
    LEnumerate 1; LEnumerate 2; LEnumerate 3; LGet 2 (K1 0); LGet 2 (K1 4) ].
Example stale_deep : deep 200 (List.length stale_ops).
Proof. unfold deep. vm_compute. lia. Qed.
Definition louts {A} (x : (A * list (sout (value nat))) + err) : list (list (nat * nat)) :=
  match x with
  | inl r => map (fun o => match o with
      | SOList l => map (fun e => (Ascii.nat_of_ascii (Ascii.ascii_of_byte (hd x00 e.1)), match e.2 with VUser n => n | _ => 0 end)) l
      | SOVal (Some (VUser n)) => [(0, n)] | _ => [] end) r.2
  | inr _ => [] end.
Example stale_run : louts (result (run (p <- str_new ;; run_hist (str_lexec 200) stale_ops [p]) ∅ 1%positive)) =
  [ []; []; []; [(4, 2); (5, 1)]; []; [(5, 1)]; [(0, 4); (4, 2); (5, 3); (5, 1)]; [(0, 4); (4, 2); (5, 3)]; [(0, 4)]; [(0, 2)] ].
Proof. vm_compute. reflexivity. Qed.
Definition stale_ops2 : list (lvop (value nat)) :=
  [ LInsert (K1 9) (VUser 1); LInplace (K1 6) (VUser 2); LInsert (K1 2) (VUser 3); LEnumerate 1; LEnumerate 2; LDelete (K1 6); LInplace (K1 13) (VUser 4);
    LEnumerate 1; LEnumerate 2; LEnumerate 3 ].
Example stale_run2 : louts (result (run (p <- dl_new ;; run_hist (dl_lexec 200) stale_ops2 [p]) ∅ 1%positive)) =
  [ []; []; []; [(6, 2); (9, 1)]; [(2, 3); (6, 2); (9, 1)]; []; []; [(6, 2); (9, 1)]; [(2, 3); (6, 2); (2, 3); (9, 1); (13, 4)]; [(2, 3); (9, 1); (13, 4)] ].
Proof. vm_compute. reflexivity. Qed.
Definition stale_ops3 : list (lvop (value nat)) :=
  map (fun n => LInsert (K1 n) (VUser n)) [10; 20; 30; 40; 5] ++ [LInplace (K1 31) (VUser 6); LEnumerate 4; LGet 4 (K1 40); LEnumerate 5].
Example stale_run3 : louts (result (run (p <- str_new ;; run_hist (str_lexec 200) stale_ops3 [p]) ∅ 1%positive)) =
  [ []; []; []; []; []; []; [(10, 10); (20, 20); (30, 30)]; []; [(5, 5); (10, 10); (20, 20); (30, 30); (31, 6); (40, 40)] ].
Proof. vm_compute. reflexivity. Qed.

(** ** Refuted: changing a version other than the latest. [x_exec]: the client changes any
    version; no operation other than insertion is needed. *)
Inductive xop := XInsert (i k : nat) | XInplace (i k : nat).
Definition x_exec {A} (ins : ptr -> bytes -> value nat -> prog nat ptr) (inp : ptr -> bytes -> value nat -> prog nat A) (vs : list ptr) (o : xop) : prog nat (list ptr * unit) :=
  match o with
  | XInsert i k => t <- ins (nth i vs None) (K1 k) VNil ;; Ret (vs ++ [t], tt)
  | XInplace i k => inp (nth i vs None) (K1 k) VNil ;;; Ret (vs, tt)
  end.
Definition str_xrun (ops : list xop) := p <- str_new ;; run_hist (x_exec (str_insert 60) (str_inplace_insert 60)) ops [p].
Definition dl_xrun (ops : list xop) := p <- dl_new ;; run_hist (x_exec (dl_raw_insert 60) (dl_raw_inplace_insert 60)) ops [p].
Definition build (l : list nat) : list xop := map (XInplace 0) l.

(** Insert into an older version can panic, though only one version, the latest, was
    changed in place. *)
Definition pan_ops : list xop := build [7;8;3;2;4;0;1;5;0] ++ [XInsert 0 0; XInplace 1 6; XInplace 1 9; XInplace 1 10].
Theorem C74_insert_refuted : exists (ops : list xop) (k : bytes),
  result (run (r <- str_xrun ops ;; str_insert 60 (nth 0 r.1 None) k VNil) ∅ 1%positive) = inr ENil /\
  result (run (r <- dl_xrun ops ;; dl_raw_insert 60 (nth 0 r.1 None) k VNil) ∅ 1%positive) = inr ENil /\
  (exists r, result (run (str_xrun ops) ∅ 1%positive) = inl r) /\ exists r, result (run (dl_xrun ops) ∅ 1%positive) = inl r.
Proof. exists pan_ops, (K1 4). split; [vm_compute; reflexivity|]. split; [vm_compute; reflexivity|]. split; vm_compute; eauto. Qed.
Print Assumptions C74_insert_refuted.

(** InplaceInsert can panic once two versions have been changed in place. *)
Definition pan_ops2 : list xop := build [5;7] ++ [XInsert 0 5; XInplace 1 9; XInplace 0 13; XInplace 0 10].
Theorem C74_inplace_refuted : exists (ops : list xop) (k : bytes),
  result (run (r <- str_xrun ops ;; str_inplace_insert 60 (nth 1 r.1 None) k VNil) ∅ 1%positive) = inr ENil /\
  result (run (r <- dl_xrun ops ;; dl_raw_inplace_insert 60 (nth 1 r.1 None) k VNil) ∅ 1%positive) = inr ENil /\
  (exists r, result (run (str_xrun ops) ∅ 1%positive) = inl r) /\ exists r, result (run (dl_xrun ops) ∅ 1%positive) = inl r.
Proof. exists pan_ops2, (K1 13). split; [vm_compute; reflexivity|]. split; [vm_compute; reflexivity|]. split; vm_compute; eauto. Qed.
Print Assumptions C74_inplace_refuted.

(** Get can go on for ever: whatever the fuel, it is used up. *)
Definition hang_ops : list xop := build (map (fun n => 2 * n) [4;8;9;2;6;1]) ++
  [XInsert 0 8; XInsert 1 8; XInplace 0 10; XInplace 2 0; XInplace 1 0; XInplace 1 14; XInplace 1 10; XInplace 0 10].
Theorem C74_get_refuted : exists (ops : list xop) (k : bytes),
  (exists r h n, run (str_xrun ops) ∅ 1%positive = (inl r, h, n) /\ forall fuel, fails (str_get fuel (nth 0 r.1 None) k) h EFuel) /\
  exists r h n, run (dl_xrun ops) ∅ 1%positive = (inl r, h, n) /\ forall fuel, fails (dl_raw_get fuel (nth 0 r.1 None) k) h EFuel.
Proof. exists hang_ops, (K1 5). split; [apply str_get_loops|apply dl_get_loops]; vm_compute; reflexivity. Qed.
Print Assumptions C74_get_refuted.

(** The label trees of domaintree are dltrees, so the same happens there: Insert into an
    older version can panic, and so can InplaceInsert once two versions have been changed
    in place. Names of one letter; no name is below another. *)
Definition nm1 (n : nat) : name := match make_name [Ascii.byte_of_ascii (Ascii.ascii_of_nat (65 + n))] with DOk d => d | _ => Name [] [] end.
Definition dt_xexec (vs : list ptr) (o : xop) : prog nat (list ptr * unit) :=
  match o with
  | XInsert i k => t <- dt_insert 60 (nth i vs None) (nm1 k) VNil ;; Ret (vs ++ [t], tt)
  | XInplace i k => dt_inplace_insert 60 (nth i vs None) (nm1 k) VNil ;;; Ret (vs, tt)
  end.
Definition dt_xrun (ops : list xop) := p <- dt_new ;; run_hist dt_xexec ops [p].
Definition dt_ops1 : list xop := [XInplace 0 14; XInplace 0 16; XInsert 0 2; XInplace 1 8; XInsert 1 0; XInplace 2 4; XInplace 2 6; XInplace 2 10; XInsert 2 0; XInplace 3 18; XInplace 3 12; XInplace 3 20].
Definition dt_ops2 : list xop := [XInplace 0 14; XInplace 0 2; XInsert 0 14; XInplace 0 0; XInplace 1 4; XInplace 1 6].
Theorem C74_domaintree_refuted : exists ops1 k1 ops2 k2,
  result (run (r <- dt_xrun ops1 ;; dt_insert 60 (nth 2 r.1 None) (nm1 k1) VNil) ∅ 1%positive) = inr ENil /\
  (exists r, result (run (dt_xrun ops1) ∅ 1%positive) = inl r) /\
  result (run (r <- dt_xrun ops2 ;; dt_inplace_insert 60 (nth 0 r.1 None) (nm1 k2) VNil) ∅ 1%positive) = inr ENil /\
  exists r, result (run (dt_xrun ops2) ∅ 1%positive) = inl r.
Proof.
  exists dt_ops1, 7, dt_ops2, 3. split; [vm_compute; reflexivity|]. split; [vm_compute; eauto|]. split; [vm_compute; reflexivity|vm_compute; eauto].
Qed.
Print Assumptions C74_domaintree_refuted.
