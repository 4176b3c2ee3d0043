(** * strtree without, or with an unusual, comparison function (C58, C59).

    C58: the zero Tree ([new(strtree.Tree)]) and NewTreeWithCustomComparison(nil). A client
    ([run_handle], see Properties_handle.v) applies any list of calls to it; ZeroSpec.v says what
    it sees: the tree holds at most one key, and the first Insert, InplaceInsert, Get or Delete on
    a tree that holds a key panics (nil function call).

    C59: any comparison function at all. [fails m h EFuel]: the call does not return and does not
    panic; when it holds for every fuel the Go code loops for ever. A history returns, or loops
    in one of its insertions. On a version [p] with comparison function [cmp] all calls but
    insertions return, and Insert(k) returns if the tree is empty, Get(k) finds something or
    cmp(k, k) = 0, and loops for ever otherwise. [slogs] (StrSpec.v) gives the comparison
    function a version was built with. *)
From Verif Require Import Prog History RbModel RbSpec RbFun RbSim RbSimOps RbAbs StrSpec StrAbs StrPropProofs Handle RbHandle ZeroSpec ZeroProofs CmpPropProofs.
From Coq Require Import String.
Open Scope nat_scope.
Local Notation B := list_byte_of_string.

(** ** C58 *)
Theorem C58_zero_tree : forall U fuel (h : heap U) (ops : list (hop (sop (value U)) (bytes * value U))),
  1 <= fuel -> Forall (hop_ok on_handle (fun _ => True)) ops ->
  (~ z_stuck None ops -> wp (p <- str_new_custom None ;; run_handle (str_exec fuel) (str_inplace fuel) ops p) h ∅ (fun r h' _ => h ⊆ h' /\ r.2 = z_answers None ops)) /\
  (z_stuck None ops -> fails (p <- str_new_custom None ;; run_handle (str_exec fuel) (str_inplace fuel) ops p) h ENil).
Proof. exact (fun U fuel h ops Hf => z_client fuel Hf h ops). Qed.
Print Assumptions C58_zero_tree.
Definition ex_zero : list (hop (sop (value nat)) (bytes * value nat)) :=
  [ HCall (SGet 0 (B "a")); HCall (SDelete 0 (B "a")); HInplace (B "b", VUser 1); HCall (SEnumerate 0); HCall (SIsEmpty 0) ].
Example ex_zero_ok : Forall (hop_ok on_handle (fun _ => True)) ex_zero /\ ~ z_stuck None ex_zero /\ z_stuck None (ex_zero ++ [HCall (SGet 0 (B "b"))]).
Proof. split; [by repeat constructor|]. unfold z_panics. cbn. unfold z_panics. cbn. intuition congruence. Qed.
Example ex_zero_run : match run (p <- str_new_custom None ;; run_handle (str_exec 1) (str_inplace 1) ex_zero p) ∅ 1%positive with (inl r, _, _) => r.2 | _ => [] end =
  [ Some (SOVal None); Some (SOBool false); None; Some (SOList [(B "b", VUser 1)]); Some (SOBool false) ].
Proof. vm_compute. reflexivity. Qed.
Example ex_zero_panic : result (run (p <- str_new_custom None ;; run_handle (str_exec 1) (str_inplace 1) (ex_zero ++ [HCall (SGet 0 (B "b"))]) p) ∅ 1%positive) = inr ENil.
Proof. vm_compute. reflexivity. Qed.

(** ** C59 *)
Theorem C59_insert : forall U (h : heap U) (ops : list (sop (value U))),
  (forall fuel, enough fuel (keys ops) -> wp (run_hist (str_exec fuel) ops []) h ∅ (fun r h' _ => h ⊆ h' /\ forall ver k v,
     let p := nth ver r.1 None in let cmp := (slogs_nth str_compare (slogs str_compare ops) ver).1 in
     exists found empty,
       wp (str_get fuel p k) h' ∅ (fun x _ _ => x.2 = found) /\ wp (str_is_empty p) h' ∅ (fun b _ _ => b = empty) /\
       wp (str_delete fuel p k) h' ∅ (fun _ _ _ => True) /\ wp (str_enumerate fuel p) h' ∅ (fun _ _ _ => True) /\
       if empty || found || (cmp k k =? 0)%Z then wp (str_insert fuel p k v) h' ∅ (fun _ _ _ => True)
       else forall fuel', fails (str_insert fuel' p k v) h' EFuel)) \/
  (forall fuel, enough fuel (keys ops) -> fails (run_hist (str_exec fuel) ops []) h EFuel).
Proof. exact @pf_any. Qed.
Print Assumptions C59_insert.
Theorem C59_inplace : forall U (h : heap U) cmp (items : list (bytes * value U)),
  (forall fuel, enough fuel (List.length items) -> wp (p <- str_new_custom (Some cmp) ;; str_fill fuel p items ;;; Ret p) h ∅ (fun p h' W' => forall k v,
     exists found empty,
       wp (str_get fuel p k) h' ∅ (fun x _ _ => x.2 = found) /\ wp (str_is_empty p) h' ∅ (fun b _ _ => b = empty) /\
       if empty || found || (cmp k k =? 0)%Z then wp (str_inplace_insert fuel p k v) h' W' (fun _ _ _ => True)
       else forall fuel', fails (str_inplace_insert fuel' p k v) h' EFuel)) \/
  (forall fuel, enough fuel (List.length items) -> fails (p <- str_new_custom (Some cmp) ;; str_fill fuel p items ;;; Ret p) h EFuel).
Proof. exact @pf_any_inplace. Qed.
Print Assumptions C59_inplace.
(** A comparison function that is never 0, as in [if a < b { return -1 }; return 1]: the second insertion loops for ever. *)
Theorem C59_strict : forall U fuel (h : heap U) cmp k1 v1 k2 v2, (forall a b, cmp a b <> 0%Z) ->
  fails (p <- str_new_custom (U := U) (Some cmp) ;; p1 <- str_insert fuel p k1 v1 ;; str_insert fuel p1 k2 v2) h EFuel.
Proof. exact @pf_strict. Qed.
Print Assumptions C59_strict.
Definition less_or_more (a b : bytes) : Z := if (str_compare a b <? 0)%Z then (-1)%Z else 1%Z.
Example ex_strict : (forall a b, less_or_more a b <> 0%Z) /\
  result (run (p <- str_new_custom (Some less_or_more) ;; p1 <- str_insert 50 p (B "a") (VUser 1) ;; str_insert 50 p1 (B "b") (VUser 2)) ∅ 1%positive) = inr EFuel.
Proof. split; [intros a b; unfold less_or_more; by destruct (_ <? _)%Z|vm_compute; reflexivity]. Qed.
(** Both alternatives occur: keys compared by their length if that is at least 2, shorter ones never equal to anything. *)
Definition odd (a b : bytes) : Z :=
  if Nat.ltb (List.length b) 2 then (-1)%Z else (Z.of_nat (List.length a) - Z.of_nat (List.length b))%Z.
Definition ex_odd : list (sop (value nat)) :=
  [ SBuild odd [(B "aa", VUser 1); (B "bbb", VUser 2); (B "cc", VUser 3)]; SInsert 0 (B "dddd") (VUser 4); SDelete 1 (B "xx"); SGet 2 (B "a"); SEnumerate 2 ].
Example ex_odd_run : match run (run_hist (str_exec 20) ex_odd []) ∅ 1%positive with (inl r, _, _) => r.2 | _ => [] end =
  [ SONone; SONone; SOBool true; SOVal None; SOList [(B "bbb", VUser 2); (B "dddd", VUser 4)] ].
Proof. vm_compute. reflexivity. Qed.
Example ex_odd_next : (slogs_nth str_compare (slogs str_compare ex_odd) 2).1 = odd /\ odd (B "a") (B "a") = (-1)%Z /\
  result (run (run_hist (str_exec 50) (ex_odd ++ [SInsert 2 (B "a") (VUser 5)]) []) ∅ 1%positive) = inr EFuel.
Proof. vm_compute. done. Qed.
