(** * Properties C01-C11: strtree. *)
From Verif Require Import Prog History RbModel RbSpec RbFun RbFunIns RbSim RbSimOps RbAbs StrSpec StrAbs StrPropProofs.

(** Throughout: [ops] is any history of client operations ([StrSpec.sop]: create
    a tree with a comparator and fill it by InplaceInsert; Insert, Delete, Get,
    Enumerate, IsEmpty on any version obtained so far), in any memory [h];
    [ver] is the number of a version, a number without a version stands for nil.
    [ver_log ops ver] is the log of the insertions and deletions that led to the
    version, newest first, [ver_cmp ops ver] its comparator. [fuel] bounds the
    iterations of each loop: [enough] is logarithmic in the number of keys.
    [wp m h ∅ …]: [m] does not panic, terminates, writes no cell of [h]. *)

(** C01 *)
Theorem C01_get_latest : forall U fuel (h : heap U) (ops : list (sop (value U))) ver k,
  Forall sop_lawful ops -> enough fuel (keys ops) ->
  wp (r <- run_hist (str_exec fuel) ops [] ;; str_get fuel (nth ver r.1 None) k) h ∅
     (fun res h' _ => h ⊆ h' /\
        res = match log_get (ver_cmp ops ver) (ver_log ops ver) k with Some v => (v, true) | None => (VNil, false) end).
Proof. exact @pf_get. Qed.
Print Assumptions C01_get_latest.

(** C02: Insert writes no cell that exists ([h1]: the memory after the history). *)
Theorem C02_insert_no_write : forall U fuel (h : heap U) (ops : list (sop (value U))) k v,
  Forall sop_refl ops -> enough fuel (keys ops) ->
  wp (run_hist (str_exec fuel) ops []) h ∅ (fun r h1 _ => forall ver,
    wp (str_insert fuel (nth ver r.1 None) k v) h1 ∅ (fun _ h2 _ => h1 ⊆ h2)).
Proof. exact @pf_insert_nowrite. Qed.
Print Assumptions C02_insert_no_write.

(** C02: all answers, at all times, on all versions, are those of immutable
    sorted maps. *)
Theorem C02_answers_for_ever : forall U fuel (h : heap U) (ops : list (sop (value U))),
  Forall sop_lawful ops -> enough fuel (keys ops) ->
  wp (run_hist (str_exec fuel) ops []) h ∅ (fun r h' _ => h ⊆ h' /\ r.2 = souts str_compare ops []).
Proof. exact @pf_history. Qed.
Print Assumptions C02_answers_for_ever.

(** C03 *)
Theorem C03_delete_no_write : forall U fuel (h : heap U) (ops : list (sop (value U))) k,
  Forall sop_refl ops -> enough fuel (keys ops) ->
  wp (run_hist (str_exec fuel) ops []) h ∅ (fun r h1 _ => forall ver,
    wp (str_delete fuel (nth ver r.1 None) k) h1 ∅ (fun _ h2 _ => h1 ⊆ h2)).
Proof. exact @pf_delete_nowrite. Qed.
Print Assumptions C03_delete_no_write.

(** C04 *)
Theorem C04_delete_exact : forall U fuel (h : heap U) (ops : list (sop (value U))) ver k,
  Forall sop_lawful ops -> enough fuel (keys ops) ->
  wp (r <- run_hist (str_exec fuel) ops [] ;;
      e <- str_enumerate fuel (nth ver r.1 None) ;;
      d <- str_delete fuel (nth ver r.1 None) k ;;
      e' <- str_enumerate fuel d.1 ;; Ret (e, d.2, e')) h ∅
     (fun '(e, found, e') h' _ => h ⊆ h' /\
        found = existsb (fun x => ver_cmp ops ver x.1 k =? 0)%Z e /\
        e' = List.filter (fun x => negb (ver_cmp ops ver x.1 k =? 0)%Z) e).
Proof. exact @pf_delete. Qed.
Print Assumptions C04_delete_exact.

(** C05 *)
Theorem C05_enumerate_sorted : forall U fuel (h : heap U) (ops : list (sop (value U))) ver,
  Forall sop_lawful ops -> enough fuel (keys ops) ->
  wp (r <- run_hist (str_exec fuel) ops [] ;; str_enumerate fuel (nth ver r.1 None)) h ∅
     (fun e h' _ => h ⊆ h' /\
        StronglySorted (fun x y => ver_cmp ops ver x.1 y.1 < 0)%Z e /\
        (forall k v, (k, v) ∈ e -> log_get (ver_cmp ops ver) (ver_log ops ver) k = Some v) /\
        (forall k v, log_get (ver_cmp ops ver) (ver_log ops ver) k = Some v ->
           exists k', (k', v) ∈ e /\ ver_cmp ops ver k' k = 0%Z)).
Proof. exact @pf_enumerate. Qed.
Print Assumptions C05_enumerate_sorted.

(** C05: the default comparator is the lexicographic order on bytes. *)
Theorem C05_default_order : forall a b, ((str_compare a b < 0)%Z <-> lex_lt a b) /\ (str_compare a b = 0%Z <-> a = b).
Proof. exact (fun a b => conj (str_compare_lt a b) (str_compare_eq a b)). Qed.
Print Assumptions C05_default_order.

(** C06: every version is a valid red-black tree (root black, no red node with a
    red child, equally many black nodes on all paths), of logarithmic height;
    only [compare(k,k) = 0] is asked of the comparators. *)
Theorem C06_redblack : forall U fuel (h : heap U) (ops : list (sop (value U))) ver,
  Forall sop_refl ops -> enough fuel (keys ops) ->
  wp (r <- run_hist (str_exec fuel) ops [] ;; Ret (nth ver r.1 None)) h ∅ (fun p h' _ => h ⊆ h' /\
    forall a, p = Some a -> exists cmp r t, h' !! a = Some (CStr r (Some cmp)) /\ rep h' r t /\ rbt t /\
      height t <= 2 * Nat.log2 (length (inord t) + 1)).
Proof. exact @pf_redblack. Qed.
Print Assumptions C06_redblack.

(** C06: Get succeeds within [2*log2(n+1)] comparisons (its fuel: each iteration
    makes one), [n] the number of enumerated pairs. *)
Theorem C06_get_comparisons : forall U fuel (h : heap U) (ops : list (sop (value U))) ver k,
  Forall sop_refl ops -> enough fuel (keys ops) ->
  wp (r <- run_hist (str_exec fuel) ops [] ;;
      e <- str_enumerate fuel (nth ver r.1 None) ;;
      str_get (2 * Nat.log2 (length e + 1)) (nth ver r.1 None) k) h ∅ (fun _ h' _ => h ⊆ h').
Proof. exact @pf_depth. Qed.
Print Assumptions C06_get_comparisons.

(** C07: on a tree made of the cell [a] and exactly the nodes [F], each used
    once, InplaceInsert writes only these and new ones ([h0]: any other part of
    memory); the result is again unshared and is, node for node, the tree that
    Insert returns, with the content Insert gives. *)
Theorem C07_inplace_insert : forall U fuel (h h0 : heap U) a cmp t F k v,
  crefl cmp -> rbt t -> enough fuel (length (inord t)) ->
  str_owned h a (cmp, t) F -> h0 ⊆ h -> (forall x, x ∈ {[a]} ∪ F -> h0 !! x = None) ->
  exists t' : tree U, (lawful cmp -> ordered cmp (inord t) -> inord t' = a_insert cmp (inord t) k v) /\
    wp (str_inplace_insert fuel (Some a) k v) h ({[a]} ∪ F)
     (fun _ h' F1 => h0 ⊆ h' /\ rbt t' /\ exists F', {[a]} ∪ F' ⊆ F1 /\ str_owned h' a (cmp, t') F') /\
    wp (str_insert fuel (Some a) k v) h ∅ (fun p h' _ => str_rep h' p (cmp, t')).
Proof. exact @pf_inplace. Qed.
Print Assumptions C07_inplace_insert.

(** C08: nothing panics, every loop ends. *)
Theorem C08_total : forall U fuel (h : heap U) (ops : list (sop (value U))),
  Forall sop_refl ops -> enough fuel (keys ops) ->
  wp (run_hist (str_exec fuel) ops []) h ∅ (fun r h' _ => h ⊆ h').
Proof. exact @pf_total. Qed.
Print Assumptions C08_total.

(** C09 *)
Theorem C09_key_spelling : forall U fuel (h : heap U) (ops : list (sop (value U))) ver k v,
  Forall sop_lawful ops -> enough fuel (keys ops + 1) ->
  wp (r <- run_hist (str_exec fuel) ops [] ;;
      e <- str_enumerate fuel (nth ver r.1 None) ;;
      t <- str_insert fuel (nth ver r.1 None) k v ;;
      e' <- str_enumerate fuel t ;; Ret (e, e')) h ∅
     (fun '(e, e') h' _ => h ⊆ h' /\
        forall k' v', (k', v') ∈ e -> ver_cmp ops ver k' k = 0%Z ->
          (k', v) ∈ e' /\ map fst e' = map fst e /\
          e' = map (fun x => if (ver_cmp ops ver x.1 k =? 0)%Z then (x.1, v) else x) e).
Proof. exact @pf_insert. Qed.
Print Assumptions C09_key_spelling.

(** C10 *)
Theorem C10_delete_missing : forall U fuel (h : heap U) (ops : list (sop (value U))) ver k,
  Forall sop_lawful ops -> enough fuel (keys ops) ->
  wp (r <- run_hist (str_exec fuel) ops [] ;;
      e <- str_enumerate fuel (nth ver r.1 None) ;;
      d <- str_delete fuel (nth ver r.1 None) k ;;
      e' <- str_enumerate fuel d.1 ;; Ret (e, d.2, e')) h ∅
     (fun '(e, found, e') h' _ => h ⊆ h' /\ (found = false -> e' = e)).
Proof. exact @pf_delete_missing. Qed.
Print Assumptions C10_delete_missing.

(** C10: what is returned is always a new tree object, also when nothing was
    deleted. *)
Theorem C10_delete_new_object : forall U fuel (h : heap U) (ops : list (sop (value U))) k,
  Forall sop_lawful ops -> enough fuel (keys ops) ->
  wp (run_hist (str_exec fuel) ops []) h ∅ (fun r h1 _ => forall ver a, nth ver r.1 None = Some a ->
    wp (str_delete fuel (Some a) k) h1 ∅ (fun d h2 _ => h1 ⊆ h2 /\ exists a', d.1 = Some a' /\ h1 !! a' = None)).
Proof. exact @pf_delete_fresh. Qed.
Print Assumptions C10_delete_new_object.

(** C11 *)
Theorem C11_is_empty : forall U fuel (h : heap U) (ops : list (sop (value U))) ver,
  Forall sop_lawful ops -> enough fuel (keys ops) ->
  wp (r <- run_hist (str_exec fuel) ops [] ;;
      b <- str_is_empty (nth ver r.1 None) ;;
      e <- str_enumerate fuel (nth ver r.1 None) ;; Ret (b, e)) h ∅
     (fun '(b, e) h' _ => h ⊆ h' /\ (b = true <-> e = [])).
Proof. exact @pf_is_empty. Qed.
Print Assumptions C11_is_empty.

(** ** Non-vacuity: a history on two trees, one ordered by length only. *)
Definition by_len (a b : bytes) : Z := (Z.of_nat (length a) - Z.of_nat (length b))%Z.
Example by_len_lawful : lawful by_len.
Proof. unfold by_len. split; intros; lia. Qed.
Definition K (l : list nat) : bytes := map (fun n => match Byte.of_N (N.of_nat n) with Some b => b | None => Byte.x00 end) l.
Definition ex_str : list (sop (value nat)) :=
  [ SBuild by_len [(K [1;2;3], VUser 1); (K [7], VUser 2); (K [4;4], VUser 3)];
    SInsert 0 (K [9;9;9]) (VUser 4);
    SEnumerate 1;
    SEnumerate 0;
    SInsert 7 (K [2]) (VUser 5);
    SInsert 2 (K [1]) (VUser 6);
    SInsert 3 (K [3;0]) (VUser 7);
    SInsert 4 (K [0]) (VUser 8);
    SDelete 5 (K [2]);
    SDelete 5 (K [2;2]);
    SEnumerate 6;
    SEnumerate 7;
    SGet 6 (K [2]);
    SGet 5 (K [2]);
    SDelete 2 (K [2]);
    SIsEmpty 8; SIsEmpty 2; SIsEmpty 99 ].
Example ex_str_lawful : Forall sop_lawful ex_str.
Proof. repeat constructor; apply by_len_lawful. Qed.
Example ex_str_fuel : enough 18 (keys ex_str).
Proof. vm_compute. lia. Qed.
Example ex_str_run : match run (run_hist (str_exec 18) ex_str []) ∅ 1%positive with (inl r, _, _) => r.2 | _ => [] end =
  [ SONone; SONone;
    SOList [(K [7], VUser 2); (K [4;4], VUser 3); (K [1;2;3], VUser 4)];
    SOList [(K [7], VUser 2); (K [4;4], VUser 3); (K [1;2;3], VUser 1)];
    SONone; SONone; SONone; SONone;
    SOBool true; SOBool false;
    SOList [(K [0], VUser 8); (K [1], VUser 6); (K [3;0], VUser 7)];
    SOList [(K [0], VUser 8); (K [1], VUser 6); (K [2], VUser 5); (K [3;0], VUser 7)];
    SOVal None; SOVal (Some (VUser 5)); SOBool true; SOBool true; SOBool false; SOBool true ].
Proof. vm_compute. reflexivity. Qed.
(** C07's hypotheses: a new tree object is unshared, so InplaceInsert applies, and
    then again. *)
Example ex_str_owned : exists (h : heap nat) a, h !! a = Some (CStr None (Some by_len)) /\ str_owned h a (by_len, E) ∅.
Proof. exists {[1%positive := CStr None (Some by_len)]}, 1%positive. split; [done|]. exists None. done. Qed.

(** C10: the doc comment (strtree/strtree.go:79: "…otherwise original
    tree and false") does not hold: a missing key gives another
    tree object. *)
Theorem C10_same_object_refuted : exists (ops : list (sop (value nat))) k t d,
  Forall sop_lawful ops /\
  match run (r <- run_hist (str_exec 10) ops [] ;; d <- str_delete 10 (nth 0 r.1 None) k ;; Ret (nth 0 r.1 None, d)) ∅ 1%positive with
  | (inl x, _, _) => Some x | _ => None end = Some (t, (d, false)) /\ d <> t.
Proof.
  exists [SBuild by_len [(K [1], VUser 1)]], (K [1;1]), (Some 1%positive), (Some 5%positive).
  split; [repeat constructor; apply by_len_lawful|]. split; [vm_compute; reflexivity|done].
Qed.
Print Assumptions C10_same_object_refuted.
