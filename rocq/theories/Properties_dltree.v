(** * Properties of package dltree (C08, C12 to C15).

    [ops] is any history of client operations ([DlSpec.dop]): create a tree and
    fill it in place, Insert, Delete, Get, RawEnumerate, IsEmpty on any version
    obtained so far, with keys in binary ([KRaw]: the Raw… methods) or text form
    ([KText]), in any memory [h]. [resolves ops rops]: every key of the history
    stands for a binary label; [rops] is the history with these labels. [dl_log
    rops ver]: the insertions and deletions that led to a version, newest first. *)
From Verif Require Import Prog History RbModel RbSpec RbFun RbFunIns RbSim RbSimOps RbAbs StrSpec StrAbs StrPropProofs.
From Verif Require Import DomModel DomSpec DomPropProofs DlModel DlSpec DlAbs DlPropProofs.
From Coq Require Import String.

Local Notation B := list_byte_of_string.

(** ** C12 *)
Theorem C12_get_latest : forall U fuel (h : heap U) (ops : list (dop (value U))) rops ver k,
  Forall2 resolves ops rops -> enough fuel (dkeys ops) ->
  wp (r <- run_hist (dl_exec fuel) ops [] ;; dl_raw_get fuel (nth ver r.1 None) k) h ∅
     (fun res h' _ => h ⊆ h' /\ res = match klog_get (dl_log rops ver) k with Some v => (v, true) | None => (VNil, false) end).
Proof. exact @dl_pf_get. Qed.
Print Assumptions C12_get_latest.
(** All answers at all times are those of immutable sorted maps. *)
Theorem C12_answers_for_ever : forall U fuel (h : heap U) (ops : list (dop (value U))) rops,
  Forall2 resolves ops rops -> enough fuel (dkeys ops) ->
  wp (run_hist (dl_exec fuel) ops []) h ∅ (fun r h' _ => h ⊆ h' /\ r.2 = souts dl_compare rops []).
Proof. exact @dl_pf_history. Qed.
Print Assumptions C12_answers_for_ever.
(** RawEnumerate: strictly increasing in (length, bytes), exactly the stored pairs. *)
Theorem C12_enumerate_sorted : forall U fuel (h : heap U) (ops : list (dop (value U))) rops ver,
  Forall2 resolves ops rops -> enough fuel (dkeys ops) ->
  wp (r <- run_hist (dl_exec fuel) ops [] ;; dl_raw_enumerate fuel (nth ver r.1 None)) h ∅
     (fun e h' _ => h ⊆ h' /\ StronglySorted (fun x y => shortlex_lt x.1 y.1) e /\
        forall k v, (k, v) ∈ e <-> klog_get (dl_log rops ver) k = Some v).
Proof. exact @dl_pf_enumerate. Qed.
Print Assumptions C12_enumerate_sorted.
Theorem C12_delete_exact : forall U fuel (h : heap U) (ops : list (dop (value U))) rops ver k,
  Forall2 resolves ops rops -> enough fuel (dkeys ops) ->
  wp (r <- run_hist (dl_exec fuel) ops [] ;;
      e <- dl_raw_enumerate fuel (nth ver r.1 None) ;;
      d <- dl_raw_delete fuel (nth ver r.1 None) k ;;
      e' <- dl_raw_enumerate fuel d.1 ;; Ret (e, d.2, e')) h ∅
     (fun '(e, found, e') h' _ => h ⊆ h' /\
        found = existsb (fun x => bytes_eqb x.1 k) e /\ e' = List.filter (fun x => negb (bytes_eqb x.1 k)) e).
Proof. exact @dl_pf_delete. Qed.
Print Assumptions C12_delete_exact.
Theorem C12_no_write : forall U fuel (h : heap U) (ops : list (dop (value U))) rops,
  Forall2 resolves ops rops -> enough fuel (dkeys ops) ->
  wp (run_hist (dl_exec fuel) ops []) h ∅ (fun r h1 _ => forall ver k v,
    wp (dl_raw_insert fuel (nth ver r.1 None) k v) h1 ∅ (fun _ h2 _ => h1 ⊆ h2) /\
    wp (dl_raw_delete fuel (nth ver r.1 None) k) h1 ∅ (fun _ h2 _ => h1 ⊆ h2)).
Proof. exact @dl_pf_nowrite. Qed.
Print Assumptions C12_no_write.
(** Get makes at most [2*log2(n+1)] comparisons (its fuel). *)
Theorem C12_get_comparisons : forall U fuel (h : heap U) (ops : list (dop (value U))) rops ver k,
  Forall2 resolves ops rops -> enough fuel (dkeys ops) ->
  wp (r <- run_hist (dl_exec fuel) ops [] ;;
      e <- dl_raw_enumerate fuel (nth ver r.1 None) ;;
      dl_raw_get (2 * Nat.log2 (List.length e + 1)) (nth ver r.1 None) k) h ∅ (fun _ h' _ => h ⊆ h').
Proof. exact @dl_pf_depth. Qed.
Print Assumptions C12_get_comparisons.
(** InplaceInsert on a tree made of the cell [a] and exactly the nodes [F], each
    used once, writes only these and new ones, and changes the content as Insert. *)
Theorem C12_inplace_insert : forall U fuel (h h0 : heap U) a l F k v, enough fuel (List.length l) ->
  dl_owned h a l F -> h0 ⊆ h -> (forall x, x ∈ {[a]} ∪ F -> h0 !! x = None) ->
  wp (dl_raw_inplace_insert fuel (Some a) k v) h ({[a]} ∪ F)
     (fun _ h' F1 => h0 ⊆ h' /\ exists F', {[a]} ∪ F' ⊆ F1 /\ dl_owned h' a (a_insert dl_compare l k v) F').
Proof. exact @dl_pf_inplace. Qed.
Print Assumptions C12_inplace_insert.

(** ** C08, for dltree *)
(** Nothing panics and every loop ends, as long as every key in text form stands
    for something. *)
Theorem C08_dl_total : forall U fuel (h : heap U) (ops : list (dop (value U))) rops,
  Forall2 resolves ops rops -> enough fuel (dkeys ops) ->
  wp (run_hist (dl_exec fuel) ops []) h ∅ (fun r h' _ => h ⊆ h').
Proof. intros. eapply wp_mono; [by eapply dl_pf_history|]. cbn beta. tauto. Qed.
Print Assumptions C08_dl_total.
(** Text that stands for nothing is the text on which MakeLabel panics (C23), and
    the calls then do panic. *)
Theorem C08_dl_panics : forall U fuel (h : heap U) a n s v, (forall m, ~ key_is (KText s) m) -> h !! a = Some (CDl n) ->
  fails (dl_insert fuel (Some a) s v) h EPanic /\ fails (dl_get (U := U) fuel (Some a) s) h EPanic /\
  fails (dl_delete (U := U) fuel (Some a) s) h EPanic.
Proof. intros U fuel h a n s v Hs. apply dl_pf_panic. by apply dl_pf_unresolved. Qed.
Print Assumptions C08_dl_panics.
Theorem C08_dl_dot : forall s, (forall m, ~ key_is (KText s) m) <->
  exists w l r, s = w ++ c_dot :: r /\ r <> [] /\ label_text w l /\ List.length l <= 63.
Proof. intros s. rewrite dl_pf_unresolved. apply make_label_iff. Qed.
Print Assumptions C08_dl_dot.

(** ** C13 *)
(** The calls with text are the calls with the label the text denotes. *)
Theorem C13_same_calls : forall U fuel t s m (v : value U), label_of s m ->
  dl_insert fuel t s v = dl_raw_insert fuel t m v /\ dl_inplace_insert fuel t s v = dl_raw_inplace_insert fuel t m v /\
  dl_get (U := U) fuel t s = dl_raw_get fuel t m /\ dl_delete (U := U) fuel t s = dl_raw_delete fuel t m.
Proof.
  intros U fuel t s m v Hs. assert (Hk : key_is (KText s) m) by by constructor. split_and!.
  - exact (dk_insert_raw fuel t _ _ v Hk).
  - exact (dk_inplace_raw fuel t _ _ v Hk).
  - exact (dk_get_raw fuel t _ _ Hk).
  - exact (dk_delete_raw fuel t _ _ Hk).
Qed.
Print Assumptions C13_same_calls.
(** After any history: Insert under the text [s] of label [m], then Get under any
    key: the new value if the key stands for [m], and what was there before if not. *)
Theorem C13_insert_get : forall U fuel (h : heap U) (ops : list (dop (value U))) rops ver s m v k k',
  Forall2 resolves ops rops -> enough fuel (dkeys ops + 1) ->
  label_of s m -> key_is k k' ->
  wp (r <- run_hist (dl_exec fuel) ops [] ;;
      t <- dl_insert fuel (nth ver r.1 None) s v ;;
      dk_get fuel t k) h ∅ (fun res h' _ => h ⊆ h' /\
         res = if bytes_eqb m k' then (v, true) else match klog_get (dl_log rops ver) k' with Some v => (v, true) | None => (VNil, false) end).
Proof. exact @dl_pf_texts. Qed.
Print Assumptions C13_insert_get.

(** ** C14 *)
(** Refuted: inserting under text that is no label changes what is stored under
    other keys. *)
Definition x70 : bytes := repeat Byte.x78 70.
Theorem C14_isolated_refuted : exists s k k' : bytes, exists v v' : value nat,
  invalid_label s /\ k <> s /\ k' <> s /\
  result (run (t <- dl_insert 9 None k v ;; t' <- dl_insert 9 t s v' ;; x <- dl_get 9 t' k ;; y <- dl_get 9 t' k' ;; Ret (x, y)) ∅ 1%positive) =
  inl ((v', true), (v', true)).
Proof.
  exists (B "\300"), (B ""), x70, (VUser 1), (VUser 2). split_and!; try (intros H; vm_compute in H; discriminate).
  - apply (invalid_label_of _ ErrInvalidEscape). vm_compute. reflexivity.
  - vm_compute. reflexivity.
Qed.
Print Assumptions C14_isolated_refuted.
(** Exactly: text that is no label is treated as the empty label, by all calls. *)
Theorem C14_invalid_is_empty : forall U fuel t s (v : value U), invalid_label s ->
  dl_insert fuel t s v = dl_raw_insert fuel t [] v /\ dl_inplace_insert fuel t s v = dl_raw_inplace_insert fuel t [] v /\
  dl_get (U := U) fuel t s = dl_raw_get fuel t [] /\ dl_delete (U := U) fuel t s = dl_raw_delete fuel t [].
Proof.
  intros U fuel t s v Hs. assert (Hk : key_is (KText s) []) by by constructor. split_and!.
  - exact (dk_insert_raw fuel t _ _ v Hk).
  - exact (dk_inplace_raw fuel t _ _ v Hk).
  - exact (dk_get_raw fuel t _ _ Hk).
  - exact (dk_delete_raw fuel t _ _ Hk).
Qed.
Print Assumptions C14_invalid_is_empty.

(** ** C15 *)
(** If all binary keys used are canonical labels (upper case, at most 63 bytes; keys in
    text form always are): Enumerate gives the values of RawEnumerate in its order,
    under keys that convert back to exactly the stored labels. *)
Theorem C15_reads_back : forall U fuel (h : heap U) (ops : list (dop (value U))) rops ver,
  Forall2 resolves ops rops -> Forall dop_keys ops -> enough fuel (dkeys ops) ->
  wp (r <- run_hist (dl_exec fuel) ops [] ;;
      e <- dl_raw_enumerate fuel (nth ver r.1 None) ;;
      e' <- dl_enumerate fuel (nth ver r.1 None) ;; Ret (e, e')) h ∅ (fun '(e, e') h' _ => h ⊆ h' /\
    Forall2 (fun x' x => x'.2 = x.2 /\ make_label x'.1 = DOk x.1) e' e).
Proof. exact @dl_pf_readback. Qed.
Print Assumptions C15_reads_back.
(** Whatever the keys are: if those stored have at most 63 bytes, the printed ones
    convert back to the stored ones in upper case; and if one of those stored makes
    MakeHumanReadableLabel panic (C22), so does Enumerate. *)
Theorem C15_print : forall U fuel (h : heap U) (ops : list (dop (value U))) rops,
  Forall2 resolves ops rops -> enough fuel (dkeys ops) ->
  wp (run_hist (dl_exec fuel) ops []) h ∅ (fun r h1 _ => forall ver,
    wp (dl_raw_enumerate fuel (nth ver r.1 None)) h1 ∅ (fun e h2 _ => h2 = h1 /\
      (Forall (fun x => List.length x.1 <= 63) e ->
         wp (dl_enumerate fuel (nth ver r.1 None)) h1 ∅ (fun e' h2 _ => h2 = h1 /\
           Forall2 (fun x' x => x'.2 = x.2 /\ make_label x'.1 = DOk (map upper x.1)) e' e)) /\
      ((exists x, x ∈ e /\ make_human_label x.1 = None) -> fails (dl_enumerate fuel (nth ver r.1 None)) h1 EIndex))).
Proof. exact @dl_pf_print. Qed.
Print Assumptions C15_print.

(** ** A history that meets the hypotheses: one label in four spellings, binary
    keys, an invalid label. *)
Definition ex_dl : list (dop (value nat)) :=
  [ DBuild [(KText (B "b\065\."), VUser 1); (KText (B "z"), VUser 2); (KRaw (B "MORE"), VUser 3)];
    DInsert 0 (KText (B "BA.")) (VUser 4);
    DInsert 1 (KText (B "\066\a\.")) (VUser 5);
    DGet 1 (KRaw (B "BA.")); DGet 2 (KText (B "ba\046.")); DGet 1 (KText (B "ba"));
    DInsert 2 (KText (B "\300")) (VUser 6);
    DGet 3 (KText x70); DEnumerate 3;
    DDelete 3 (KText (B "Z.")); DEnumerate 4; DIsEmpty 4; DIsEmpty 9; DEnumerate 0 ].
Definition ex_dl_raw : list (sop (value nat)) :=
  [ SBuild dl_compare [(B "BA.", VUser 1); (B "Z", VUser 2); (B "MORE", VUser 3)];
    SInsert 0 (B "BA") (VUser 4);
    SInsert 1 (B "BA.") (VUser 5);
    SGet 1 (B "BA."); SGet 2 (B "BA."); SGet 1 (B "BA");
    SInsert 2 [] (VUser 6);
    SGet 3 []; SEnumerate 3;
    SDelete 3 (B "Z"); SEnumerate 4; SIsEmpty 4; SIsEmpty 9; SEnumerate 0 ].
Lemma text_key s m : label_or_empty s = Some m -> key_is (KText s) m.
Proof. apply label_or_empty_iff. Qed.
Example ex_dl_resolves : Forall2 resolves ex_dl ex_dl_raw.
Proof.
  repeat first [ apply Forall2_nil; exact I | apply Forall2_cons; split | apply rs_build | apply rs_insert | apply rs_delete
    | apply rs_get | apply rs_enumerate | apply rs_is_empty | apply ki_raw | (apply text_key; vm_compute; reflexivity) | reflexivity | constructor].
Qed.
Example ex_dl_fuel : enough 20 (dkeys ex_dl).
Proof. vm_compute. lia. Qed.
Example ex_dl_keys : Forall dop_keys ex_dl.
Proof. repeat constructor. Qed.
Example ex_dl_run : match run (run_hist (dl_exec 20) ex_dl []) ∅ 1%positive with (inl r, _, _) => r.2 | _ => [] end =
  [ SONone; SONone; SONone;
    SOVal (Some (VUser 1)); SOVal (Some (VUser 5)); SOVal (Some (VUser 4)); SONone;
    SOVal (Some (VUser 6));
    SOList [([], VUser 6); (B "Z", VUser 2); (B "BA", VUser 4); (B "BA.", VUser 5); (B "MORE", VUser 3)];
    SOBool true;
    SOList [([], VUser 6); (B "BA", VUser 4); (B "BA.", VUser 5); (B "MORE", VUser 3)];
    SOBool false; SOBool true;
    SOList [(B "Z", VUser 2); (B "BA.", VUser 1); (B "MORE", VUser 3)] ].
Proof. vm_compute. reflexivity. Qed.
Example ex_dl_print : match run (r <- run_hist (dl_exec 20) ex_dl [] ;; dl_enumerate 20 (nth 3 r.1 None)) ∅ 1%positive with (inl e, _, _) => e | _ => [] end =
  [ ([], VUser 6); (B "z", VUser 2); (B "ba", VUser 4); (B "ba\.", VUser 5); (B "more", VUser 3) ].
Proof. vm_compute. reflexivity. Qed.
Example ex_dl_panic : (forall m, ~ key_is (KText (B "a.b")) m) /\
  make_human_label (repeat Byte.x00 63 ++ [Byte.x41]) = None.
Proof. split; [apply dl_pf_unresolved|]; vm_compute; reflexivity. Qed.
