(** * Properties of uintX/iptree8, 16, 32, 64 (C48, C49).

    Histories, resolution of keys and [wp] as in Properties_iptree.v; [ux_exec]
    runs the operations of the generated packages. [uver rops ver]: the changes
    that led to a version, as [iver] but a DeleteByNet that is passed over
    ([UxSpec.passed]: IPv6, shorter than 64 bits, not stored itself) changes
    nothing. *)
From Verif Require Import Prog History NumSpec IpModel IpSpec IpHist IpPropProofs UxModel UxSpec UxHist UxPropProofs Properties_iptree.
Open Scope N_scope.

(** ** C48 *)
(** The same client of iptree and of iptreeX gets the same answers from every
    operation, and these are those of immutable maps from networks, in every
    history that never deletes an unstored IPv6 network shorter than 64 bits
    inside which something is stored ([agree]). *)
Theorem C48_same_as_iptree : forall U (h : heap U) ops rops,
  Forall2 iresolves ops rops -> Forall iop_ok ops -> agree [] rops ->
  wp (r1 <- run_hist ip_exec ops [] ;; r2 <- run_hist ux_exec ops [] ;; Ret (r1.2, r2.2)) h ∅
    (fun x h' _ => h ⊆ h' /\ x.1 = x.2 /\ ianswers [] rops x.1).
Proof. exact @ux_pf_same. Qed.
Print Assumptions C48_same_as_iptree.
(** In every history at all, what is stored and found is determined by the log. *)
Theorem C48_answers_for_ever : forall U (h : heap U) ops rops,
  Forall2 iresolves ops rops -> Forall iop_ok ops ->
  wp (run_hist ux_exec ops []) h ∅ (fun r h' _ => h ⊆ h' /\ uanswers [] rops r.2).
Proof. exact @ux_pf_answers. Qed.
Print Assumptions C48_answers_for_ever.
Theorem C48_get_longest : forall U (h : heap U) ops rops ver k r,
  Forall2 iresolves ops rops -> Forall iop_ok ops -> ikey_is k r ->
  wp (x <- run_hist ux_exec ops [] ;; ux_get_key (nth ver x.1 None) k) h ∅ (fun x h' _ => h ⊆ h' /\
    exists res, match r with Some q => nlongest (uver rops ver) q res | None => res = None end /\
      x = match res with Some v => (v, true) | None => (VNil, false) end /\ plain x.1).
Proof. exact @ux_pf_get. Qed.
Print Assumptions C48_get_longest.
Theorem C48_insert : forall U (h : heap U) ops rops ver k r v,
  Forall2 iresolves ops rops -> Forall iop_ok ops -> ikey_is k r -> plain v ->
  wp (x <- run_hist ux_exec ops [] ;; n <- ux_insert_key (nth ver x.1 None) k v ;;
      e <- ux_enumerate (nth ver x.1 None) ;; e' <- ux_enumerate n ;; Ret (e, e')) h ∅
    (fun x h' _ => h ⊆ h' /\ nenumerates (uver rops ver) x.1 /\ nenumerates (ins_log r v (uver rops ver)) x.2).
Proof. exact @ux_pf_insert. Qed.
Print Assumptions C48_insert.
Theorem C48_enumerate : forall U (h : heap U) ops rops ver,
  Forall2 iresolves ops rops -> Forall iop_ok ops ->
  wp (r <- run_hist ux_exec ops [] ;; ux_enumerate (nth ver r.1 None)) h ∅ (fun e h' _ => h ⊆ h' /\ nenumerates (uver rops ver) e).
Proof. exact @ux_pf_enumerate. Qed.
Print Assumptions C48_enumerate.
Theorem C48_no_write : forall U (h : heap U) ops rops,
  Forall2 iresolves ops rops -> Forall iop_ok ops ->
  wp (run_hist ux_exec ops []) h ∅ (fun r h1 _ => forall ver k v, plain v ->
    wp (ux_insert_key (nth ver r.1 None) k v) h1 ∅ (fun _ h2 _ => h1 ⊆ h2) /\
    wp (ux_delete_key (nth ver r.1 None) k) h1 ∅ (fun _ h2 _ => h1 ⊆ h2) /\
    wp (ux_get_key (nth ver r.1 None) k) h1 ∅ (fun _ h2 _ => h1 = h2) /\
    wp (ux_enumerate (nth ver r.1 None)) h1 ∅ (fun _ h2 _ => h1 = h2)).
Proof. exact @ux_pf_nowrite. Qed.
Print Assumptions C48_no_write.
(** A network or address that denotes nothing (C44_malformed) is ignored. *)
Theorem C48_ignored : forall U (h : heap U) ops rops,
  Forall2 iresolves ops rops -> Forall iop_ok ops ->
  wp (run_hist ux_exec ops []) h ∅ (fun r h1 _ => forall ver k v, ikey_is k None -> uignored h1 (nth ver r.1 None) k v).
Proof. exact @ux_pf_ignored_hist. Qed.
Print Assumptions C48_ignored.
(** In-place insertion: an unshared tree, and any version that is not nil. *)
Theorem C48_inplace : forall U (h : heap U) ops rops items items' ver k q v,
  Forall2 iresolves ops rops -> Forall iop_ok ops ->
  Forall2 (fun x y => ikey_is x.1 y.1 /\ x.2 = y.2) items items' -> Forall (fun x => plain x.2) items -> ikey_is k q -> plain v ->
  wp (r <- run_hist ux_exec ops [] ;;
      t1 <- ip_new ;; ux_fill t1 items ;;; ux_inplace_key t1 k v ;;; e1 <- ux_enumerate t1 ;;
      t2 <- ip_new ;; ux_fill t2 items ;;; t3 <- ux_insert_key t2 k v ;; e2 <- ux_enumerate t3 ;;
      e <- ux_enumerate (nth ver r.1 None) ;; Ret (e1, e2, e)) h ∅
    (fun x h' _ => h ⊆ h' /\ let '(e1, e2, e) := x in e1 = e2 /\ nenumerates (ins_log q v (build_log items' [])) e1 /\ nenumerates (uver rops ver) e).
Proof. exact @ux_pf_inplace. Qed.
Print Assumptions C48_inplace.
Theorem C48_inplace_any : forall U (h : heap U) ops rops,
  Forall2 iresolves ops rops -> Forall iop_ok ops ->
  wp (run_hist ux_exec ops []) h ∅ (fun r h1 _ => forall ver k q v, nth ver r.1 None <> None -> ikey_is k q -> plain v ->
    wp (ux_inplace_key (nth ver r.1 None) k v ;;; ux_enumerate (nth ver r.1 None)) h1 (dom h1)
       (fun e _ _ => nenumerates (ins_log q v (uver rops ver)) e)).
Proof. exact @ux_pf_inplace_any. Qed.
Print Assumptions C48_inplace_any.

(** ** C49 *)
(** The claim, for IPv4, for prefixes of 64 bits or more, for stored prefixes and
    for prefixes with nothing stored inside. *)
Theorem C49_delete : forall U (h : heap U) ops rops ver k p,
  Forall2 iresolves ops rops -> Forall iop_ok ops -> ikey_is k (Some p) ->
  (p.1 = false \/ 64 <= p.2.1 \/ ilog_get (uver rops ver) p <> None \/ (forall q, ncovers p q -> ilog_get (uver rops ver) q = None)) ->
  wp (x <- run_hist ux_exec ops [] ;; n <- ux_delete_key (nth ver x.1 None) k ;;
      e <- ux_enumerate (nth ver x.1 None) ;; e' <- ux_enumerate n.1 ;; Ret (n.2, e, e')) h ∅
    (fun x h' _ => h ⊆ h' /\ let '(b, e, e') := x in
      (b = true <-> exists q v, ncovers p q /\ ilog_get (uver rops ver) q = Some v) /\
      nenumerates (uver rops ver) e /\ nenumerates (del_log (Some p) (uver rops ver)) e').
Proof. exact @ux_pf_delete_full. Qed.
Print Assumptions C49_delete.
(** What it does in all cases: exactly the networks that are passed over leave the
    tree as it is. *)
Theorem C49_delete_exact : forall U (h : heap U) ops rops ver k r,
  Forall2 iresolves ops rops -> Forall iop_ok ops -> ikey_is k r ->
  wp (x <- run_hist ux_exec ops [] ;; n <- ux_delete_key (nth ver x.1 None) k ;;
      e <- ux_enumerate (nth ver x.1 None) ;; e' <- ux_enumerate n.1 ;; Ret (n.2, e, e')) h ∅
    (fun x h' _ => h ⊆ h' /\ let '(b, e, e') := x in
      (b = true <-> exists p q v, r = Some p /\ ~ passed (uver rops ver) p /\ ncovers p q /\ ilog_get (uver rops ver) q = Some v) /\
      nenumerates (uver rops ver) e /\ nenumerates (udel_log r (uver rops ver)) e').
Proof. exact @ux_pf_delete. Qed.
Print Assumptions C49_delete_exact.
(** The full claim is false: 2001:db8::/32 deleted from a tree with
    2001:db8:1::/64 answers false and leaves it there. iptree deletes it. *)
Theorem C49_refuted : exists (p q : ipnet) (v : value nat) (pn qn : net),
  net_is p pn /\ net_is q qn /\ ncovers pn qn /\
  result (run (t <- ux_insert_net None q v ;; x <- ux_delete_net t p ;; y <- ux_get_net x.1 q ;; Ret (x.2, y)) ∅ 1%positive) = inl (false, (v, true)) /\
  result (run (t <- ip_insert_net None q v ;; x <- ip_delete_net t p ;; y <- ip_get_net x.1 q ;; Ret (x.2, y)) ∅ 1%positive) = inl (true, (VNil, false)).
Proof.
  exists n6_32, n6_64, (VUser 1%nat), q6_32, q6_64. split_and!.
  - assert (H : ikey_is (KNet n6_32) (Some q6_32)) by (apply (a_net6 _ _ 32); vm_compute; reflexivity). by inversion H.
  - assert (H : ikey_is (KNet n6_64) (Some q6_64)) by (apply (a_net6 _ _ 64); vm_compute; reflexivity). by inversion H.
  - by vm_compute.
  - vm_compute. reflexivity.
  - vm_compute. reflexivity.
Qed.
Print Assumptions C49_refuted.

(** ** Histories that meet the hypotheses: [ex_ip] for all of the above; its
    deletions are of 64 bits, so the difference does not show. *)
Example ex_ux_agree : agree [] ex_ip_r.
Proof. repeat split. intros [_ H]. exfalso. cbn in H. lia. Qed.
Example ex_ux_run : match run (run_hist ux_exec ex_ip []) ∅ 1%positive with (inl r, _, _) => r.2 | _ => [] end =
  match run (run_hist ip_exec ex_ip []) ∅ 1%positive with (inl r, _, _) => r.2 | _ => [] end.
Proof. vm_compute. reflexivity. Qed.
(** A stored short prefix: deleted with what it contains. *)
Definition ex_ux : list (iop ikey (value nat)) :=
  [ IInsert 7 (KNet n6_64) (VUser 1%nat); IInsert 0 (KAddr a6) (VUser 2%nat); IDelete 1 (KNet n6_32); IInsert 2 (KNet n6_32) (VUser 3%nat); IDelete 3 (KNet n6_32); IEnumerate 4; IGet 3 (KAddr a6) ].
Definition ex_ux_r : list (iop (option net) (value nat)) :=
  [ IInsert 7 (Some q6_64) (VUser 1%nat); IInsert 0 (Some qa6) (VUser 2%nat); IDelete 1 (Some q6_32); IInsert 2 (Some q6_32) (VUser 3%nat); IDelete 3 (Some q6_32); IEnumerate 4; IGet 3 (Some qa6) ].
Example ex_ux_resolves : Forall2 iresolves ex_ux ex_ux_r /\ Forall iop_ok ex_ux.
Proof.
  split; [|repeat constructor].
  repeat first [ apply Forall2_nil; exact I | apply Forall2_cons; split | apply ir_insert | apply ir_delete | apply ir_get | apply ir_enumerate
    | (apply (a_net6 _ _ 32); vm_compute; reflexivity) | (apply (a_net6 _ _ 64); vm_compute; reflexivity)
    | (apply an_addr6; vm_compute; reflexivity) | reflexivity | constructor ].
Qed.
Example ex_ux_run2 : match run (run_hist ux_exec ex_ux []) ∅ 1%positive with (inl r, _, _) => r.2 | _ => [] end =
  [ IONone; IONone; IOBool false; IONone; IOBool true; IOList []; IOVal (Some (VUser 2%nat)) ].
Proof. vm_compute. reflexivity. Qed.
Example ex_ux_delete_hyp : ilog_get (uver ex_ux_r 3) q6_32 <> None.
Proof. by vm_compute. Qed.
