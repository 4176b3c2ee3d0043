(** * Properties of package iptree (C40 to C46; C47 is in Properties_iptree2.v).

    [ops] is any history of client operations ([IpSpec.iop]): create a tree and
    fill it in place, InsertNet/InsertIP, DeleteByNet/DeleteByIP, GetByNet/GetByIP,
    Enumerate on any version obtained so far, in any memory [h]; [iop_ok]: the
    values stored are not of iptree's own unexported type. [iresolves ops rops]:
    [rops] is the history with every *net.IPNet or net.IP replaced by the network
    it denotes ([ikey_is]; None: it denotes none), which always exists
    (C44_every_key). [iver rops ver]: the changes that led to a version, newest
    first. [wp m h ∅ Q]: [m] does not panic, writes no cell of [h] and ends with
    [Q]. *)
From Verif Require Import Prog History NumSpec IpModel IpSpec IpHist IpPropProofs.
Open Scope N_scope.

(** ** C40 *)
(** The value of the longest stored network that contains the one asked for, never
    a value of the internal type. *)
Theorem C40_get_longest : forall U (h : heap U) ops rops ver k r,
  Forall2 iresolves ops rops -> Forall iop_ok ops -> ikey_is k r ->
  wp (x <- run_hist ip_exec ops [] ;; ip_get_key (nth ver x.1 None) k) h ∅ (fun x h' _ => h ⊆ h' /\
    exists res, match r with Some q => nlongest (iver rops ver) q res | None => res = None end /\
      x = match res with Some v => (v, true) | None => (VNil, false) end /\ plain x.1).
Proof. exact @ip_pf_get. Qed.
Print Assumptions C40_get_longest.

(** ** C41 *)
Theorem C41_insert : forall U (h : heap U) ops rops ver k r v,
  Forall2 iresolves ops rops -> Forall iop_ok ops -> ikey_is k r -> plain v ->
  wp (x <- run_hist ip_exec ops [] ;; n <- ip_insert_key (nth ver x.1 None) k v ;;
      e <- ip_enumerate (nth ver x.1 None) ;; e' <- ip_enumerate n ;; Ret (e, e')) h ∅
    (fun x h' _ => h ⊆ h' /\ nenumerates (iver rops ver) x.1 /\ nenumerates (ins_log r v (iver rops ver)) x.2).
Proof. exact @ip_pf_insert. Qed.
Print Assumptions C41_insert.
(** All answers of the whole history are those of immutable maps from networks. *)
Theorem C41_answers_for_ever : forall U (h : heap U) ops rops,
  Forall2 iresolves ops rops -> Forall iop_ok ops ->
  wp (run_hist ip_exec ops []) h ∅ (fun r h' _ => h ⊆ h' /\ ianswers [] rops r.2).
Proof. exact @ip_pf_answers. Qed.
Print Assumptions C41_answers_for_ever.
Theorem C41_no_write : forall U (h : heap U) ops rops,
  Forall2 iresolves ops rops -> Forall iop_ok ops ->
  wp (run_hist ip_exec ops []) h ∅ (fun r h1 _ => forall ver k v, plain v ->
    wp (ip_insert_key (nth ver r.1 None) k v) h1 ∅ (fun _ h2 _ => h1 ⊆ h2) /\
    wp (ip_delete_key (nth ver r.1 None) k) h1 ∅ (fun _ h2 _ => h1 ⊆ h2) /\
    wp (ip_get_key (nth ver r.1 None) k) h1 ∅ (fun _ h2 _ => h1 = h2) /\
    wp (ip_enumerate (nth ver r.1 None)) h1 ∅ (fun _ h2 _ => h1 = h2)).
Proof. exact @ip_pf_nowrite. Qed.
Print Assumptions C41_no_write.

(** ** C42 *)
Theorem C42_delete : forall U (h : heap U) ops rops ver k r,
  Forall2 iresolves ops rops -> Forall iop_ok ops -> ikey_is k r ->
  wp (x <- run_hist ip_exec ops [] ;; n <- ip_delete_key (nth ver x.1 None) k ;;
      e <- ip_enumerate (nth ver x.1 None) ;; e' <- ip_enumerate n.1 ;; Ret (n.2, e, e')) h ∅
    (fun x h' _ => h ⊆ h' /\ let '(b, e, e') := x in
      (b = true <-> exists p q v, r = Some p /\ ncovers p q /\ ilog_get (iver rops ver) q = Some v) /\
      nenumerates (iver rops ver) e /\ nenumerates (del_log r (iver rops ver)) e').
Proof. exact @ip_pf_delete. Qed.
Print Assumptions C42_delete.

(** ** C43 *)
(** [nenumerates]: each stored network once, IPv4 first, by first address, larger
    networks first, written with its mask and all host bits zero. *)
Theorem C43_enumerate : forall U (h : heap U) ops rops ver,
  Forall2 iresolves ops rops -> Forall iop_ok ops ->
  wp (r <- run_hist ip_exec ops [] ;; ip_enumerate (nth ver r.1 None)) h ∅ (fun e h' _ => h ⊆ h' /\ nenumerates (iver rops ver) e).
Proof. exact @ip_pf_enumerate. Qed.
Print Assumptions C43_enumerate.
(** The list is determined by the content: it does not depend on the history. *)
Theorem C43_canonical : forall V (l l' : ilog V) e e',
  (forall q, ilog_get l q = ilog_get l' q) -> nenumerates l e -> nenumerates l' e' -> e = e'.
Proof. exact @nenum_unique. Qed.
Print Assumptions C43_canonical.

(** ** C44 *)
(** What a network is: address and mask of four or of sixteen bytes, the mask ones
    followed by zeros. *)
Theorem C44_malformed : forall n, (exists q, net_is n q) <->
  exists ip m ones, n = Some (ip, m) /\ length ip = length m /\ (length ip = 4%nat \/ length ip = 16%nat) /\ is_mask m ones.
Proof. exact ip_pf_malformed. Qed.
Print Assumptions C44_malformed.
(** [ignored]: Insert returns the same tree, InplaceInsert returns, Get returns
    (nil, false) and Delete the same tree and false, without writing or allocating. *)
Theorem C44_ignored : forall U (h : heap U) ops rops,
  Forall2 iresolves ops rops -> Forall iop_ok ops ->
  wp (run_hist ip_exec ops []) h ∅ (fun r h1 _ => forall ver k v, ikey_is k None -> ignored h1 (nth ver r.1 None) k v).
Proof. exact @ip_pf_ignored_hist. Qed.
Print Assumptions C44_ignored.
Theorem C44_every_key : forall k, exists r, ikey_is k r.
Proof. exact IpBits.ikey_total. Qed.
Print Assumptions C44_every_key.
(** Refuted for UpdateDescendants: a nil network panics. *)
Theorem C44_update_refuted : exists v : value nat, forall cb : unit -> bytes * bytes * value nat -> unit * option (value nat),
  result (run (t <- ip_insert_net None (Some ([x0a; x00; x00; x00], [xff; x00; x00; x00])) v ;; ip_update cb t None tt) ∅ 1%positive) = inr ENil.
Proof. exists (VUser 1%nat). intros cb. vm_compute. reflexivity. Qed.
Print Assumptions C44_update_refuted.

(** ** C45 *)
Theorem C45_mapped : forall U ip, length ip = 4%nat -> forall t (v : value U),
  let ip16 := repeat x00 10 ++ [xff; xff] ++ ip in
  ip_insert_ip t ip16 v = ip_insert_ip t ip v /\ ip_inplace_insert_ip t ip16 v = ip_inplace_insert_ip t ip v /\
  ip_get_ip (U := U) t ip16 = ip_get_ip t ip /\ ip_delete_ip (U := U) t ip16 = ip_delete_ip t ip.
Proof. exact @ip_pf_mapped. Qed.
Print Assumptions C45_mapped.
(** An address of four or sixteen bytes is one network of full length, IPv4 iff it
    has four bytes or is an IPv4-mapped one; any other length is no network
    (and then ignored: C44_ignored). *)
Theorem C45_addresses : forall ip, length ip = 4%nat \/ length ip = 16%nat ->
  exists q, ikey_is (KAddr ip) (Some q) /\ q.2.1 = width q.1 /\ (q.1 = false <-> length ip = 4%nat \/ mapped ip).
Proof. exact ip_pf_addr. Qed.
Print Assumptions C45_addresses.
Theorem C45_other_lengths : forall ip, ikey_is (KAddr ip) None <-> length ip <> 4%nat /\ length ip <> 16%nat.
Proof. exact ip_pf_bad_addr. Qed.
Print Assumptions C45_other_lengths.

(** ** C46 *)
(** A tree filled in place, then InplaceInsert, against the same tree, then Insert:
    equal contents; every version of the history before keeps its content. *)
Theorem C46_inplace : forall U (h : heap U) ops rops items items' ver k q v,
  Forall2 iresolves ops rops -> Forall iop_ok ops ->
  Forall2 (fun x y => ikey_is x.1 y.1 /\ x.2 = y.2) items items' -> Forall (fun x => plain x.2) items -> ikey_is k q -> plain v ->
  wp (r <- run_hist ip_exec ops [] ;;
      t1 <- ip_new ;; ip_fill t1 items ;;; ip_inplace_key t1 k v ;;; e1 <- ip_enumerate t1 ;;
      t2 <- ip_new ;; ip_fill t2 items ;;; t3 <- ip_insert_key t2 k v ;; e2 <- ip_enumerate t3 ;;
      e <- ip_enumerate (nth ver r.1 None) ;; Ret (e1, e2, e)) h ∅
    (fun x h' _ => h ⊆ h' /\ let '(e1, e2, e) := x in e1 = e2 /\ nenumerates (ins_log q v (build_log items' [])) e1 /\ nenumerates (iver rops ver) e).
Proof. exact @ip_pf_inplace. Qed.
Print Assumptions C46_inplace.
(** On any version of any history that is not the nil tree, whether or not older
    versions share its nodes, InplaceInsert leaves the tree itself with the content
    of Insert. (The older versions may then change too.) *)
Theorem C46_inplace_any : forall U (h : heap U) ops rops,
  Forall2 iresolves ops rops -> Forall iop_ok ops ->
  wp (run_hist ip_exec ops []) h ∅ (fun r h1 _ => forall ver k q v, nth ver r.1 None <> None -> ikey_is k q -> plain v ->
    wp (ip_inplace_key (nth ver r.1 None) k v ;;; ip_enumerate (nth ver r.1 None)) h1 (dom h1)
       (fun e _ _ => nenumerates (ins_log q v (iver rops ver)) e)).
Proof. exact @ip_pf_inplace_any. Qed.
Print Assumptions C46_inplace_any.
(** Sharing does make older versions change. *)
Theorem C46_shared_refuted : exists n n1 n2 : ipnet, exists v v1 v2 : value nat,
  match result (run (t <- ip_insert_net None n v ;; t <- ip_insert_net t n1 v1 ;; old <- ip_enumerate t ;;
                     t' <- ip_insert_net t (Some ([x80; x00; x00; x00], [xff; x00; x00; x00])) v1 ;;
                     ip_inplace_insert_net t' n2 v2 ;;; new <- ip_enumerate t ;; Ret (old, new)) ∅ 1%positive) with
  | inl (old, new) => length old = 2%nat /\ length new = 3%nat
  | inr _ => False
  end.
Proof.
  exists (Some ([x0a; x00; x00; x00], [xff; x00; x00; x00])), (Some ([x0a; x01; x00; x00], [xff; xff; x00; x00])), (Some ([x0a; x01; x01; x00], [xff; xff; xff; x00])).
  exists (VUser 1%nat), (VUser 2%nat), (VUser 3%nat). vm_compute. done.
Qed.
Print Assumptions C46_shared_refuted.

(** ** A history that meets the hypotheses. *)
Definition n10_8 : ipnet := Some ([x0a; x01; x02; x03], [xff; x00; x00; x00]).
Definition n10_1_16 : ipnet := Some ([x0a; x01; x00; x00], [xff; xff; x00; x00]).
Definition v6 (a b : list byte) : bytes := a ++ repeat x00 (16 - length a - length b) ++ b.
Definition n6_32 : ipnet := Some (v6 [x20; x01; x0d; xb8] [], v6 [xff; xff; xff; xff] []).
Definition n6_64 : ipnet := Some (v6 [x20; x01; x0d; xb8; x00; x01] [], repeat xff 8 ++ repeat x00 8).
Definition n6_bad : ipnet := Some (v6 [x20; x01] [], v6 [xff; x00; xff] []).
Definition a6 : bytes := v6 [x20; x01; x0d; xb8; x00; x01] [x01].
Definition ex_ip : list (iop ikey (value nat)) :=
  [ IBuild [(KNet n10_8, VUser 1%nat); (KNet n6_32, VUser 2%nat); (KNet n6_64, VUser 3%nat); (KNet n6_bad, VUser 4%nat)];
    IInsert 0 (KAddr a6) (VUser 5%nat);
    IInsert 1 (KNet n10_1_16) (VUser 6%nat);
    IGet 2 (KAddr (repeat x00 10 ++ [xff; xff] ++ [x0a; x01; x09; x09]));
    IGet 2 (KAddr a6);
    IDelete 2 (KNet n6_64);
    IGet 3 (KAddr a6);
    IDelete 3 (KNet n6_bad);
    IEnumerate 1 ].
Definition q10_8 : net := (false, (8, 10)).
Definition q10_1_16 : net := (false, (16, 10 * 256 + 1)).
Definition q6_32 : net := (true, (32, 0x20010db8)).
Definition q6_64 : net := (true, (64, 0x20010db800010000)).
Definition qa6 : net := (true, (128, 0x20010db8000100000000000000000001)).
Definition ex_ip_r : list (iop (option net) (value nat)) :=
  [ IBuild [(Some q10_8, VUser 1%nat); (Some q6_32, VUser 2%nat); (Some q6_64, VUser 3%nat); (None, VUser 4%nat)];
    IInsert 0 (Some qa6) (VUser 5%nat);
    IInsert 1 (Some q10_1_16) (VUser 6%nat);
    IGet 2 (Some (false, (32, 0x0a010909)));
    IGet 2 (Some qa6);
    IDelete 2 (Some q6_64);
    IGet 3 (Some qa6);
    IDelete 3 None;
    IEnumerate 1 ].
Example ex_ip_resolves : Forall2 iresolves ex_ip ex_ip_r /\ Forall iop_ok ex_ip.
Proof.
  split; [|repeat constructor].
  repeat first [ apply Forall2_nil; exact I | apply Forall2_cons; split | apply ir_build | apply ir_insert | apply ir_delete | apply ir_get | apply ir_enumerate
    | (apply (a_net4 _ _ 8); vm_compute; reflexivity) | (apply (a_net4 _ _ 16); vm_compute; reflexivity)
    | (apply (a_net6 _ _ 32); vm_compute; reflexivity) | (apply (a_net6 _ _ 64); vm_compute; reflexivity)
    | (apply an_addr6; vm_compute; reflexivity) | (apply no_net; vm_compute; reflexivity)
    | exact (ik_addr _ _ (addr_is_mapped [x0a; x01; x09; x09] eq_refl)) | reflexivity | constructor ].
Qed.
Example ex_ip_run : match run (run_hist ip_exec ex_ip []) ∅ 1%positive with (inl r, _, _) => r.2 | _ => [] end =
  [ IONone; IONone; IONone; IOVal (Some (VUser 6%nat)); IOVal (Some (VUser 5%nat)); IOBool true; IOVal (Some (VUser 2%nat)); IOBool false;
    IOList [ ([x0a; x00; x00; x00], [xff; x00; x00; x00], VUser 1%nat);
             (v6 [x20; x01; x0d; xb8] [], v6 [xff; xff; xff; xff] [], VUser 2%nat);
             (v6 [x20; x01; x0d; xb8; x00; x01] [], repeat xff 8 ++ repeat x00 8, VUser 3%nat);
             (a6, repeat xff 16, VUser 5%nat) ] ].
Proof. vm_compute. reflexivity. Qed.
