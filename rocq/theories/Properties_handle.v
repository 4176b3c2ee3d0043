(** * Mixing in-place and copy-on-write calls (C53, C54).

    C53: a client holds one tree and applies any list [ops] of calls to it.
    [HCall o] is a copy-on-write or reading operation (the operations of the
    histories of the other property files, on version 0, the handle); afterwards
    the handle is the tree returned. [HInplace] is an in-place call. All answers
    are those of one mutable map: [h_spec step mut ops m0 m' answers] runs the
    specification of the histories and of the in-place calls from [m0]. The client
    works in any memory [h] and changes nothing it did not allocate.

    C54: InplaceInsert on any version of any history, whether or not it shares
    nodes with others, gives that version the content Insert would have returned.
    (The caller may write everything, [dom h1]; other versions may change.) *)
From Verif Require Import Prog History RbModel RbSpec RbFun RbSim RbSimOps RbAbs StrSpec StrAbs StrPropProofs.
From Verif Require Import DomModel DomSpec DomPropProofs DlModel DlSpec DlAbs DlPropProofs NumModel NumSim NumSpec NumAbs NumPropProofs.
From Verif Require Import IpModel IpSpec IpUpdSpec IpHist IpPropProofs UxModel UxSpec UxHist Handle RbHandle IpHandle.
From Coq Require Import String.
Open Scope nat_scope.
Local Notation B := list_byte_of_string.

(** ** C53 *)
Theorem C53_strtree : forall U fuel (h : heap U) cmp (ops : list (hop (sop (value U)) (bytes * value U))),
  lawful cmp -> Forall (hop_ok on_handle (fun _ => True)) ops -> enough fuel (List.length ops) ->
  wp (p <- str_new_custom (Some cmp) ;; run_handle (str_exec fuel) (str_inplace fuel) ops p) h ∅ (fun r h' _ => h ⊆ h' /\
    exists m', h_spec (s_one str_compare) s_mut ops (cmp, []) m' r.2).
Proof. exact @str_handle. Qed.
Print Assumptions C53_strtree.
Theorem C53_dltree : forall U fuel (h : heap U) (ops : list (hop (dop (value U)) (dkey * value U))),
  Forall (hop_ok d_on_handle d_key_ok) ops -> enough fuel (List.length ops) ->
  wp (p <- dl_new ;; run_handle (dl_exec fuel) (dl_inplace fuel) ops p) h ∅ (fun r h' _ => h ⊆ h' /\
    exists m', h_spec dstep d_mut ops (dl_compare, []) m' r.2).
Proof. exact @dl_handle. Qed.
Print Assumptions C53_dltree.
Theorem C53_numtree : forall U c (h : heap U) ops, num_cfg c -> Forall (hop_ok (nop_ok (cW c)) (n_key_ok c)) ops ->
  wp (run_handle (n_exec c) (n_inplace c) ops None) h ∅ (fun r h' _ => h ⊆ h' /\ exists m', h_spec (nstep (cW c)) (n_mut c) ops ∅ m' r.2).
Proof. exact @n_handle. Qed.
Print Assumptions C53_numtree.
(** With UpdateDescendants ([MUpd]) among the in-place calls. *)
Theorem C53_iptree : forall U St (h : heap U) (ops : list (hop (iop ikey (value U)) (imut (U := U) (St := St)))),
  Forall (hop_ok i_on_handle i_mut_ok) ops ->
  wp (t <- ip_new ;; run_handle ip_exec ip_inplace ops t) h ∅ (fun r h' _ => h ⊆ h' /\ exists l', h_spec istep i_mut ops [] l' r.2).
Proof. exact @ip_handle. Qed.
Print Assumptions C53_iptree.
Theorem C53_uxtree : forall U (h : heap U) ops, Forall (hop_ok i_on_handle (fun x => plain x.2)) ops ->
  wp (t <- ip_new ;; run_handle ux_exec ux_inplace ops t) h ∅ (fun r h' _ => h ⊆ h' /\ exists l', h_spec ustep u_mut ops [] l' r.2).
Proof. exact @ux_handle. Qed.
Print Assumptions C53_uxtree.

(** ** C54 *)
Theorem C54_strtree : forall U fuel (h : heap U) ops, Forall sop_lawful ops -> enough fuel (weight sop_weight ops + 1) ->
  wp (run_hist (str_exec fuel) ops []) h ∅ (fun r h1 _ => h ⊆ h1 /\ forall ver k v, nth ver r.1 None <> None ->
    wp (str_inplace_insert fuel (nth ver r.1 None) k v ;;; str_enumerate fuel (nth ver r.1 None)) h1 (dom h1)
       (fun e _ _ => let m := smaps_nth str_compare (smaps str_compare ops []) ver in e = a_insert m.1 m.2 k v)).
Proof. exact @str_inplace_any. Qed.
Print Assumptions C54_strtree.
Theorem C54_dltree : forall U fuel (h : heap U) ops rops, Forall2 resolves ops rops -> enough fuel (dkeys ops + 1) ->
  wp (run_hist (dl_exec fuel) ops []) h ∅ (fun r h1 _ => h ⊆ h1 /\ forall ver k v, nth ver r.1 None <> None ->
    wp (dl_raw_inplace_insert fuel (nth ver r.1 None) k v ;;; dl_raw_enumerate fuel (nth ver r.1 None)) h1 (dom h1)
       (fun e _ _ => e = a_insert dl_compare (smaps_nth dl_compare (smaps dl_compare rops []) ver).2 k v)).
Proof. exact @dl_inplace_any. Qed.
Print Assumptions C54_dltree.
Theorem C54_numtree : forall U c (h : heap U) ops, num_cfg c -> Forall (nop_ok (cW c)) ops ->
  wp (run_hist (n_exec c) ops [None]) h ∅ (fun r h1 _ => h ⊆ h1 /\ forall ver k b v, (k < 2 ^ cW c)%N ->
    wp (p <- n_inplace_insert c (nth ver r.1 None) k b v ;; n_enumerate c p) h1 (dom h1)
       (fun e _ _ => s_enum (cW c) (s_insert (cW c) (nth ver (n_contents (cW c) ops [∅]) ∅) k (adj (cW c) b) v) (map as_entry e))).
Proof. exact @n_inplace_any. Qed.
Print Assumptions C54_numtree.

(** ** A client that mixes. *)
Definition ex_mix : list (hop (sop (value nat)) (bytes * value nat)) :=
  [ HInplace (B "b", VUser 1); HCall (SInsert 0 (B "a") (VUser 2)); HInplace (B "c", VUser 3); HInplace (B "a", VUser 4);
    HCall (SDelete 0 (B "b")); HInplace (B "d", VUser 5); HCall (SEnumerate 0); HCall (SGet 0 (B "b")); HCall (SIsEmpty 0) ].
Example ex_mix_ok : Forall (hop_ok on_handle (fun _ => True)) ex_mix /\ enough 20 (List.length ex_mix) /\ lawful str_compare.
Proof. split_and!; [by repeat constructor|vm_compute; lia|apply str_compare_lawful]. Qed.
Example ex_mix_run : match run (p <- str_new_custom (Some str_compare) ;; run_handle (str_exec 20) (str_inplace 20) ex_mix p) ∅ 1%positive with (inl r, _, _) => r.2 | _ => [] end =
  [ None; Some SONone; None; None; Some (SOBool true); None;
    Some (SOList [(B "a", VUser 4); (B "c", VUser 3); (B "d", VUser 5)]); Some (SOVal None); Some (SOBool false) ].
Proof. vm_compute. reflexivity. Qed.
Definition ex_mix_ip : list (hop (iop ikey (value nat)) (imut (U := nat) (St := nat))) :=
  let net a b l := KNet (Some ([a; b; Byte.x00; Byte.x00], cidr_mask l 32)) in
  [ HInplace (MIns (net Byte.x0a Byte.x00 8%N) (VUser 1)); HCall (IInsert 0 (net Byte.x0a Byte.x01 16%N) (VUser 2));
    HInplace (MUpd (fun s x => (S s, Some (VUser (10 + s)))) (Some ([Byte.x0a; Byte.x00; Byte.x00; Byte.x00], cidr_mask 8%N 32)) 0);
    HInplace (MIns (net Byte.x0b Byte.x00 8%N) (VUser 3)); HCall (IEnumerate 0); HCall (IDelete 0 (net Byte.x0a Byte.x00 8%N)); HCall (IEnumerate 0) ].
Example ex_mix_ip_ok : Forall (hop_ok i_on_handle i_mut_ok) ex_mix_ip.
Proof.
  repeat (constructor; [first [exact I|split; [exact I|reflexivity]|split; [by intros ? ? ? ? [= _ <-]|]]|]); [|constructor].
  eexists. apply net_is4 with (n := 8%N); [done|done|]. vm_compute. done.
Qed.
Example ex_mix_ip_run : match run (t <- ip_new ;; run_handle ip_exec ip_inplace ex_mix_ip t) ∅ 1%positive with (inl r, _, _) => r.2 | _ => [] end =
  let e a b l v := ([a; b; Byte.x00; Byte.x00], cidr_mask l 32, VUser v) in
  [ None; Some IONone; None; None;
    Some (IOList [e Byte.x0a Byte.x00 8%N 1; e Byte.x0a Byte.x01 16%N 10; e Byte.x0b Byte.x00 8%N 3]);
    Some (IOBool true); Some (IOList [e Byte.x0b Byte.x00 8%N 3]) ].
Proof. vm_compute. reflexivity. Qed.
