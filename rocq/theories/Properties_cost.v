(** * The cost of calls (C57).

    [within m h s a] (CostSpec.v): the call [m] in memory [h] returns after at most
    [s] accesses to structs in memory, of which at most [a] are allocations. [e] is
    what Enumerate of the version returns, so [L] is the logarithm of the number of
    keys stored in it; it does not depend on the length of the history, on deleted
    keys or on other versions. *)
From Verif Require Import Prog History RbModel RbSpec RbAbs StrSpec StrAbs StrPropProofs Properties_strtree.
From Verif Require Import DomModel DomSpec DlModel DlSpec DlAbs DlPropProofs Properties_dltree DtModel DtSpec DtAbs DtPropProofs Properties_domaintree.
From Verif Require Import NumModel NumSpec NumAbs NumPropProofs IpModel IpSpec IpHist Properties_iptree UxModel UxHist.
From Verif Require Import Handle DtOwnSpec CostSpec Cost CostProps CostDt CostNum CostTries.
From Coq Require Import String.
Open Scope nat_scope.
Local Notation B := list_byte_of_string.

(** strtree: any comparators with cmp(k,k) = 0, ordered or not. *)
Theorem C57_strtree : forall U fuel (h : heap U) (ops : list (sop (value U))), Forall sop_refl ops -> enough fuel (keys ops) ->
  wp (run_hist (str_exec fuel) ops []) h ∅ (fun r h1 _ => forall ver, let p := nth ver r.1 None in
    wp (str_enumerate fuel p) h1 ∅ (fun e _ _ => let L := Nat.log2 (List.length e + 1) in forall k v,
      within (str_get fuel p k) h1 (2 * L + 1) 0 /\
      within (str_insert fuel p k v) h1 (192 * L + 104) (12 * L + 8) /\
      within (str_delete fuel p k) h1 (116 * L + 16) (6 * L + 2))).
Proof. exact @str_cost. Qed.
Print Assumptions C57_strtree.
Theorem C57_strtree_inplace : forall U fuel (h : heap U) (ops : list (sop (value U))), Forall sop_lawful ops -> enough fuel (keys ops) ->
  wp (run_hist (str_exec fuel) ops []) h ∅ (fun r h1 _ => forall ver, let p := nth ver r.1 None in
    wp (str_enumerate fuel p) h1 ∅ (fun e _ _ => let L := Nat.log2 (List.length e + 1) in forall k v,
      p <> None -> within (str_inplace_insert fuel p k v) h1 (160 * L + 88) (4 * L + 3))).
Proof. exact @str_cost_inplace. Qed.
Print Assumptions C57_strtree_inplace.
Theorem C57_dltree : forall U fuel (h : heap U) (ops : list (dop (value U))) rops, Forall2 resolves ops rops -> enough fuel (dkeys ops) ->
  wp (run_hist (dl_exec fuel) ops []) h ∅ (fun r h1 _ => forall ver, let p := nth ver r.1 None in
    wp (dl_raw_enumerate fuel p) h1 ∅ (fun e _ _ => let L := Nat.log2 (List.length e + 1) in forall k v,
      within (dl_raw_get fuel p k) h1 (2 * L + 1) 0 /\
      within (dl_raw_insert fuel p k v) h1 (192 * L + 104) (12 * L + 8) /\
      within (dl_raw_delete fuel p k) h1 (232 * L + 132) (12 * L + 8) /\
      (p <> None -> within (dl_raw_inplace_insert fuel p k v) h1 (160 * L + 88) (4 * L + 3)))).
Proof. exact @dl_cost. Qed.
Print Assumptions C57_dltree.
(** domaintree: the logarithm of the number of names, for each label of the name. *)
Theorem C57_domaintree : forall U fuel (h : heap U) ops rops, Forall2 tresolves ops rops -> ~ del_panics [] rops -> enough fuel (tnames ops + 1) -> 128 <= fuel ->
  wp (run_hist (dt_exec fuel) ops []) h ∅ (fun r h1 _ => forall ver, let p := nth ver r.1 None in
    wp (dt_enumerate fuel p) h1 ∅ (fun e _ _ => let L := Nat.log2 (List.length e + 1) in forall d q v, name_is d q -> let k := List.length q in
      within (dt_get fuel p d) h1 (k * (4 * L + 5)) 0 /\
      within (dt_insert fuel p d v) h1 (k * (196 * L + 113) + 6) (k * (12 * L + 9) + 1) /\
      (~ too_deep (tver rops ver) q -> within (dt_delete fuel p d) h1 (k * (236 * L + 143) + 24) (k * (12 * L + 9) + 2)) /\
      (~ too_deep (tver rops ver) q -> within (dt_delete_subdomains fuel p d) h1 (k * (236 * L + 143) + 24) (k * (12 * L + 9) + 2)) /\
      (p <> None -> ~ blocked (bver rops ver) q -> within (dt_inplace_insert fuel p d v) h1 (k * (164 * L + 259) + 8) (k * (4 * L + 9) + 1)))).
Proof. exact @dt_cost. Qed.
Print Assumptions C57_domaintree.
(** The radix trees: a bound that does not depend on the content. *)
Theorem C57_numtree : forall U c (h : heap U) ops, num_cfg c -> Forall (nop_ok (cW c)) ops ->
  wp (run_hist (n_exec c) ops [None]) h ∅ (fun r h1 _ => forall ver key bits v, (key < 2 ^ cW c)%N ->
    let p := nth ver r.1 None in let w := N.to_nat (cW c) in
    within (n_match c p key bits) h1 (w + 3) 0 /\
    within (n_exact c p key bits) h1 (w + 3) 0 /\
    within (n_insert c p key bits v) h1 (8 * w + 17) (w + 3) /\
    within (n_inplace_insert c p key bits v) h1 (w + 10) 2 /\
    within (n_delete c p key bits) h1 (6 * w + 12) (w + 2)).
Proof. exact @n_cost. Qed.
Print Assumptions C57_numtree.
Theorem C57_iptree : forall U (h : heap U) ops rops, Forall2 iresolves ops rops -> Forall iop_ok ops ->
  wp (run_hist ip_exec ops []) h ∅ (fun r h1 _ => forall ver k v, IpSpec.plain v -> let p := nth ver r.1 None in
    within (ip_get_key p k) h1 234 0 /\
    within (ip_insert_key p k v) h1 1383 167 /\
    within (ip_delete_key p k) h1 1186 166 /\
    (p <> None -> within (ip_inplace_key p k v) h1 249 4)).
Proof. exact @ip_cost. Qed.
Print Assumptions C57_iptree.
Theorem C57_uxtree : forall U (h : heap U) ops rops, Forall2 iresolves ops rops -> Forall iop_ok ops ->
  wp (run_hist ux_exec ops []) h ∅ (fun r h1 _ => forall ver k v, IpSpec.plain v -> let p := nth ver r.1 None in
    within (ux_get_key p k) h1 269 0 /\
    within (ux_insert_key p k v) h1 1383 167 /\
    within (ux_delete_key p k) h1 1186 166 /\
    (p <> None -> within (ux_inplace_key p k v) h1 249 4)).
Proof. exact @ux_cost. Qed.
Print Assumptions C57_uxtree.
(** What [costs] says about a run: the numbers counted along it. *)
Theorem C57_counted : forall U A (m : prog U A) h next s a, (forall l, (next <= l)%positive -> h !! l = None) -> costs m h s a ->
  (tally m h next).1 <= s /\ (tally m h next).2 <= a.
Proof. exact @costs_tally. Qed.
Print Assumptions C57_counted.

(** ** Counted: the histories of Properties_strtree.v, Properties_dltree.v,
    Properties_domaintree.v and Properties_iptree.v, followed by one call. *)
Definition counted {A R} (hist : prog nat (list ptr * R)) (f : list ptr -> prog nat A) : nat * nat :=
  match run hist ∅ 1%positive with (inl r, h, n) => tally (f r.1) h n | _ => (0, 0) end.
Example ex_cost_str : Forall sop_refl ex_str /\
  counted (run_hist (str_exec 18) ex_str []) (fun vs => str_get 18 (nth 5 vs None) (K [2])) = (2, 0) /\
  counted (run_hist (str_exec 18) ex_str []) (fun vs => str_insert 18 (nth 5 vs None) (K [5]) (VUser 9)) = (34, 5) /\
  counted (run_hist (str_exec 18) ex_str []) (fun vs => str_delete 18 (nth 5 vs None) (K [2])) = (51, 5).
Proof. split; [unfold ex_str; repeat (apply Forall_cons; split; [first [exact I|intros k; unfold by_len; lia]|]); apply Forall_nil; exact I|]. vm_compute. repeat split. Qed.
Example ex_cost_dl :
  counted (run_hist (dl_exec 20) ex_dl []) (fun vs => dl_raw_get 20 (nth 3 vs None) (B "Z")) = (3, 0) /\
  counted (run_hist (dl_exec 20) ex_dl []) (fun vs => dl_raw_inplace_insert 20 (nth 3 vs None) (B "Y") (VUser 9)) = (39, 2).
Proof. vm_compute. repeat split. Qed.
Example ex_cost_dt : enough 128 (tnames ex_dt + 1) /\
  counted (run_hist (dt_exec 128) ex_dt []) (fun vs => dt_get 128 (nth 2 vs None) (nm "ftp.example.com")) = (11, 0) /\
  counted (run_hist (dt_exec 128) ex_dt []) (fun vs => dt_insert 128 (nth 2 vs None) (nm "ftp.example.com") (VUser 9)) = (87, 14) /\
  counted (run_hist (dt_exec 128) ex_dt []) (fun vs => dt_delete 128 (nth 2 vs None) (nm "www.example.com")) = (105, 13).
Proof. split; [vm_compute; lia|]. vm_compute. repeat split. Qed.
Example ex_cost_ip :
  counted (run_hist ip_exec ex_ip []) (fun vs => ip_get_key (nth 2 vs None) (KAddr a6)) = (7, 0) /\
  counted (run_hist ip_exec ex_ip []) (fun vs => ip_insert_key (nth 2 vs None) (KNet n6_64) (VUser 9)) = (21, 4) /\
  counted (run_hist ux_exec ex_ip []) (fun vs => ux_delete_key (nth 2 vs None) (KNet n6_64)) = (13, 2).
Proof. vm_compute. repeat split. Qed.
