(** * Property C65: the keys handed out by Enumerate and to the callbacks of
    UpdateDescendants are the receiver's own. *)
(** [k_items its] (SliceModel.v): the code of enumerate and of UpdateDescendants that
    makes the keys, with its slices and arrays, for the visited nodes [its].
    [hands_out k e] (SliceSpec.v): at any moment of any run of [k], in which anyone
    else writes at any time into any array that [k] did not make or has given away,
    [k] is not stuck, the next key and value handed out read as the next of [e],
    [k] changes nothing that others can see, and no two keys share an array. *)
From Verif Require Import Prog History NumModel NumSpec IpModel IpSpec IpHist UxModel UxSpec UxHist ChanUpdProps SliceModel SliceSpec SliceProofs SliceProps.
From Verif Require Import Properties_iptree.
Open Scope nat_scope.

(** C65: histories as in C43; [e] is the enumeration specified there. *)
Theorem C65_enumerate : forall U (h : heap U) ops rops ver, Forall2 iresolves ops rops -> Forall iop_ok ops ->
  wp (run_hist ip_exec ops []) h ∅ (fun r h1 _ => exists its e,
    returns (ip_items (nth ver r.1 None)) h1 its /\ nenumerates (iver rops ver) e /\ hands_out (k_items its) e).
Proof. exact @pf_ip_keys_hist. Qed.
Print Assumptions C65_enumerate.
(** C65: the same for the generated packages. *)
Theorem C65_ux_enumerate : forall U (h : heap U) ops rops ver, Forall2 iresolves ops rops -> Forall iop_ok ops ->
  wp (run_hist ux_exec ops []) h ∅ (fun r h1 _ => exists its e,
    returns (ux_items (nth ver r.1 None)) h1 its /\ nenumerates (uver rops ver) e /\ hands_out (k_items its) e).
Proof. exact @pf_ux_keys_hist. Qed.
Print Assumptions C65_ux_enumerate.
(** C65: in any memory in which the sequential model enumerates. *)
Theorem C65_refines : forall U (h : heap U) t W Q, wp (ip_enumerate t) h W Q ->
  exists its e, returns (ip_items t) h its /\ Q e h W /\ hands_out (k_items its) e.
Proof. intros U h t W Q. exact (pf_ip_keys t h W Q). Qed.
Print Assumptions C65_refines.
(** C65: the callbacks of UpdateDescendants: whatever nodes are visited, the keys
    are those of IpModel.v ([pair4], [pair6], [pair6s]; C47, C64). *)
Theorem C65_update : forall U (its : list (item (value U))),
  exists e, hands_out (k_items its) (concat e) /\ Forall2 (fun i e => match i with
    | IUpd4 (key, bits, v) => e = [pair4 (NumN key bits true v None None)]
    | IUpd6 (key, bits, v) => e = [pair6 (NumN key bits true v None None)]
    | IUpd6s key subs => e = map (fun nd => pair6s (unpack64 key ++ repeat x00 8) (NumN nd.1.1 nd.1.2 true nd.2 None None)) subs
    | _ => True
    end) its e.
Proof.
  intros U its. exists (map keys its). split; [apply pf_hands_out|]. induction its as [|i its IH]; constructor; [|done].
  destruct i as [| | | [[key bits] v] | [[key bits] v] | key subs]; try done. cbn [keys]. apply map_ext. by intros [[k b] v].
Qed.
Print Assumptions C65_update.

(** ** A case: version 2 of [ex_ip] has two IPv4 networks, an IPv6 network and the
    lower tree of a /64. The receiver overwrites every key on reception. *)
Fixpoint spoilt {V} (k : code V) (m : arrays) : list (bytes * bytes * V) :=
  let a := fresh (dom m) in
  match k with
  | KEnd => []
  | KNew bs k => spoilt (k (Sl a 0 (length bs) (length bs))) (<[a := bs]> m)
  | KRead s k => spoilt (k (seen m s)) m
  | KCut s n k => spoilt (k (Sl (sl_arr s) (sl_off s) n (sl_cap s))) m
  | KApp s bs k =>
    let x := match m !! sl_arr s with Some x => x | None => [] end in
    if sl_len s + length bs <=? sl_cap s then
      spoilt (k (Sl (sl_arr s) (sl_off s) (sl_len s + length bs) (sl_cap s)))
             (<[sl_arr s := take (sl_off s + sl_len s) x ++ bs ++ drop (sl_off s + sl_len s + length bs) x]> m)
    else spoilt (k (Sl a 0 (sl_len s + length bs) (sl_len s + length bs))) (<[a := window s x ++ bs]> m)
  | KGive ip mask v k =>
    (seen m ip, seen m mask, v) :: spoilt k (<[sl_arr ip := repeat xee 16]> (<[sl_arr mask := repeat xee 16]> m))
  end.
Example ex_spoilt :
  match run (r <- run_hist ip_exec ex_ip [] ;; its <- ip_items (nth 2 r.1 None) ;; e <- ip_enumerate (nth 2 r.1 None) ;; Ret (its, e)) ∅ 1%positive with
  | (inl (its, e), _, _) => spoilt (k_items its) ∅ = e /\ map snd e = [VUser 1; VUser 6; VUser 2; VUser 3; VUser 5] /\ length its = 4
  | _ => False
  end.
Proof. vm_compute. repeat split. Qed.
