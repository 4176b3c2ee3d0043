(** * uintX/iptree8, 16, 32, 64: networks with numbers as values.

    Line numbers refer to uintX/iptree8/iptree.go; the other three are the same
    file with another value type (compared by a textual diff). The radix trees
    node32.go and node64.go of these packages are numtree's (NumModel.v, c32 and
    c64) up to the value type, and node64s.go is node64.go with *node64 as value
    type: such a value is [VSub]. Numbers are [VUser]; [VNil] stands for the 0
    that a failed lookup returns and that nodes which are no leaves hold (where
    *node64 is the value type: for nil). The conversions at 219-288 are those of
    iptree/iptree.go:363-432 (IpModel.v: ip4_key, ip6_key, net_of_ip). *)
From Verif Require Import Prog NumModel IpModel.
Open Scope N_scope.

Section model.
Context {U : Type}.
Local Notation prog := (prog U).
Local Notation value := (value U).

(** 33-35 NewTree: [ip_new]. 43-51 the roots, of a nil tree nil: [ip_roots]. *)
(** The value of a node64s that is a leaf is a *node64 by its type. *)
Definition sub_of (v : value) : ptr := match v with VSub p => p | _ => None end.

(** 38-73 InsertNet *)
Definition ux_insert_net (t : ptr) (n : ipnet) (v : value) : prog ptr :=
  match n with
  | None => Ret t
  | Some n =>
    r <- ip_roots t ;;
    match ip4_key n with
    | Some (key, bits) =>                                                (* 53-58 *)
      x <- n_insert c32 r.1 key (Z.of_N bits) v ;;
      l <- alloc (CIp x r.2) ;; Ret (Some l)
    | None =>
      match ip6_key n with
      | Some (mskey, msbits, lskey, lsbits) =>                           (* 60-70 *)
        e <- n_exact c64 r.2 mskey (Z.of_N msbits) ;;
        let s := if (e.2 : bool) then sub_of e.1 else None in
        s <- n_insert c64 s lskey (Z.of_N lsbits) v ;;
        x <- n_insert c64 r.2 mskey (Z.of_N msbits) (VSub s) ;;
        l <- alloc (CIp r.1 x) ;; Ret (Some l)
      | None => Ret t
      end
    end
  end.

(** 76-94 InplaceInsertNet *)
Definition ux_inplace_insert_net (t : ptr) (n : ipnet) (v : value) : prog unit :=
  match n with
  | None => Ret tt
  | Some n =>
    match ip4_key n with
    | Some (key, bits) =>
      r <- ld_ip t ;;
      x <- n_inplace_insert c32 r.1 key (Z.of_N bits) v ;;
      store t (CIp x r.2)
    | None =>
      match ip6_key n with
      | Some (mskey, msbits, lskey, lsbits) =>
        r <- ld_ip t ;;
        e <- n_exact c64 r.2 mskey (Z.of_N msbits) ;;
        if (e.2 : bool) then
          let s := sub_of e.1 in
          s' <- n_inplace_insert c64 s lskey (Z.of_N lsbits) v ;;
          if ptr_eqb s' s then Ret tt
          else
            x <- n_inplace_insert c64 r.2 mskey (Z.of_N msbits) (VSub s') ;;
            store t (CIp r.1 x)
        else
          s <- n_inplace_insert c64 None lskey (Z.of_N lsbits) v ;;
          x <- n_inplace_insert c64 r.2 mskey (Z.of_N msbits) (VSub s) ;;
          store t (CIp r.1 x)
      | None => Ret tt
      end
    end
  end.
(** 97-99 InsertIP, 102-104 InplaceInsertIP *)
Definition ux_insert_ip (t : ptr) (ip : bytes) (v : value) : prog ptr := ux_insert_net t (net_of_ip ip) v.
Definition ux_inplace_insert_ip (t : ptr) (ip : bytes) (v : value) : prog unit := ux_inplace_insert_net t (net_of_ip ip) v.

(** 124-153 GetByNet *)
Definition ux_get_net (t : ptr) (n : ipnet) : prog (value * bool) :=
  match t, n with
  | Some _, Some n =>
    r <- ld_ip t ;;
    match ip4_key n with
    | Some (key, bits) => n_match c32 r.1 key (Z.of_N bits)
    | None =>
      match ip6_key n with
      | Some (mskey, msbits, lskey, lsbits) =>
        s <- n_match c64 r.2 mskey (Z.of_N msbits) ;;
        if negb s.2 then Ret (VNil, false)
        else
          v <- n_match c64 (sub_of s.1) lskey (Z.of_N lsbits) ;;
          if v.2 || (msbits <? 64) then Ret v
          else
            s <- n_match c64 r.2 mskey (Z.of_N msbits - 1) ;;
            if negb s.2 then Ret (VNil, false)
            else n_match c64 (sub_of s.1) lskey (Z.of_N lsbits)
      | None => Ret (VNil, false)
      end
    end
  | _, _ => Ret (VNil, false)
  end.
(** 156-158 GetByIP *)
Definition ux_get_ip (t : ptr) (ip : bytes) : prog (value * bool) := ux_get_net t (net_of_ip ip).

(** 161-188 DeleteByNet *)
Definition ux_delete_net (t : ptr) (n : ipnet) : prog (ptr * bool) :=
  match t, n with
  | Some _, Some n =>
    r <- ld_ip t ;;
    match ip4_key n with
    | Some (key, bits) =>
      x <- n_delete c32 r.1 key (Z.of_N bits) ;;
      if (x.2 : bool) then l <- alloc (CIp x.1 r.2) ;; Ret (Some l, true) else Ret (t, false)
    | None =>
      match ip6_key n with
      | Some (mskey, msbits, lskey, lsbits) =>
        e <- n_exact c64 r.2 mskey (Z.of_N msbits) ;;
        if (e.2 : bool) then
          x <- n_delete c64 (sub_of e.1) lskey (Z.of_N lsbits) ;;
          if (x.2 : bool) then
            r64 <- (match x.1 with
                    | None => y <- n_delete c64 r.2 mskey (Z.of_N msbits) ;; Ret y.1
                    | Some _ => n_insert c64 r.2 mskey (Z.of_N msbits) (VSub x.1)
                    end) ;;
            l <- alloc (CIp r.1 r64) ;; Ret (Some l, true)
          else Ret (t, false)
        else Ret (t, false)
      | None => Ret (t, false)
      end
    end
  | _, _ => Ret (t, false)
  end.
(** 191-193 DeleteByIP *)
Definition ux_delete_ip (t : ptr) (ip : bytes) : prog (ptr * bool) := ux_delete_net t (net_of_ip ip).

(** ** Enumerate, 107-121 and 195-217: address, mask, value in the order sent.
    196-203 is [pair4]; MSIP (206) is [msip]. *)
(** 207-215. n.bits+m.bits is at most 128, so the sum of two uint8 does not wrap
    (n.bits <= 64, m.bits <= 64). *)
Definition ux_pair6 (top sub : numnode U) : pair_ :=
  let m := cidr_mask (nn_bits top + nn_bits sub) 128 in
  (ip_mask (firstn 8 (msip top) ++ unpack64 (nn_key sub)) m, m, nn_val sub).
Definition ux_enum6 (top : numnode U) : prog (list pair_) :=
  xs <- n_enumerate c64 (sub_of (nn_val top)) ;; Ret (map (fun x => ux_pair6 top x.2) xs).
Definition ux_enumerate (t : ptr) : prog (list pair_) :=
  match t with
  | None => Ret []
  | Some _ =>
    r <- ld_ip t ;;
    xs <- n_enumerate c32 r.1 ;;
    ys <- n_enumerate c64 r.2 ;;
    zs <- mapM (fun y => ux_enum6 y.2) ys ;;
    Ret (map (fun x => pair4 x.2) xs ++ concat zs)
  end.
End model.
