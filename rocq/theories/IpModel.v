(** * iptree: networks on two radix trees.

    Line numbers refer to iptree/iptree.go. The functions of Go's package net
    that it calls are modelled from the documentation and source of Go's
    standard library (not in the repository). A net.IP or net.IPMask is a byte
    sequence (nil is the empty one), a *net.IPNet an option (None: nil). *)
From Verif Require Import Prog NumModel.
Open Scope N_scope.

Notation ipnet := (option (bytes * bytes)).

(** ** Package net. *)
Definition b2n (b : byte) : N := Byte.to_N b.
(** Conversion to a byte (truncates). *)
Definition n2b (x : N) : byte := match Byte.of_N (x mod 256) with Some b => b | None => x00 end.
Definition byte_eqb (a b : byte) : bool := Byte.eqb a b.

(** net.simpleMaskLength, the inner loop: "for v&0x80 != 0 { n++; v <<= 1 }",
    at most 8 rounds because zeros are shifted in. *)
Fixpoint count_ones (fuel : nat) (v : N) : N * N :=
  match fuel with
  | O => (0, v)
  | S fuel => if N.testbit v 7 then let '(k, v) := count_ones fuel ((v * 2) mod 256) in (k + 1, v) else (0, v)
  end.
(** net.simpleMaskLength; None is -1. *)
Fixpoint simple_mask_length (m : bytes) (n : N) : option N :=
  match m with
  | [] => Some n
  | v :: m =>
    if byte_eqb v xff then simple_mask_length m (n + 8)
    else
      let '(k, v) := count_ones 8 (b2n v) in
      if negb (v =? 0) then None
      else if forallb (fun b => byte_eqb b x00) m then Some (n + k) else None
  end.
(** net.IPMask.Size *)
Definition mask_size (m : bytes) : N * N :=
  match simple_mask_length m 0 with
  | None => (0, 0)
  | Some n => (n, 8 * N.of_nat (length m))
  end.
(** net.CIDRMask(ones, bits) for bits = 8*l with l = 4 or 16; the caller's
    arguments satisfy ones <= bits (otherwise Go returns nil). *)
Fixpoint cidr_loop (l : nat) (n : N) : bytes :=
  match l with
  | O => []
  | S l => if 8 <=? n then xff :: cidr_loop l (n - 8)
           else n2b (N.lxor (N.shiftr 255 n) 255) :: cidr_loop l 0
  end.
Definition cidr_mask (ones bits : N) : bytes :=
  if bits <? ones then [] else cidr_loop (N.to_nat (bits / 8)) ones.
Definition v4_in_v6 : bytes := [x00; x00; x00; x00; x00; x00; x00; x00; x00; x00; xff; xff].
Definition bytes_eq (a b : bytes) : bool := if List.list_eq_dec Byte.byte_eq_dec a b then true else false.
(** net.IP.Mask *)
Definition ip_mask (ip m : bytes) : bytes :=
  let m := if (length m =? 16)%nat && (length ip =? 4)%nat && bytes_eq (firstn 12 m) (repeat xff 12) then skipn 12 m else m in
  let ip := if (length m =? 4)%nat && (length ip =? 16)%nat && bytes_eq (firstn 12 ip) v4_in_v6 then skipn 12 ip else ip in
  if (length ip =? length m)%nat then map (fun x => n2b (N.land (b2n x.1) (b2n x.2))) (combine ip m) else [].
(** net.IP.To4 (nil: empty) *)
Definition to4 (ip : bytes) : bytes :=
  if (length ip =? 4)%nat then ip
  else if (length ip =? 16)%nat && bytes_eq (firstn 12 ip) v4_in_v6 then skipn 12 ip
  else [].
(** net.IP.To16 *)
Definition to16 (ip : bytes) : bytes :=
  if (length ip =? 4)%nat then v4_in_v6 ++ ip
  else if (length ip =? 16)%nat then ip
  else [].

(** ** Conversions, 363-432. *)
Definition ix (x : bytes) (i : nat) : N := match nth_error x i with Some b => b2n b | None => 0 end.
(** 376-378 packIPToUint32; called on 4 bytes only, so no index is out of range
    (here: 0 then). *)
Definition pack32 (x : bytes) : N :=
  N.lor (N.lor (N.lor (N.shiftl (ix x 0) 24) (N.shiftl (ix x 1) 16)) (N.shiftl (ix x 2) 8)) (ix x 3).
(** 380-382 unpackUint32ToIP *)
Definition unpack32 (x : N) : bytes :=
  [n2b (N.land (N.shiftr x 24) 255); n2b (N.land (N.shiftr x 16) 255); n2b (N.land (N.shiftr x 8) 255); n2b (N.land x 255)].
(** 405-408 packIPToUint64; called on 8 bytes or more *)
Definition pack64 (x : bytes) : N :=
  N.lor (N.lor (N.lor (N.lor (N.lor (N.lor (N.lor
    (N.shiftl (ix x 0) 56) (N.shiftl (ix x 1) 48)) (N.shiftl (ix x 2) 40)) (N.shiftl (ix x 3) 32))
    (N.shiftl (ix x 4) 24)) (N.shiftl (ix x 5) 16)) (N.shiftl (ix x 6) 8)) (ix x 7).
(** 410-420 unpackUint64ToIP *)
Definition unpack64 (x : N) : bytes :=
  [n2b (N.land (N.shiftr x 56) 255); n2b (N.land (N.shiftr x 48) 255); n2b (N.land (N.shiftr x 40) 255);
   n2b (N.land (N.shiftr x 32) 255); n2b (N.land (N.shiftr x 24) 255); n2b (N.land (N.shiftr x 16) 255);
   n2b (N.land (N.shiftr x 8) 255); n2b (N.land x 255)].

(** 363-374 iPv4NetToUint32; None: bits = -1. *)
Definition ip4_key (n : bytes * bytes) : option (N * N) :=
  if negb (length n.1 =? 4)%nat then None
  else let '(ones, bits) := mask_size n.2 in
       if negb (bits =? 32) then None else Some (pack32 n.1, ones).
(** 384-403 iPv6NetToUint64Pair; None: MSBits = -1. *)
Definition ip6_key (n : bytes * bytes) : option (N * N * N * N) :=
  if negb (length n.1 =? 16)%nat then None
  else let '(ones, bits) := mask_size n.2 in
       if negb (bits =? 128) then None
       else let '(msbits, lsbits) := if 64 <? ones then (64, ones - 64) else (ones, 0) in
            Some (pack64 n.1, msbits, pack64 (skipn 8 n.1), lsbits).
(** 422-432 newIPNetFromIP *)
Definition net_of_ip (ip : bytes) : ipnet :=
  match to4 ip with
  | _ :: _ => Some (to4 ip, cidr_mask 32 32)
  | [] => match to16 ip with
          | _ :: _ => Some (to16 ip, cidr_mask 128 128)
          | [] => None
          end
  end.

Section model.
Context {U : Type}.
Local Notation prog := (prog U).
Local Notation value := (value U).

(** 36-38 NewTree *)
Definition ip_new : prog ptr := l <- alloc (CIp None None) ;; Ret (Some l).
(** The roots; of a nil tree nil (47-55, 61-69). *)
Definition ip_roots (t : ptr) : prog (ptr * ptr) :=
  match t with None => Ret (None, None) | Some _ => ld_ip t end.
(** v.(subTree64) with the panic of 77-82 (also 198-203, 302-307). *)
Definition as_sub (v : value) : prog ptr :=
  match v with VSub p => Ret p | _ => Fail EPanic end.

(** 41-92 InsertNet *)
Definition ip_insert_net (t : ptr) (n : ipnet) (v : value) : prog ptr :=
  match n with
  | None => Ret t                                                       (* 42-44 *)
  | Some n =>
    match ip4_key n with
    | Some (key, bits) =>                                               (* 46-58 *)
      r <- ip_roots t ;;
      x <- n_insert c32 r.1 key (Z.of_N bits) v ;;
      l <- alloc (CIp x r.2) ;; Ret (Some l)
    | None =>
      match ip6_key n with
      | Some (mskey, msbits, lskey, lsbits) =>                          (* 60-89 *)
        r <- ip_roots t ;;
        if msbits <? 64 then                                            (* 71-73 *)
          x <- n_insert c64 r.2 mskey (Z.of_N msbits) v ;;
          l <- alloc (CIp r.1 x) ;; Ret (Some l)
        else
          e <- n_exact c64 r.2 mskey (Z.of_N msbits) ;;                 (* 76 *)
          s <- (if (e.2 : bool) then as_sub e.1 else Ret None) ;;       (* 77-84 *)
          s <- n_insert c64 s lskey (Z.of_N lsbits) v ;;                (* 87 *)
          x <- n_insert c64 r.2 mskey (Z.of_N msbits) (VSub s) ;;       (* 88 *)
          l <- alloc (CIp r.1 x) ;; Ret (Some l)
      | None => Ret t                                                   (* 91 *)
      end
    end
  end.

(** 186-217 InplaceInsertNet *)
Definition ip_inplace_insert_net (t : ptr) (n : ipnet) (v : value) : prog unit :=
  match n with
  | None => Ret tt
  | Some n =>
    match ip4_key n with
    | Some (key, bits) =>
      r <- ld_ip t ;;
      x <- n_inplace_insert c32 r.1 key (Z.of_N bits) v ;;
      store t (CIp x r.2)
    | None =>
      match ip6_key n with
      | Some (mskey, msbits, lskey, lsbits) =>
        r <- ld_ip t ;;
        if msbits <? 64 then
          x <- n_inplace_insert c64 r.2 mskey (Z.of_N msbits) v ;;
          store t (CIp r.1 x)
        else
          e <- n_exact c64 r.2 mskey (Z.of_N msbits) ;;
          if (e.2 : bool) then
            s <- as_sub e.1 ;;
            s' <- n_inplace_insert c64 s lskey (Z.of_N lsbits) v ;;
            if ptr_eqb s' s then Ret tt
            else
              x <- n_inplace_insert c64 r.2 mskey (Z.of_N msbits) (VSub s') ;;
              store t (CIp r.1 x)
          else
            s <- n_inplace_insert c64 None lskey (Z.of_N lsbits) v ;;
            x <- n_inplace_insert c64 r.2 mskey (Z.of_N msbits) (VSub s) ;;
            store t (CIp r.1 x)
      | None => Ret tt
      end
    end
  end.
(** 220-222 InsertIP, 225-227 InplaceInsertIP *)
Definition ip_insert_ip (t : ptr) (ip : bytes) (v : value) : prog ptr := ip_insert_net t (net_of_ip ip) v.
Definition ip_inplace_insert_ip (t : ptr) (ip : bytes) (v : value) : prog unit := ip_inplace_insert_net t (net_of_ip ip) v.

(** 247-276 GetByNet. [Match] on an empty tree (numtree/node32.go:109-111)
    returns a typed nil pointer as value; here VNil, as in NumModel. *)
Definition ip_get_net (t : ptr) (n : ipnet) : prog (value * bool) :=
  match t, n with
  | Some _, Some n =>
    r <- ld_ip t ;;
    match ip4_key n with
    | Some (key, bits) => n_match c32 r.1 key (Z.of_N bits)
    | None =>
      match ip6_key n with
      | Some (mskey, msbits, lskey, lsbits) =>
        e <- n_match c64 r.2 mskey (Z.of_N msbits) ;;
        if negb e.2 || (msbits <? 64) then Ret e
        else
          match e.1 with
          | VSub s =>
            x <- n_match c64 s lskey (Z.of_N lsbits) ;;
            if (x.2 : bool) then Ret x
            else n_match c64 r.2 mskey 63
          | v => Ret (v, true)
          end
      | None => Ret (VNil, false)
      end
    end
  | _, _ => Ret (VNil, false)
  end.
(** 279-281 GetByIP *)
Definition ip_get_ip (t : ptr) (ip : bytes) : prog (value * bool) := ip_get_net t (net_of_ip ip).

(** 284-323 DeleteByNet *)
Definition ip_delete_net (t : ptr) (n : ipnet) : prog (ptr * bool) :=
  match t, n with
  | Some _, Some n =>
    r <- ld_ip t ;;
    match ip4_key n with
    | Some (key, bits) =>
      x <- n_delete c32 r.1 key (Z.of_N bits) ;;
      if (x.2 : bool) then l <- alloc (CIp x.1 r.2) ;; Ret (Some l, true) else Ret (t, false)
    | None =>
      match ip6_key n with
      | Some (mskey, msbits, lskey, lsbits) =>
        if msbits <? 64 then
          x <- n_delete c64 r.2 mskey (Z.of_N msbits) ;;
          if (x.2 : bool) then l <- alloc (CIp r.1 x.1) ;; Ret (Some l, true) else Ret (t, false)
        else
          e <- n_exact c64 r.2 mskey (Z.of_N msbits) ;;
          if (e.2 : bool) then
            s <- as_sub e.1 ;;
            x <- n_delete c64 s lskey (Z.of_N lsbits) ;;
            if (x.2 : bool) then
              r64 <- (match x.1 with
                      | None => y <- n_delete c64 r.2 mskey (Z.of_N msbits) ;; Ret y.1
                      | Some _ => n_insert c64 r.2 mskey (Z.of_N msbits) (VSub x.1)
                      end) ;;
              l <- alloc (CIp r.1 r64) ;; Ret (Some l, true)
            else Ret (t, false)
          else Ret (t, false)
      | None => Ret (t, false)
      end
    end
  | _, _ => Ret (t, false)
  end.
(** 326-328 DeleteByIP *)
Definition ip_delete_ip (t : ptr) (ip : bytes) : prog (ptr * bool) := ip_delete_net t (net_of_ip ip).

(** ** Enumerate, 230-244 and 330-361. The pairs in the order in which they are
    sent: address, mask, value. *)
Definition pair_ := (bytes * bytes * value)%type.
(** 331-338 *)
Definition pair4 (nn : numnode U) : pair_ :=
  let m := cidr_mask (nn_bits nn) 32 in (ip_mask (unpack32 (nn_key nn)) m, m, nn_val nn).
(** 352-358; MSIP (341) is the key followed by eight zero bytes. *)
Definition msip (nn : numnode U) : bytes := unpack64 (nn_key nn) ++ repeat x00 8.
Definition pair6 (nn : numnode U) : pair_ :=
  let m := cidr_mask (nn_bits nn) 128 in (ip_mask (msip nn) m, m, nn_val nn).
(** 342-351. append(MSIP[0:8], LSIP...) overwrites the last eight bytes of
    MSIP itself, of which only the first eight are used again; the bytes of the
    result are copied by Mask. (Slices and arrays: C65.) *)
Definition pair6s (ms : bytes) (nn : numnode U) : pair_ :=
  let m := cidr_mask (64 + nn_bits nn) 128 in (ip_mask (firstn 8 ms ++ unpack64 (nn_key nn)) m, m, nn_val nn).
Definition enum6 (nn : numnode U) : prog (list pair_) :=
  match nn_val nn with
  | VSub s => xs <- n_enumerate c64 s ;; Ret (map (fun x => pair6s (msip nn) x.2) xs)
  | _ => Ret [pair6 nn]
  end.
Definition ip_enumerate (t : ptr) : prog (list pair_) :=
  match t with
  | None => Ret []
  | Some _ =>
    r <- ld_ip t ;;
    xs <- n_enumerate c32 r.1 ;;
    ys <- n_enumerate c64 r.2 ;;
    zs <- mapM (fun y => enum6 y.2) ys ;;
    Ret (map (fun x => pair4 x.2) xs ++ concat zs)
  end.

(** ** UpdateDescendants, 94-183. The callback is a program (it may look at the tree)
    that depends on its argument and on a state [St] that it may change. *)
Section update.
Context {St : Type}.
Variable cb : St -> pair_ -> prog (St * option value).   (* Some v: (v, true) *)

(** 112-115 (and 133-136): call, then n.Value = newValue. (The struct as it was
    before the call is stored: callbacks of which something is proved write nothing
    but values to the nodes of this tree.) *)
Definition upd_node (mk : numnode U -> pair_) (s : St) (l : loc) : prog St :=
  nn <- ld_num (Some l) ;;
  x <- cb s (mk nn) ;;
  let '(s, r) := x in
  match r with
  | Some v => st_num (Some l) (NumN (nn_key nn) (nn_bits nn) (nn_leaf nn) v (nn_c0 nn) (nn_c1 nn)) ;;; Ret s
  | None => Ret s
  end.
Fixpoint upd_list (mk : numnode U -> pair_) (s : St) (ls : list loc) : prog St :=
  match ls with
  | [] => Ret s
  | l :: ls => s <- upd_node mk s l ;; upd_list mk s ls
  end.
(** The nodes below the target: "nodesCh := target.Enumerate(); if target.Leaf
    { <-nodesCh }", 125-128, 157-160, 168-171. The enumerating goroutine reads
    Leaf and chld, never Value, which is all that the receiver writes: the nodes
    are the same as if they had been collected first. (Proved: C64.) *)
Definition below (c : cfg) (target : ptr) : prog (list loc) :=
  xs <- n_enumerate c target ;;
  nn <- ld_num target ;;
  Ret (map fst (if nn_leaf nn then tl xs else xs)).
(** 172-181: the loop over the nodes of the upper tree. *)
Fixpoint upd_top (s : St) (ls : list loc) : prog St :=
  match ls with
  | [] => Ret s
  | l :: ls =>
    nn <- ld_num (Some l) ;;
    s <- (match nn_val nn with
          | VSub p => xs <- n_enumerate c64 p ;; upd_list (pair6s (msip nn)) s (map fst xs)
          | _ => upd_node pair6 s l
          end) ;;
    upd_top s ls
  end.
(** 119-183. The IPv4 part does not end with a return, but then line 140 gives -1
    (the address has four bytes). A nil network is dereferenced (364). *)
Definition ip_update_by (t : ptr) (n : ipnet) (s : St) : prog St :=
  match n with
  | None => Fail ENil
  | Some n =>
    match ip4_key n with
    | Some (key, bits) =>
      r <- ld_ip t ;;
      target <- n_find_node c32 r.1 key (Z.of_N bits) ;;
      match target with
      | None => Ret s
      | Some _ => ls <- below c32 target ;; upd_list pair4 s ls
      end
    | None =>
      match ip6_key n with
      | Some (mskey, msbits, lskey, lsbits) =>
        r <- ld_ip t ;;
        target <- n_find_node c64 r.2 mskey (Z.of_N msbits) ;;
        match target with
        | None => Ret s
        | Some _ =>
          tn <- ld_num target ;;
          match nn_val tn with
          | VSub p =>
            pn <- ld_num p ;;
            target <- (if (nn_key pn =? lskey) && (nn_bits pn =? lsbits) then Ret p
                       else n_find_node c64 p lskey (Z.of_N lsbits)) ;;
            match target with
            | None => Ret s
            | Some _ =>
              ls <- below c64 target ;;
              upd_list (pair6s (unpack64 mskey ++ repeat x00 8)) s ls
            end
          | _ => ls <- below c64 target ;; upd_top s ls
          end
        end
      | None => Ret s
      end
    end
  end.
End update.
(** With a callback that is a function. *)
Definition ip_update {St} (cb : St -> pair_ -> St * option value) (t : ptr) (n : ipnet) (s : St) : prog St :=
  ip_update_by (fun s x => Ret (cb s x)) t n s.
End model.
