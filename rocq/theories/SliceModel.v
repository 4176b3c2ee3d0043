(** * The byte slices in the keys that are handed out.

    In IpModel.v and UxModel.v an address or a mask is a sequence of bytes. In Go
    it is a slice: a window on an array that others may be looking at as well.
    Here the code that makes the keys (enumerate, updateNode64) is modelled with
    its slices and arrays; whoever receives the keys may write into them at any
    time. The walk over the radix trees involves no slices: [items] are the nodes
    it visits. Line numbers: iptree/iptree.go, unless said otherwise. *)
From Verif Require Import Prog NumModel IpModel UxModel.
Open Scope nat_scope.

(** Arrays of bytes, by address. *)
Notation arrays := (gmap loc (list byte)).
(** A slice (Go specification, "Slice types"): array, position, length, capacity. *)
Record slice := Sl { sl_arr : loc; sl_off : nat; sl_len : nat; sl_cap : nat }.
(** Its bytes, [x] being the content of the array. *)
Definition window (s : slice) (x : list byte) : list byte := take (sl_len s) (drop (sl_off s) x).
Definition seen (m : arrays) (s : slice) : list byte := match m !! sl_arr s with Some x => window s x | None => [] end.

Section machine.
Context {V : Type}.

(** Code of a goroutine (Enumerate) or of a call (UpdateDescendants).
    [KNew bs]: a new array with content [bs]. [KCut s n]: s[0:n]. [KApp s bs]:
    append(s, bs...). [KGive ip mask v]: hand out a key and a value: "ch <- Pair{...}",
    or the call of the callback. *)
Inductive code :=
| KEnd
| KNew (bs : bytes) (k : slice -> code)
| KRead (s : slice) (k : bytes -> code)
| KCut (s : slice) (n : nat) (k : slice -> code)
| KApp (s : slice) (bs : bytes) (k : slice -> code)
| KGive (ip mask : slice) (v : V) (k : code).

(** What is going on: the code still to be executed, the arrays, those of them
    that are accessible to anyone else (to the rest of the program), the keys
    handed out so far. *)
Record state := State { st_code : code; st_mem : arrays; st_others : gset loc; st_out : list (slice * slice * V) }.

(** A step of the code. append writes into the array if the capacity suffices,
    otherwise it allocates an array with any spare capacity [z] ("Appending to and
    copying slices"). *)
Inductive own : state -> state -> Prop :=
| own_new bs k m C o a : m !! a = None ->
    own (State (KNew bs k) m C o) (State (k (Sl a 0 (length bs) (length bs))) (<[a := bs]> m) C o)
| own_read s k m C o x : m !! sl_arr s = Some x -> sl_off s + sl_len s <= length x ->
    own (State (KRead s k) m C o) (State (k (window s x)) m C o)
| own_cut s n k m C o : n <= sl_cap s ->
    own (State (KCut s n k) m C o) (State (k (Sl (sl_arr s) (sl_off s) n (sl_cap s))) m C o)
| own_app s bs k m C o x : m !! sl_arr s = Some x -> sl_off s + sl_cap s <= length x ->
    sl_len s + length bs <= sl_cap s ->
    let i := sl_off s + sl_len s in
    own (State (KApp s bs k) m C o)
        (State (k (Sl (sl_arr s) (sl_off s) (sl_len s + length bs) (sl_cap s)))
               (<[sl_arr s := take i x ++ bs ++ drop (i + length bs) x]> m) C o)
| own_grow s bs k m C o x a z : m !! sl_arr s = Some x -> sl_off s + sl_cap s <= length x ->
    sl_cap s < sl_len s + length bs -> m !! a = None ->
    let n := sl_len s + length bs in
    own (State (KApp s bs k) m C o)
        (State (k (Sl a 0 n (n + z))) (<[a := window s x ++ bs ++ repeat x00 z]> m) C o)
| own_give ip mask v k m C o :
    own (State (KGive ip mask v k) m C o)
        (State k m ({[sl_arr ip; sl_arr mask]} ∪ C) (o ++ [(ip, mask, v)])).
(** A step of anyone else: they write what they want into the arrays that they can
    get at, and allocate arrays. *)
Inductive other : state -> state -> Prop :=
| other_any k m C o m' :
    (forall a, is_Some (m !! a) -> is_Some (m' !! a)) ->
    (forall a x, m !! a = Some x -> a ∉ C -> m' !! a = Some x) ->
    other (State k m C o) (State k m' (C ∪ (dom m' ∖ dom m)) o).
Definition step s s' := own s s' \/ other s s'.

(** ** Package net. *)
(** net.IP.Mask: reads both, the result is a new array. (Where Go returns nil,
    namely for a mask of another length, [ip_mask] is empty.) *)
Definition k_mask (ip mask : slice) (k : slice -> code) : code :=
  KRead ip (fun x => KRead mask (fun y => KNew (ip_mask x y) k)).
(** append(s, t...) for a slice t. *)
Definition k_append (s t : slice) (k : slice -> code) : code := KRead t (fun y => KApp s y k).

(** ** Keys. A node is given by Key and Bits. *)
(** 332-337 and 130-131; uintX/iptree8/iptree.go:197-201. (net.CIDRMask and
    unpackUint32ToIP make a new array each.) *)
Definition k_give4 (nd : N * N * V) (k : code) : code :=
  let '(key, bits, v) := nd in
  KNew (cidr_mask bits 32) (fun mask => KNew (unpack32 key) (fun u => k_mask u mask (fun ip => KGive ip mask v k))).
(** 341, 103, 162, 174; uintX/iptree8/iptree.go:206: append(unpackUint64ToIP(key), make(net.IP, 8)...). *)
Definition k_msip (key : N) (k : slice -> code) : code :=
  KNew (unpack64 key) (fun u => KNew (repeat x00 8) (fun z => k_append u z k)).
(** 352-358, after 341. *)
Definition k_give6 (nd : N * N * V) (k : code) : code :=
  let '(key, bits, v) := nd in
  k_msip key (fun msip => KNew (cidr_mask bits 128) (fun mask => k_mask msip mask (fun ip => KGive ip mask v k))).
(** 343-351: the loop over the lower tree; [b] is added to Bits: 64
    (iptree/iptree.go:345), or the Bits of the upper node (uintX/iptree8/iptree.go:209). *)
Fixpoint k_lower (msip : slice) (b : N) (subs : list (N * N * V)) (k : code) : code :=
  match subs with
  | [] => k
  | (key, bits, v) :: subs =>
    KNew (unpack64 key) (fun lsip => KNew (cidr_mask (b + bits) 128) (fun mask =>
    KCut msip 8 (fun pre => k_append pre lsip (fun j => k_mask j mask (fun ip => KGive ip mask v (k_lower msip b subs k))))))
  end.
(** 96-116 updateNode64 with MSIP = nil *)
Definition k_update6 (nd : N * N * V) (k : code) : code :=
  let '(key, bits, v) := nd in
  k_msip key (fun j => KNew (cidr_mask bits 128) (fun mask => k_mask j mask (fun ip => KGive ip mask v k))).
(** 96-116 updateNode64 with another MSIP *)
Definition k_update6s (msip : slice) (nd : N * N * V) (k : code) : code :=
  let '(key, bits, v) := nd in
  KNew (unpack64 key) (fun lsip => KCut msip 8 (fun pre => k_append pre lsip (fun j =>
  KNew (cidr_mask (64 + bits) 128) (fun mask => k_mask j mask (fun ip => KGive ip mask v k))))).
(** 175-177: the loop over the lower tree. *)
Fixpoint k_update_lower (msip : slice) (subs : list (N * N * V)) (k : code) : code :=
  match subs with [] => k | nd :: subs => k_update6s msip nd (k_update_lower msip subs k) end.

(** ** What is visited. *)
Inductive item :=
| IEnum4 (nd : N * N * V)                            (* 331-338; uintX/iptree8/iptree.go:196-203 *)
| IEnum6 (nd : N * N * V)                            (* 340-341, 352-358 *)
| IEnum6s (key b : N) (subs : list (N * N * V))      (* 340-351; uintX/iptree8/iptree.go:205-216 *)
| IUpd4 (nd : N * N * V)                             (* 129-136 *)
| IUpd6 (nd : N * N * V)                             (* 179 *)
| IUpd6s (key : N) (subs : list (N * N * V)).        (* 173-177; with one element 161-164 *)
Definition k_item (i : item) (k : code) : code :=
  match i with
  | IEnum4 nd | IUpd4 nd => k_give4 nd k
  | IEnum6 nd => k_give6 nd k
  | IEnum6s key b subs => k_msip key (fun msip => k_lower msip b subs k)
  | IUpd6 nd => k_update6 nd k
  | IUpd6s key subs => k_msip key (fun msip => k_update_lower msip subs k)
  end.
Fixpoint k_items (is : list item) : code :=
  match is with [] => KEnd | i :: is => k_item i (k_items is) end.
End machine.
Arguments code : clear implicits.
Arguments state : clear implicits.
Arguments item : clear implicits.

(** ** The nodes visited by Enumerate, as in IpModel.v and UxModel.v. *)
Section items.
Context {U : Type}.
Local Notation value := (value U).
Definition nd_of (nn : numnode U) : N * N * value := (nn_key nn, nn_bits nn, nn_val nn).
(** 340-359 *)
Definition items6 (nn : numnode U) : prog U (list (item value)) :=
  match nn_val nn with
  | VSub s => xs <- n_enumerate c64 s ;; Ret [IEnum6s (nn_key nn) 64 (map (fun x => nd_of x.2) xs)]
  | _ => Ret [IEnum6 (nd_of nn)]
  end.
(** 230-244, 330-361 *)
Definition ip_items (t : ptr) : prog U (list (item value)) :=
  match t with
  | None => Ret []
  | Some _ =>
    r <- ld_ip t ;;
    xs <- n_enumerate c32 r.1 ;;
    ys <- n_enumerate c64 r.2 ;;
    zs <- mapM (fun y => items6 y.2) ys ;;
    Ret (map (fun x => IEnum4 (nd_of x.2)) xs ++ concat zs)
  end.
(** uintX/iptree8/iptree.go:205-216 *)
Definition ux_items6 (nn : numnode U) : prog U (list (item value)) :=
  xs <- n_enumerate c64 (sub_of (nn_val nn)) ;;
  Ret [IEnum6s (nn_key nn) (nn_bits nn) (map (fun x => nd_of x.2) xs)].
(** uintX/iptree8/iptree.go:107-121, 195-217 *)
Definition ux_items (t : ptr) : prog U (list (item value)) :=
  match t with
  | None => Ret []
  | Some _ =>
    r <- ld_ip t ;;
    xs <- n_enumerate c32 r.1 ;;
    ys <- n_enumerate c64 r.2 ;;
    zs <- mapM (fun y => ux_items6 y.2) ys ;;
    Ret (map (fun x => IEnum4 (nd_of x.2)) xs ++ concat zs)
  end.
End items.
