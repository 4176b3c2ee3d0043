(** * numtree: the radix tree, statement by statement.

    numtree/node32.go and numtree/node64.go are the same text up to the width
    of the key (checked by diff), so the model is written once over the width
    [cW] and the mask table [cmasks].  Line numbers refer to
    numtree/node32.go.  The generated uintX/iptree8..64/node32.go and node64.go
    are the same text again with the value type changed. *)
From Verif Require Import Prog.
Open Scope N_scope.

Record cfg := Cfg { cW : N; cmasks : list N }.

(** numtree/node32.go:10-23. *)
Definition masks32 : list N := [
  0x00000000; 0x80000000; 0xc0000000; 0xe0000000;
  0xf0000000; 0xf8000000; 0xfc000000; 0xfe000000;
  0xff000000; 0xff800000; 0xffc00000; 0xffe00000;
  0xfff00000; 0xfff80000; 0xfffc0000; 0xfffe0000;
  0xffff0000; 0xffff8000; 0xffffc000; 0xffffe000;
  0xfffff000; 0xfffff800; 0xfffffc00; 0xfffffe00;
  0xffffff00; 0xffffff80; 0xffffffc0; 0xffffffe0;
  0xfffffff0; 0xfffffff8; 0xfffffffc; 0xfffffffe;
  0xffffffff].
Definition c32 : cfg := Cfg 32 masks32.

(** numtree/node64.go:9-30. *)
Definition masks64 : list N := [
  0x0000000000000000; 0x8000000000000000; 0xc000000000000000; 0xe000000000000000;
  0xf000000000000000; 0xf800000000000000; 0xfc00000000000000; 0xfe00000000000000;
  0xff00000000000000; 0xff80000000000000; 0xffc0000000000000; 0xffe0000000000000;
  0xfff0000000000000; 0xfff8000000000000; 0xfffc000000000000; 0xfffe000000000000;
  0xffff000000000000; 0xffff800000000000; 0xffffc00000000000; 0xffffe00000000000;
  0xfffff00000000000; 0xfffff80000000000; 0xfffffc0000000000; 0xfffffe0000000000;
  0xffffff0000000000; 0xffffff8000000000; 0xffffffc000000000; 0xffffffe000000000;
  0xfffffff000000000; 0xfffffff800000000; 0xfffffffc00000000; 0xfffffffe00000000;
  0xffffffff00000000; 0xffffffff80000000; 0xffffffffc0000000; 0xffffffffe0000000;
  0xfffffffff0000000; 0xfffffffff8000000; 0xfffffffffc000000; 0xfffffffffe000000;
  0xffffffffff000000; 0xffffffffff800000; 0xffffffffffc00000; 0xffffffffffe00000;
  0xfffffffffff00000; 0xfffffffffff80000; 0xfffffffffffc0000; 0xfffffffffffe0000;
  0xffffffffffff0000; 0xffffffffffff8000; 0xffffffffffffc000; 0xffffffffffffe000;
  0xfffffffffffff000; 0xfffffffffffff800; 0xfffffffffffffc00; 0xfffffffffffffe00;
  0xffffffffffffff00; 0xffffffffffffff80; 0xffffffffffffffc0; 0xffffffffffffffe0;
  0xfffffffffffffff0; 0xfffffffffffffff8; 0xfffffffffffffffc; 0xfffffffffffffffe;
  0xffffffffffffffff].
Definition c64 : cfg := Cfg 64 masks64.

(** masks32[b]: out of range panics. *)
Definition mask {U} (c : cfg) (b : N) : prog U N :=
  match nth_error (cmasks c) (N.to_nat b) with
  | Some m => Ret m
  | None => Fail EIndex
  end.

(** Go's ^x on a uintW. *)
Definition bnot (c : cfg) (x : N) : N := N.lxor x (N.ones (cW c)).

(** math/bits.LeadingZerosW(x) = W - Len(x). *)
Definition lzeros (c : cfg) (x : N) : N := cW c - N.size x.

(** KeyWBitSize - 1 - b, computed in uint8. *)
Definition shamt (c : cfg) (b : N) : N := (cW c - 1 + 256 - b mod 256) mod 256.

(** (key >> (KeyWBitSize - 1 - b)) & 1, used as an index 0/1. *)
Definition bbit (c : cfg) (key b : N) : N := N.land (N.shiftr key (shamt c b)) 1.

(** "Adjust bits", node32.go:65-70 (and 77-82, 114-119, 151-156, 174-179),
    followed by the conversion to uint8. *)
Definition clamp (c : cfg) (bits : Z) : N :=
  if (bits <? 0)%Z then 0
  else if (Z.of_N (cW c) <? bits)%Z then cW c
  else Z.to_N bits.

Section model.
Context {U : Type}.
Local Notation prog := (prog U).
Local Notation numnode := (numnode U).
Local Notation value := (value U).

Definition chld (n : numnode) (b : N) : ptr := if N.eqb b 0 then nn_c0 n else nn_c1 n.
Definition with_chld (n : numnode) (b : N) (p : ptr) : numnode :=
  if N.eqb b 0
  then NumN (nn_key n) (nn_bits n) (nn_leaf n) (nn_val n) p (nn_c1 n)
  else NumN (nn_key n) (nn_bits n) (nn_leaf n) (nn_val n) (nn_c0 n) p.

(** p.chld[b] = x *)
Definition set_chld (p : ptr) (b : N) (x : ptr) : prog unit :=
  n <- ld_num p ;; st_num p (with_chld n b x).

(** node32.go:446-452 newNode32. *)
Definition new_node (key bits : N) (leaf : bool) (v : value) : prog ptr :=
  l <- alloc (CNum (NumN key bits leaf v None None)) ;; Ret (Some l).

(** The expression of node32.go:206 and 261: number of common significant bits. *)
Definition ncsb (c : cfg) (k1 b1 k2 b2 : N) : prog N :=
  m1 <- mask c b1 ;; m2 <- mask c b2 ;;
  Ret (lzeros c (N.lor (N.lor (N.lxor k1 k2) (bnot c m1)) (bnot c m2))).

(** node32.go:197-250 insert. *)
Fixpoint insert_ (c : cfg) (fuel : nat) (n cand : ptr) : prog ptr :=
  match fuel with O => Fail EFuel | S fuel =>
  match n with
  | None => Ret cand
  | Some _ =>
    nn <- ld_num n ;; cn <- ld_num cand ;;
    bits <- ncsb c (nn_key nn) (nn_bits nn) (nn_key cn) (nn_bits cn) ;;
    if bits <? nn_bits nn then
      let branch := bbit c (nn_key nn) bits in
      if bits =? nn_bits cn then
        set_chld cand branch n ;;; Ret cand
      else
        mk <- mask c bits ;;
        m <- new_node (N.land (nn_key cn) mk) bits false VNil ;;
        set_chld m branch n ;;;
        set_chld m (1 - branch) cand ;;;
        Ret m
    else if nn_bits cn =? nn_bits nn then
      st_num cand (NumN (nn_key cn) (nn_bits cn) (nn_leaf cn) (nn_val cn) (nn_c0 nn) (nn_c1 nn)) ;;;
      Ret cand
    else
      m <- new_node (nn_key nn) (nn_bits nn) (nn_leaf nn) (nn_val nn) ;;
      mn <- ld_num m ;;
      st_num m (NumN (nn_key mn) (nn_bits mn) (nn_leaf mn) (nn_val mn) (nn_c0 nn) (nn_c1 nn)) ;;;
      let branch := bbit c (nn_key cn) bits in
      mn <- ld_num m ;;
      x <- insert_ c fuel (chld mn branch) cand ;;
      set_chld m branch x ;;;
      Ret m
  end end.

Definition nfuel (c : cfg) : nat := N.to_nat (cW c) + 2.

(** node32.go:64-73 Insert. *)
Definition n_insert (c : cfg) (n : ptr) (key : N) (bits : Z) (v : value) : prog ptr :=
  cand <- new_node key (clamp c bits) true v ;;
  insert_ c (nfuel c) n cand.

(** node32.go:260-304: the loop of inplaceInsert with its local variables
    p, branch, n, r; the code after the loop runs when n is nil. *)
Fixpoint inplace_loop (c : cfg) (fuel : nat) (key sbits : N) (v : value)
    (p : ptr) (branch : N) (n r : ptr) : prog ptr :=
  match fuel with O => Fail EFuel | S fuel =>
  match n with
  | None =>
    n <- new_node key sbits true v ;;
    match p with
    | None => Ret n
    | Some _ => set_chld p branch n ;;; Ret r
    end
  | Some _ =>
    nn <- ld_num n ;;
    cbits <- ncsb c (nn_key nn) (nn_bits nn) key sbits ;;
    if cbits <? nn_bits nn then
      let pbranch := branch in
      let branch := bbit c (nn_key nn) cbits in
      m <- (if cbits =? sbits then
              m <- new_node key sbits true v ;;
              set_chld m branch n ;;; Ret m
            else
              mk <- mask c cbits ;;
              m <- new_node (N.land key mk) cbits false VNil ;;
              x <- new_node key sbits true v ;;
              set_chld m (1 - branch) x ;;; Ret m) ;;
      set_chld m branch n ;;;
      match p with
      | None => Ret m
      | Some _ => set_chld p pbranch m ;;; Ret r
      end
    else if sbits =? nn_bits nn then
      st_num n (NumN key (nn_bits nn) true v (nn_c0 nn) (nn_c1 nn)) ;;;
      Ret r
    else
      let branch := bbit c key cbits in
      inplace_loop c fuel key sbits v n branch (chld nn branch) r
  end end.

(** node32.go:76-85 InplaceInsert and 252-258. *)
Definition n_inplace_insert (c : cfg) (n : ptr) (key : N) (bits : Z) (v : value) : prog ptr :=
  inplace_loop c (nfuel c) key (clamp c bits) v None 0 n n.

(** node32.go:307-320 enumerate. The nodes sent to the channel, in order; the
    receiver reads Key, Bits and Value of each node (here: at the moment it is
    sent, with its address). *)
Fixpoint enumerate_ (c : cfg) (fuel : nat) (n : ptr) : prog (list (loc * numnode)) :=
  match fuel with O => Fail EFuel | S fuel =>
  match n with
  | None => Fail ENil
  | Some l =>
    nn <- ld_num n ;;
    let here := if nn_leaf nn then [(l, nn)] else [] in
    xs <- (match nn_c0 nn with None => Ret [] | Some _ => enumerate_ c fuel (nn_c0 nn) end) ;;
    ys <- (match nn_c1 nn with None => Ret [] | Some _ => enumerate_ c fuel (nn_c1 nn) end) ;;
    Ret (here ++ xs ++ ys)
  end end.

(** node32.go:88-104 Enumerate. *)
Definition n_enumerate (c : cfg) (n : ptr) : prog (list (loc * numnode)) :=
  match n with None => Ret [] | Some _ => enumerate_ c (nfuel c) n end.

(** (n.Key^key)&masks32[b] == 0 *)
Definition same_masked (c : cfg) (k1 k2 b : N) : prog bool :=
  m <- mask c b ;; Ret (N.land (N.lxor k1 k2) m =? 0).

(** n.Leaf && (n.Key^key)&masks32[n.Bits] == 0 *)
Definition leaf_and_same (c : cfg) (nn : numnode) (key : N) : prog bool :=
  if nn_leaf nn then same_masked c (nn_key nn) key (nn_bits nn) else Ret false.

(** node32.go:322-361 match. *)
Fixpoint match_ (c : cfg) (fuel : nat) (n : ptr) (key bits : N) : prog ptr :=
  match fuel with O => Fail EFuel | S fuel =>
    nn <- ld_num n ;;
    if bits <? nn_bits nn then Ret None
    else if nn_bits nn =? bits then
      b <- leaf_and_same c nn key ;;
      if (b : bool) then Ret n else Ret None
    else
      same <- same_masked c (nn_key nn) key (nn_bits nn) ;;
      if negb same then Ret None
      else
        r <- (match chld nn (bbit c key (nn_bits nn)) with
              | None => Ret None
              | Some x => match_ c fuel (Some x) key bits
              end) ;;
        match r with
        | Some _ => Ret r
        | None => if nn_leaf nn then Ret n else Ret None
        end
  end.

(** node32.go:107-127 Match. On an empty tree the Go code returns the nil
    *Node32 converted to interface{} (line 111); here VNil. *)
Definition n_match (c : cfg) (n : ptr) (key : N) (bits : Z) : prog (value * bool) :=
  match n with
  | None => Ret (VNil, false)
  | Some _ =>
    r <- match_ c (nfuel c) n key (clamp c bits) ;;
    match r with
    | None => Ret (VNil, false)
    | Some _ => rn <- ld_num r ;; Ret (nn_val rn, true)
    end
  end.

(** node32.go:363-397 exactMatch. *)
Fixpoint exact_ (c : cfg) (fuel : nat) (n : ptr) (key bits : N) : prog ptr :=
  match fuel with O => Fail EFuel | S fuel =>
    nn <- ld_num n ;;
    if bits <? nn_bits nn then Ret None
    else if nn_bits nn =? bits then
      b <- leaf_and_same c nn key ;;
      if (b : bool) then Ret n else Ret None
    else
      same <- same_masked c (nn_key nn) key (nn_bits nn) ;;
      if negb same then Ret None
      else
        match chld nn (bbit c key (nn_bits nn)) with
        | None => Ret None
        | Some x =>
          r <- exact_ c fuel (Some x) key bits ;;
          match r with Some _ => Ret r | None => Ret None end
        end
  end.

(** node32.go:144-164 FindNode. *)
Definition n_find_node (c : cfg) (n : ptr) (key : N) (bits : Z) : prog ptr :=
  match n with
  | None => Ret None
  | Some _ =>
    r <- exact_ c (nfuel c) n key (clamp c bits) ;;
    match r with None => Ret None | Some _ => Ret r end
  end.

(** node32.go:134-142 ExactMatch. *)
Definition n_exact (c : cfg) (n : ptr) (key : N) (bits : Z) : prog (value * bool) :=
  r <- n_find_node c n key bits ;;
  match r with
  | None => Ret (VNil, false)
  | Some _ => rn <- ld_num r ;; Ret (nn_val rn, true)
  end.

(** node32.go:129-131 Children. *)
Definition n_children (n : ptr) : prog (ptr * ptr) :=
  nn <- ld_num n ;; Ret (nn_c0 nn, nn_c1 nn).

(** node32.go:399-444 del. *)
Fixpoint del_ (c : cfg) (fuel : nat) (n : ptr) (key bits : N) : prog (ptr * bool) :=
  match fuel with O => Fail EFuel | S fuel =>
    nn <- ld_num n ;;
    if bits <=? nn_bits nn then
      same <- same_masked c (nn_key nn) key bits ;;
      if (same : bool) then Ret (None, true) else Ret (n, false)
    else
      same <- same_masked c (nn_key nn) key (nn_bits nn) ;;
      if negb same then Ret (n, false)
      else
        let branch := bbit c key (nn_bits nn) in
        match chld nn branch with
        | None => Ret (n, false)
        | Some x =>
          r <- del_ c fuel (Some x) key bits ;;
          let '(ch, ok) := r in
          if negb ok then Ret (n, false)
          else if (match ch with None => negb (nn_leaf nn) | Some _ => false end) then
            Ret (chld nn (1 - branch), true)
          else
            m <- new_node (nn_key nn) (nn_bits nn) (nn_leaf nn) (nn_val nn) ;;
            mn <- ld_num m ;;
            st_num m (NumN (nn_key mn) (nn_bits mn) (nn_leaf mn) (nn_val mn) (nn_c0 nn) (nn_c1 nn)) ;;;
            set_chld m branch ch ;;;
            Ret (m, true)
        end
  end.

(** node32.go:167-182 Delete. *)
Definition n_delete (c : cfg) (n : ptr) (key : N) (bits : Z) : prog (ptr * bool) :=
  match n with
  | None => Ret (n, false)
  | Some _ => del_ c (nfuel c) n key (clamp c bits)
  end.

End model.
