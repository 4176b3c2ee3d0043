(** * Red-black trees: strtree/node.go, strtree/strtree.go, and dltree/node.go
    which differs only in the comparison (checked by diff) and in the printed
    form of keys.

    Children are selected by a boolean direction: [false] is dirLeft (0),
    [true] is dirRight (1); [1 - dir] is [negb dir].  A field assignment
    [n.f = e] is a load of the struct followed by a store of the updated
    struct.  Loops take fuel; one unit is one iteration. *)
From Verif Require Import Prog.

(** strings.Compare: lexicographic order of bytes (Go standard library). *)
Fixpoint str_compare (a b : bytes) : Z :=
  match a, b with
  | [], [] => 0
  | [], _ => -1
  | _, [] => 1
  | x :: a, y :: b =>
    match N.compare (Byte.to_N x) (Byte.to_N y) with Lt => -1 | Gt => 1 | Eq => str_compare a b end
  end%Z.

(** dltree/node.go:170-173, 241-244, 289-294, 362-365: difference of the
    lengths, then strings.Compare.  (Lengths are Go ints far from overflow.) *)
Definition dl_compare (a b : bytes) : Z :=
  let r := (Z.of_nat (length a) - Z.of_nat (length b))%Z in
  if (r =? 0)%Z then str_compare a b else r.

Section model.
Context {U : Type}.
Local Notation prog := (prog U).
Local Notation value := (value U).
Local Notation rbnode := (rbnode U).

(** strtree/strtree.go:7 [type Compare func(a, b string) int]; calling a nil
    function panics.  A comparison is assumed to be a pure function. *)
Definition compare := option (bytes -> bytes -> Z).
Definition call_cmp (f : compare) (a b : bytes) : prog Z :=
  match f with None => Fail ENil | Some f => Ret (f a b) end.

(** [n.chld[dir]] *)
Definition rchld (n : rbnode) (dir : bool) : ptr := if dir then rb_r n else rb_l n.
Definition with_rchld (n : rbnode) (dir : bool) (p : ptr) : rbnode :=
  if dir then RbN (rb_key n) (rb_val n) (rb_l n) p (rb_red n)
  else RbN (rb_key n) (rb_val n) p (rb_r n) (rb_red n).
(** [n.chld[dir] = p] *)
Definition set_rchld (n : ptr) (dir : bool) (p : ptr) : prog unit :=
  nn <- ld_rb n ;; st_rb n (with_rchld nn dir p).
(** [n.red = b] *)
Definition set_red (n : ptr) (b : bool) : prog unit :=
  nn <- ld_rb n ;; st_rb n (RbN (rb_key nn) (rb_val nn) (rb_l nn) (rb_r nn) b).
(** [n.value = v] *)
Definition set_val (n : ptr) (v : value) : prog unit :=
  nn <- ld_rb n ;; st_rb n (RbN (rb_key nn) v (rb_l nn) (rb_r nn) (rb_red nn)).
(** [n.key = k] *)
Definition set_key (n : ptr) (k : bytes) : prog unit :=
  nn <- ld_rb n ;; st_rb n (RbN k (rb_val nn) (rb_l nn) (rb_r nn) (rb_red nn)).
(** [n != nil && n.red]; its negation is [n == nil || !n.red]. *)
Definition is_red (p : ptr) : prog bool :=
  match p with None => Ret false | Some _ => n <- ld_rb p ;; Ret (rb_red n) end.

(** strtree/node.go:243-249, dltree/node.go:254-260 fullCopy *)
Definition full_copy (n : ptr) : prog ptr :=
  nn <- ld_rb n ;;
  a <- alloc (CRb nn) ;; Ret (Some a).
(** strtree/node.go:251-257, dltree/node.go:262-268 colorCopy *)
Definition color_copy (n : ptr) (color : bool) : prog ptr :=
  nn <- ld_rb n ;;
  a <- alloc (CRb (RbN (rb_key nn) (rb_val nn) (rb_l nn) (rb_r nn) color)) ;; Ret (Some a).

(** strtree/node.go:259-269, dltree/node.go:270-280 single *)
Definition single (n : ptr) (dir : bool) : prog ptr :=
  let ndir := negb dir in
  nn <- ld_rb n ;;
  let s := rchld nn dir in
  sn <- ld_rb s ;;
  set_rchld n dir (rchld sn ndir) ;;;
  set_rchld s ndir n ;;;
  set_red n true ;;;
  set_red s false ;;;
  Ret s.

(** strtree/node.go:271-274, dltree/node.go:282-285 double *)
Definition double (n : ptr) (dir : bool) : prog ptr :=
  nn <- ld_rb n ;;
  x <- single (rchld nn dir) (negb dir) ;;
  set_rchld n dir x ;;;
  single n dir.

(** The condition of strtree/node.go:119 and 211 (dltree 124, 219). *)
Definition both_red (nn : rbnode) : prog bool :=
  match rb_l nn, rb_r nn with
  | Some _, Some _ =>
    ln <- ld_rb (rb_l nn) ;;
    if rb_red ln then rn <- ld_rb (rb_r nn) ;; Ret (rb_red rn) else Ret false
  | _, _ => Ret false
  end.

Section ops.
Variable cmp : compare.

(** strtree/node.go:132-163 (in-place: 218-231): the red violation fix.
    Returns the new [g], [p] and whether a double rotation was made. *)
Definition fix_violation (gp g p n : ptr) (parentDir : bool) : prog (ptr * ptr * bool) :=
  nn <- ld_rb n ;;
  pn <- ld_rb p ;;
  if rb_red nn && rb_red pn then
    gpn <- ld_rb gp ;;
    let grandParentDir := ptr_eqb (rchld gpn true) g in
    pn <- ld_rb p ;;
    if ptr_eqb n (rchld pn parentDir) then
      x <- single g parentDir ;;
      set_rchld gp grandParentDir x ;;;
      Ret (gp, p, false)
    else
      x <- double g parentDir ;;
      set_rchld gp grandParentDir x ;;;
      Ret (g, gp, true)
  else Ret (g, p, false).

(** strtree/node.go:91-166, dltree/node.go:96-174: the loop of insert; returns
    the node [n] on which it stops.  [c0], [c1] are [c[0]], [c[1]]. *)
Fixpoint insert_loop (fuel : nat) (key : bytes) (gp g p n c0 c1 : ptr) (dir : bool) (r : Z) : prog ptr :=
  if (r =? 0)%Z then Ret n else
  match fuel with
  | O => Fail EFuel
  | S fuel =>
    let parentDir := dir in                                   (* 92 *)
    let dir := (r <? 0)%Z in                                  (* 93-97 *)
    let gp := g in let g := p in let p := n in                (* 100-102 *)
    nn <- ld_rb n ;;                                          (* 103 *)
    let n := rchld nn dir in
    x <- (match n with
          | None =>                                           (* 105-111 *)
            a <- alloc (CRb (RbN key VNil None None true)) ;;
            Ret (Some a, None, None)
          | Some _ =>
            n <- (if ptr_eqb n (if dir then c1 else c0) then Ret n else full_copy n) ;;  (* 114-116 *)
            nn <- ld_rb n ;;
            b <- both_red nn ;;                               (* 119 *)
            if b then
              set_red n true ;;;                              (* 120 *)
              c0 <- color_copy (rb_l nn) false ;;             (* 121-123 *)
              c1 <- color_copy (rb_r nn) false ;;
              set_rchld n false c0 ;;; set_rchld n true c1 ;;; (* 124 *)
              Ret (n, c0, c1)
            else Ret (n, None, None)                          (* 126 *)
          end) ;;
    let '(n, c0, c1) := x in
    set_rchld p dir n ;;;                                     (* 129 *)
    y <- fix_violation gp g p n parentDir ;;                  (* 132-163 *)
    let '(g, p, dbl) := y in
    nn <- ld_rb n ;;
    let '(c0, c1) := if dbl : bool then (rb_l nn, rb_r nn) else (c0, c1) in     (* 160 *)
    r <- call_cmp cmp (rb_key nn) key ;;                      (* 165 *)
    insert_loop fuel key gp g p n c0 c1 dir r
  end.

(** strtree/node.go:60-173, dltree/node.go:65-181 insert *)
Definition insert (fuel : nat) (n : ptr) (key : bytes) (v : value) : prog ptr :=
  match n with
  | None => a <- alloc (CRb (RbN key v None None false)) ;; Ret (Some a)      (* 61-63 *)
  | Some _ =>
    a <- alloc (CRb (RbN [] VNil None n false)) ;;                            (* 66 *)
    let root := Some a in
    n <- insert_loop fuel key None None None root None None false (-1) ;;     (* 67-166 *)
    set_val n v ;;;                                                           (* 168 *)
    rn <- ld_rb root ;;                                                       (* 170 *)
    let n := rb_r rn in
    set_red n false ;;;                                                       (* 171 *)
    Ret n
  end.

(** strtree/node.go:192-234, dltree/node.go:200-245 *)
Fixpoint inplace_loop (fuel : nat) (key : bytes) (gp g p n : ptr) (dir : bool) (r : Z) : prog ptr :=
  if (r =? 0)%Z then Ret n else
  match fuel with
  | O => Fail EFuel
  | S fuel =>
    let parentDir := dir in
    let dir := (r <? 0)%Z in
    let gp := g in let g := p in let p := n in
    nn <- ld_rb n ;;
    let n := rchld nn dir in
    n <- (match n with
          | None =>                                           (* 204-209 *)
            a <- alloc (CRb (RbN key VNil None None true)) ;;
            set_rchld p dir (Some a) ;;;
            Ret (Some a)
          | Some _ =>
            nn <- ld_rb n ;;
            b <- both_red nn ;;                               (* 211 *)
            if b then
              set_red n true ;;;                              (* 212 *)
              set_red (rb_l nn) false ;;;                     (* 213 *)
              set_red (rb_r nn) false ;;;                     (* 214 *)
              Ret n
            else Ret n
          end) ;;
    y <- fix_violation gp g p n parentDir ;;                  (* 218-231 *)
    let '(g, p, _) := y in
    nn <- ld_rb n ;;
    r <- call_cmp cmp (rb_key nn) key ;;                      (* 233 *)
    inplace_loop fuel key gp g p n dir r
  end.

(** strtree/node.go:175-241, dltree/node.go:183-252 inplaceInsert *)
Definition inplace_insert (fuel : nat) (n : ptr) (key : bytes) (v : value) : prog ptr :=
  match n with
  | None => a <- alloc (CRb (RbN key v None None false)) ;; Ret (Some a)
  | Some _ =>
    a <- alloc (CRb (RbN [] VNil None n false)) ;;
    let root := Some a in
    n <- inplace_loop fuel key None None None root false (-1) ;;
    set_val n v ;;;
    rn <- ld_rb root ;;
    let n := rb_r rn in
    set_red n false ;;;
    Ret n
  end.

(** strtree/node.go:276-293, dltree/node.go:287-306 get.  (dltree compares the
    lengths first and the bytes only when they are equal: [dl_compare].) *)
Fixpoint get (fuel : nat) (n : ptr) (key : bytes) : prog (value * bool) :=
  match n with
  | None => Ret (VNil, false)
  | Some _ =>
    match fuel with
    | O => Fail EFuel
    | S fuel =>
      nn <- ld_rb n ;;
      r <- call_cmp cmp (rb_key nn) key ;;
      if (r =? 0)%Z then Ret (rb_val nn, true)
      else get fuel (rchld nn (r <? 0)%Z) key
    end
  end.

(** strtree/node.go:295-305, dltree/node.go:320-330 (rawEnumerate): the pairs
    sent to the channel, in order. *)
Fixpoint enumerate (fuel : nat) (n : ptr) : prog (list (bytes * value)) :=
  match n with
  | None => Ret []
  | Some _ =>
    match fuel with
    | O => Fail EFuel
    | S fuel =>
      nn <- ld_rb n ;;
      l <- enumerate fuel (rb_l nn) ;;
      r <- enumerate fuel (rb_r nn) ;;
      Ret (l ++ (rb_key nn, rb_val nn) :: r)
    end
  end.

(** strtree/node.go:346-385, dltree/node.go:374-413: one rebalancing step of
    the deletion; [n] is the current node, [p] its parent, [g] its
    grandparent, [pDir] the direction from [p] to [n], [dir] the direction in
    which the search goes on. Returns the new [p]. *)
Definition del_fix (g p n : ptr) (pDir dir : bool) : prog ptr :=
  nn <- ld_rb n ;;
  rd <- is_red (rchld nn dir) ;;
  if negb (rb_red nn) && negb rd then                              (* 346 *)
    let nDir := negb dir in
    rn <- is_red (rchld nn nDir) ;;
    if rn then                                                     (* 348 *)
      x <- full_copy (rchld nn nDir) ;; set_rchld n nDir x ;;;     (* 349 *)
      x <- single n nDir ;; set_rchld p pDir x ;;;                 (* 350 *)
      pn <- ld_rb p ;; Ret (rchld pn pDir)                         (* 351 *)
    else
      let nPDir := negb pDir in
      pn <- ld_rb p ;;
      match rchld pn nPDir with                                    (* 354-355 *)
      | None => Ret p
      | Some _ =>
        s <- full_copy (rchld pn nPDir) ;;                         (* 356 *)
        set_rchld p nPDir s ;;;                                    (* 357 *)
        sn <- ld_rb s ;;
        r0 <- is_red (rb_l sn) ;;
        r1 <- is_red (rb_r sn) ;;
        if negb r0 && negb r1 then                                 (* 358-359 *)
          set_red p false ;;; set_red n true ;;; set_red s true ;;; (* 360-362 *)
          Ret p
        else
          gn <- ld_rb g ;;
          let gpDir := ptr_eqb (rb_r gn) p in                      (* 365-368 *)
          rs <- is_red (rchld sn pDir) ;;
          (if rs then                                              (* 370 *)
             x <- full_copy (rchld sn pDir) ;; set_rchld s pDir x ;;;    (* 371 *)
             x <- double p nPDir ;; set_rchld g gpDir x                  (* 372 *)
           else
             x <- full_copy (rchld sn nPDir) ;; set_rchld s nPDir x ;;;  (* 374 *)
             x <- single p nPDir ;; set_rchld g gpDir x) ;;;             (* 375 *)
          set_red n true ;;;                                       (* 378 *)
          gn <- ld_rb g ;;
          let x := rchld gn gpDir in
          set_red x true ;;;                                       (* 379 *)
          xn <- ld_rb x ;;
          set_red (rb_l xn) false ;;;                              (* 380 *)
          set_red (rb_r xn) false ;;;                              (* 381 *)
          Ret p
      end
  else Ret p.

(** strtree/node.go:327-386, dltree/node.go:352-414: the loop of del; returns
    the last [p], [n] and [t]. *)
Fixpoint del_loop (fuel : nat) (key : bytes) (g p n t : ptr) (dir : bool) : prog (ptr * ptr * ptr) :=
  nn <- ld_rb n ;;
  match rchld nn dir with                                          (* 327 *)
  | None => Ret (p, n, t)
  | Some _ =>
    match fuel with
    | O => Fail EFuel
    | S fuel =>
      let pDir := dir in                                           (* 329 *)
      let g := p in let p := n in                                  (* 331-332 *)
      x <- full_copy (rchld nn dir) ;; set_rchld n dir x ;;;       (* 333 *)
      let n := x in                                                (* 334 *)
      nn <- ld_rb n ;;
      r <- call_cmp cmp (rb_key nn) key ;;                         (* 337 *)
      let dir := (r <? 0)%Z in                                     (* 336-340 *)
      let t := if (r =? 0)%Z then n else t in                      (* 342-344 *)
      p <- del_fix g p n pDir dir ;;                               (* 346-385 *)
      del_loop fuel key g p n t dir
    end
  end.

(** strtree/node.go:307-410, dltree/node.go:332-438 del *)
Definition del (fuel : nat) (n : ptr) (key : bytes) : prog (ptr * bool) :=
  a <- alloc (CRb (RbN [] VNil None n false)) ;;                   (* 309 *)
  let root := Some a in
  x <- del_loop fuel key None None root None true ;;               (* 323-386 *)
  let '(p, n, t) := x in
  (match t with                                                    (* 388 *)
   | None => Ret tt
   | Some _ =>
     nn <- ld_rb n ;;
     set_key t (rb_key nn) ;;; set_val t (rb_val nn) ;;;           (* 389-390 *)
     pn <- ld_rb p ;;
     let dir := ptr_eqb (rb_r pn) n in                             (* 392-395 *)
     nn <- ld_rb n ;;
     let chldDir := ptr_eqb (rb_l nn) None in                      (* 397-400 *)
     set_rchld p dir (rchld nn chldDir)                            (* 402 *)
   end) ;;;
  rn <- ld_rb root ;;                                              (* 405 *)
  let n := rb_r rn in
  (match n with None => Ret tt | Some _ => set_red n false end) ;;; (* 406-408 *)
  Ret (n, negb (ptr_eqb t None)).                                  (* 409 *)
End ops.

(** ** strtree.Tree. [t] is a *Tree. *)

(** strtree/strtree.go:22-24 NewTree *)
Definition str_new : prog ptr := a <- alloc (CStr None (Some str_compare)) ;; Ret (Some a).
(** strtree/strtree.go:27-29 NewTreeWithCustomComparison *)
Definition str_new_custom (cmp : compare) : prog ptr := a <- alloc (CStr None cmp) ;; Ret (Some a).
(** strtree/strtree.go:32-46 Insert *)
Definition str_insert (fuel : nat) (t : ptr) (key : bytes) (v : value) : prog ptr :=
  nc <- (match t with None => Ret (None, Some str_compare) | Some _ => ld_str t end) ;;
  x <- insert nc.2 fuel nc.1 key v ;;
  a <- alloc (CStr x nc.2) ;; Ret (Some a).
(** strtree/strtree.go:49-51 InplaceInsert *)
Definition str_inplace_insert (fuel : nat) (t : ptr) (key : bytes) (v : value) : prog unit :=
  nc <- ld_str t ;;
  x <- inplace_insert nc.2 fuel nc.1 key v ;;
  store t (CStr x nc.2).
(** strtree/strtree.go:54-60 Get *)
Definition str_get (fuel : nat) (t : ptr) (key : bytes) : prog (value * bool) :=
  match t with
  | None => Ret (VNil, false)
  | Some _ => nc <- ld_str t ;; get nc.2 fuel nc.1 key
  end.
(** strtree/strtree.go:63-77 Enumerate: the sequence of pairs sent before the
    channel is closed (the goroutine and the channel: Channel.v). *)
Definition str_enumerate (fuel : nat) (t : ptr) : prog (list (bytes * value)) :=
  match t with
  | None => Ret []
  | Some _ => nc <- ld_str t ;; enumerate fuel nc.1
  end.
(** strtree/strtree.go:80-88 Delete *)
Definition str_delete (fuel : nat) (t : ptr) (key : bytes) : prog (ptr * bool) :=
  match t with
  | None => Ret (None, false)
  | Some _ =>
    nc <- ld_str t ;;
    x <- del nc.2 fuel nc.1 key ;;
    a <- alloc (CStr x.1 nc.2) ;; Ret (Some a, x.2)
  end.
(** strtree/strtree.go:91-93 IsEmpty *)
Definition str_is_empty (t : ptr) : prog bool :=
  match t with
  | None => Ret true
  | Some _ => nc <- ld_str t ;; Ret (ptr_eqb nc.1 None)
  end.

(** ** dltree.Tree, operations on binary labels. *)
Definition dlc : compare := Some dl_compare.
(** dltree/dltree.go:18-20 NewTree *)
Definition dl_new : prog ptr := a <- alloc (CDl None) ;; Ret (Some a).
(** [if t != nil { n = t.root }], dltree/dltree.go:28-30, 42-44 *)
Definition dl_root (t : ptr) : prog ptr := match t with None => Ret None | Some _ => ld_dl t end.
(** dltree/dltree.go:37-47 RawInsert *)
Definition dl_raw_insert (fuel : nat) (t : ptr) (key : bytes) (v : value) : prog ptr :=
  n <- dl_root t ;;
  x <- insert dlc fuel n key v ;;
  a <- alloc (CDl x) ;; Ret (Some a).
(** dltree/dltree.go:56-58 RawInplaceInsert *)
Definition dl_raw_inplace_insert (fuel : nat) (t : ptr) (key : bytes) (v : value) : prog unit :=
  n <- ld_dl t ;;
  x <- inplace_insert dlc fuel n key v ;;
  store t (CDl x).
(** dltree/dltree.go:71-77 RawGet *)
Definition dl_raw_get (fuel : nat) (t : ptr) (key : bytes) : prog (value * bool) :=
  match t with
  | None => Ret (VNil, false)
  | Some _ => n <- ld_dl t ;; get dlc fuel n key
  end.
(** dltree/dltree.go:97-111 RawEnumerate *)
Definition dl_raw_enumerate (fuel : nat) (t : ptr) : prog (list (bytes * value)) :=
  match t with
  | None => Ret []
  | Some _ => n <- ld_dl t ;; enumerate fuel n
  end.
(** dltree/dltree.go:125-132 RawDelete *)
Definition dl_raw_delete (fuel : nat) (t : ptr) (key : bytes) : prog (ptr * bool) :=
  match t with
  | None => Ret (None, false)
  | Some _ =>
    n <- ld_dl t ;;
    x <- del dlc fuel n key ;;
    a <- alloc (CDl x.1) ;; Ret (Some a, x.2)
  end.
(** dltree/dltree.go:135-137 IsEmpty *)
Definition dl_is_empty (t : ptr) : prog bool :=
  match t with
  | None => Ret true
  | Some _ => n <- ld_dl t ;; Ret (ptr_eqb n None)
  end.
End model.
