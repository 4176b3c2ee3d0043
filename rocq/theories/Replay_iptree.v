(** * Made by tools/replay.py from iptree/iptree_test.go. See ReplayText.v. *)
From Verif Require Import Prog NumModel IpModel ReplayText.
From Coq Require Import String.
Open Scope nat_scope.
Local Notation B := list_byte_of_string.
Local Notation prog := (prog bytes).
Import Byte.
Open Scope N_scope.
(** iptree_test.go: debugNode32. Indentation, address, prefix length, value. *)
Definition row : Type := nat * bytes * N * value bytes.
Fixpoint dump32 (fuel : nat) (n : ptr) (indent : nat) : prog (list row) :=
  match fuel, n with
  | S fuel, Some _ =>
    nn <- ld_num n ;; c <- n_children n ;;
    a <- dump32 fuel c.1 (S indent) ;; b <- dump32 fuel c.2 (S indent) ;;
    Ret ((indent, unpack32 (nn_key nn), nn_bits nn, nn_val nn) :: a ++ b)
  | _, _ => Ret []
  end.
(** debugNode64: walkSubtree and walk. *)
Fixpoint dumpsub (fuel : nat) (ms : bytes) (bits : N) (n : ptr) (indent : nat) : prog (list row) :=
  match fuel, n with
  | S fuel, Some _ =>
    nn <- ld_num n ;;
    let here := (indent, ip_mask (firstn 8 ms ++ unpack64 (nn_key nn)) (cidr_mask (64 + nn_bits nn) 128), bits + nn_bits nn, nn_val nn) in
    match nn_val nn with
    | VSub s => r <- dumpsub fuel ms bits s (S indent) ;; Ret (here :: r)
    | _ => c <- n_children n ;; a <- dumpsub fuel ms bits c.1 (S indent) ;; b <- dumpsub fuel ms bits c.2 (S indent) ;; Ret (here :: a ++ b)
    end
  | _, _ => Ret []
  end.
Fixpoint dump64 (fuel : nat) (n : ptr) (indent : nat) : prog (list row) :=
  match fuel, n with
  | S fuel, Some _ =>
    nn <- ld_num n ;; c <- n_children n ;;
    match nn_val nn with
    | VNil => a <- dump64 fuel c.1 indent ;; b <- dump64 fuel c.2 indent ;; Ret (a ++ b)
    | v =>
      here <- (match v with
               | VSub s => dumpsub fuel (msip nn) (nn_bits nn) s indent
               | _ => Ret [(indent, msip nn, nn_bits nn, v)]
               end) ;;
      a <- dump64 fuel c.1 (S indent) ;; b <- dump64 fuel c.2 (S indent) ;; Ret (here ++ a ++ b)
    end
  | _, _ => Ret []
  end.
Definition row_is (x : row) (e : nat * bytes * N * option bytes) : bool :=
  let '(i, a, b, v) := x in let '(i', a', b', v') := e in
  Nat.eqb i i' && beq a a' && N.eqb b b' && match v, v' with VNil, None => true | VUser s, Some s' => beq s s' | _, _ => false end.
Definition tree_is (t : ptr) (e4 e6 : list (nat * bytes * N * option bytes)) : prog unit :=
  r <- ld_ip t ;; a <- dump32 200 r.1 0 ;; b <- dump64 200 r.2 0 ;; check (list_is row_is a e4) ;;; check (list_is row_is b e6).
(** The callbacks look the network up in a table and panic if it is not there: here they count the misses. *)
Definition pair_at (x : bytes * bytes * value bytes) (e : bytes * bytes * bytes) : bool := beq x.1.1 e.1.1 && beq x.1.2 e.1.2.
Definition table (l : list (bytes * bytes * bytes)) (misses : nat) (x : bytes * bytes * value bytes) : nat * option (value bytes) :=
  match find (pair_at x) l with Some e => (misses, Some (VUser e.2)) | None => (S misses, None) end.
Fixpoint inserts (t : ptr) (l : list (ipnet * bytes)) : prog unit :=
  match l with [] => Ret tt | (n, v) :: l => ip_inplace_insert_net t n (VUser v) ;;; inserts t l end.

(** iptree/iptree_test.go TestUpdateDescendants, case 1 *)
Definition t_update1 : prog unit :=
  r <- ip_new ;;
  inserts r [((Some ([x0a; x00; x00; x00], [xff; xff; xff; x00])), (B "0"));
    ((Some ([x0a; x00; x00; x00], [xff; xff; xff; xf0])), (B "1"));
    ((Some ([x0a; x00; x00; x00], [xff; xff; xff; xff])), (B "2"));
    ((Some ([x0a; x00; x00; x00], [xff; xff; x00; x00])), (B "3"))] ;;;
  tree_is r [(0%nat, [x0a; x00; x00; x00], 16, Some (B "3"));
    (1%nat, [x0a; x00; x00; x00], 24, Some (B "0"));
    (2%nat, [x0a; x00; x00; x00], 28, Some (B "1"));
    (3%nat, [x0a; x00; x00; x00], 32, Some (B "2"))]
    [] ;;;
  misses <- ip_update (table [([x0a; x00; x00; x00], [xff; xff; xff; x00], (B "1.0")); ([x0a; x00; x00; x00], [xff; xff; xff; xf0], (B "1.1")); ([x0a; x00; x00; x00], [xff; xff; xff; xff], (B "1.2")); ([x0a; x00; x00; x00], [xff; xff; x00; x00], (B "1.3"))]) r (Some ([x0a; x00; x00; x00], [xff; xff; x00; x00])) 0%nat ;;
  check (Nat.eqb misses 0) ;;;
  tree_is r [(0%nat, [x0a; x00; x00; x00], 16, Some (B "3"));
    (1%nat, [x0a; x00; x00; x00], 24, Some (B "1.0"));
    (2%nat, [x0a; x00; x00; x00], 28, Some (B "1.1"));
    (3%nat, [x0a; x00; x00; x00], 32, Some (B "1.2"))]
    [].
Example TestUpdateDescendants_1 : passes t_update1 = true.
Proof. vm_compute. reflexivity. Qed.

(** iptree/iptree_test.go TestUpdateDescendants, case 2 *)
Definition t_update2 : prog unit :=
  r <- ip_new ;;
  inserts r [((Some ([xc0; xa8; x00; x00], [xff; xff; xff; x00])), (B "0"));
    ((Some ([xc0; xa8; x00; x00], [xff; xff; xff; xf0])), (B "1"));
    ((Some ([x0a; x00; x00; x00], [xff; xff; x00; x00])), (B "5"));
    ((Some ([xc0; xa8; x00; x00], [xff; xff; xff; xff])), (B "2"));
    ((Some ([xc0; xa8; x00; x00], [xff; xff; x00; x00])), (B "3"))] ;;;
  tree_is r [(0%nat, [x00; x00; x00; x00], 0, None);
    (1%nat, [x0a; x00; x00; x00], 16, Some (B "5"));
    (1%nat, [xc0; xa8; x00; x00], 16, Some (B "3"));
    (2%nat, [xc0; xa8; x00; x00], 24, Some (B "0"));
    (3%nat, [xc0; xa8; x00; x00], 28, Some (B "1"));
    (4%nat, [xc0; xa8; x00; x00], 32, Some (B "2"))]
    [] ;;;
  misses <- ip_update (table [([xc0; xa8; x00; x00], [xff; xff; xff; xf0], (B "1.1")); ([xc0; xa8; x00; x00], [xff; xff; xff; xff], (B "1.2"))]) r (Some ([xc0; xa8; x00; x00], [xff; xff; xff; x00])) 0%nat ;;
  check (Nat.eqb misses 0) ;;;
  tree_is r [(0%nat, [x00; x00; x00; x00], 0, None);
    (1%nat, [x0a; x00; x00; x00], 16, Some (B "5"));
    (1%nat, [xc0; xa8; x00; x00], 16, Some (B "3"));
    (2%nat, [xc0; xa8; x00; x00], 24, Some (B "0"));
    (3%nat, [xc0; xa8; x00; x00], 28, Some (B "1.1"));
    (4%nat, [xc0; xa8; x00; x00], 32, Some (B "1.2"))]
    [].
Example TestUpdateDescendants_2 : passes t_update2 = true.
Proof. vm_compute. reflexivity. Qed.

(** iptree/iptree_test.go TestUpdateDescendants, case 3 *)
Definition t_update3 : prog unit :=
  r <- ip_new ;;
  inserts r [((Some ([xc0; xa8; x00; x00], [xff; xff; x00; x00])), (B "3"));
    ((Some ([xc0; xa8; x00; x00], [xff; xff; xff; xff])), (B "2"));
    ((Some ([xc0; xa8; x00; x00], [xff; xff; xff; xf0])), (B "1"));
    ((Some ([xc0; xa8; x00; x00], [xff; xff; xff; x00])), (B "0"));
    ((Some ([x0a; x00; x00; x00], [xff; xff; x00; x00])), (B "5"))] ;;;
  tree_is r [(0%nat, [x00; x00; x00; x00], 0, None);
    (1%nat, [x0a; x00; x00; x00], 16, Some (B "5"));
    (1%nat, [xc0; xa8; x00; x00], 16, Some (B "3"));
    (2%nat, [xc0; xa8; x00; x00], 24, Some (B "0"));
    (3%nat, [xc0; xa8; x00; x00], 28, Some (B "1"));
    (4%nat, [xc0; xa8; x00; x00], 32, Some (B "2"))]
    [] ;;;
  misses <- ip_update (table []) r (Some ([x0a; x00; x00; x00], [xff; xff; x00; x00])) 0%nat ;;
  check (Nat.eqb misses 0) ;;;
  tree_is r [(0%nat, [x00; x00; x00; x00], 0, None);
    (1%nat, [x0a; x00; x00; x00], 16, Some (B "5"));
    (1%nat, [xc0; xa8; x00; x00], 16, Some (B "3"));
    (2%nat, [xc0; xa8; x00; x00], 24, Some (B "0"));
    (3%nat, [xc0; xa8; x00; x00], 28, Some (B "1"));
    (4%nat, [xc0; xa8; x00; x00], 32, Some (B "2"))]
    [].
Example TestUpdateDescendants_3 : passes t_update3 = true.
Proof. vm_compute. reflexivity. Qed.

(** iptree/iptree_test.go TestUpdateDescendants, case 4 *)
Definition t_update4 : prog unit :=
  r <- ip_new ;;
  inserts r [((Some ([xc0; xa8; x00; x00], [xff; xff; x00; x00])), (B "3"));
    ((Some ([xc0; xa8; x00; x00], [xff; xff; xff; xff])), (B "2"));
    ((Some ([xc0; xa8; x00; x00], [xff; xff; xff; xf0])), (B "1"));
    ((Some ([xc0; xa8; x00; x00], [xff; xff; xff; x00])), (B "0"));
    ((Some ([x0a; x00; x00; x00], [xff; xff; x00; x00])), (B "5"));
    ((Some ([xc0; xa8; x00; x00], [xff; xff; x00; x00])), (B "3"))] ;;;
  tree_is r [(0%nat, [x00; x00; x00; x00], 0, None);
    (1%nat, [x0a; x00; x00; x00], 16, Some (B "5"));
    (1%nat, [xc0; xa8; x00; x00], 16, Some (B "3"));
    (2%nat, [xc0; xa8; x00; x00], 24, Some (B "0"));
    (3%nat, [xc0; xa8; x00; x00], 28, Some (B "1"));
    (4%nat, [xc0; xa8; x00; x00], 32, Some (B "2"))]
    [] ;;;
  misses <- ip_update (table []) r (Some ([xc0; xa8; x00; x00], [xff; xff; xff; xff])) 0%nat ;;
  check (Nat.eqb misses 0) ;;;
  tree_is r [(0%nat, [x00; x00; x00; x00], 0, None);
    (1%nat, [x0a; x00; x00; x00], 16, Some (B "5"));
    (1%nat, [xc0; xa8; x00; x00], 16, Some (B "3"));
    (2%nat, [xc0; xa8; x00; x00], 24, Some (B "0"));
    (3%nat, [xc0; xa8; x00; x00], 28, Some (B "1"));
    (4%nat, [xc0; xa8; x00; x00], 32, Some (B "2"))]
    [].
Example TestUpdateDescendants_4 : passes t_update4 = true.
Proof. vm_compute. reflexivity. Qed.

(** iptree/iptree_test.go TestUpdateDescendants, case 5 *)
Definition t_update5 : prog unit :=
  r <- ip_new ;;
  inserts r [((Some ([x20; x01; x48; x60; x48; x60; x00; x00; x00; x00; x00; x00; x00; x00; x00; x00], [xff; xff; xff; xff; xff; xff; x00; x00; x00; x00; x00; x00; x00; x00; x00; x00])), (B "test 5"));
    ((Some ([x20; x01; x48; x60; x48; x60; x00; x00; x00; x00; x00; x00; x00; x00; x00; x00], [xff; xff; xff; xff; xff; xff; xff; x00; x00; x00; x00; x00; x00; x00; x00; x00])), (B "test 4"));
    ((Some ([x20; x01; x48; x60; x48; x60; x00; x00; x00; x00; x00; x00; x00; x00; x00; x00], [xff; xff; xff; xff; xff; xff; xff; xff; x00; x00; x00; x00; x00; x00; x00; x00])), (B "test 3"));
    ((Some ([x20; x01; x48; x60; x48; x60; x00; x00; x00; x00; x00; x00; x00; x00; x00; x00], [xff; xff; xff; xff; xff; xff; xff; xff; xff; xff; xff; xf0; x00; x00; x00; x00])), (B "test 2"));
    ((Some ([x20; x01; x48; x60; x48; x60; x00; x00; x00; x00; x00; x00; x00; x00; x00; x00], [xff; xff; xff; xff; xff; xff; xff; xff; xff; xff; xff; xff; xff; xff; xff; xff])), (B "test 1"))] ;;;
  tree_is r []
    [(0%nat, [x20; x01; x48; x60; x48; x60; x00; x00; x00; x00; x00; x00; x00; x00; x00; x00], 48, Some (B "test 5"));
    (1%nat, [x20; x01; x48; x60; x48; x60; x00; x00; x00; x00; x00; x00; x00; x00; x00; x00], 56, Some (B "test 4"));
    (2%nat, [x20; x01; x48; x60; x48; x60; x00; x00; x00; x00; x00; x00; x00; x00; x00; x00], 64, Some (B "test 3"));
    (3%nat, [x20; x01; x48; x60; x48; x60; x00; x00; x00; x00; x00; x00; x00; x00; x00; x00], 92, Some (B "test 2"));
    (4%nat, [x20; x01; x48; x60; x48; x60; x00; x00; x00; x00; x00; x00; x00; x00; x00; x00], 128, Some (B "test 1"))] ;;;
  misses <- ip_update (table [([x20; x01; x48; x60; x48; x60; x00; x00; x00; x00; x00; x00; x00; x00; x00; x00], [xff; xff; xff; xff; xff; xff; xff; x00; x00; x00; x00; x00; x00; x00; x00; x00], (B "test 1.4")); ([x20; x01; x48; x60; x48; x60; x00; x00; x00; x00; x00; x00; x00; x00; x00; x00], [xff; xff; xff; xff; xff; xff; xff; xff; x00; x00; x00; x00; x00; x00; x00; x00], (B "test 1.3")); ([x20; x01; x48; x60; x48; x60; x00; x00; x00; x00; x00; x00; x00; x00; x00; x00], [xff; xff; xff; xff; xff; xff; xff; xff; xff; xff; xff; xf0; x00; x00; x00; x00], (B "test 1.2")); ([x20; x01; x48; x60; x48; x60; x00; x00; x00; x00; x00; x00; x00; x00; x00; x00], [xff; xff; xff; xff; xff; xff; xff; xff; xff; xff; xff; xff; xff; xff; xff; xff], (B "test 1.1"))]) r (Some ([x20; x01; x48; x60; x48; x60; x00; x00; x00; x00; x00; x00; x00; x00; x00; x00], [xff; xff; xff; xff; xff; xff; x00; x00; x00; x00; x00; x00; x00; x00; x00; x00])) 0%nat ;;
  check (Nat.eqb misses 0) ;;;
  tree_is r []
    [(0%nat, [x20; x01; x48; x60; x48; x60; x00; x00; x00; x00; x00; x00; x00; x00; x00; x00], 48, Some (B "test 5"));
    (1%nat, [x20; x01; x48; x60; x48; x60; x00; x00; x00; x00; x00; x00; x00; x00; x00; x00], 56, Some (B "test 1.4"));
    (2%nat, [x20; x01; x48; x60; x48; x60; x00; x00; x00; x00; x00; x00; x00; x00; x00; x00], 64, Some (B "test 1.3"));
    (3%nat, [x20; x01; x48; x60; x48; x60; x00; x00; x00; x00; x00; x00; x00; x00; x00; x00], 92, Some (B "test 1.2"));
    (4%nat, [x20; x01; x48; x60; x48; x60; x00; x00; x00; x00; x00; x00; x00; x00; x00; x00], 128, Some (B "test 1.1"))].
Example TestUpdateDescendants_5 : passes t_update5 = true.
Proof. vm_compute. reflexivity. Qed.

(** iptree/iptree_test.go TestUpdateDescendants, case 6 *)
Definition t_update6 : prog unit :=
  r <- ip_new ;;
  inserts r [((Some ([x20; x01; x48; x60; x48; x60; x00; x00; x00; x00; x00; x00; x00; x00; x00; x00], [xff; xff; xff; xff; xff; xff; x00; x00; x00; x00; x00; x00; x00; x00; x00; x00])), (B "test 5"));
    ((Some ([x20; x01; x48; x60; x48; x60; x00; x00; x00; x00; x00; x00; x00; x00; x00; x00], [xff; xff; xff; xff; xff; xff; xff; x00; x00; x00; x00; x00; x00; x00; x00; x00])), (B "test 4"));
    ((Some ([x20; x01; x48; x60; x48; x60; x00; x00; x00; x00; x00; x00; x00; x00; x00; x00], [xff; xff; xff; xff; xff; xff; xff; xff; x00; x00; x00; x00; x00; x00; x00; x00])), (B "test 3"));
    ((Some ([x20; x01; x48; x60; x48; x60; x00; x00; x00; x00; x00; x00; x00; x00; x00; x00], [xff; xff; xff; xff; xff; xff; xff; xff; xff; xff; xff; xf0; x00; x00; x00; x00])), (B "test 2"));
    ((Some ([x20; x01; x48; x60; x48; x60; x00; x00; x00; x00; x00; x00; x00; x00; x00; x00], [xff; xff; xff; xff; xff; xff; xff; xff; xff; xff; xff; xff; xff; xff; xff; xff])), (B "test 1"));
    ((Some ([x20; x01; x48; x60; x48; x60; x00; x00; x00; x00; x00; x00; x00; x00; x00; x00], [xff; xff; xff; xff; xff; xff; xff; xff; x00; x00; x00; x00; x00; x00; x00; x00])), (B "test 3"))] ;;;
  tree_is r []
    [(0%nat, [x20; x01; x48; x60; x48; x60; x00; x00; x00; x00; x00; x00; x00; x00; x00; x00], 48, Some (B "test 5"));
    (1%nat, [x20; x01; x48; x60; x48; x60; x00; x00; x00; x00; x00; x00; x00; x00; x00; x00], 56, Some (B "test 4"));
    (2%nat, [x20; x01; x48; x60; x48; x60; x00; x00; x00; x00; x00; x00; x00; x00; x00; x00], 64, Some (B "test 3"));
    (3%nat, [x20; x01; x48; x60; x48; x60; x00; x00; x00; x00; x00; x00; x00; x00; x00; x00], 92, Some (B "test 2"));
    (4%nat, [x20; x01; x48; x60; x48; x60; x00; x00; x00; x00; x00; x00; x00; x00; x00; x00], 128, Some (B "test 1"))] ;;;
  misses <- ip_update (table []) r (Some ([x20; x01; x48; x60; x48; x60; x00; x00; x00; x00; x00; x00; x00; x00; x00; x00], [xff; xff; xff; xff; xff; xff; xff; xff; xff; xff; xff; xff; xff; xff; xff; xff])) 0%nat ;;
  check (Nat.eqb misses 0) ;;;
  tree_is r []
    [(0%nat, [x20; x01; x48; x60; x48; x60; x00; x00; x00; x00; x00; x00; x00; x00; x00; x00], 48, Some (B "test 5"));
    (1%nat, [x20; x01; x48; x60; x48; x60; x00; x00; x00; x00; x00; x00; x00; x00; x00; x00], 56, Some (B "test 4"));
    (2%nat, [x20; x01; x48; x60; x48; x60; x00; x00; x00; x00; x00; x00; x00; x00; x00; x00], 64, Some (B "test 3"));
    (3%nat, [x20; x01; x48; x60; x48; x60; x00; x00; x00; x00; x00; x00; x00; x00; x00; x00], 92, Some (B "test 2"));
    (4%nat, [x20; x01; x48; x60; x48; x60; x00; x00; x00; x00; x00; x00; x00; x00; x00; x00], 128, Some (B "test 1"))].
Example TestUpdateDescendants_6 : passes t_update6 = true.
Proof. vm_compute. reflexivity. Qed.

(** iptree/iptree_test.go TestUpdateDescendants, case 7 *)
Definition t_update7 : prog unit :=
  r <- ip_new ;;
  inserts r [((Some ([x20; x01; x48; x60; x48; x60; x00; x00; x00; x00; x00; x00; x00; x00; x00; x00], [xff; xff; xff; xff; xff; xff; xff; xff; xff; xff; xff; xff; xff; xff; xff; xff])), (B "test 1"));
    ((Some ([x20; x01; x48; x60; x48; x60; x00; x00; x00; x00; x00; x00; x00; x00; x00; x00], [xff; xff; xff; xff; xff; xff; xff; xff; xff; xff; xff; xff; xff; xff; xff; xfe])), (B "test 6"));
    ((Some ([x20; x01; x48; x60; x48; x60; x00; x00; x00; x00; x00; x00; x00; x00; x00; x00], [xff; xff; xff; xff; xff; xff; xff; xff; xff; xff; xff; xf0; x00; x00; x00; x00])), (B "test 2"));
    ((Some ([x20; x01; x48; x60; x48; x60; x00; x00; x00; x00; x00; x00; x00; x00; x00; x00], [xff; xff; xff; xff; xff; xff; xff; xff; x00; x00; x00; x00; x00; x00; x00; x00])), (B "test 3"));
    ((Some ([x20; x01; x48; x60; x48; x60; x00; x00; x00; x00; x00; x00; x00; x00; x00; x00], [xff; xff; xff; xff; xff; xff; xff; x00; x00; x00; x00; x00; x00; x00; x00; x00])), (B "test 4"));
    ((Some ([x20; x01; x48; x60; x48; x60; x00; x00; x00; x00; x00; x00; x00; x00; x00; x00], [xff; xff; xff; xff; xff; xff; x00; x00; x00; x00; x00; x00; x00; x00; x00; x00])), (B "test 5"));
    ((Some ([x20; x01; x48; x60; x48; x60; x00; x00; x00; x00; x00; x00; x00; x00; x00; x00], [xff; xff; xff; xff; xff; xff; xff; xff; xff; xff; xff; xff; xff; xff; xff; xfe])), (B "test 6"))] ;;;
  tree_is r []
    [(0%nat, [x20; x01; x48; x60; x48; x60; x00; x00; x00; x00; x00; x00; x00; x00; x00; x00], 48, Some (B "test 5"));
    (1%nat, [x20; x01; x48; x60; x48; x60; x00; x00; x00; x00; x00; x00; x00; x00; x00; x00], 56, Some (B "test 4"));
    (2%nat, [x20; x01; x48; x60; x48; x60; x00; x00; x00; x00; x00; x00; x00; x00; x00; x00], 64, Some (B "test 3"));
    (3%nat, [x20; x01; x48; x60; x48; x60; x00; x00; x00; x00; x00; x00; x00; x00; x00; x00], 92, Some (B "test 2"));
    (4%nat, [x20; x01; x48; x60; x48; x60; x00; x00; x00; x00; x00; x00; x00; x00; x00; x00], 127, Some (B "test 6"));
    (5%nat, [x20; x01; x48; x60; x48; x60; x00; x00; x00; x00; x00; x00; x00; x00; x00; x00], 128, Some (B "test 1"))] ;;;
  misses <- ip_update (table [([x20; x01; x48; x60; x48; x60; x00; x00; x00; x00; x00; x00; x00; x00; x00; x00], [xff; xff; xff; xff; xff; xff; xff; xff; xff; xff; xff; xff; xff; xff; xff; xfe], (B "test 1.6")); ([x20; x01; x48; x60; x48; x60; x00; x00; x00; x00; x00; x00; x00; x00; x00; x00], [xff; xff; xff; xff; xff; xff; xff; xff; xff; xff; xff; xff; xff; xff; xff; xff], (B "test 1.1"))]) r (Some ([x20; x01; x48; x60; x48; x60; x00; x00; x00; x00; x00; x00; x00; x00; x00; x00], [xff; xff; xff; xff; xff; xff; xff; xff; xff; xff; xff; xf0; x00; x00; x00; x00])) 0%nat ;;
  check (Nat.eqb misses 0) ;;;
  tree_is r []
    [(0%nat, [x20; x01; x48; x60; x48; x60; x00; x00; x00; x00; x00; x00; x00; x00; x00; x00], 48, Some (B "test 5"));
    (1%nat, [x20; x01; x48; x60; x48; x60; x00; x00; x00; x00; x00; x00; x00; x00; x00; x00], 56, Some (B "test 4"));
    (2%nat, [x20; x01; x48; x60; x48; x60; x00; x00; x00; x00; x00; x00; x00; x00; x00; x00], 64, Some (B "test 3"));
    (3%nat, [x20; x01; x48; x60; x48; x60; x00; x00; x00; x00; x00; x00; x00; x00; x00; x00], 92, Some (B "test 2"));
    (4%nat, [x20; x01; x48; x60; x48; x60; x00; x00; x00; x00; x00; x00; x00; x00; x00; x00], 127, Some (B "test 1.6"));
    (5%nat, [x20; x01; x48; x60; x48; x60; x00; x00; x00; x00; x00; x00; x00; x00; x00; x00], 128, Some (B "test 1.1"))].
Example TestUpdateDescendants_7 : passes t_update7 = true.
Proof. vm_compute. reflexivity. Qed.

(** iptree/iptree_test.go TestUpdateDescendants, case 8 *)
Definition t_update8 : prog unit :=
  r <- ip_new ;;
  inserts r [((Some ([x20; x01; x48; x60; x48; x60; x00; x00; x00; x00; x00; x00; x00; x00; x00; x00], [xff; xff; xff; xff; xff; xff; xff; x00; x00; x00; x00; x00; x00; x00; x00; x00])), (B "test 4"));
    ((Some ([x20; x01; x48; x60; x48; x60; x00; x00; x00; x00; x00; x00; x00; x00; x00; x00], [xff; xff; xff; xff; xff; xff; xff; xff; xff; xff; xff; xff; xff; xff; xff; xff])), (B "test 1"));
    ((Some ([x20; x01; x48; x60; x48; x60; x00; x00; x00; x00; x00; x1f; xc0; x00; x00; x00], [xff; xff; xff; xff; xff; xff; xff; xff; xff; xff; xff; xff; xc0; x00; x00; x00])), (B "test 7"))] ;;;
  tree_is r []
    [(0%nat, [x20; x01; x48; x60; x48; x60; x00; x00; x00; x00; x00; x00; x00; x00; x00; x00], 56, Some (B "test 4"));
    (1%nat, [x20; x01; x48; x60; x48; x60; x00; x00; x00; x00; x00; x00; x00; x00; x00; x00], 91, None);
    (2%nat, [x20; x01; x48; x60; x48; x60; x00; x00; x00; x00; x00; x00; x00; x00; x00; x00], 128, Some (B "test 1"));
    (2%nat, [x20; x01; x48; x60; x48; x60; x00; x00; x00; x00; x00; x1f; xc0; x00; x00; x00], 98, Some (B "test 7"))] ;;;
  misses <- ip_update (table [([x20; x01; x48; x60; x48; x60; x00; x00; x00; x00; x00; x00; x00; x00; x00; x00], [xff; xff; xff; xff; xff; xff; xff; xff; xff; xff; xff; xff; xff; xff; xff; xff], (B "test 1.1")); ([x20; x01; x48; x60; x48; x60; x00; x00; x00; x00; x00; x1f; xc0; x00; x00; x00], [xff; xff; xff; xff; xff; xff; xff; xff; xff; xff; xff; xff; xc0; x00; x00; x00], (B "test 1.7"))]) r (Some ([x20; x01; x48; x60; x48; x60; x00; x00; x00; x00; x00; x00; x00; x00; x00; x00], [xff; xff; xff; xff; xff; xff; xff; x00; x00; x00; x00; x00; x00; x00; x00; x00])) 0%nat ;;
  check (Nat.eqb misses 0) ;;;
  tree_is r []
    [(0%nat, [x20; x01; x48; x60; x48; x60; x00; x00; x00; x00; x00; x00; x00; x00; x00; x00], 56, Some (B "test 4"));
    (1%nat, [x20; x01; x48; x60; x48; x60; x00; x00; x00; x00; x00; x00; x00; x00; x00; x00], 91, None);
    (2%nat, [x20; x01; x48; x60; x48; x60; x00; x00; x00; x00; x00; x00; x00; x00; x00; x00], 128, Some (B "test 1.1"));
    (2%nat, [x20; x01; x48; x60; x48; x60; x00; x00; x00; x00; x00; x1f; xc0; x00; x00; x00], 98, Some (B "test 1.7"))].
Example TestUpdateDescendants_8 : passes t_update8 = true.
Proof. vm_compute. reflexivity. Qed.

(** iptree/iptree_test.go TestUpdateDescendants, case 9 *)
Definition t_update9 : prog unit :=
  r <- ip_new ;;
  inserts r [((Some ([x20; x01; x48; x60; x48; x60; x00; x00; x00; x00; x00; x00; x00; x00; x00; x00], [xff; xff; xff; xff; xff; xff; xff; x00; x00; x00; x00; x00; x00; x00; x00; x00])), (B "test 4"));
    ((Some ([x20; x01; x48; x60; x48; x60; x00; x00; x00; x00; x00; x00; x00; x00; x00; x00], [xff; xff; xff; xff; xff; xff; xff; xff; xff; xff; xff; xff; xff; xff; xff; xff])), (B "test 1"));
    ((Some ([x20; x01; x48; x60; x48; x60; x00; x00; x00; x00; x00; x1f; xc0; x00; x00; x00], [xff; xff; xff; xff; xff; xff; xff; xff; xff; xff; xff; xff; xc0; x00; x00; x00])), (B "test 7"));
    ((Some ([x20; x01; x48; x60; x48; x60; x00; x00; x00; x01; x00; x00; xc0; x00; x00; x00], [xff; xff; xff; xff; xff; xff; xff; xff; xff; xff; xff; xff; xc0; x00; x00; x00])), (B "test 8"));
    ((Some ([x20; x01; x48; x60; x48; x60; x00; x00; x00; x00; x00; x00; x00; x00; x00; x00], [xff; xff; xff; xff; xff; xff; xff; xff; xff; xff; xff; xf0; x00; x00; x00; x00])), (B "test 2"));
    ((Some ([x20; x01; x48; x60; x48; x60; x00; x00; x00; x00; x00; x1f; xff; xff; xff; xff], [xff; xff; xff; xff; xff; xff; xff; xff; xff; xff; xff; xff; xff; xff; xff; xff])), (B "test 6"));
    ((Some ([x20; x01; x48; x60; x48; x60; x00; x00; x00; x00; x00; x00; x00; x00; x00; x00], [xff; xff; xff; xff; xff; xff; x00; x00; x00; x00; x00; x00; x00; x00; x00; x00])), (B "test 5"));
    ((Some ([x20; x01; x48; x60; x48; x60; x00; x00; x00; x00; x00; x00; x00; x00; x00; x00], [xff; xff; xff; xff; xff; xff; xff; xff; x00; x00; x00; x00; x00; x00; x00; x00])), (B "test 3"))] ;;;
  tree_is r []
    [(0%nat, [x20; x01; x48; x60; x48; x60; x00; x00; x00; x00; x00; x00; x00; x00; x00; x00], 48, Some (B "test 5"));
    (1%nat, [x20; x01; x48; x60; x48; x60; x00; x00; x00; x00; x00; x00; x00; x00; x00; x00], 56, Some (B "test 4"));
    (2%nat, [x20; x01; x48; x60; x48; x60; x00; x00; x00; x00; x00; x00; x00; x00; x00; x00], 64, Some (B "test 3"));
    (3%nat, [x20; x01; x48; x60; x48; x60; x00; x00; x00; x00; x00; x00; x00; x00; x00; x00], 79, None);
    (4%nat, [x20; x01; x48; x60; x48; x60; x00; x00; x00; x00; x00; x00; x00; x00; x00; x00], 91, None);
    (5%nat, [x20; x01; x48; x60; x48; x60; x00; x00; x00; x00; x00; x00; x00; x00; x00; x00], 92, Some (B "test 2"));
    (6%nat, [x20; x01; x48; x60; x48; x60; x00; x00; x00; x00; x00; x00; x00; x00; x00; x00], 128, Some (B "test 1"));
    (5%nat, [x20; x01; x48; x60; x48; x60; x00; x00; x00; x00; x00; x1f; xc0; x00; x00; x00], 98, Some (B "test 7"));
    (6%nat, [x20; x01; x48; x60; x48; x60; x00; x00; x00; x00; x00; x1f; xff; xff; xff; xff], 128, Some (B "test 6"));
    (4%nat, [x20; x01; x48; x60; x48; x60; x00; x00; x00; x01; x00; x00; xc0; x00; x00; x00], 98, Some (B "test 8"))] ;;;
  misses <- ip_update (table []) r (Some ([x20; x01; x48; x60; x48; x60; x00; x00; x00; x00; x00; x00; x00; x00; x00; x00], [xff; xff; xff; xff; xff; xff; xff; xff; xff; xff; xff; xe0; x00; x00; x00; x00])) 0%nat ;;
  check (Nat.eqb misses 0) ;;;
  tree_is r []
    [(0%nat, [x20; x01; x48; x60; x48; x60; x00; x00; x00; x00; x00; x00; x00; x00; x00; x00], 48, Some (B "test 5"));
    (1%nat, [x20; x01; x48; x60; x48; x60; x00; x00; x00; x00; x00; x00; x00; x00; x00; x00], 56, Some (B "test 4"));
    (2%nat, [x20; x01; x48; x60; x48; x60; x00; x00; x00; x00; x00; x00; x00; x00; x00; x00], 64, Some (B "test 3"));
    (3%nat, [x20; x01; x48; x60; x48; x60; x00; x00; x00; x00; x00; x00; x00; x00; x00; x00], 79, None);
    (4%nat, [x20; x01; x48; x60; x48; x60; x00; x00; x00; x00; x00; x00; x00; x00; x00; x00], 91, None);
    (5%nat, [x20; x01; x48; x60; x48; x60; x00; x00; x00; x00; x00; x00; x00; x00; x00; x00], 92, Some (B "test 2"));
    (6%nat, [x20; x01; x48; x60; x48; x60; x00; x00; x00; x00; x00; x00; x00; x00; x00; x00], 128, Some (B "test 1"));
    (5%nat, [x20; x01; x48; x60; x48; x60; x00; x00; x00; x00; x00; x1f; xc0; x00; x00; x00], 98, Some (B "test 7"));
    (6%nat, [x20; x01; x48; x60; x48; x60; x00; x00; x00; x00; x00; x1f; xff; xff; xff; xff], 128, Some (B "test 6"));
    (4%nat, [x20; x01; x48; x60; x48; x60; x00; x00; x00; x01; x00; x00; xc0; x00; x00; x00], 98, Some (B "test 8"))].
Example TestUpdateDescendants_9 : passes t_update9 = true.
Proof. vm_compute. reflexivity. Qed.

(** iptree/iptree_test.go TestUpdateDescendants, case 10 *)
Definition t_update10 : prog unit :=
  r <- ip_new ;;
  inserts r [((Some ([x20; x01; x48; x60; x48; x60; x00; x00; x00; x00; x00; x00; x00; x00; x00; x00], [xff; xff; xff; xff; xff; xff; xff; x00; x00; x00; x00; x00; x00; x00; x00; x00])), (B "test 4"));
    ((Some ([x20; x01; x48; x60; x48; x60; x00; x00; x00; x00; x00; x00; x00; x00; x00; x00], [xff; xff; xff; xff; xff; xff; xff; xff; xff; xff; xff; xff; xff; xff; xff; xff])), (B "test 1"));
    ((Some ([x20; x01; x48; x60; x48; x60; x00; x00; x00; x00; x00; x1f; xc0; x00; x00; x00], [xff; xff; xff; xff; xff; xff; xff; xff; xff; xff; xff; xff; xc0; x00; x00; x00])), (B "test 7"));
    ((Some ([x20; x01; x48; x60; x48; x60; x00; x00; x00; x01; x00; x00; xc0; x00; x00; x00], [xff; xff; xff; xff; xff; xff; xff; xff; xff; xff; xff; xff; xc0; x00; x00; x00])), (B "test 8"));
    ((Some ([x20; x01; x48; x60; x48; x60; x00; x00; x00; x00; x00; x00; x00; x00; x00; x00], [xff; xff; xff; xff; xff; xff; xff; xff; xff; xff; xff; xf0; x00; x00; x00; x00])), (B "test 2"));
    ((Some ([x20; x01; x48; x60; x48; x60; x00; x00; x00; x00; x00; x1f; xff; xff; xff; xff], [xff; xff; xff; xff; xff; xff; xff; xff; xff; xff; xff; xff; xff; xff; xff; xff])), (B "test 6"));
    ((Some ([x20; x01; x48; x60; x48; x60; x00; x00; x00; x00; x00; x00; x00; x00; x00; x00], [xff; xff; xff; xff; xff; xff; x00; x00; x00; x00; x00; x00; x00; x00; x00; x00])), (B "test 5"));
    ((Some ([x20; x01; x48; x60; x48; x60; x00; x00; x00; x00; x00; x00; x00; x00; x00; x00], [xff; xff; xff; xff; xff; xff; xff; xff; x00; x00; x00; x00; x00; x00; x00; x00])), (B "test 3"))] ;;;
  tree_is r []
    [(0%nat, [x20; x01; x48; x60; x48; x60; x00; x00; x00; x00; x00; x00; x00; x00; x00; x00], 48, Some (B "test 5"));
    (1%nat, [x20; x01; x48; x60; x48; x60; x00; x00; x00; x00; x00; x00; x00; x00; x00; x00], 56, Some (B "test 4"));
    (2%nat, [x20; x01; x48; x60; x48; x60; x00; x00; x00; x00; x00; x00; x00; x00; x00; x00], 64, Some (B "test 3"));
    (3%nat, [x20; x01; x48; x60; x48; x60; x00; x00; x00; x00; x00; x00; x00; x00; x00; x00], 79, None);
    (4%nat, [x20; x01; x48; x60; x48; x60; x00; x00; x00; x00; x00; x00; x00; x00; x00; x00], 91, None);
    (5%nat, [x20; x01; x48; x60; x48; x60; x00; x00; x00; x00; x00; x00; x00; x00; x00; x00], 92, Some (B "test 2"));
    (6%nat, [x20; x01; x48; x60; x48; x60; x00; x00; x00; x00; x00; x00; x00; x00; x00; x00], 128, Some (B "test 1"));
    (5%nat, [x20; x01; x48; x60; x48; x60; x00; x00; x00; x00; x00; x1f; xc0; x00; x00; x00], 98, Some (B "test 7"));
    (6%nat, [x20; x01; x48; x60; x48; x60; x00; x00; x00; x00; x00; x1f; xff; xff; xff; xff], 128, Some (B "test 6"));
    (4%nat, [x20; x01; x48; x60; x48; x60; x00; x00; x00; x01; x00; x00; xc0; x00; x00; x00], 98, Some (B "test 8"))] ;;;
  misses <- ip_update (table [([x20; x01; x48; x60; x48; x60; x00; x00; x00; x00; x00; x00; x00; x00; x00; x00], [xff; xff; xff; xff; xff; xff; xff; xff; xff; xff; xff; xff; xff; xff; xff; xff], (B "test 1.1"))]) r (Some ([x20; x01; x48; x60; x48; x60; x00; x00; x00; x00; x00; x00; x00; x00; x00; x00], [xff; xff; xff; xff; xff; xff; xff; xff; xff; xff; xff; xf0; x00; x00; x00; x00])) 0%nat ;;
  check (Nat.eqb misses 0) ;;;
  tree_is r []
    [(0%nat, [x20; x01; x48; x60; x48; x60; x00; x00; x00; x00; x00; x00; x00; x00; x00; x00], 48, Some (B "test 5"));
    (1%nat, [x20; x01; x48; x60; x48; x60; x00; x00; x00; x00; x00; x00; x00; x00; x00; x00], 56, Some (B "test 4"));
    (2%nat, [x20; x01; x48; x60; x48; x60; x00; x00; x00; x00; x00; x00; x00; x00; x00; x00], 64, Some (B "test 3"));
    (3%nat, [x20; x01; x48; x60; x48; x60; x00; x00; x00; x00; x00; x00; x00; x00; x00; x00], 79, None);
    (4%nat, [x20; x01; x48; x60; x48; x60; x00; x00; x00; x00; x00; x00; x00; x00; x00; x00], 91, None);
    (5%nat, [x20; x01; x48; x60; x48; x60; x00; x00; x00; x00; x00; x00; x00; x00; x00; x00], 92, Some (B "test 2"));
    (6%nat, [x20; x01; x48; x60; x48; x60; x00; x00; x00; x00; x00; x00; x00; x00; x00; x00], 128, Some (B "test 1.1"));
    (5%nat, [x20; x01; x48; x60; x48; x60; x00; x00; x00; x00; x00; x1f; xc0; x00; x00; x00], 98, Some (B "test 7"));
    (6%nat, [x20; x01; x48; x60; x48; x60; x00; x00; x00; x00; x00; x1f; xff; xff; xff; xff], 128, Some (B "test 6"));
    (4%nat, [x20; x01; x48; x60; x48; x60; x00; x00; x00; x01; x00; x00; xc0; x00; x00; x00], 98, Some (B "test 8"))].
Example TestUpdateDescendants_10 : passes t_update10 = true.
Proof. vm_compute. reflexivity. Qed.

(** iptree/iptree_test.go TestUpdateDescendants, case 11 *)
Definition t_update11 : prog unit :=
  r <- ip_new ;;
  inserts r [((Some ([x20; x01; x48; x60; x48; x60; x00; x00; x00; x00; x00; x00; x00; x00; x00; x00], [xff; xff; xff; xff; xff; xff; xff; x00; x00; x00; x00; x00; x00; x00; x00; x00])), (B "test 4"));
    ((Some ([x20; x01; x48; x60; x48; x60; x00; x00; x00; x00; x00; x00; x00; x00; x00; x00], [xff; xff; xff; xff; xff; xff; xff; xff; xff; xff; xff; xff; xff; xff; xff; xff])), (B "test 1"));
    ((Some ([x20; x01; x48; x60; x48; x60; x00; x00; x00; x00; x00; x1f; xc0; x00; x00; x00], [xff; xff; xff; xff; xff; xff; xff; xff; xff; xff; xff; xff; xc0; x00; x00; x00])), (B "test 7"));
    ((Some ([x20; x01; x48; x60; x48; x60; x00; x00; x00; x01; x00; x00; xc0; x00; x00; x00], [xff; xff; xff; xff; xff; xff; xff; xff; xff; xff; xff; xff; xc0; x00; x00; x00])), (B "test 8"));
    ((Some ([x20; x01; x48; x60; x48; x60; x00; x00; x00; x00; x00; x00; x00; x00; x00; x00], [xff; xff; xff; xff; xff; xff; xff; xff; xff; xff; xff; xf0; x00; x00; x00; x00])), (B "test 2"));
    ((Some ([x20; x01; x48; x60; x48; x60; x00; x00; x00; x00; x00; x1f; xff; xff; xff; xff], [xff; xff; xff; xff; xff; xff; xff; xff; xff; xff; xff; xff; xff; xff; xff; xff])), (B "test 6"));
    ((Some ([x20; x01; x48; x60; x48; x60; x00; x00; x00; x00; x00; x00; x00; x00; x00; x00], [xff; xff; xff; xff; xff; xff; x00; x00; x00; x00; x00; x00; x00; x00; x00; x00])), (B "test 5"));
    ((Some ([x20; x01; x48; x60; x48; x60; x00; x00; x00; x00; x00; x00; x00; x00; x00; x00], [xff; xff; xff; xff; xff; xff; xff; xff; x00; x00; x00; x00; x00; x00; x00; x00])), (B "test 3"))] ;;;
  tree_is r []
    [(0%nat, [x20; x01; x48; x60; x48; x60; x00; x00; x00; x00; x00; x00; x00; x00; x00; x00], 48, Some (B "test 5"));
    (1%nat, [x20; x01; x48; x60; x48; x60; x00; x00; x00; x00; x00; x00; x00; x00; x00; x00], 56, Some (B "test 4"));
    (2%nat, [x20; x01; x48; x60; x48; x60; x00; x00; x00; x00; x00; x00; x00; x00; x00; x00], 64, Some (B "test 3"));
    (3%nat, [x20; x01; x48; x60; x48; x60; x00; x00; x00; x00; x00; x00; x00; x00; x00; x00], 79, None);
    (4%nat, [x20; x01; x48; x60; x48; x60; x00; x00; x00; x00; x00; x00; x00; x00; x00; x00], 91, None);
    (5%nat, [x20; x01; x48; x60; x48; x60; x00; x00; x00; x00; x00; x00; x00; x00; x00; x00], 92, Some (B "test 2"));
    (6%nat, [x20; x01; x48; x60; x48; x60; x00; x00; x00; x00; x00; x00; x00; x00; x00; x00], 128, Some (B "test 1"));
    (5%nat, [x20; x01; x48; x60; x48; x60; x00; x00; x00; x00; x00; x1f; xc0; x00; x00; x00], 98, Some (B "test 7"));
    (6%nat, [x20; x01; x48; x60; x48; x60; x00; x00; x00; x00; x00; x1f; xff; xff; xff; xff], 128, Some (B "test 6"));
    (4%nat, [x20; x01; x48; x60; x48; x60; x00; x00; x00; x01; x00; x00; xc0; x00; x00; x00], 98, Some (B "test 8"))] ;;;
  misses <- ip_update (table [([x20; x01; x48; x60; x48; x60; x00; x00; x00; x00; x00; x00; x00; x00; x00; x00], [xff; xff; xff; xff; xff; xff; xff; xff; xff; xff; xff; xf0; x00; x00; x00; x00], (B "test 1.2")); ([x20; x01; x48; x60; x48; x60; x00; x00; x00; x00; x00; x00; x00; x00; x00; x00], [xff; xff; xff; xff; xff; xff; xff; xff; xff; xff; xff; xff; xff; xff; xff; xff], (B "test 1.1")); ([x20; x01; x48; x60; x48; x60; x00; x00; x00; x00; x00; x1f; xc0; x00; x00; x00], [xff; xff; xff; xff; xff; xff; xff; xff; xff; xff; xff; xff; xc0; x00; x00; x00], (B "test 1.7")); ([x20; x01; x48; x60; x48; x60; x00; x00; x00; x00; x00; x1f; xff; xff; xff; xff], [xff; xff; xff; xff; xff; xff; xff; xff; xff; xff; xff; xff; xff; xff; xff; xff], (B "test 1.6")); ([x20; x01; x48; x60; x48; x60; x00; x00; x00; x01; x00; x00; xc0; x00; x00; x00], [xff; xff; xff; xff; xff; xff; xff; xff; xff; xff; xff; xff; xc0; x00; x00; x00], (B "test 1.8"))]) r (Some ([x20; x01; x48; x60; x48; x60; x00; x00; x00; x00; x00; x00; x00; x00; x00; x00], [xff; xff; xff; xff; xff; xff; xff; xff; x00; x00; x00; x00; x00; x00; x00; x00])) 0%nat ;;
  check (Nat.eqb misses 0) ;;;
  tree_is r []
    [(0%nat, [x20; x01; x48; x60; x48; x60; x00; x00; x00; x00; x00; x00; x00; x00; x00; x00], 48, Some (B "test 5"));
    (1%nat, [x20; x01; x48; x60; x48; x60; x00; x00; x00; x00; x00; x00; x00; x00; x00; x00], 56, Some (B "test 4"));
    (2%nat, [x20; x01; x48; x60; x48; x60; x00; x00; x00; x00; x00; x00; x00; x00; x00; x00], 64, Some (B "test 3"));
    (3%nat, [x20; x01; x48; x60; x48; x60; x00; x00; x00; x00; x00; x00; x00; x00; x00; x00], 79, None);
    (4%nat, [x20; x01; x48; x60; x48; x60; x00; x00; x00; x00; x00; x00; x00; x00; x00; x00], 91, None);
    (5%nat, [x20; x01; x48; x60; x48; x60; x00; x00; x00; x00; x00; x00; x00; x00; x00; x00], 92, Some (B "test 1.2"));
    (6%nat, [x20; x01; x48; x60; x48; x60; x00; x00; x00; x00; x00; x00; x00; x00; x00; x00], 128, Some (B "test 1.1"));
    (5%nat, [x20; x01; x48; x60; x48; x60; x00; x00; x00; x00; x00; x1f; xc0; x00; x00; x00], 98, Some (B "test 1.7"));
    (6%nat, [x20; x01; x48; x60; x48; x60; x00; x00; x00; x00; x00; x1f; xff; xff; xff; xff], 128, Some (B "test 1.6"));
    (4%nat, [x20; x01; x48; x60; x48; x60; x00; x00; x00; x01; x00; x00; xc0; x00; x00; x00], 98, Some (B "test 1.8"))].
Example TestUpdateDescendants_11 : passes t_update11 = true.
Proof. vm_compute. reflexivity. Qed.
(** The other tests of iptree_test.go. *)
Definition res_is (x : value bytes * bool) (s : bytes) : prog unit := check (x.2 && val_is x.1 s).
(** assertTree32Node, assertTree64Node *)
Definition node32_is (t : ptr) (key : N) (bits : Z) (s : bytes) : prog unit :=
  r <- ld_ip t ;; x <- n_exact c32 r.1 key bits ;; res_is x s.
Definition node64_is (t : ptr) (key : N) (bits : Z) (key2 : N) (bits2 : Z) (s : bytes) : prog unit :=
  r <- ld_ip t ;; x <- n_exact c64 r.2 key bits ;;
  if (bits <? 64)%Z then res_is x s
  else match x with (VSub p, true) => x <- n_exact c64 p key2 bits2 ;; res_is x s | _ => Fail EPanic end.
Definition bad_net : ipnet := Some ([], []).
Definition t_invalid : prog ptr :=
  invR <- ip_new ;; r <- ld_ip invR ;; x <- n_insert c64 r.2 2306139568115548160 64 (VUser (B "test")) ;; store invR (CIp r.1 x) ;;; Ret invR.

Definition t_TestInsertNet : prog unit :=
  r <- ip_new ;;
  newR <- ip_insert_net r None (VUser (B "test")) ;; check (ptr_eqb newR r) ;;;
  newR <- ip_insert_net r bad_net (VUser (B "test")) ;; check (ptr_eqb newR r) ;;;
  newR <- ip_insert_net r (Some ([xc0; x00; x02; x00], [xff; xff; xff; x00])) (VUser (B "test")) ;; check (negb (ptr_eqb newR r)) ;;;
  node32_is newR 3221225984 24 (B "test") ;;;
  r1 <- ip_insert_net r (Some ([x20; x01; x0d; xb8; x00; x00; x00; x00; x00; x00; x00; x00; x00; x00; x00; x00], [xff; xff; xff; xff; x00; x00; x00; x00; x00; x00; x00; x00; x00; x00; x00; x00])) (VUser (B "test")) ;; check (negb (ptr_eqb r1 r)) ;;;
  node64_is r1 2306139568115548160 32 0 0 (B "test") ;;;
  r2 <- ip_insert_net r1 (Some ([x20; x01; x0d; xb8; x00; x00; x00; x00; x00; x00; x00; xff; x00; x00; x00; x00], [xff; xff; xff; xff; xff; xff; xff; xff; xff; xff; xff; xff; x00; x00; x00; x00])) (VUser (B "test 1")) ;; check (negb (ptr_eqb r2 r1)) ;;;
  node64_is r2 2306139568115548160 64 1095216660480 32 (B "test 1") ;;;
  r3 <- ip_insert_net r2 (Some ([x20; x01; x0d; xb8; x00; x00; x00; x00; x00; x00; x00; xfe; x00; x00; x00; x00], [xff; xff; xff; xff; xff; xff; xff; xff; xff; xff; xff; xff; x00; x00; x00; x00])) (VUser (B "test 2")) ;; check (negb (ptr_eqb r3 r1)) ;;;
  node64_is r3 2306139568115548160 64 1090921693184 32 (B "test 2").
Example TestInsertNet_passes : passes t_TestInsertNet = true.
Proof. vm_compute. reflexivity. Qed.
Example TestInsertNet_ready : passes t_invalid = true.
Proof. vm_compute. reflexivity. Qed.
Example TestInsertNet_panics : panics (r <- t_invalid ;; ip_insert_net r (Some ([x20; x01; x0d; xb8; x00; x00; x00; x00; x00; x00; x00; xff; x00; x00; x00; x00], [xff; xff; xff; xff; xff; xff; xff; xff; xff; xff; xff; xff; x00; x00; x00; x00])) (VUser (B "panic"))) = true.
Proof. vm_compute. reflexivity. Qed.

Definition t_TestInplaceInsertNet : prog unit :=
  r <- ip_new ;;
  ip_inplace_insert_net r None (VUser (B "test")) ;;; x <- ld_ip r ;; check (ptr_eqb x.1 None && ptr_eqb x.2 None) ;;;
  ip_inplace_insert_net r bad_net (VUser (B "test")) ;;; x <- ld_ip r ;; check (ptr_eqb x.1 None && ptr_eqb x.2 None) ;;;
  ip_inplace_insert_net r (Some ([xc0; x00; x02; x00], [xff; xff; xff; x00])) (VUser (B "test")) ;;;
  node32_is r 3221225984 24 (B "test") ;;;
  ip_inplace_insert_net r (Some ([x20; x01; x0d; xb8; x00; x00; x00; x00; x00; x00; x00; x00; x00; x00; x00; x00], [xff; xff; xff; xff; x00; x00; x00; x00; x00; x00; x00; x00; x00; x00; x00; x00])) (VUser (B "test")) ;;;
  node64_is r 2306139568115548160 32 0 0 (B "test") ;;;
  ip_inplace_insert_net r (Some ([x20; x01; x0d; xb8; x00; x00; x00; x00; x00; x00; x00; xff; x00; x00; x00; x00], [xff; xff; xff; xff; xff; xff; xff; xff; xff; xff; xff; xff; x00; x00; x00; x00])) (VUser (B "test 1")) ;;;
  node64_is r 2306139568115548160 64 1095216660480 32 (B "test 1") ;;;
  ip_inplace_insert_net r (Some ([x20; x01; x0d; xb8; x00; x00; x00; x00; x00; x00; x00; xfe; x00; x00; x00; x00], [xff; xff; xff; xff; xff; xff; xff; xff; xff; xff; xff; xff; x00; x00; x00; x00])) (VUser (B "test 2")) ;;;
  node64_is r 2306139568115548160 64 1090921693184 32 (B "test 2").
Example TestInplaceInsertNet_passes : passes t_TestInplaceInsertNet = true.
Proof. vm_compute. reflexivity. Qed.
Example TestInplaceInsertNet_panics : panics (r <- t_invalid ;; ip_inplace_insert_net r (Some ([x20; x01; x0d; xb8; x00; x00; x00; x00; x00; x00; x00; xff; x00; x00; x00; x00], [xff; xff; xff; xff; xff; xff; xff; xff; xff; xff; xff; xff; x00; x00; x00; x00])) (VUser (B "panic"))) = true.
Proof. vm_compute. reflexivity. Qed.

Definition enum_is (x : bytes * bytes * value bytes) (e : ipnet * bytes) : bool :=
  match e.1 with Some n => beq x.1.1 n.1 && beq x.1.2 n.2 && val_is x.2 e.2 | None => false end.
Definition t_TestEnumerate : prog unit :=
  x <- ip_enumerate None ;; check (list_is enum_is x []) ;;;
  r <- ip_new ;;
  r <- ip_insert_net r (Some ([xc0; x00; x02; x00], [xff; xff; xff; x00])) (VUser (B "test 1")) ;;
  r <- ip_insert_net r (Some ([x20; x01; x0d; xb8; x00; x00; x00; x00; x00; x00; x00; x00; x00; x00; x00; x00], [xff; xff; xff; xff; x00; x00; x00; x00; x00; x00; x00; x00; x00; x00; x00; x00])) (VUser (B "test 2.1")) ;;
  r <- ip_insert_net r (Some ([x20; x01; x0d; xb8; x00; x01; x00; x00; x00; x00; x00; x00; x00; x00; x00; x00], [xff; xff; xff; xff; xff; xff; x00; x00; x00; x00; x00; x00; x00; x00; x00; x00])) (VUser (B "test 2.2")) ;;
  r <- ip_insert_net r (Some ([x20; x01; x0d; xb8; x00; x00; x00; x00; x00; x00; x00; xff; x00; x00; x00; x00], [xff; xff; xff; xff; xff; xff; xff; xff; xff; xff; xff; xff; x00; x00; x00; x00])) (VUser (B "test 3")) ;;
  x <- ip_enumerate r ;;
  check (list_is enum_is x [((Some ([xc0; x00; x02; x00], [xff; xff; xff; x00])), B "test 1"); ((Some ([x20; x01; x0d; xb8; x00; x00; x00; x00; x00; x00; x00; x00; x00; x00; x00; x00], [xff; xff; xff; xff; x00; x00; x00; x00; x00; x00; x00; x00; x00; x00; x00; x00])), B "test 2.1");
    ((Some ([x20; x01; x0d; xb8; x00; x00; x00; x00; x00; x00; x00; xff; x00; x00; x00; x00], [xff; xff; xff; xff; xff; xff; xff; xff; xff; xff; xff; xff; x00; x00; x00; x00])), B "test 3"); ((Some ([x20; x01; x0d; xb8; x00; x01; x00; x00; x00; x00; x00; x00; x00; x00; x00; x00], [xff; xff; xff; xff; xff; xff; x00; x00; x00; x00; x00; x00; x00; x00; x00; x00])), B "test 2.2")]).
Example TestEnumerate_passes : passes t_TestEnumerate = true.
Proof. vm_compute. reflexivity. Qed.

Definition t_TestGetByNet : prog unit :=
  r <- ip_new ;;
  r <- ip_insert_net r (Some ([xc0; x00; x02; x00], [xff; xff; xff; x00])) (VUser (B "test 1")) ;;
  r <- ip_insert_net r (Some ([x20; x01; x0d; xb8; x00; x00; x00; x00; x00; x00; x00; x00; x00; x00; x00; x00], [xff; xff; xff; xff; x00; x00; x00; x00; x00; x00; x00; x00; x00; x00; x00; x00])) (VUser (B "test 2.1")) ;;
  r <- ip_insert_net r (Some ([x20; x01; x0d; xb8; x00; x01; x00; x00; x00; x00; x00; x00; x00; x00; x00; x00], [xff; xff; xff; xff; xff; xff; x00; x00; x00; x00; x00; x00; x00; x00; x00; x00])) (VUser (B "test 2.2")) ;;
  r <- ip_insert_net r (Some ([x20; x01; x0d; xb8; x00; x00; x00; x00; x00; x00; x00; xff; x00; x00; x00; x00], [xff; xff; xff; xff; xff; xff; xff; xff; xff; xff; xff; xff; x00; x00; x00; x00])) (VUser (B "test 3")) ;;
  x <- ip_get_net r None ;; check (negb x.2) ;;;
  x <- ip_get_net r bad_net ;; check (negb x.2) ;;;
  x <- ip_get_net r (Some ([xc0; x00; x02; x00], [xff; xff; xff; x00])) ;; res_is x (B "test 1") ;;;
  x <- ip_get_net r (Some ([x20; x01; x0d; xb8; x00; x00; x00; x00; x00; x00; x00; x00; x00; x00; x00; x00], [xff; xff; xff; xff; x00; x00; x00; x00; x00; x00; x00; x00; x00; x00; x00; x00])) ;; res_is x (B "test 2.1") ;;;
  x <- ip_get_net r (Some ([x20; x01; x0d; xb8; x00; x00; x00; x00; x00; x00; x00; xff; x00; x00; x00; x00], [xff; xff; xff; xff; xff; xff; xff; xff; xff; xff; xff; xff; x00; x00; x00; x00])) ;; res_is x (B "test 3") ;;;
  x <- ip_get_net r (Some ([x20; x01; x0d; xb8; x00; x01; x00; x00; x00; x00; x00; x00; x00; x00; x00; x00], [xff; xff; xff; xff; xff; xff; xff; xff; x00; x00; x00; x00; x00; x00; x00; x00])) ;; res_is x (B "test 2.2") ;;;
  x <- ip_get_net r (Some ([x20; x01; x0d; xb8; x00; x00; x00; x00; x00; x00; x00; xfe; x00; x00; x00; x00], [xff; xff; xff; xff; xff; xff; xff; xff; xff; xff; xff; xff; x00; x00; x00; x00])) ;; res_is x (B "test 2.1").
Example TestGetByNet_passes : passes t_TestGetByNet = true.
Proof. vm_compute. reflexivity. Qed.

Definition t_TestDeleteByNet : prog ptr :=
  x <- ip_delete_net None (Some ([xc0; x00; x02; x00], [xff; xff; xff; x00])) ;; let r := x.1 in check (negb x.2) ;;;
  r <- ip_insert_net r (Some ([xc0; x00; x02; x00], [xff; xff; xff; x00])) (VUser (B "test 1")) ;;
  r <- ip_insert_net r (Some ([x20; x01; x0d; xb8; x00; x00; x00; x00; x00; x00; x00; x00; x00; x00; x00; x00], [xff; xff; xff; xff; x00; x00; x00; x00; x00; x00; x00; x00; x00; x00; x00; x00])) (VUser (B "test 2.1")) ;;
  r <- ip_insert_net r (Some ([x20; x01; x0d; xb8; x00; x01; x00; x00; x00; x00; x00; x00; x00; x00; x00; x00], [xff; xff; xff; xff; xff; xff; x00; x00; x00; x00; x00; x00; x00; x00; x00; x00])) (VUser (B "test 2.2")) ;;
  r <- ip_insert_net r (Some ([x20; x01; x0d; xb8; x00; x00; x00; x00; x00; x00; x00; xff; x00; x00; x00; x00], [xff; xff; xff; xff; xff; xff; xff; xff; xff; xff; xff; xff; x00; x00; x00; x00])) (VUser (B "test 3.1")) ;;
  r <- ip_insert_net r (Some ([x20; x01; x0d; xb8; x00; x00; x00; x00; x00; x00; x00; xfe; x00; x00; x00; x00], [xff; xff; xff; xff; xff; xff; xff; xff; xff; xff; xff; xff; x00; x00; x00; x00])) (VUser (B "test 3.2")) ;;
  x <- ip_delete_net r None ;; let r := x.1 in check (negb x.2) ;;;
  x <- ip_delete_net r bad_net ;; let r := x.1 in check (negb x.2) ;;;
  x <- ip_delete_net r (Some ([x20; x01; x0d; xb8; x00; x00; x00; x00; x00; x00; x00; xfe; x00; x00; x00; x00], [xff; xff; xff; xff; xff; xff; xff; xff; xff; xff; xff; xff; x00; x00; x00; x00])) ;; let r := x.1 in check x.2 ;;;
  x <- ip_delete_net r (Some ([x20; x01; x0d; xb8; x00; x00; x00; x00; x00; x00; x00; xff; x00; x00; x00; x00], [xff; xff; xff; xff; xff; xff; xff; xff; xff; xff; xff; xff; x00; x00; x00; x00])) ;; let r := x.1 in check x.2 ;;;
  y <- ld_ip r ;; x <- n_exact c64 y.2 2306139568115548160 64 ;; check (negb x.2) ;;;
  x <- ip_delete_net r (Some ([x20; x01; x0d; xb8; x00; x01; x00; x00; x00; x00; x00; x00; x00; x00; x00; x00], [xff; xff; xff; xff; xff; xff; x00; x00; x00; x00; x00; x00; x00; x00; x00; x00])) ;; let r := x.1 in check x.2 ;;;
  x <- ip_delete_net r (Some ([x20; x01; x0d; xb8; x00; x00; x00; x00; x00; x00; x00; x00; x00; x00; x00; x00], [xff; xff; xff; xff; x00; x00; x00; x00; x00; x00; x00; x00; x00; x00; x00; x00])) ;; let r := x.1 in check x.2 ;;;
  x <- ip_delete_net r (Some ([xc0; x00; x02; x00], [xff; xff; xff; x00])) ;; let r := x.1 in check x.2 ;;;
  y <- ld_ip r ;; check (ptr_eqb y.1 None && ptr_eqb y.2 None) ;;;
  z <- n_insert c64 y.2 2306139568115548160 64 (VUser (B "panic")) ;; store r (CIp y.1 z) ;;; Ret r.
Example TestDeleteByNet_passes : passes t_TestDeleteByNet = true.
Proof. vm_compute. reflexivity. Qed.
Example TestDeleteByNet_panics : panics (r <- t_TestDeleteByNet ;; ip_delete_net r (Some ([x20; x01; x0d; xb8; x00; x00; x00; x00; x00; x00; x00; xff; x00; x00; x00; x00], [xff; xff; xff; xff; xff; xff; xff; xff; xff; xff; xff; xff; x00; x00; x00; x00]))) = true.
Proof. vm_compute. reflexivity. Qed.

Definition t_TestTreeByIP : prog unit :=
  r <- ip_insert_ip None [x20; x01; x0d; xb8; x00; x00; x00; x00; x00; x00; x00; x00; x00; x00; x00; x01] (VUser (B "test")) ;; check (negb (ptr_eqb r None)) ;;;
  x <- ip_get_ip r [x20; x01; x0d; xb8; x00; x00; x00; x00; x00; x00; x00; x00; x00; x00; x00; x01] ;; res_is x (B "test") ;;;
  x <- ip_delete_ip r [x20; x01; x0d; xb8; x00; x00; x00; x00; x00; x00; x00; x00; x00; x00; x00; x01] ;; let r := x.1 in check x.2 ;;;
  ip_inplace_insert_ip r [x20; x01; x0d; xb8; x00; x00; x00; x00; x00; x00; x00; x00; x00; x00; x00; x01] (VUser (B "test")) ;;;
  y <- ld_ip r ;; check (negb (ptr_eqb y.2 None)).
Example TestTreeByIP_passes : passes t_TestTreeByIP = true.
Proof. vm_compute. reflexivity. Qed.

Definition key4 (n : ipnet) := match n with Some n => ip4_key n | None => None end.
Definition key6 (n : ipnet) := match n with Some n => ip6_key n | None => None end.
Example TestIPv4NetToUint32_1 : key4 (Some ([xc0; x00; x02; x00], [xff; xff; xff; x00])) = Some (3221225984, 24).
Proof. vm_compute. reflexivity. Qed.
Example TestIPv4NetToUint32_2 : key4 (Some ([x0c; x00], [xff; xff; xff; x00])) = None.
Proof. vm_compute. reflexivity. Qed.
Example TestIPv4NetToUint32_3 : key4 (Some ([x0c; x00; x02; x00], [xff; x00; xff; x00])) = None.
Proof. vm_compute. reflexivity. Qed.
Example TestIPv6NetToUint64Pair_1 : key6 (Some ([x20; x01; x0d; xb8; x00; x00; x00; x00; x00; x00; x00; x00; x00; x00; x00; x00], [xff; xff; xff; xff; x00; x00; x00; x00; x00; x00; x00; x00; x00; x00; x00; x00])) = Some (2306139568115548160, 32, 0, 0).
Proof. vm_compute. reflexivity. Qed.
Example TestIPv6NetToUint64Pair_2 : key6 (Some ([x20; x01; x0d; xb8; x00; x00; x00; x00; x00; x00; x00; xff; x00; x00; x00; x00], [xff; xff; xff; xff; xff; xff; xff; xff; xff; xff; xff; xff; x00; x00; x00; x00])) = Some (2306139568115548160, 64, 1095216660480, 32).
Proof. vm_compute. reflexivity. Qed.
Example TestIPv6NetToUint64Pair_3 : key6 (Some ([x20; x01; x0d; xb8; x00; x00; x00; x00],
  [xff; xff; xff; xff; x00; x00; x00; x00; x00; x00; x00; x00; x00; x00; x00; x00])) = None.
Proof. vm_compute. reflexivity. Qed.
Example TestIPv6NetToUint64Pair_4 : key6 (Some ([x20; x01; x0d; xb8; x00; x00; x00; x00; x00; x00; x00; x00; x00; x00; x00; x00],
  [x00; xff; x00; xff; x00; x00; x00; x00; x00; x00; x00; x00; x00; x00; x00; x00])) = None.
Proof. vm_compute. reflexivity. Qed.
Example TestNewIPNetFromIP_1 : net_of_ip [x00; x00; x00; x00; x00; x00; x00; x00; x00; x00; xff; xff; xc0; x00; x02; x01] = (Some ([xc0; x00; x02; x01], [xff; xff; xff; xff])).
Proof. vm_compute. reflexivity. Qed.
Example TestNewIPNetFromIP_2 : net_of_ip [x20; x01; x0d; xb8; x00; x00; x00; x00; x00; x00; x00; x00; x00; x00; x00; x01] = (Some ([x20; x01; x0d; xb8; x00; x00; x00; x00; x00; x00; x00; x00; x00; x00; x00; x01], [xff; xff; xff; xff; xff; xff; xff; xff; xff; xff; xff; xff; xff; xff; xff; xff])).
Proof. vm_compute. reflexivity. Qed.
Example TestNewIPNetFromIP_3 : net_of_ip [x0c; x00] = None.
Proof. vm_compute. reflexivity. Qed.
