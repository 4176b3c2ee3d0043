(** * Made by tools/replay.py from uintX/iptree8/iptree_test.go. See ReplayText.v. *)
From Verif Require Import Prog NumModel IpModel UxModel ReplayText.
From Coq Require Import String.
Open Scope nat_scope.
Local Notation B := list_byte_of_string.
Local Notation prog := (prog bytes).
Import Byte.
Open Scope N_scope.
(** The tests of iptree_test.go, translated by hand; numbers are given as their decimal digits. The tests
    of the conversions are the same as in iptree. *)
Definition res_is (x : value bytes * bool) (s : bytes) : prog unit := check (x.2 && val_is x.1 s).
(** assertTree32Node, assertTree64Node *)
Definition node32_is (t : ptr) (key : N) (bits : Z) (s : bytes) : prog unit :=
  r <- ld_ip t ;; x <- n_exact c32 r.1 key bits ;; res_is x s.
Definition node64_is (t : ptr) (key : N) (bits : Z) (key2 : N) (bits2 : Z) (s : bytes) : prog unit :=
  r <- ld_ip t ;; x <- n_exact c64 r.2 key bits ;;
  match x with (VSub p, true) => x <- n_exact c64 p key2 bits2 ;; res_is x s | _ => Fail EPanic end.
Definition bad_net : ipnet := Some ([], []).

Definition t_TestInsertNet : prog unit :=
  r <- ip_new ;;
  newR <- ux_insert_net r None (VUser (B "1")) ;; check (ptr_eqb newR r) ;;;
  newR <- ux_insert_net r bad_net (VUser (B "1")) ;; check (ptr_eqb newR r) ;;;
  newR <- ux_insert_net r (Some ([xc0; x00; x02; x00], [xff; xff; xff; x00])) (VUser (B "1")) ;; check (negb (ptr_eqb newR r)) ;;;
  node32_is newR 3221225984 24 (B "1") ;;;
  r1 <- ux_insert_net r (Some ([x20; x01; x0d; xb8; x00; x00; x00; x00; x00; x00; x00; x00; x00; x00; x00; x00], [xff; xff; xff; xff; x00; x00; x00; x00; x00; x00; x00; x00; x00; x00; x00; x00])) (VUser (B "1")) ;; check (negb (ptr_eqb r1 r)) ;;;
  node64_is r1 2306139568115548160 32 0 0 (B "1") ;;;
  r2 <- ux_insert_net r1 (Some ([x20; x01; x0d; xb8; x00; x00; x00; x00; x00; x00; x00; xff; x00; x00; x00; x00], [xff; xff; xff; xff; xff; xff; xff; xff; xff; xff; xff; xff; x00; x00; x00; x00])) (VUser (B "2")) ;; check (negb (ptr_eqb r2 r1)) ;;;
  node64_is r2 2306139568115548160 64 1095216660480 32 (B "2") ;;;
  r3 <- ux_insert_net r2 (Some ([x20; x01; x0d; xb8; x00; x00; x00; x00; x00; x00; x00; xfe; x00; x00; x00; x00], [xff; xff; xff; xff; xff; xff; xff; xff; xff; xff; xff; xff; x00; x00; x00; x00])) (VUser (B "3")) ;; check (negb (ptr_eqb r3 r1)) ;;;
  node64_is r3 2306139568115548160 64 1090921693184 32 (B "3").
Example TestInsertNet_passes : passes t_TestInsertNet = true.
Proof. vm_compute. reflexivity. Qed.

Definition t_TestInplaceInsertNet : prog unit :=
  r <- ip_new ;;
  ux_inplace_insert_net r None (VUser (B "1")) ;;; x <- ld_ip r ;; check (ptr_eqb x.1 None && ptr_eqb x.2 None) ;;;
  ux_inplace_insert_net r bad_net (VUser (B "1")) ;;; x <- ld_ip r ;; check (ptr_eqb x.1 None && ptr_eqb x.2 None) ;;;
  ux_inplace_insert_net r (Some ([xc0; x00; x02; x00], [xff; xff; xff; x00])) (VUser (B "1")) ;;;
  node32_is r 3221225984 24 (B "1") ;;;
  ux_inplace_insert_net r (Some ([x20; x01; x0d; xb8; x00; x00; x00; x00; x00; x00; x00; x00; x00; x00; x00; x00], [xff; xff; xff; xff; x00; x00; x00; x00; x00; x00; x00; x00; x00; x00; x00; x00])) (VUser (B "1")) ;;;
  node64_is r 2306139568115548160 32 0 0 (B "1") ;;;
  ux_inplace_insert_net r (Some ([x20; x01; x0d; xb8; x00; x00; x00; x00; x00; x00; x00; xff; x00; x00; x00; x00], [xff; xff; xff; xff; xff; xff; xff; xff; xff; xff; xff; xff; x00; x00; x00; x00])) (VUser (B "2")) ;;;
  node64_is r 2306139568115548160 64 1095216660480 32 (B "2") ;;;
  ux_inplace_insert_net r (Some ([x20; x01; x0d; xb8; x00; x00; x00; x00; x00; x00; x00; xfe; x00; x00; x00; x00], [xff; xff; xff; xff; xff; xff; xff; xff; xff; xff; xff; xff; x00; x00; x00; x00])) (VUser (B "3")) ;;;
  node64_is r 2306139568115548160 64 1090921693184 32 (B "3").
Example TestInplaceInsertNet_passes : passes t_TestInplaceInsertNet = true.
Proof. vm_compute. reflexivity. Qed.

Definition enum_is (x : bytes * bytes * value bytes) (e : ipnet * bytes) : bool :=
  match e.1 with Some n => beq x.1.1 n.1 && beq x.1.2 n.2 && val_is x.2 e.2 | None => false end.
Definition t_TestEnumerate : prog unit :=
  x <- ux_enumerate None ;; check (list_is enum_is x []) ;;;
  r <- ip_new ;;
  r <- ux_insert_net r (Some ([xc0; x00; x02; x00], [xff; xff; xff; x00])) (VUser (B "20")) ;;
  r <- ux_insert_net r (Some ([x20; x01; x0d; xb8; x00; x00; x00; x00; x00; x00; x00; x00; x00; x00; x00; x00], [xff; xff; xff; xff; x00; x00; x00; x00; x00; x00; x00; x00; x00; x00; x00; x00])) (VUser (B "21")) ;;
  r <- ux_insert_net r (Some ([x20; x01; x0d; xb8; x00; x01; x00; x00; x00; x00; x00; x00; x00; x00; x00; x00], [xff; xff; xff; xff; xff; xff; x00; x00; x00; x00; x00; x00; x00; x00; x00; x00])) (VUser (B "22")) ;;
  r <- ux_insert_net r (Some ([x20; x01; x0d; xb8; x00; x00; x00; x00; x00; x00; x00; xff; x00; x00; x00; x00], [xff; xff; xff; xff; xff; xff; xff; xff; xff; xff; xff; xff; x00; x00; x00; x00])) (VUser (B "30")) ;;
  x <- ux_enumerate r ;;
  check (list_is enum_is x [((Some ([xc0; x00; x02; x00], [xff; xff; xff; x00])), B "20"); ((Some ([x20; x01; x0d; xb8; x00; x00; x00; x00; x00; x00; x00; x00; x00; x00; x00; x00], [xff; xff; xff; xff; x00; x00; x00; x00; x00; x00; x00; x00; x00; x00; x00; x00])), B "21");
    ((Some ([x20; x01; x0d; xb8; x00; x00; x00; x00; x00; x00; x00; xff; x00; x00; x00; x00], [xff; xff; xff; xff; xff; xff; xff; xff; xff; xff; xff; xff; x00; x00; x00; x00])), B "30"); ((Some ([x20; x01; x0d; xb8; x00; x01; x00; x00; x00; x00; x00; x00; x00; x00; x00; x00], [xff; xff; xff; xff; xff; xff; x00; x00; x00; x00; x00; x00; x00; x00; x00; x00])), B "22")]).
Example TestEnumerate_passes : passes t_TestEnumerate = true.
Proof. vm_compute. reflexivity. Qed.

Definition t_TestGetByNet : prog unit :=
  r <- ip_new ;;
  r <- ux_insert_net r (Some ([xc0; x00; x02; x00], [xff; xff; xff; x00])) (VUser (B "20")) ;;
  r <- ux_insert_net r (Some ([x20; x01; x0d; xb8; x00; x00; x00; x00; x00; x00; x00; x00; x00; x00; x00; x00], [xff; xff; xff; xff; x80; x00; x00; x00; x00; x00; x00; x00; x00; x00; x00; x00])) (VUser (B "21")) ;;
  r <- ux_insert_net r (Some ([x20; x01; x0d; xb8; x00; x01; x00; x00; x00; x00; x00; x00; x00; x00; x00; x00], [xff; xff; xff; xff; xff; xff; x00; x00; x00; x00; x00; x00; x00; x00; x00; x00])) (VUser (B "22")) ;;
  r <- ux_insert_net r (Some ([x20; x01; x0d; xb8; x00; x00; x00; x00; x00; x00; x00; xff; x00; x00; x00; x00], [xff; xff; xff; xff; xff; xff; xff; xff; xff; xff; xff; xff; x00; x00; x00; x00])) (VUser (B "30")) ;;
  r <- ux_insert_net r (Some ([x20; x01; x0d; xb8; x80; x00; x00; x00; x00; x00; x00; xfe; x00; x00; x00; x00], [xff; xff; xff; xff; xff; xff; xff; xff; xff; xff; xff; xff; x00; x00; x00; x00])) (VUser (B "40")) ;;
  x <- ux_get_net r None ;; check (negb x.2) ;;;
  x <- ux_get_net r bad_net ;; check (negb x.2) ;;;
  x <- ux_get_net r (Some ([xc0; x00; x02; x00], [xff; xff; xff; x00])) ;; res_is x (B "20") ;;;
  x <- ux_get_net r (Some ([x20; x01; x0d; xb8; x00; x00; x00; x00; x00; x00; x00; x00; x00; x00; x00; x00], [xff; xff; xff; xff; x80; x00; x00; x00; x00; x00; x00; x00; x00; x00; x00; x00])) ;; res_is x (B "21") ;;;
  x <- ux_get_net r (Some ([x20; x01; x0d; xb8; x00; x00; x00; x00; x00; x00; x00; xff; x00; x00; x00; x00], [xff; xff; xff; xff; xff; xff; xff; xff; xff; xff; xff; xff; x00; x00; x00; x00])) ;; res_is x (B "30") ;;;
  x <- ux_get_net r (Some ([x20; x01; x0d; xb8; x00; x01; x00; x00; x00; x00; x00; x00; x00; x00; x00; x00], [xff; xff; xff; xff; xff; xff; xff; xff; x00; x00; x00; x00; x00; x00; x00; x00])) ;; res_is x (B "22") ;;;
  x <- ux_get_net r (Some ([x20; x01; x0d; xb8; x00; x00; x00; x00; x00; x00; x00; xfe; x00; x00; x00; x00], [xff; xff; xff; xff; xff; xff; xff; xff; xff; xff; xff; xff; x00; x00; x00; x00])) ;; res_is x (B "21") ;;;
  x <- ux_get_net r (Some ([x20; x01; x0d; xb8; x80; x00; x00; x00; x00; x00; x00; x00; x00; x00; x00; x00], [xff; xff; xff; xff; x80; x00; x00; x00; x00; x00; x00; x00; x00; x00; x00; x00])) ;; check (negb x.2) ;;;
  x <- ux_get_net r (Some ([x20; x01; x0d; xb8; x80; x00; x00; x00; x00; x00; x00; xff; x00; x00; x00; x00], [xff; xff; xff; xff; xff; xff; xff; xff; xff; xff; xff; xff; x00; x00; x00; x00])) ;; check (negb x.2).
Example TestGetByNet_passes : passes t_TestGetByNet = true.
Proof. vm_compute. reflexivity. Qed.

Definition t_TestDeleteByNet : prog unit :=
  x <- ux_delete_net None (Some ([xc0; x00; x02; x00], [xff; xff; xff; x00])) ;; let r := x.1 in check (negb x.2) ;;;
  r <- ux_insert_net r (Some ([xc0; x00; x02; x00], [xff; xff; xff; x00])) (VUser (B "20")) ;;
  r <- ux_insert_net r (Some ([x20; x01; x0d; xb8; x00; x00; x00; x00; x00; x00; x00; x00; x00; x00; x00; x00], [xff; xff; xff; xff; x00; x00; x00; x00; x00; x00; x00; x00; x00; x00; x00; x00])) (VUser (B "21")) ;;
  r <- ux_insert_net r (Some ([x20; x01; x0d; xb8; x00; x01; x00; x00; x00; x00; x00; x00; x00; x00; x00; x00], [xff; xff; xff; xff; xff; xff; x00; x00; x00; x00; x00; x00; x00; x00; x00; x00])) (VUser (B "22")) ;;
  r <- ux_insert_net r (Some ([x20; x01; x0d; xb8; x00; x00; x00; x00; x00; x00; x00; xff; x00; x00; x00; x00], [xff; xff; xff; xff; xff; xff; xff; xff; xff; xff; xff; xff; x00; x00; x00; x00])) (VUser (B "31")) ;;
  r <- ux_insert_net r (Some ([x20; x01; x0d; xb8; x00; x00; x00; x00; x00; x00; x00; xfe; x00; x00; x00; x00], [xff; xff; xff; xff; xff; xff; xff; xff; xff; xff; xff; xff; x00; x00; x00; x00])) (VUser (B "32")) ;;
  x <- ux_delete_net r None ;; let r := x.1 in check (negb x.2) ;;;
  x <- ux_delete_net r bad_net ;; let r := x.1 in check (negb x.2) ;;;
  x <- ux_delete_net r (Some ([x20; x01; x0d; xb8; x00; x00; x00; x00; x00; x00; x00; xfe; x00; x00; x00; x00], [xff; xff; xff; xff; xff; xff; xff; xff; xff; xff; xff; xff; x00; x00; x00; x00])) ;; let r := x.1 in check x.2 ;;;
  x <- ux_delete_net r (Some ([x20; x01; x0d; xb8; x00; x00; x00; x00; x00; x00; x00; xff; x00; x00; x00; x00], [xff; xff; xff; xff; xff; xff; xff; xff; xff; xff; xff; xff; x00; x00; x00; x00])) ;; let r := x.1 in check x.2 ;;;
  y <- ld_ip r ;; x <- n_exact c64 y.2 2306139568115548160 64 ;; check (negb x.2) ;;;
  x <- ux_delete_net r (Some ([x20; x01; x0d; xb8; x00; x01; x00; x00; x00; x00; x00; x00; x00; x00; x00; x00], [xff; xff; xff; xff; xff; xff; x00; x00; x00; x00; x00; x00; x00; x00; x00; x00])) ;; let r := x.1 in check x.2 ;;;
  x <- ux_delete_net r (Some ([x20; x01; x0d; xb8; x00; x00; x00; x00; x00; x00; x00; x00; x00; x00; x00; x00], [xff; xff; xff; xff; x00; x00; x00; x00; x00; x00; x00; x00; x00; x00; x00; x00])) ;; let r := x.1 in check x.2 ;;;
  x <- ux_delete_net r (Some ([xc0; x00; x02; x00], [xff; xff; xff; x00])) ;; let r := x.1 in check x.2 ;;;
  y <- ld_ip r ;; check (ptr_eqb y.1 None && ptr_eqb y.2 None).
Example TestDeleteByNet_passes : passes t_TestDeleteByNet = true.
Proof. vm_compute. reflexivity. Qed.

Definition t_TestTreeByIP : prog unit :=
  r <- ux_insert_ip None [x20; x01; x0d; xb8; x00; x00; x00; x00; x00; x00; x00; x00; x00; x00; x00; x01] (VUser (B "1")) ;; check (negb (ptr_eqb r None)) ;;;
  x <- ux_get_ip r [x20; x01; x0d; xb8; x00; x00; x00; x00; x00; x00; x00; x00; x00; x00; x00; x01] ;; res_is x (B "1") ;;;
  x <- ux_delete_ip r [x20; x01; x0d; xb8; x00; x00; x00; x00; x00; x00; x00; x00; x00; x00; x00; x01] ;; let r := x.1 in check x.2 ;;;
  ux_inplace_insert_ip r [x20; x01; x0d; xb8; x00; x00; x00; x00; x00; x00; x00; x00; x00; x00; x00; x01] (VUser (B "1")) ;;;
  y <- ld_ip r ;; check (negb (ptr_eqb y.2 None)).
Example TestTreeByIP_passes : passes t_TestTreeByIP = true.
Proof. vm_compute. reflexivity. Qed.

