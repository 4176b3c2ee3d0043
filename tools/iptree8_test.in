(** The tests of iptree_test.go, translated by hand; numbers are given as their decimal digits. The tests
    of the conversions are the same as in iptree. *)
Definition res_is (x : value bytes * bool) (s : bytes) : prog unit := check (x.2 && val_is x.1 s).
(** assertTree32Node, assertTree64Node *)
Definition node32_is (t : ptr) (key : N) (bits : Z) (s : bytes) : prog unit :=
  r <- ld_ip t ;; x <- n_exact c32 r.1 key bits ;; res_is x s.
Definition node64_is (t : ptr) (key : N) (bits : Z) (key2 : N) (bits2 : Z) (s : bytes) : prog unit :=
  r <- ld_ip t ;; x <- n_exact c64 r.2 key bits ;;
  match x with (VSub p, true) => x <- n_exact c64 p key2 bits2 ;; res_is x s | _ => Fail EPanic end.
Definition bad_net : ipnet := Some ([], []).

Definition t_TestInsertNet : prog unit :=
  r <- ip_new ;;
  newR <- ux_insert_net r None (VUser (B "1")) ;; check (ptr_eqb newR r) ;;;
  newR <- ux_insert_net r bad_net (VUser (B "1")) ;; check (ptr_eqb newR r) ;;;
  newR <- ux_insert_net r {net 192.0.2.0/24} (VUser (B "1")) ;; check (negb (ptr_eqb newR r)) ;;;
  node32_is newR 0xc0000200 24 (B "1") ;;;
  r1 <- ux_insert_net r {net 2001:db8::/32} (VUser (B "1")) ;; check (negb (ptr_eqb r1 r)) ;;;
  node64_is r1 0x20010db800000000 32 0 0 (B "1") ;;;
  r2 <- ux_insert_net r1 {net 2001:db8:0:0:0:ff::/96} (VUser (B "2")) ;; check (negb (ptr_eqb r2 r1)) ;;;
  node64_is r2 0x20010db800000000 64 0xff00000000 32 (B "2") ;;;
  r3 <- ux_insert_net r2 {net 2001:db8:0:0:0:fe::/96} (VUser (B "3")) ;; check (negb (ptr_eqb r3 r1)) ;;;
  node64_is r3 0x20010db800000000 64 0xfe00000000 32 (B "3").
Example TestInsertNet_passes : passes t_TestInsertNet = true.
Proof. vm_compute. reflexivity. Qed.

Definition t_TestInplaceInsertNet : prog unit :=
  r <- ip_new ;;
  ux_inplace_insert_net r None (VUser (B "1")) ;;; x <- ld_ip r ;; check (ptr_eqb x.1 None && ptr_eqb x.2 None) ;;;
  ux_inplace_insert_net r bad_net (VUser (B "1")) ;;; x <- ld_ip r ;; check (ptr_eqb x.1 None && ptr_eqb x.2 None) ;;;
  ux_inplace_insert_net r {net 192.0.2.0/24} (VUser (B "1")) ;;;
  node32_is r 0xc0000200 24 (B "1") ;;;
  ux_inplace_insert_net r {net 2001:db8::/32} (VUser (B "1")) ;;;
  node64_is r 0x20010db800000000 32 0 0 (B "1") ;;;
  ux_inplace_insert_net r {net 2001:db8:0:0:0:ff::/96} (VUser (B "2")) ;;;
  node64_is r 0x20010db800000000 64 0xff00000000 32 (B "2") ;;;
  ux_inplace_insert_net r {net 2001:db8:0:0:0:fe::/96} (VUser (B "3")) ;;;
  node64_is r 0x20010db800000000 64 0xfe00000000 32 (B "3").
Example TestInplaceInsertNet_passes : passes t_TestInplaceInsertNet = true.
Proof. vm_compute. reflexivity. Qed.

Definition enum_is (x : bytes * bytes * value bytes) (e : ipnet * bytes) : bool :=
  match e.1 with Some n => beq x.1.1 n.1 && beq x.1.2 n.2 && val_is x.2 e.2 | None => false end.
Definition t_TestEnumerate : prog unit :=
  x <- ux_enumerate None ;; check (list_is enum_is x []) ;;;
  r <- ip_new ;;
  r <- ux_insert_net r {net 192.0.2.0/24} (VUser (B "20")) ;;
  r <- ux_insert_net r {net 2001:db8::/32} (VUser (B "21")) ;;
  r <- ux_insert_net r {net 2001:db8:1::/48} (VUser (B "22")) ;;
  r <- ux_insert_net r {net 2001:db8:0:0:0:ff::/96} (VUser (B "30")) ;;
  x <- ux_enumerate r ;;
  check (list_is enum_is x [({net 192.0.2.0/24}, B "20"); ({net 2001:db8::/32}, B "21");
    ({net 2001:db8::ff:0:0/96}, B "30"); ({net 2001:db8:1::/48}, B "22")]).
Example TestEnumerate_passes : passes t_TestEnumerate = true.
Proof. vm_compute. reflexivity. Qed.

Definition t_TestGetByNet : prog unit :=
  r <- ip_new ;;
  r <- ux_insert_net r {net 192.0.2.0/24} (VUser (B "20")) ;;
  r <- ux_insert_net r {net 2001:db8::/33} (VUser (B "21")) ;;
  r <- ux_insert_net r {net 2001:db8:1::/48} (VUser (B "22")) ;;
  r <- ux_insert_net r {net 2001:db8:0:0:0:ff::/96} (VUser (B "30")) ;;
  r <- ux_insert_net r {net 2001:db8:8000:0:0:fe::/96} (VUser (B "40")) ;;
  x <- ux_get_net r None ;; check (negb x.2) ;;;
  x <- ux_get_net r bad_net ;; check (negb x.2) ;;;
  x <- ux_get_net r {net 192.0.2.0/24} ;; res_is x (B "20") ;;;
  x <- ux_get_net r {net 2001:db8::/33} ;; res_is x (B "21") ;;;
  x <- ux_get_net r {net 2001:db8:0:0:0:ff::/96} ;; res_is x (B "30") ;;;
  x <- ux_get_net r {net 2001:db8:1::/64} ;; res_is x (B "22") ;;;
  x <- ux_get_net r {net 2001:db8:0:0:0:fe::/96} ;; res_is x (B "21") ;;;
  x <- ux_get_net r {net 2001:db8:8000::/33} ;; check (negb x.2) ;;;
  x <- ux_get_net r {net 2001:db8:8000:0:0:ff::/96} ;; check (negb x.2).
Example TestGetByNet_passes : passes t_TestGetByNet = true.
Proof. vm_compute. reflexivity. Qed.

Definition t_TestDeleteByNet : prog unit :=
  x <- ux_delete_net None {net 192.0.2.0/24} ;; let r := x.1 in check (negb x.2) ;;;
  r <- ux_insert_net r {net 192.0.2.0/24} (VUser (B "20")) ;;
  r <- ux_insert_net r {net 2001:db8::/32} (VUser (B "21")) ;;
  r <- ux_insert_net r {net 2001:db8:1::/48} (VUser (B "22")) ;;
  r <- ux_insert_net r {net 2001:db8:0:0:0:ff::/96} (VUser (B "31")) ;;
  r <- ux_insert_net r {net 2001:db8:0:0:0:fe::/96} (VUser (B "32")) ;;
  x <- ux_delete_net r None ;; let r := x.1 in check (negb x.2) ;;;
  x <- ux_delete_net r bad_net ;; let r := x.1 in check (negb x.2) ;;;
  x <- ux_delete_net r {net 2001:db8:0:0:0:fe::/96} ;; let r := x.1 in check x.2 ;;;
  x <- ux_delete_net r {net 2001:db8:0:0:0:ff::/96} ;; let r := x.1 in check x.2 ;;;
  y <- ld_ip r ;; x <- n_exact c64 y.2 0x20010db800000000 64 ;; check (negb x.2) ;;;
  x <- ux_delete_net r {net 2001:db8:1::/48} ;; let r := x.1 in check x.2 ;;;
  x <- ux_delete_net r {net 2001:db8::/32} ;; let r := x.1 in check x.2 ;;;
  x <- ux_delete_net r {net 192.0.2.0/24} ;; let r := x.1 in check x.2 ;;;
  y <- ld_ip r ;; check (ptr_eqb y.1 None && ptr_eqb y.2 None).
Example TestDeleteByNet_passes : passes t_TestDeleteByNet = true.
Proof. vm_compute. reflexivity. Qed.

Definition t_TestTreeByIP : prog unit :=
  r <- ux_insert_ip None {ip 2001:db8::1} (VUser (B "1")) ;; check (negb (ptr_eqb r None)) ;;;
  x <- ux_get_ip r {ip 2001:db8::1} ;; res_is x (B "1") ;;;
  x <- ux_delete_ip r {ip 2001:db8::1} ;; let r := x.1 in check x.2 ;;;
  ux_inplace_insert_ip r {ip 2001:db8::1} (VUser (B "1")) ;;;
  y <- ld_ip r ;; check (negb (ptr_eqb y.2 None)).
Example TestTreeByIP_passes : passes t_TestTreeByIP = true.
Proof. vm_compute. reflexivity. Qed.

