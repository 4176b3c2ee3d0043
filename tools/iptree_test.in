(** The other tests of iptree_test.go. *)
Definition res_is (x : value bytes * bool) (s : bytes) : prog unit := check (x.2 && val_is x.1 s).
(** assertTree32Node, assertTree64Node *)
Definition node32_is (t : ptr) (key : N) (bits : Z) (s : bytes) : prog unit :=
  r <- ld_ip t ;; x <- n_exact c32 r.1 key bits ;; res_is x s.
Definition node64_is (t : ptr) (key : N) (bits : Z) (key2 : N) (bits2 : Z) (s : bytes) : prog unit :=
  r <- ld_ip t ;; x <- n_exact c64 r.2 key bits ;;
  if (bits <? 64)%Z then res_is x s
  else match x with (VSub p, true) => x <- n_exact c64 p key2 bits2 ;; res_is x s | _ => Fail EPanic end.
Definition bad_net : ipnet := Some ([], []).
Definition t_invalid : prog ptr :=
  invR <- ip_new ;; r <- ld_ip invR ;; x <- n_insert c64 r.2 0x20010db800000000 64 (VUser (B "test")) ;; store invR (CIp r.1 x) ;;; Ret invR.

Definition t_TestInsertNet : prog unit :=
  r <- ip_new ;;
  newR <- ip_insert_net r None (VUser (B "test")) ;; check (ptr_eqb newR r) ;;;
  newR <- ip_insert_net r bad_net (VUser (B "test")) ;; check (ptr_eqb newR r) ;;;
  newR <- ip_insert_net r {net 192.0.2.0/24} (VUser (B "test")) ;; check (negb (ptr_eqb newR r)) ;;;
  node32_is newR 0xc0000200 24 (B "test") ;;;
  r1 <- ip_insert_net r {net 2001:db8::/32} (VUser (B "test")) ;; check (negb (ptr_eqb r1 r)) ;;;
  node64_is r1 0x20010db800000000 32 0 0 (B "test") ;;;
  r2 <- ip_insert_net r1 {net 2001:db8:0:0:0:ff::/96} (VUser (B "test 1")) ;; check (negb (ptr_eqb r2 r1)) ;;;
  node64_is r2 0x20010db800000000 64 0xff00000000 32 (B "test 1") ;;;
  r3 <- ip_insert_net r2 {net 2001:db8:0:0:0:fe::/96} (VUser (B "test 2")) ;; check (negb (ptr_eqb r3 r1)) ;;;
  node64_is r3 0x20010db800000000 64 0xfe00000000 32 (B "test 2").
Example TestInsertNet_passes : passes t_TestInsertNet = true.
Proof. vm_compute. reflexivity. Qed.
Example TestInsertNet_ready : passes t_invalid = true.
Proof. vm_compute. reflexivity. Qed.
Example TestInsertNet_panics : panics (r <- t_invalid ;; ip_insert_net r {net 2001:db8:0:0:0:ff::/96} (VUser (B "panic"))) = true.
Proof. vm_compute. reflexivity. Qed.

Definition t_TestInplaceInsertNet : prog unit :=
  r <- ip_new ;;
  ip_inplace_insert_net r None (VUser (B "test")) ;;; x <- ld_ip r ;; check (ptr_eqb x.1 None && ptr_eqb x.2 None) ;;;
  ip_inplace_insert_net r bad_net (VUser (B "test")) ;;; x <- ld_ip r ;; check (ptr_eqb x.1 None && ptr_eqb x.2 None) ;;;
  ip_inplace_insert_net r {net 192.0.2.0/24} (VUser (B "test")) ;;;
  node32_is r 0xc0000200 24 (B "test") ;;;
  ip_inplace_insert_net r {net 2001:db8::/32} (VUser (B "test")) ;;;
  node64_is r 0x20010db800000000 32 0 0 (B "test") ;;;
  ip_inplace_insert_net r {net 2001:db8:0:0:0:ff::/96} (VUser (B "test 1")) ;;;
  node64_is r 0x20010db800000000 64 0xff00000000 32 (B "test 1") ;;;
  ip_inplace_insert_net r {net 2001:db8:0:0:0:fe::/96} (VUser (B "test 2")) ;;;
  node64_is r 0x20010db800000000 64 0xfe00000000 32 (B "test 2").
Example TestInplaceInsertNet_passes : passes t_TestInplaceInsertNet = true.
Proof. vm_compute. reflexivity. Qed.
Example TestInplaceInsertNet_panics : panics (r <- t_invalid ;; ip_inplace_insert_net r {net 2001:db8:0:0:0:ff::/96} (VUser (B "panic"))) = true.
Proof. vm_compute. reflexivity. Qed.

Definition enum_is (x : bytes * bytes * value bytes) (e : ipnet * bytes) : bool :=
  match e.1 with Some n => beq x.1.1 n.1 && beq x.1.2 n.2 && val_is x.2 e.2 | None => false end.
Definition t_TestEnumerate : prog unit :=
  x <- ip_enumerate None ;; check (list_is enum_is x []) ;;;
  r <- ip_new ;;
  r <- ip_insert_net r {net 192.0.2.0/24} (VUser (B "test 1")) ;;
  r <- ip_insert_net r {net 2001:db8::/32} (VUser (B "test 2.1")) ;;
  r <- ip_insert_net r {net 2001:db8:1::/48} (VUser (B "test 2.2")) ;;
  r <- ip_insert_net r {net 2001:db8:0:0:0:ff::/96} (VUser (B "test 3")) ;;
  x <- ip_enumerate r ;;
  check (list_is enum_is x [({net 192.0.2.0/24}, B "test 1"); ({net 2001:db8::/32}, B "test 2.1");
    ({net 2001:db8::ff:0:0/96}, B "test 3"); ({net 2001:db8:1::/48}, B "test 2.2")]).
Example TestEnumerate_passes : passes t_TestEnumerate = true.
Proof. vm_compute. reflexivity. Qed.

Definition t_TestGetByNet : prog unit :=
  r <- ip_new ;;
  r <- ip_insert_net r {net 192.0.2.0/24} (VUser (B "test 1")) ;;
  r <- ip_insert_net r {net 2001:db8::/32} (VUser (B "test 2.1")) ;;
  r <- ip_insert_net r {net 2001:db8:1::/48} (VUser (B "test 2.2")) ;;
  r <- ip_insert_net r {net 2001:db8:0:0:0:ff::/96} (VUser (B "test 3")) ;;
  x <- ip_get_net r None ;; check (negb x.2) ;;;
  x <- ip_get_net r bad_net ;; check (negb x.2) ;;;
  x <- ip_get_net r {net 192.0.2.0/24} ;; res_is x (B "test 1") ;;;
  x <- ip_get_net r {net 2001:db8::/32} ;; res_is x (B "test 2.1") ;;;
  x <- ip_get_net r {net 2001:db8:0:0:0:ff::/96} ;; res_is x (B "test 3") ;;;
  x <- ip_get_net r {net 2001:db8:1::/64} ;; res_is x (B "test 2.2") ;;;
  x <- ip_get_net r {net 2001:db8:0:0:0:fe::/96} ;; res_is x (B "test 2.1").
Example TestGetByNet_passes : passes t_TestGetByNet = true.
Proof. vm_compute. reflexivity. Qed.

Definition t_TestDeleteByNet : prog ptr :=
  x <- ip_delete_net None {net 192.0.2.0/24} ;; let r := x.1 in check (negb x.2) ;;;
  r <- ip_insert_net r {net 192.0.2.0/24} (VUser (B "test 1")) ;;
  r <- ip_insert_net r {net 2001:db8::/32} (VUser (B "test 2.1")) ;;
  r <- ip_insert_net r {net 2001:db8:1::/48} (VUser (B "test 2.2")) ;;
  r <- ip_insert_net r {net 2001:db8:0:0:0:ff::/96} (VUser (B "test 3.1")) ;;
  r <- ip_insert_net r {net 2001:db8:0:0:0:fe::/96} (VUser (B "test 3.2")) ;;
  x <- ip_delete_net r None ;; let r := x.1 in check (negb x.2) ;;;
  x <- ip_delete_net r bad_net ;; let r := x.1 in check (negb x.2) ;;;
  x <- ip_delete_net r {net 2001:db8:0:0:0:fe::/96} ;; let r := x.1 in check x.2 ;;;
  x <- ip_delete_net r {net 2001:db8:0:0:0:ff::/96} ;; let r := x.1 in check x.2 ;;;
  y <- ld_ip r ;; x <- n_exact c64 y.2 0x20010db800000000 64 ;; check (negb x.2) ;;;
  x <- ip_delete_net r {net 2001:db8:1::/48} ;; let r := x.1 in check x.2 ;;;
  x <- ip_delete_net r {net 2001:db8::/32} ;; let r := x.1 in check x.2 ;;;
  x <- ip_delete_net r {net 192.0.2.0/24} ;; let r := x.1 in check x.2 ;;;
  y <- ld_ip r ;; check (ptr_eqb y.1 None && ptr_eqb y.2 None) ;;;
  z <- n_insert c64 y.2 0x20010db800000000 64 (VUser (B "panic")) ;; store r (CIp y.1 z) ;;; Ret r.
Example TestDeleteByNet_passes : passes t_TestDeleteByNet = true.
Proof. vm_compute. reflexivity. Qed.
Example TestDeleteByNet_panics : panics (r <- t_TestDeleteByNet ;; ip_delete_net r {net 2001:db8:0:0:0:ff::/96}) = true.
Proof. vm_compute. reflexivity. Qed.

Definition t_TestTreeByIP : prog unit :=
  r <- ip_insert_ip None {ip 2001:db8::1} (VUser (B "test")) ;; check (negb (ptr_eqb r None)) ;;;
  x <- ip_get_ip r {ip 2001:db8::1} ;; res_is x (B "test") ;;;
  x <- ip_delete_ip r {ip 2001:db8::1} ;; let r := x.1 in check x.2 ;;;
  ip_inplace_insert_ip r {ip 2001:db8::1} (VUser (B "test")) ;;;
  y <- ld_ip r ;; check (negb (ptr_eqb y.2 None)).
Example TestTreeByIP_passes : passes t_TestTreeByIP = true.
Proof. vm_compute. reflexivity. Qed.

Definition key4 (n : ipnet) := match n with Some n => ip4_key n | None => None end.
Definition key6 (n : ipnet) := match n with Some n => ip6_key n | None => None end.
Example TestIPv4NetToUint32_1 : key4 {net 192.0.2.0/24} = Some (0xc0000200, 24).
Proof. vm_compute. reflexivity. Qed.
Example TestIPv4NetToUint32_2 : key4 (Some ([x0c; x00], [xff; xff; xff; x00])) = None.
Proof. vm_compute. reflexivity. Qed.
Example TestIPv4NetToUint32_3 : key4 (Some ([x0c; x00; x02; x00], [xff; x00; xff; x00])) = None.
Proof. vm_compute. reflexivity. Qed.
Example TestIPv6NetToUint64Pair_1 : key6 {net 2001:db8::/32} = Some (0x20010db800000000, 32, 0, 0).
Proof. vm_compute. reflexivity. Qed.
Example TestIPv6NetToUint64Pair_2 : key6 {net 2001:db8:0:0:0:ff::/96} = Some (0x20010db800000000, 64, 0xff00000000, 32).
Proof. vm_compute. reflexivity. Qed.
Example TestIPv6NetToUint64Pair_3 : key6 (Some ([x20; x01; x0d; xb8; x00; x00; x00; x00],
  [xff; xff; xff; xff; x00; x00; x00; x00; x00; x00; x00; x00; x00; x00; x00; x00])) = None.
Proof. vm_compute. reflexivity. Qed.
Example TestIPv6NetToUint64Pair_4 : key6 (Some ([x20; x01; x0d; xb8; x00; x00; x00; x00; x00; x00; x00; x00; x00; x00; x00; x00],
  [x00; xff; x00; xff; x00; x00; x00; x00; x00; x00; x00; x00; x00; x00; x00; x00])) = None.
Proof. vm_compute. reflexivity. Qed.
Example TestNewIPNetFromIP_1 : net_of_ip {ip 192.0.2.1} = {net 192.0.2.1/32}.
Proof. vm_compute. reflexivity. Qed.
Example TestNewIPNetFromIP_2 : net_of_ip {ip 2001:db8::1} = {net 2001:db8::1/128}.
Proof. vm_compute. reflexivity. Qed.
Example TestNewIPNetFromIP_3 : net_of_ip [x0c; x00] = None.
Proof. vm_compute. reflexivity. Qed.
