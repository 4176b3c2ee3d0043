(** * Made by tools/replay.py from uintX/domaintree8/domaintree_test.go. See ReplayText.v. *)
From Verif Require Import Prog RbModel DomModel DlModel DtModel ReplayText.
From Coq Require Import String.
Open Scope nat_scope.
Local Notation B := list_byte_of_string.
Local Notation prog := (prog bytes).
(** MakeNameFromString, which must succeed. *)
Definition dn (s : bytes) : name := match make_name s with DOk n => n | _ => Name s (B "?") end.



(** uintX/domaintree8/domaintree_test.go TestInsert *)
Definition t_TestInsert : prog unit :=
  r <- Ret (None : ptr) ;;
  r1 <- dt_insert 200 r (dn (B "com")) (VUser (B "1")) ;;
  check (negb (ptr_eqb r1 None)) ;;;
  r2 <- dt_insert 200 r1 (dn (B "test.com")) (VUser (B "2")) ;;
  r3 <- dt_insert 200 r2 (dn (B "test.net")) (VUser (B "3")) ;;
  r4 <- dt_insert 200 r3 (dn (B "example.com")) (VUser (B "4")) ;;
  r5 <- dt_insert 200 r4 (dn (B "www.test.com.")) (VUser (B "5")) ;;
  r6 <- dt_insert 200 r5 (dn (B ".")) (VUser (B "6")) ;;
  r7 <- dt_insert 200 r6 (dn (B "")) (VUser (B "7")) ;;
  e1 <- dt_enumerate 200 r ;; check (list_is pair_is e1 []) ;;;
  e1 <- dt_enumerate 200 r1 ;; check (list_is pair_is e1 [((B "com"), (B "1"))]) ;;;
  e1 <- dt_enumerate 200 r2 ;; check (list_is pair_is e1 [((B "com"), (B "1")); ((B "test.com"), (B "2"))]) ;;;
  e1 <- dt_enumerate 200 r3 ;; check (list_is pair_is e1 [((B "com"), (B "1")); ((B "test.com"), (B "2")); ((B "test.net"), (B "3"))]) ;;;
  e1 <- dt_enumerate 200 r4 ;; check (list_is pair_is e1 [((B "com"), (B "1")); ((B "test.com"), (B "2")); ((B "example.com"), (B "4")); ((B "test.net"), (B "3"))]) ;;;
  e1 <- dt_enumerate 200 r5 ;; check (list_is pair_is e1 [((B "com"), (B "1")); ((B "test.com"), (B "2")); ((B "www.test.com"), (B "5")); ((B "example.com"), (B "4")); ((B "test.net"), (B "3"))]) ;;;
  e1 <- dt_enumerate 200 r6 ;; check (list_is pair_is e1 [((B ""), (B "6")); ((B "com"), (B "1")); ((B "test.com"), (B "2")); ((B "www.test.com"), (B "5")); ((B "example.com"), (B "4")); ((B "test.net"), (B "3"))]) ;;;
  e1 <- dt_enumerate 200 r7 ;; check (list_is pair_is e1 [((B ""), (B "7")); ((B "com"), (B "1")); ((B "test.com"), (B "2")); ((B "www.test.com"), (B "5")); ((B "example.com"), (B "4")); ((B "test.net"), (B "3"))]) ;;;
  r <- dt_insert 200 r (dn (B "AbCdEfGhIjKlMnOpQrStUvWxYz.aBcDeFgHiJkLmNoPqRsTuVwXyZ")) (VUser (B "255")) ;;
  e1 <- dt_enumerate 200 r ;; check (list_is pair_is e1 [((B "abcdefghijklmnopqrstuvwxyz.abcdefghijklmnopqrstuvwxyz"), (B "255"))]) ;;;
  Ret tt.
Example TestInsert_passes : passes t_TestInsert = true.
Proof. vm_compute. reflexivity. Qed.

(** uintX/domaintree8/domaintree_test.go TestInplaceInsert *)
Definition t_TestInplaceInsert : prog unit :=
  r <- dt_new ;;
  e1 <- dt_enumerate 200 r ;; check (list_is pair_is e1 []) ;;;
  dt_inplace_insert 200 r (dn (B "com")) (VUser (B "1")) ;;;
  e1 <- dt_enumerate 200 r ;; check (list_is pair_is e1 [((B "com"), (B "1"))]) ;;;
  dt_inplace_insert 200 r (dn (B "test.com")) (VUser (B "2")) ;;;
  e1 <- dt_enumerate 200 r ;; check (list_is pair_is e1 [((B "com"), (B "1")); ((B "test.com"), (B "2"))]) ;;;
  dt_inplace_insert 200 r (dn (B "test.net")) (VUser (B "3")) ;;;
  e1 <- dt_enumerate 200 r ;; check (list_is pair_is e1 [((B "com"), (B "1")); ((B "test.com"), (B "2")); ((B "test.net"), (B "3"))]) ;;;
  dt_inplace_insert 200 r (dn (B "example.com")) (VUser (B "4")) ;;;
  e1 <- dt_enumerate 200 r ;; check (list_is pair_is e1 [((B "com"), (B "1")); ((B "test.com"), (B "2")); ((B "example.com"), (B "4")); ((B "test.net"), (B "3"))]) ;;;
  dt_inplace_insert 200 r (dn (B "www.test.com")) (VUser (B "5")) ;;;
  e1 <- dt_enumerate 200 r ;; check (list_is pair_is e1 [((B "com"), (B "1")); ((B "test.com"), (B "2")); ((B "www.test.com"), (B "5")); ((B "example.com"), (B "4")); ((B "test.net"), (B "3"))]) ;;;
  Ret tt.
Example TestInplaceInsert_passes : passes t_TestInplaceInsert = true.
Proof. vm_compute. reflexivity. Qed.

(** uintX/domaintree8/domaintree_test.go TestGet *)
Definition t_TestGet : prog unit :=
  r <- Ret (None : ptr) ;;
  x <- dt_get 200 r (dn (B "test.com")) ;;
  let v := x.1 in
  let ok := x.2 in
  check (negb ok) ;;;
  r <- dt_insert 200 r (dn (B "com")) (VUser (B "1")) ;;
  r <- dt_insert 200 r (dn (B "test.com")) (VUser (B "2")) ;;
  r <- dt_insert 200 r (dn (B "test.net")) (VUser (B "3")) ;;
  r <- dt_insert 200 r (dn (B "example.com")) (VUser (B "4")) ;;
  r <- dt_insert 200 r (dn (B "www.test.com")) (VUser (B "5")) ;;
  r <- dt_insert 200 r (dn (B "yet.another.test.com")) (VUser (B "6")) ;;
  x <- dt_get 200 r (dn (B "test.com")) ;;
  let v := x.1 in
  let ok := x.2 in
  check (ok && val_is v (B "2")) ;;;
  x <- dt_get 200 r (dn (B "www.test.com")) ;;
  let v := x.1 in
  let ok := x.2 in
  check (ok && val_is v (B "5")) ;;;
  x <- dt_get 200 r (dn (B "ns.test.com")) ;;
  let v := x.1 in
  let ok := x.2 in
  check (ok && val_is v (B "2")) ;;;
  x <- dt_get 200 r (dn (B "test.org")) ;;
  let v := x.1 in
  let ok := x.2 in
  check (negb ok) ;;;
  x <- dt_get 200 r (dn (B "nS.tEsT.cOm")) ;;
  let v := x.1 in
  let ok := x.2 in
  check (ok && val_is v (B "2")) ;;;
  x <- dt_get 200 r (dn (B "another.test.com")) ;;
  let v := x.1 in
  let ok := x.2 in
  check (ok && val_is v (B "2")) ;;;
  x <- dt_get 200 r (dn (B "yet.another.test.com")) ;;
  let v := x.1 in
  let ok := x.2 in
  check (ok && val_is v (B "6")) ;;;
  Ret tt.
Example TestGet_passes : passes t_TestGet = true.
Proof. vm_compute. reflexivity. Qed.

(** uintX/domaintree8/domaintree_test.go TestDeleteSubdomains *)
Definition t_TestDeleteSubdomains : prog unit :=
  r <- Ret (None : ptr) ;;
  x <- dt_delete_subdomains 200 r (dn (B "test.com")) ;;
  let r := x.1 in
  let ok := x.2 in
  check (negb ok) ;;;
  r <- dt_insert 200 r (dn (B "com")) (VUser (B "1")) ;;
  r <- dt_insert 200 r (dn (B "test.com")) (VUser (B "2")) ;;
  r <- dt_insert 200 r (dn (B "test.net")) (VUser (B "3")) ;;
  r <- dt_insert 200 r (dn (B "example.com")) (VUser (B "4")) ;;
  r <- dt_insert 200 r (dn (B "www.test.com")) (VUser (B "5")) ;;
  r <- dt_insert 200 r (dn (B "www.test.org")) (VUser (B "6")) ;;
  x <- dt_delete_subdomains 200 r (dn (B "ns.test.com")) ;;
  let r := x.1 in
  let ok := x.2 in
  check (negb ok) ;;;
  x <- dt_delete_subdomains 200 r (dn (B "test.com")) ;;
  let r := x.1 in
  let ok := x.2 in
  check (ok) ;;;
  x <- dt_delete_subdomains 200 r (dn (B "www.test.com")) ;;
  let r := x.1 in
  let ok := x.2 in
  check (negb ok) ;;;
  x <- dt_delete_subdomains 200 r (dn (B "com")) ;;
  let r := x.1 in
  let ok := x.2 in
  check (ok) ;;;
  e1 <- dt_enumerate 200 r ;; check (list_is pair_is e1 [((B "test.net"), (B "3")); ((B "www.test.org"), (B "6"))]) ;;;
  x <- dt_delete_subdomains 200 r (dn (B "test.net")) ;;
  let r := x.1 in
  let ok := x.2 in
  check (ok) ;;;
  x <- dt_delete_subdomains 200 r (dn (B "")) ;;
  let r := x.1 in
  let ok := x.2 in
  check (ok) ;;;
  x <- dt_delete_subdomains 200 r (dn (B "")) ;;
  let r := x.1 in
  let ok := x.2 in
  check (negb ok) ;;;
  r <- dt_insert 200 r (dn (B "com")) (VUser (B "1")) ;;
  r <- dt_insert 200 r (dn (B "test.com")) (VUser (B "2")) ;;
  r <- dt_insert 200 r (dn (B "test.net")) (VUser (B "3")) ;;
  r <- dt_insert 200 r (dn (B "example.com")) (VUser (B "4")) ;;
  r <- dt_insert 200 r (dn (B "www.test.com")) (VUser (B "5")) ;;
  r <- dt_insert 200 r (dn (B "www.test.org")) (VUser (B "6")) ;;
  x <- dt_delete_subdomains 200 r (dn (B "WwW.tEsT.cOm")) ;;
  let r := x.1 in
  let ok := x.2 in
  check (ok) ;;;
  Ret tt.
Example TestDeleteSubdomains_passes : passes t_TestDeleteSubdomains = true.
Proof. vm_compute. reflexivity. Qed.

(** uintX/domaintree8/domaintree_test.go TestDelete *)
Definition t_TestDelete : prog unit :=
  r <- Ret (None : ptr) ;;
  x <- dt_delete 200 r (dn (B "test.com")) ;;
  let r := x.1 in
  let ok := x.2 in
  check (negb ok) ;;;
  r <- dt_insert 200 r (dn (B "com")) (VUser (B "1")) ;;
  r <- dt_insert 200 r (dn (B "test.com")) (VUser (B "2")) ;;
  r <- dt_insert 200 r (dn (B "test.net")) (VUser (B "3")) ;;
  r <- dt_insert 200 r (dn (B "example.com")) (VUser (B "4")) ;;
  r <- dt_insert 200 r (dn (B "www.test.com")) (VUser (B "5")) ;;
  r <- dt_insert 200 r (dn (B "www.test.org")) (VUser (B "6")) ;;
  x <- dt_delete 200 r (dn (B "ns.test.com")) ;;
  let r := x.1 in
  let ok := x.2 in
  check (negb ok) ;;;
  x <- dt_delete 200 r (dn (B "test.com")) ;;
  let r := x.1 in
  let ok := x.2 in
  check (ok) ;;;
  x <- dt_delete 200 r (dn (B "www.test.com")) ;;
  let r := x.1 in
  let ok := x.2 in
  check (ok) ;;;
  x <- dt_delete 200 r (dn (B "com")) ;;
  let r := x.1 in
  let ok := x.2 in
  check (ok) ;;;
  e1 <- dt_enumerate 200 r ;; check (list_is pair_is e1 [((B "example.com"), (B "4")); ((B "test.net"), (B "3")); ((B "www.test.org"), (B "6"))]) ;;;
  x <- dt_delete 200 r (dn (B "test.net")) ;;
  let r := x.1 in
  let ok := x.2 in
  check (ok) ;;;
  x <- dt_delete 200 r (dn (B "")) ;;
  let r := x.1 in
  let ok := x.2 in
  check (negb ok) ;;;
  r <- dt_insert 200 r (dn (B "")) (VUser (B "1")) ;;
  e1 <- dt_enumerate 200 r ;; check (list_is pair_is e1 [((B ""), (B "1")); ((B "example.com"), (B "4")); ((B "www.test.org"), (B "6"))]) ;;;
  x <- dt_delete 200 r (dn (B "")) ;;
  let r := x.1 in
  let ok := x.2 in
  check (ok) ;;;
  e1 <- dt_enumerate 200 r ;; check (list_is pair_is e1 [((B "example.com"), (B "4")); ((B "www.test.org"), (B "6"))]) ;;;
  r <- dt_insert 200 r (dn (B "")) (VUser (B "1")) ;;
  x <- dt_delete 200 r (dn (B "example.com")) ;;
  let r := x.1 in
  let ok := x.2 in
  check (ok) ;;;
  x <- dt_delete 200 r (dn (B "www.test.org")) ;;
  let r := x.1 in
  let ok := x.2 in
  check (ok) ;;;
  x <- dt_delete 200 r (dn (B "")) ;;
  let r := x.1 in
  let ok := x.2 in
  check (ok) ;;;
  x <- dt_delete 200 r (dn (B "")) ;;
  let r := x.1 in
  let ok := x.2 in
  check (negb ok) ;;;
  r <- dt_insert 200 r (dn (B "com")) (VUser (B "1")) ;;
  r <- dt_insert 200 r (dn (B "test.com")) (VUser (B "2")) ;;
  r <- dt_insert 200 r (dn (B "test.net")) (VUser (B "3")) ;;
  r <- dt_insert 200 r (dn (B "example.com")) (VUser (B "4")) ;;
  r <- dt_insert 200 r (dn (B "www.test.com")) (VUser (B "5")) ;;
  r <- dt_insert 200 r (dn (B "www.test.org")) (VUser (B "6")) ;;
  x <- dt_delete 200 r (dn (B "WwW.tEsT.cOm")) ;;
  let r := x.1 in
  let ok := x.2 in
  check (ok) ;;;
  r <- Ret (None : ptr) ;;
  r <- dt_insert 200 r (dn (B "escaped.\\label.com")) (VUser (B "0")) ;;
  e1 <- dt_enumerate 200 r ;; check (list_is pair_is e1 [((B "escaped.\\label.com"), (B "0"))]) ;;;
  x <- dt_delete 200 r (dn (B "escaped.\\label.com")) ;;
  let r := x.1 in
  let ok := x.2 in
  check (ok) ;;;
  Ret tt.
Example TestDelete_passes : passes t_TestDelete = true.
Proof. vm_compute. reflexivity. Qed.
