(** * Model of package dltree: the operations on labels in text form. The node
    functions and the operations on binary labels are in RbModel.v. *)
From Verif Require Import Prog RbModel DomModel.

Section model.
Context {U : Type}.
Local Notation prog := (prog U).
Local Notation value := (value U).

(** [dl, _ := domain.MakeLabel(key)]: dltree/dltree.go:32, 51, 66, 119 *)
Definition dl_key (key : bytes) : prog bytes :=
  match label_or_empty key with Some dl => Ret dl | None => Fail EPanic end.
(** dltree/dltree.go:23-34 Insert *)
Definition dl_insert (fuel : nat) (t : ptr) (key : bytes) (v : value) : prog ptr :=
  n <- dl_root t ;;
  dl <- dl_key key ;;
  x <- insert dlc fuel n dl v ;;
  a <- alloc (CDl x) ;; Ret (Some a).
(** dltree/dltree.go:50-53 InplaceInsert *)
Definition dl_inplace_insert (fuel : nat) (t : ptr) (key : bytes) (v : value) : prog unit :=
  dl <- dl_key key ;;
  n <- ld_dl t ;;
  x <- inplace_insert dlc fuel n dl v ;;
  store t (CDl x).
(** dltree/dltree.go:61-68 Get *)
Definition dl_get (fuel : nat) (t : ptr) (key : bytes) : prog (value * bool) :=
  match t with
  | None => Ret (VNil, false)
  | Some _ => dl <- dl_key key ;; n <- ld_dl t ;; get dlc fuel n dl
  end.
(** dltree/dltree.go:114-122 Delete *)
Definition dl_delete (fuel : nat) (t : ptr) (key : bytes) : prog (ptr * bool) :=
  match t with
  | None => Ret (None, false)
  | Some _ =>
    dl <- dl_key key ;;
    n <- ld_dl t ;;
    x <- del dlc fuel n dl ;;
    a <- alloc (CDl x.1) ;; Ret (Some a, x.2)
  end.
(** dltree/node.go:308-318 enumerate: the pairs sent to the channel. *)
Fixpoint dl_node_enumerate (fuel : nat) (n : ptr) : prog (list (bytes * value)) :=
  match n with
  | None => Ret []
  | Some _ =>
    match fuel with
    | O => Fail EFuel
    | S fuel =>
      nn <- ld_rb n ;;
      l <- dl_node_enumerate fuel (rb_l nn) ;;
      k <- match make_human_label (rb_key nn) with Some k => Ret k | None => Fail EIndex end ;;
      r <- dl_node_enumerate fuel (rb_r nn) ;;
      Ret (l ++ (k, rb_val nn) :: r)
    end
  end.
(** dltree/dltree.go:80-94 Enumerate *)
Definition dl_enumerate (fuel : nat) (t : ptr) : prog (list (bytes * value)) :=
  match t with
  | None => Ret []
  | Some _ => n <- ld_dl t ;; dl_node_enumerate fuel n
  end.
End model.
