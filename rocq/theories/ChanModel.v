(** * The goroutines of the Enumerate methods. *)
From Verif Require Import Prog RbModel NumModel DomModel DlModel DtModel IpModel UxModel Channel.
Open Scope nat_scope.

(** What is sent: a Pair of strtree, dltree or domaintree; a *Node32 or *Node64
    (with the node it points to); a Pair of iptree. *)
Inductive msg (U : Type) :=
| MKv (k : bytes) (v : value U)
| MNode (l : loc) (n : numnode U)
| MNet (ip mask : bytes) (v : value U).
Global Arguments MKv {U}.
Global Arguments MNode {U}.
Global Arguments MNet {U}.

Section model.
Context {U : Type}.
Local Notation value := (value U).
Local Notation stmt := (stmt U (msg U)).

(** Reading memory in a goroutine. (The code modelled here never allocates or
    stores.) *)
Fixpoint sdo {A} (m : prog U A) (k : A -> stmt) : stmt :=
  match m with
  | Ret a => k a
  | Fail _ => SFail
  | Load l f => SLoad l (fun c => sdo (f c) k)
  | Alloc _ _ | Store _ _ _ => SFail
  end.

(** strtree/node.go:295-305, dltree/node.go:308-318 and 320-330. [label] is the
    conversion of the key, none or MakeHumanReadableLabel. *)
Section rb.
Variable label : bytes -> prog U bytes.
Fixpoint s_node_enumerate (fuel : nat) (n : ptr) : stmt :=
  match n with
  | None => SSkip
  | Some _ =>
    match fuel with
    | O => SFail
    | S fuel =>
      sdo (ld_rb n) (fun nn =>
      SSeq (s_node_enumerate fuel (rb_l nn))
     (SSeq (sdo (label (rb_key nn)) (fun k => SSend (MKv k (rb_val nn))))
           (s_node_enumerate fuel (rb_r nn))))
    end
  end.
End rb.
Definition human (k : bytes) : prog U bytes := match make_human_label k with Some k => Ret k | None => Fail EIndex end.
(** strtree/strtree.go:66-74, dltree/dltree.go:83-91 and 100-108: the goroutine. *)
Definition s_str_enumerate (fuel : nat) (t : ptr) : stmt :=
  match t with None => SSkip | Some _ => sdo (ld_str t) (fun r => s_node_enumerate (fun k => Ret k) fuel r.1) end.
Definition s_dl_raw_enumerate (fuel : nat) (t : ptr) : stmt :=
  match t with None => SSkip | Some _ => sdo (ld_dl t) (fun r => s_node_enumerate (fun k => Ret k) fuel r) end.
Definition s_dl_enumerate (fuel : nat) (t : ptr) : stmt :=
  match t with None => SSkip | Some _ => sdo (ld_dl t) (fun r => s_node_enumerate human fuel r) end.

(** numtree/node32.go:307-320 *)
Fixpoint s_enumerate_ (fuel : nat) (n : ptr) : stmt :=
  match fuel with O => SFail | S fuel =>
  match n with
  | None => SFail
  | Some l =>
    sdo (ld_num n) (fun nn =>
    SSeq (if nn_leaf nn then SSend (MNode l nn) else SSkip)
   (SSeq (match nn_c0 nn with None => SSkip | Some _ => s_enumerate_ fuel (nn_c0 nn) end)
         (match nn_c1 nn with None => SSkip | Some _ => s_enumerate_ fuel (nn_c1 nn) end)))
  end end.
(** numtree/node32.go:91-101 *)
Definition s_n_enumerate (c : cfg) (n : ptr) : stmt :=
  match n with None => SSkip | Some _ => s_enumerate_ (nfuel c) n end.

(** domaintree/domaintree.go:195-215 *)
Fixpoint s_dt_node_enumerate (fuel depth : nat) (s : bytes) (n : ptr) : stmt :=
  match n with
  | None => SSkip
  | Some _ =>
    match depth with
    | O => SFail
    | S depth =>
      sdo (ld_dom n) (fun nn =>
      SSeq (if dn_has nn then SSend (MKv s (dn_val nn)) else SSkip)
           (SRange (s_dl_enumerate fuel (dn_branches nn)) (fun m =>
              match m with
              | MKv key v =>
                let sub := match s with [] => key | _ => key ++ dot :: s end in
                sdo (as_node v) (fun node => s_dt_node_enumerate fuel depth sub node)
              | _ => SFail
              end)))
    end
  end.
(** domaintree/domaintree.go:82-85 *)
Definition s_dt_enumerate (fuel : nat) (n : ptr) : stmt := s_dt_node_enumerate fuel fuel [] n.

(** iptree/iptree.go:26-30: a Pair as it is sent: the network (address and mask) and the value. *)
Definition net_msg (p : pair_ (U := U)) : msg U := MNet p.1.1 p.1.2 p.2.
(** iptree/iptree.go:233-241 and 330-361 *)
Definition s_ip_enumerate (t : ptr) : stmt :=
  match t with
  | None => SSkip
  | Some _ =>
    sdo (ld_ip t) (fun r =>
    SSeq (SRange (s_n_enumerate c32 r.1) (fun m => match m with MNode _ n => SSend (net_msg (pair4 n)) | _ => SFail end))
         (SRange (s_n_enumerate c64 r.2) (fun m =>
            match m with
            | MNode _ n =>
              match nn_val n with
              | VSub s => SRange (s_n_enumerate c64 s) (fun m' => match m' with MNode _ n' => SSend (net_msg (pair6s (msip n) n')) | _ => SFail end)
              | _ => SSend (net_msg (pair6 n))
              end
            | _ => SFail
            end)))
  end.
(** uintX/iptree8/iptree.go:110-118 and 195-217 *)
Definition s_ux_enumerate (t : ptr) : stmt :=
  match t with
  | None => SSkip
  | Some _ =>
    sdo (ld_ip t) (fun r =>
    SSeq (SRange (s_n_enumerate c32 r.1) (fun m => match m with MNode _ n => SSend (net_msg (pair4 n)) | _ => SFail end))
         (SRange (s_n_enumerate c64 r.2) (fun m =>
            match m with
            | MNode _ n => SRange (s_n_enumerate c64 (sub_of (nn_val n))) (fun m' => match m' with MNode _ n' => SSend (net_msg (ux_pair6 n n')) | _ => SFail end)
            | _ => SFail
            end)))
  end.
End model.
