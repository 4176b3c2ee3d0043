(** * UpdateDescendants with the goroutines it receives from.
    iptree/iptree.go:119-183 writes into the nodes that another goroutine sends it
    while that goroutine is still walking the tree. IpModel.v has the nodes
    collected first; here both run together. *)
From Verif Require Import Prog NumModel IpModel Channel.
Open Scope nat_scope.

Section machine.
Context {U St : Type}.
Local Notation heap := (heap U).
Local Notation stmt := (stmt U loc).
Local Notation gor := (gor U loc).

(** What the updating goroutine does. [ARange p drop s body k]: start a goroutine
    executing [p]; if [drop] is a leaf, receive and forget one message; then
    "for n := range ch { s = body s n }", and go on with [k s]. [s]: the state of
    the callback. *)
Inductive act :=
| ARet (s : St)
| AFail
| ALoad (l : loc) (k : cell U -> act)
| AStore (l : loc) (c : cell U) (k : act)
| ARange (p : stmt) (drop : option loc) (s : St) (body : St -> loc -> act) (k : St -> act).

(** A loop under way: the goroutine it receives from, its body, what follows. *)
Inductive frame := Frame (c : gor) (body : St -> loc -> act) (k : St -> act).
(** [MTest l s]: about to read Leaf of [l]; [MDrop s]: about to receive the message
    to be forgotten; [MRun (ARet s)] with a loop under way: at the head of it. *)
Inductive main := MRun (a : act) | MTest (l : loc) (s : St) | MDrop (s : St).

(** One step of the updating goroutine, or of one that it receives from. *)
Inductive cstep : heap * main * list frame -> heap * main * list frame -> Prop :=
| cs_load h l k c fs : h !! l = Some c -> cstep (h, MRun (ALoad l k), fs) (h, MRun (k c), fs)
| cs_store h l c k fs : is_Some (h !! l) -> cstep (h, MRun (AStore l c k), fs) (<[l := c]> h, MRun k, fs)
| cs_range h p s body k fs :
    cstep (h, MRun (ARange p None s body k), fs) (h, MRun (ARet s), Frame (GDo p GRet) body k :: fs)
| cs_range_drop h p l s body k fs :
    cstep (h, MRun (ARange p (Some l) s body k), fs) (h, MTest l s, Frame (GDo p GRet) body k :: fs)
| cs_test h l s n fs : h !! l = Some (CNum n) ->
    cstep (h, MTest l s, fs) (h, if nn_leaf n then MDrop s else MRun (ARet s), fs)
| cs_drop h s c m c' body k fs : gstep h c (Some m) c' ->
    cstep (h, MDrop s, Frame c body k :: fs) (h, MRun (ARet s), Frame c' body k :: fs)
| cs_drop_closed h s body k fs :
    cstep (h, MDrop s, Frame GEnd body k :: fs) (h, MRun (ARet s), Frame GEnd body k :: fs)
| cs_recv h s c m c' body k fs : gstep h c (Some m) c' ->
    cstep (h, MRun (ARet s), Frame c body k :: fs) (h, MRun (body s m), Frame c' body k :: fs)
| cs_closed h s body k fs :
    cstep (h, MRun (ARet s), Frame GEnd body k :: fs) (h, MRun (k s), fs)
| cs_other h m fs1 c c' body k fs2 : gstep h c None c' ->
    cstep (h, m, fs1 ++ Frame c body k :: fs2) (h, m, fs1 ++ Frame c' body k :: fs2).

(** Sequential code as part of it. (Nothing is allocated here.) *)
Fixpoint ado {A} (m : prog U A) (k : A -> act) : act :=
  match m with
  | Ret a => k a
  | Fail _ => AFail
  | Load l f => ALoad l (fun c => ado (f c) k)
  | Store l c f => AStore l c (ado f k)
  | Alloc _ _ => AFail
  end.
End machine.
Arguments act : clear implicits.
Arguments main : clear implicits.
Arguments frame : clear implicits.

Section model.
Context {U St : Type}.
(** The callback may read the memory. (What it reads through an Enumerate of its
    own is read at once: nobody writes before it returns.) *)
Variable cb : St -> pair_ (U := U) -> prog U (St * option (value U)).
Local Notation stmt := (stmt U loc).
Local Notation act := (act U St).

(** numtree/node32.go:307-320; as ChanModel.s_enumerate_, with the pointers only:
    what they point to is read by the receiver. *)
Fixpoint s_ptrs (fuel : nat) (n : ptr) : stmt :=
  match fuel, n with
  | O, _ | _, None => SFail
  | S fuel, Some l => SLoad l (fun c =>
      match c with
      | CNum nn =>
        SSeq (if nn_leaf nn then SSend l else SSkip)
       (SSeq (match nn_c0 nn with None => SSkip | Some _ => s_ptrs fuel (nn_c0 nn) end)
             (match nn_c1 nn with None => SSkip | Some _ => s_ptrs fuel (nn_c1 nn) end))
      | _ => SFail
      end)
  end.
(** numtree/node32.go:91-101 *)
Definition s_n_ptrs (c : cfg) (n : ptr) : stmt :=
  match n with None => SSkip | Some _ => s_ptrs (nfuel c) n end.

(** iptree/iptree.go:130-136 and 96-116 *)
Definition c_node (mk : numnode U -> pair_) (s : St) (l : loc) : act := ado (upd_node cb mk s l) ARet.
(** 172-181: the body of the loop over the upper tree. *)
Definition c_top (s : St) (l : loc) : act :=
  ado (ld_num (Some l)) (fun nn =>
    match nn_val nn with
    | VSub p => ARange (s_n_ptrs c64 p) None s (c_node (pair6s (msip nn))) ARet
    | _ => c_node pair6 s l
    end).
(** 119-183 *)
Definition c_ip_update_by (t : ptr) (n : ipnet) (s : St) : act :=
  match n with
  | None => AFail
  | Some n =>
    match ip4_key n with
    | Some (key, bits) =>
      ado (r <- ld_ip t ;; n_find_node c32 r.1 key (Z.of_N bits)) (fun target =>
      match target with
      | None => ARet s
      | Some l => ARange (s_n_ptrs c32 target) (Some l) s (c_node pair4) ARet
      end)
    | None =>
      match ip6_key n with
      | Some (mskey, msbits, lskey, lsbits) =>
        ado (r <- ld_ip t ;; n_find_node c64 r.2 mskey (Z.of_N msbits)) (fun target =>
        match target with
        | None => ARet s
        | Some l =>
          ado (ld_num target) (fun tn =>
          match nn_val tn with
          | VSub p =>
            ado (pn <- ld_num p ;;
                 if (N.eqb (nn_key pn) lskey) && (N.eqb (nn_bits pn) lsbits) then Ret p
                 else n_find_node c64 p lskey (Z.of_N lsbits)) (fun target =>
            match target with
            | None => ARet s
            | Some l => ARange (s_n_ptrs c64 target) (Some l) s (c_node (pair6s (unpack64 mskey ++ repeat x00 8))) ARet
            end)
          | _ => ARange (s_n_ptrs c64 target) (Some l) s c_top ARet
          end)
        end)
      | None => ARet s
      end
    end
  end.
End model.
(** With a callback that does not look at the memory. *)
Definition c_ip_update {U St} (cb : St -> pair_ (U := U) -> St * option (value U)) := c_ip_update_by (fun s x => Ret (cb s x)).
