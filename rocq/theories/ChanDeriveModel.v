(** * Callbacks of UpdateDescendants that go on calling the package, with the goroutines.
    iptree/iptree.go:119-183: while the callback makes new versions of the tree, or updates
    it or another tree again, the goroutine that sends the nodes of the first update is
    still walking; every update under way has such a goroutine. IpDeriveModel.v has the
    nodes collected first; here all run together. *)
From Verif Require Import Prog NumModel IpModel IpSpec IpHist IpVersSpec IpVersProofs Channel IpDeriveModel.
From Verif Require ChanUpdModel.
Open Scope nat_scope.

Section machine.
Context {U S R : Type}.
Local Notation heap := (heap U).
Local Notation stmt := (stmt U loc).
Local Notation gor := (gor U loc).

(** What the client's goroutine does, as in ChanUpdModel.v. It may allocate. [ARet s]: the
    body of the innermost loop under way ends with the state [s]; [AEnd r]: the client is
    done. *)
Inductive act :=
| AEnd (r : R)
| ARet (s : S)
| AFail
| AAlloc (c : cell U) (k : loc -> act)
| ALoad (l : loc) (k : cell U -> act)
| AStore (l : loc) (c : cell U) (k : act)
| ARange (p : stmt) (drop : option loc) (s : S) (body : S -> loc -> act) (k : S -> act).
Inductive frame := Frame (c : gor) (body : S -> loc -> act) (k : S -> act).
Inductive main := MRun (a : act) | MTest (l : loc) (s : S) | MDrop (s : S).

(** Where memory is allocated: [al h l] says that [l] may be taken. Any rule will do that
    always finds something and takes only what is free. *)
Variable al : heap -> loc -> Prop.
Definition allocator : Prop := (forall h, exists l, al h l) /\ forall h l, al h l -> h !! l = None.

(** One step of the client's goroutine, or of one of those it receives from. *)
Inductive cstep : heap * main * list frame -> heap * main * list frame -> Prop :=
| cs_alloc h c k l fs : al h l -> cstep (h, MRun (AAlloc c k), fs) (<[l := c]> h, MRun (k l), fs)
| cs_load h l k c fs : h !! l = Some c -> cstep (h, MRun (ALoad l k), fs) (h, MRun (k c), fs)
| cs_store h l c k fs : is_Some (h !! l) -> cstep (h, MRun (AStore l c k), fs) (<[l := c]> h, MRun k, fs)
| cs_range h p s body k fs :
    cstep (h, MRun (ARange p None s body k), fs) (h, MRun (ARet s), Frame (GDo p GRet) body k :: fs)
| cs_range_drop h p l s body k fs :
    cstep (h, MRun (ARange p (Some l) s body k), fs) (h, MTest l s, Frame (GDo p GRet) body k :: fs)
| cs_test h l s n fs : h !! l = Some (CNum n) ->
    cstep (h, MTest l s, fs) (h, if nn_leaf n then MDrop s else MRun (ARet s), fs)
| cs_drop h s c m c' body k fs : gstep h c (Some m) c' ->
    cstep (h, MDrop s, Frame c body k :: fs) (h, MRun (ARet s), Frame c' body k :: fs)
| cs_drop_closed h s body k fs :
    cstep (h, MDrop s, Frame GEnd body k :: fs) (h, MRun (ARet s), Frame GEnd body k :: fs)
| cs_recv h s c m c' body k fs : gstep h c (Some m) c' ->
    cstep (h, MRun (ARet s), Frame c body k :: fs) (h, MRun (body s m), Frame c' body k :: fs)
| cs_closed h s body k fs :
    cstep (h, MRun (ARet s), Frame GEnd body k :: fs) (h, MRun (k s), fs)
| cs_other h m fs1 c c' body k fs2 : gstep h c None c' ->
    cstep (h, m, fs1 ++ Frame c body k :: fs2) (h, m, fs1 ++ Frame c' body k :: fs2).

(** The client is about to write to a cell that one of the goroutines is about to read: then
    it writes to the field Value of a radix node, and the goroutine does not look at that. *)
Definition set_val (n : numnode U) (v : value U) : numnode U := NumN (nn_key n) (nn_bits n) (nn_leaf n) v (nn_c0 n) (nn_c1 n).
Definition no_race (st : heap * main * list frame) : Prop := forall h l c k fs p g body k',
  st = (h, MRun (AStore l c k), fs) -> Frame (GDo (SLoad l p) g) body k' ∈ fs ->
  exists n v, h !! l = Some (CNum n) /\ c = CNum (set_val n v) /\ forall w, p (CNum (set_val n w)) = p (CNum n).

(** However the goroutines are scheduled, and wherever memory is allocated, from [st] the
    client gets to its end, with no loop under way and every goroutine gone, with a result
    and a memory that satisfy [Q]: it cannot go on for ever, and cannot panic or block
    before. All states on the way satisfy [P]. *)
Inductive always (P : heap * main * list frame -> Prop) (Q : R -> heap -> Prop) : heap * main * list frame -> Prop :=
| al_end h r : Q r h -> always P Q (h, MRun (AEnd r), [])
| al_step st : P st -> (exists st', cstep st st') -> (forall st', cstep st st' -> always P Q st') -> always P Q st.

(** Sequential code as part of it. *)
Fixpoint ado {A} (m : prog U A) (k : A -> act) : act :=
  match m with
  | Ret a => k a
  | Fail _ => AFail
  | Alloc c f => AAlloc c (fun l => ado (f l) k)
  | Load l f => ALoad l (fun c => ado (f c) k)
  | Store l c f => AStore l c (ado f k)
  end.

(** ** UpdateDescendants. [cbk s x k]: the callback, then [k] with the new state and what
    it returned. *)
Section update.
Variable cbk : S -> pair_ (U := U) -> (S -> option (value U) -> act) -> act.
(** 112-115, 133-136: "if v, ok := f(...); ok { n.Value = v }". The node is read again:
    the assignment changes Value of what is there then. *)
Definition c_node (mk : numnode U -> pair_) (s : S) (l : loc) (k : S -> act) : act :=
  ado (ld_num (Some l)) (fun nn => cbk s (mk nn) (fun s r =>
    match r with
    | Some v => ado (nn <- ld_num (Some l) ;; st_num (Some l) (NumN (nn_key nn) (nn_bits nn) (nn_leaf nn) v (nn_c0 nn) (nn_c1 nn))) (fun _ => k s)
    | None => k s
    end)).
(** 172-181 *)
Definition c_top (s : S) (l : loc) (k : S -> act) : act :=
  ado (ld_num (Some l)) (fun nn =>
    match nn_val nn with
    | VSub p => ARange (ChanUpdModel.s_n_ptrs c64 p) None s (fun s l => c_node (pair6s (msip nn)) s l ARet) k
    | _ => c_node pair6 s l k
    end).
(** 119-183 *)
Definition c_update (t : ptr) (n : ipnet) (s : S) (k : S -> act) : act :=
  match n with
  | None => AFail
  | Some n =>
    match ip4_key n with
    | Some (key, bits) =>
      ado (r <- ld_ip t ;; n_find_node c32 r.1 key (Z.of_N bits)) (fun target =>
      match target with
      | None => k s
      | Some l => ARange (ChanUpdModel.s_n_ptrs c32 target) (Some l) s (fun s l => c_node pair4 s l ARet) k
      end)
    | None =>
      match ip6_key n with
      | Some (mskey, msbits, lskey, lsbits) =>
        ado (r <- ld_ip t ;; n_find_node c64 r.2 mskey (Z.of_N msbits)) (fun target =>
        match target with
        | None => k s
        | Some l =>
          ado (ld_num target) (fun tn =>
          match nn_val tn with
          | VSub p =>
            ado (pn <- ld_num p ;;
                 if (N.eqb (nn_key pn) lskey) && (N.eqb (nn_bits pn) lsbits) then Ret p
                 else n_find_node c64 p lskey (Z.of_N lsbits)) (fun target =>
            match target with
            | None => k s
            | Some l => ARange (ChanUpdModel.s_n_ptrs c64 target) (Some l) s (fun s l => c_node (pair6s (unpack64 mskey ++ repeat x00 8)) s l ARet) k
            end)
          | _ => ARange (ChanUpdModel.s_n_ptrs c64 target) (Some l) s (fun s l => c_top s l ARet) k
          end)
        end)
      | None => k s
      end
    end
  end.
End update.
End machine.
Arguments act : clear implicits.
Arguments main : clear implicits.
Arguments frame : clear implicits.

(** ** The clients of IpDeriveModel.v. The state of a loop: the versions made so far and the
    state of the callback. (What is read through an Enumerate of a callback is read at
    once: the goroutines do not write, and the client waits for it.) *)
Section clients.
Context {U St R : Type}.
Local Notation S := (list ptr * St)%type.
Local Notation act := (act U S R).
Fixpoint c_script (vs : list ptr) (m : script (value U) St) (k : S -> option (value U) -> act) : act :=
  match m with
  | SDone s r => k (vs, s) r
  | SCall o f => ado (ip_exec vs o) (fun x => c_script x.1 (f x.2) k)
  | SUpdate i n cb s f =>
    match nth i vs None with
    | None => c_script vs (f s) k
    | Some a => c_update (fun st x k => c_script st.1 (cb st.2 x) k) (Some a) (Some n) (vs, s) (fun st => c_script st.1 (f st.2) k)
    end
  end.
Fixpoint c_client (vs : list ptr) (m : client (value U) St R) : act :=
  match m with
  | CDone a => AEnd a
  | CCall o f => ado (w_exec vs o) (fun x => c_client x.1 (f x.2))
  | CUpdate i n cb s f =>
    match nth i vs None with
    | None => c_client vs (f s)
    | Some a => c_update (fun st x k => c_script st.1 (cb st.2 x) k) (Some a) (Some n) (vs, s) (fun st => c_client st.1 (f st.2))
    end
  end.
End clients.
