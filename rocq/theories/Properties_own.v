(** * Property C75: goroutines with trees of their own need no locks. *)
(** Gor.v: any number of goroutines run whole clients in one memory; their accesses
    interleave in any order ([gstep]). [going_well h h' c g]: what is left of the client
    [c], which began in memory [h], can go on, or it has a result; that result is as the
    client says, and the client has it also when it runs alone. *)
From Verif Require Import Prog History RbModel RbSpec RbFun RbSim RbSimOps RbAbs StrSpec StrAbs StrPropProofs.
From Verif Require Import DomModel DomSpec DomPropProofs DlModel DlSpec DlAbs DlPropProofs NumModel NumSim NumSpec NumAbs NumPropProofs.
From Verif Require Import IpModel IpSpec IpUpdSpec IpHist IpPropProofs UxModel UxSpec UxHist Handle RbHandle IpHandle.
From Verif Require Import DtModel DtSpec DtAbs DtOwnSpec DtOwnAbs VersSpec VersProofs IpVersSpec IpAllSpec IpAllProofs StaleSpec RbStaleProofs Concurrent Gor OwnProofs.
From Coq Require Import String.
Open Scope nat_scope.

(** C75: no call of any package panics or is stuck, there is no data race, all answers are
    those of the specifications, and nothing that was in memory before is changed. The
    packages have no state that trees could share.

    [tree_client] (OwnProofs.v): a client makes trees of one package and calls all their
    methods, also the ones that work in place, as in C53, C56, C71, C73 and C74. *)
Theorem C75_own : forall U (h : heap U) (cs : list (client U)) gs h', Forall tree_client cs -> rtc gstep (map begun cs, h) (gs, h') ->
  Forall2 (going_well h h') cs gs /\ ~ g_race gs /\ h ⊆ h'.
Proof. exact @pf_own. Qed.
Print Assumptions C75_own.

(** C75: however the goroutines are scheduled, they all end. *)
Theorem C75_end : forall U (gs : list (gor U)), Acc (fun gs' gs => exists h h', gstep (gs, h) (gs', h')) gs.
Proof. exact @all_end. Qed.
Print Assumptions C75_end.

(** C75: the same for any clients that write only to memory of their own, for example
    such that read or copy trees that all of them share. *)
Theorem C75_any : forall U (h : heap U) (cs : list (client U)) gs h', Forall (starts h) cs -> rtc gstep (map begun cs, h) (gs, h') ->
  Forall2 (going_well h h') cs gs /\ ~ g_race gs /\ h ⊆ h'.
Proof. exact @own_goroutines. Qed.
Print Assumptions C75_any.

(** ** Three goroutines, each making one access in turn: one has a string tree and inserts
    in place, one has a 32 bit radix tree of which it changes an older version in place,
    one has an address tree. *)
Definition B : string -> bytes := list_byte_of_string.
Definition own_str : list (hop (sop (value nat)) (bytes * value nat)) :=
  [ HInplace (B "b", VUser 1); HCall (SInsert 0 (B "a") (VUser 2)); HInplace (B "c", VUser 3); HCall (SDelete 0 (B "b")); HCall (SEnumerate 0) ].
Definition own_num : list (vop nat) :=
  [ VCall (NInsert 0 5%N 32%Z (VUser 1)); VInplace 1 6%N 32%Z (VUser 2); VCall (NInsert 1 6%N 31%Z (VUser 3)); VInplace 1 7%N 32%Z (VUser 4); VCall (NEnumerate 2) ].
Definition own_ip : list (aop (value nat) nat) :=
  [ AOp (WCall (IBuild [(KAddr [Byte.x0a; Byte.x00; Byte.x00; Byte.x01], VUser 1)]));
    AOp (WInplace 0 (KAddr [Byte.x0a; Byte.x00; Byte.x00; Byte.x02]) (VUser 2)); AOp (WCall (IEnumerate 0)) ].
Definition own_clients : list (client nat) :=
  [ Client _ (p <- str_new_custom (Some str_compare) ;; run_handle (str_exec 20) (str_inplace 20) own_str p)
      (fun r => exists m', h_spec (s_one str_compare) s_mut own_str (str_compare, []) m' r.2);
    Client _ (run_hist (v_exec c32) own_num [None]) (fun r => exists ms, spec_run (vstep (cW c32)) own_num [∅] ms r.2);
    Client _ (run_hist a_exec own_ip []) (fun r => exists ids gs, aspec 0 [] [] own_ip r.2 ids gs) ].
Example own_clients_ok : Forall tree_client own_clients.
Proof.
  repeat constructor; apply str_compare_lawful.
Qed.
(** This run ends, after more than 100 accesses. *)
Definition own_end : list (gor nat) * heap nat := g_rounds 120 [0; 1; 2] 1%positive (map begun own_clients, ∅).
Example own_run : rtc gstep (map begun own_clients, ∅) (own_end.1, own_end.2) /\ map g_ended own_end.1 = [true; true; true].
Proof. split; [|vm_compute; reflexivity]. rewrite <-surjective_pairing. apply g_rounds_sound. Qed.
