(** * Property C85: reading one version of a radix tree while another one is changed. *)
(** One goroutine makes a call, any number of others read a version [j], or a node kept from it, each; [astep] (ApartProofs.v)
    interleaves them at single memory accesses. [asafe]: no two of them are about to access the
    same cell with one of them writing it, and none is stuck or panics.
    [y_all], [y_exec], [y_hist]: the client of C83. [apart] (ApartSpec.v): if the call is
    InplaceInsert, its tree and version [j] do not have the part around the prefix from the same call
    (see C79); if it sets the Value of a kept node, version [j] does not have this entry
    from the same call (see C83); all other calls are allowed. *)
From Verif Require Import Prog History NumModel NumSpec NumAbs NumPropProofs NumNavSpec VersSpec VersProofs StampSpec HandleSpec HandleProofs LoopProofs ApartSpec NumSim.
From Verif Require Import Concurrent ApartProofs Properties_kept.
Open Scope nat_scope.

(** C85: after any calls: the goroutine that changes and those that read never race; each reader
    gets the answer that its version gave before; the call and all later ones behave as if it had
    been made alone. *)
Theorem C85_apart : forall U c (h : heap U) (ops : list (yop U)), num_cfg c -> Forall (yop_ok (cW c)) ops ->
  wp (y_all c ops [None] []) h (dom h) (fun r h1 _ => exists gs hs, yrun (cW c) 1 ops [ver0 U] [] gs hs r.2 /\
    forall o rds, yop_ok (cW c) o -> Forall (fun x => yop_ok (cW c) x /\ exists j, reads hs j x /\ apart (cW c) gs hs j o) rds ->
    forall st, rtc astep (h1, y_exec c r.1.1 r.1.2 o, map (y_exec c r.1.1 r.1.2) rds) st -> asafe st /\
      (forall m x, st.2 !! m = Some (Ret x) -> exists rd hs', rds !! m = Some rd /\ ystep (cW c) (S (length ops)) gs hs rd gs hs' x.2) /\
      (forall x, st.1.2 = Ret x -> exists gs1 hs1, ystep (cW c) (S (length ops)) gs hs o gs1 hs1 x.2 /\
         forall ops2, Forall (yop_ok (cW c)) ops2 ->
           wp (y_hist c ops2 x.1.1 x.1.2) st.1.1 (dom st.1.1) (fun r2 _ _ => exists gs' hs', yrun (cW c) (S (S (length ops))) ops2 gs1 hs1 gs' hs' r2))).
Proof. intros U c h ops Hc. exact (pf_apart c (num_cfg_ok c Hc) h ops). Qed.
Print Assumptions C85_apart.

(** C85: they all end: no run goes on for ever. With [asafe], every run that cannot go on has
    the results of all goroutines. *)
Theorem C85_ends : forall U A B (st : heap U * prog U A * list (prog U B)), Acc (fun y x => astep x y) st.
Proof. exact @astep_acc. Qed.
Print Assumptions C85_ends.

(** C85: b := a.Insert(key, bits, v). Then b.InplaceInsert(key, bits, v') may run while others
    read any version that was there before. *)
Theorem C85_own : forall U W ops (gs gs1 : list (ver U)) hs hs1 outs x i key bits v v' j,
  yrun W 1 ops [ver0 U] [] gs hs outs -> ystep W (S (length ops)) gs hs (YCall (VCall (NInsert i key bits v))) gs1 hs1 x ->
  j < length gs -> apart W gs1 hs1 j (YCall (VInplace (length gs) key bits v')).
Proof. exact @pf_own. Qed.
Print Assumptions C85_own.

(** C85: n is a node kept from any tree; b := a.Insert(key, bits, v) where the prefix of n contains
    that of the insertion. Then n.Value may be set while others read b. *)
Theorem C85_value : forall U W ops (gs gs1 : list (ver U)) hs hs1 outs x i key bits v v' m i0 q,
  yrun W 1 ops [ver0 U] [] gs hs outs -> ystep W (S (length ops)) gs hs (YCall (VCall (NInsert i key bits v))) gs1 hs1 x ->
  nth m hs None = Some (i0, q) -> covers q (norm W key (adj W bits)) -> apart W gs1 hs1 (length gs) (YSet m v').
Proof. exact @pf_own_value. Qed.
Print Assumptions C85_value.

(** C85: without [apart] there may be a race. The versions of [hd_all_run]: 2 has 10.0.0.0/8 and
    10.1.0.0/16, 3 in addition 10.2.0.0/16. 10.1.1.0/24 is inserted into 2 in place while 3 is
    enumerated; both are about to access the node of 10.1.0.0/16. *)
Definition rc_state : heap nat * prog nat (list ptr * list ptr * nout nat) * list (prog nat (list ptr * list ptr * nout nat)) :=
  match run (y_all c32 hd_ops1 [None] []) ∅ 1%positive with
  | (inl r, h1, _) => (h1, y_exec c32 r.1.1 r.1.2 (YCall (VInplace 2 0x0a010100 24 (VUser 9))), map (y_exec c32 r.1.1 r.1.2) [YCall (VCall (NEnumerate 3))])
  | (_, h1, _) => (h1, Ret ([], [], ONone), [])
  end.
Theorem C85_needed : exists st, rtc astep rc_state st /\ arace st.
Proof.
  exists (fold_left choose (repeat (None, 100%positive) 4 ++ repeat (Some 0, 1%positive) 2) rc_state). split; [apply choose_sound|].
  apply (clash_sound _ 0). vm_compute. reflexivity.
Qed.
Print Assumptions C85_needed.

(** ** A case of [C85_apart] with a write to a tree that shares nodes with the one that is read:
    10.2.0.0/16 is set again in version 3 while version 2 is enumerated, versions 2 and 1 are
    searched and the node of 10.1.0.0/16 of version 2 (which version 3 has, too) is read; the
    accesses alternate. The readers get what their versions have. *)
Definition ap_ops0 : list (yop nat) := hd_ops0 ++ [YFind 2 0x0a010000 16].
Definition ap_ops : list (yop nat) := ap_ops0 ++ [YCall (VCall (NInsert 2 0x0a020000 16 (VUser 3)))].
Definition ap_reads : list (yop nat) := [YCall (VCall (NEnumerate 2)); YCall (VCall (NExact 2 0x0a020000 16)); YCall (VCall (NMatch 1 0x0a020000 16)); YGet 0; YFind 1 0x0a000000 8].
Example ap_met : exists gs hs outs, yrun 32 1 ap_ops [ver0 nat] [] gs hs outs /\
  Forall (fun x => yop_ok 32 x /\ exists j, reads hs j x /\ apart 32 gs hs j (YCall (VInplace 3 0x0a020000 16 (VUser 9)))) ap_reads.
Proof.
  destruct (C83_results nat c32 ap_ops) as (outs & gs & hs & H & _); [by left|by repeat constructor|]. exists gs, hs, outs. split; [exact H|].
  cbn [ap_ops ap_ops0 hd_ops0 app] in H. destruct outs as [|y1 [|y2 [|y3 [|y4 [|]]]]]; try (cbn [yrun] in H; naive_solver).
  destruct H as (g1 & h1 & H1 & g2 & h2 & H2 & g3 & h3 & H3 & g4 & h4 & H4 & [-> ->]).
  assert (Hl : length g3 = 3 /\ forall i q, nth 0 h4 None = Some (i, q) -> i = 2).
  { inversion H1 as [? ? ? S1| | | | | |]; subst. inversion S1; subst. inversion H2 as [? ? ? S2| | | | | |]; subst. inversion S2; subst. inversion H3; subst. inversion H4; subst. split; [done|].
    intros i q. cbn [nth app]. unfold found. destruct (content _ !! _); [|done]. by intros [= <- _]. }
  destruct Hl as [Hl Hh]. pose proof (C85_own nat 32 ap_ops0 g3 g4 h3 h4 [y1; y2; y3] y4 2 0x0a020000 16 (VUser 3) (VUser 9)) as Ho. rewrite Hl in Ho.
  assert (Hp : yrun 32 1 ap_ops0 [ver0 nat] [] g3 h3 [y1; y2; y3]) by (exists g1, h1; split; [exact H1|]; exists g2, h2; split; [exact H2|]; exists g3, h3; split; [exact H3|]; done).
  assert (Hj : forall j, j < 3 -> apart 32 g4 h4 j (YCall (VInplace 3 0x0a020000 16 (VUser 9)))) by (intros j Hj; by apply Ho).
  assert (Hg : reads (U := nat) h4 2 (YGet 0)). { cbn [reads]. destruct (nth 0 h4 None) as [[i q]|]; [|done]. by apply (Hh i q). }
  repeat (apply List.Forall_cons; [split; [done|]|]); [exists 2|exists 2|exists 1|exists 2|exists 1|by constructor]; (split; [done|]; apply Hj; lia).
Qed.
Definition ap_state : heap nat * prog nat (list ptr * list ptr * nout nat) * list (prog nat (list ptr * list ptr * nout nat)) :=
  match run (y_all c32 ap_ops [None] []) ∅ 1%positive with
  | (inl r, h1, _) => (h1, y_exec c32 r.1.1 r.1.2 (YCall (VInplace 3 0x0a020000 16 (VUser 9))), map (y_exec c32 r.1.1 r.1.2) ap_reads)
  | (_, h1, _) => (h1, Ret ([], [], ONone), [])
  end.
Example ap_run :
  let st := fold_left choose (concat (repeat [(None, 100%positive); (Some 0, 1%positive); (Some 1, 1%positive); (Some 2, 1%positive); (Some 3, 1%positive); (Some 4, 1%positive)] 8)) ap_state in
  (match st.1.2 with Ret x => Some x.2 | _ => None end, map (fun r => match r with Ret x => Some x.2 | _ => None end) st.2) =
  (Some ONone, [Some (OList [(0x0a000000%N, 8%N, VUser 1); (0x0a010000%N, 16%N, VUser 2)]); Some (OVal (VNil, false)); Some (OVal (VUser 1, true));
    Some (OList [(0x0a010000%N, 16%N, VUser 2)]); Some (OBool true)]).
Proof. vm_compute. reflexivity. Qed.

(** ** A case of [C85_value]: the node of 10.0.0.0/8 found in version 2, from which 10.2.0.0/16 makes
    version 3. *)
Example av_met : exists gs gs1 hs hs1 outs x,
  yrun 32 1 (hd_ops0 ++ [YFind 2 0x0a000000 8]) [ver0 nat] [] gs hs outs /\
  ystep 32 4 gs hs (YCall (VCall (NInsert 2 0x0a020000 16 (VUser 3)))) gs1 hs1 x /\
  nth 0 hs None = Some (2, norm 32 0x0a000000 8) /\ covers (norm 32 0x0a000000 8) (norm 32 0x0a020000 16).
Proof.
  destruct (C83_results nat c32 (hd_ops0 ++ [YFind 2 0x0a000000 8; YCall (VCall (NInsert 2 0x0a020000 16 (VUser 3)))])) as (outs & gs & hs & H & _); [by left|by repeat constructor|].
  cbn [hd_ops0 app] in H. destruct outs as [|y1 [|y2 [|y3 [|y4 [|]]]]]; try (cbn [yrun] in H; naive_solver).
  destruct H as (g1 & h1 & H1 & g2 & h2 & H2 & g3 & h3 & H3 & g4 & h4 & H4 & [-> ->]).
  exists g3, g4, h3, h4, [y1; y2; y3], y4. split; [|split; [exact H4|split; [|by apply (bool_decide_unpack _); vm_compute]]].
  - exists g1, h1. split; [exact H1|]. exists g2, h2. split; [exact H2|]. exists g3, h3. split; [exact H3|]. done.
  - inversion H1 as [? ? ? S1| | | | | |]; subst. inversion S1; subst. inversion H2 as [? ? ? S2| | | | | |]; subst. inversion S2; subst. inversion H3; subst. vm_compute. reflexivity.
Qed.
