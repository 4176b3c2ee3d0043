(** * Property C83: nodes that the client keeps. *)
(** [y_hist] (HandleProofs.v): the client of C79, which in addition gets nodes from FindNode
    and Enumerate, keeps them, and reads and writes their fields later.
    [ystep] (HandleSpec.v): what it sees. A kept node is known by the version in which it was
    found and its prefix; nothing else about it matters. *)
From Verif Require Import Prog History NumModel NumSpec NumAbs NumPropProofs NumNavSpec VersSpec VersProofs StampSpec HandleSpec HandleProofs HandleProofs2.
Open Scope nat_scope.

(** C83: whatever is called between FindNode or Enumerate and the use of the node: reading Key, Bits and
    Value of the node gives what the version in which it was found holds now, and writing
    Value changes that entry in that version and in those that have the entry from the same
    call, and nothing else. No call panics and none writes to memory that was there before
    the client began. *)
Theorem C83_exact : forall U c (h : heap U) (ops : list (yop U)), num_cfg c -> Forall (yop_ok (cW c)) ops ->
  wp (y_hist c ops [None] []) h ∅ (fun r h' _ => h ⊆ h' /\ exists gs hs, yrun (cW c) 1 ops [ver0 U] [] gs hs r).
Proof. intros U c h ops Hc. exact (pf_handle_exact c (num_cfg_ok c Hc) h ops). Qed.
Print Assumptions C83_exact.

(** C83: the calls alone determine every result. *)
Theorem C83_results : forall U c (ops : list (yop U)), num_cfg c -> Forall (yop_ok (cW c)) ops ->
  exists outs gs hs, yrun (cW c) 1 ops [ver0 U] [] gs hs outs /\
  forall h : heap U, wp (y_hist c ops [None] []) h ∅ (fun r _ _ => r = outs).
Proof. intros U c ops Hc. exact (pf_handle_results c ops (num_cfg_ok c Hc)). Qed.
Print Assumptions C83_results.

(** C83: the version in which a node was found always holds its prefix. *)
Theorem C83_stays : forall U W (ops : list (yop U)) (gs : list (ver U)) hs outs j i q,
  yrun W 1 ops [ver0 U] [] gs hs outs -> nth j hs None = Some (i, q) -> is_Some (content (nth i gs (ver0 U)) !! q).
Proof. exact @pf_handle_alive. Qed.
Print Assumptions C83_stays.

(** C83: reading a kept node gives the value that ExactMatch gives in the version in which it
    was found. *)
Theorem C83_reads : forall U W (ops : list (yop U)) (gs gs' : list (ver U)) hs hs' outs x1 x2 j i key bits m,
  yrun W 1 ops [ver0 U] [] gs hs outs -> nth j hs None = Some (i, norm W key (adj W bits)) ->
  yrun W m [YGet j; YCall (VCall (NExact i key bits))] gs hs gs' hs' [x1; x2] ->
  exists k v, x1 = OList [(k, adj W bits, v)] /\ x2 = OVal (v, true).
Proof. exact @pf_handle_reads. Qed.
Print Assumptions C83_reads.

(** C83: what a write makes of a version that it reaches. *)
Theorem C83_written : forall U (g : ver U) q v r,
  content (valued g q v) !! r = if decide (q = r) then (fun kv => (kv.1, v)) <$> content g !! q else content g !! r.
Proof. exact @pf_handle_valued. Qed.
Print Assumptions C83_written.

(** C83: for n := range a.Enumerate() the client writes n.Value. At the prefixes that another
    version has from the same call as [a], it gets the values that were written, in the order in
    which Enumerate sent the nodes; at all others it stays as it is. *)
Theorem C83_all : forall U W (m i : nat) (gs gs' : list (ver U)) hs hs' outs l (vals : list (value U)), length vals = length l ->
  yrun W m (YEnum i :: imap (fun j v => YSet (length hs + j) v) vals) gs hs gs' hs' (OList l :: outs) ->
  forall j, let g := nth j gs (ver0 U) in let g' := nth j gs' (ver0 U) in
  (forall r, both (nth i gs (ver0 U)) g r -> exists p k v0 v kv,
     l !! p = Some (k, r.1, v0) /\ r = norm W k r.1 /\ vals !! p = Some v /\ content g !! r = Some kv /\ content g' !! r = Some (kv.1, v)) /\
  (forall r, ~ both (nth i gs (ver0 U)) g r -> content g' !! r = content g !! r).
Proof. exact @pf_handle_all. Qed.
Print Assumptions C83_all.

(** C83: n := a.FindNode(k2, b2); b := a.Insert(k1, b1, v1); n.Value = v. The write shows in [a];
    it shows in [b] exactly if the prefix of the node does not contain the inserted one. *)
Theorem C83_child : forall U W (ops : list (yop U)) (gs gs' : list (ver U)) hs hs' outs x1 x2 x3 i k1 b1 v1 k2 b2 v,
  yrun W 1 ops [ver0 U] [] gs hs outs -> i < length gs ->
  yrun W (S (length ops)) [YFind i k2 b2; YCall (VCall (NInsert i k1 b1 v1)); YSet (length hs) v] gs hs gs' hs' [x1; x2; x3] ->
  let q1 := norm W k1 (adj W b1) in let q2 := norm W k2 (adj W b2) in
  let write := alter (fun kv : N * value U => (kv.1, v)) q2 in
  let a := content (nth i gs (ver0 U)) in let b := s_insert W a k1 (adj W b1) v1 in
  is_Some (a !! q2) ->
  content (nth i gs' (ver0 U)) = write a /\
  content (nth (length gs) gs' (ver0 U)) = if decide (covers q2 q1) then b else write b.
Proof. exact @pf_handle_child. Qed.
Print Assumptions C83_child.

(** ** Version 1 has 10.0.0.0/8 (value 1), version 2 in addition 10.1.0.0/16 (2). The nodes of
    both are found in version 2 and kept. Version 3 has 10.1.1.0/24 (3), version 4 192.0.0.0/8 (4)
    in addition; version 5 is 4 without 10.1.0.0/16 and what is in it. Writing 7 to the node of 10.1.0.0/16 shows
    in version 2 alone, as the call that made version 3 copied this node. In-place insertion of 10.1.0.0/16 with the
    key 10.1.0.5 and 8 into version 2 shows in the kept node. The node of 10.1.1.0/24 found in
    version 4 is that of version 3 as well. Version 5 has no such
    node: FindNode gives nil. *)
Definition hd_ops : list (yop nat) :=
  [ YCall (VCall (NInsert 0 0x0a000000 8 (VUser 1))); YCall (VCall (NInsert 1 0x0a010000 16 (VUser 2)));
    YFind 2 0x0a000000 8; YFind 2 0x0a010000 16;
    YCall (VCall (NInsert 2 0x0a010100 24 (VUser 3))); YCall (VCall (NInsert 3 0xc0000000 8 (VUser 4))); YCall (VCall (NDelete 4 0x0a010000 16));
    YSet 1 (VUser 7); YGet 1; YCall (VInplace 2 0x0a010005 16 (VUser 8)); YGet 1;
    YFind 4 0x0a010100 24; YSet 2 (VUser 9); YFind 5 0x0a010100 24; YSet 3 (VUser 10); YGet 3; YGet 0;
    YCall (VCall (NEnumerate 1)); YCall (VCall (NEnumerate 2)); YCall (VCall (NEnumerate 3)); YCall (VCall (NEnumerate 4)); YCall (VCall (NEnumerate 5)) ].
Example hd_ok : Forall (yop_ok 32) hd_ops.
Proof. repeat constructor. Qed.
Example hd_run : match result (run (y_hist c32 hd_ops [None] []) ∅ 1%positive) with
  | inl r => map (fun x => match x with OList e => map (fun y => (y.1.1, y.2)) e | OBool b => [(if b then 1%N else 0%N, VNil)] | _ => [] end) r
  | inr _ => [] end =
  [ []; []; [(1%N, VNil)]; [(1%N, VNil)]; []; []; [(1%N, VNil)];
    []; [(0x0a010000%N, VUser 7)]; []; [(0x0a010005%N, VUser 8)];
    [(1%N, VNil)]; []; [(0%N, VNil)]; []; []; [(0x0a000000%N, VUser 1)];
    [(0x0a000000%N, VUser 1)]; [(0x0a000000%N, VUser 1); (0x0a010005%N, VUser 8)];
    [(0x0a000000%N, VUser 1); (0x0a010000%N, VUser 2); (0x0a010100%N, VUser 9)];
    [(0x0a000000%N, VUser 1); (0x0a010000%N, VUser 2); (0x0a010100%N, VUser 9); (0xc0000000%N, VUser 4)];
    [(0x0a000000%N, VUser 1); (0xc0000000%N, VUser 4)] ].
Proof. vm_compute. reflexivity. Qed.

(** ** [C83_child] has cases of both kinds: [a] is version 2 above; the nodes found are those of
    10.1.0.0/16 and 10.0.0.0/8, and 10.2.0.0/16 is inserted. *)
Definition hd_ops0 : list (yop nat) := [YCall (VCall (NInsert 0 0x0a000000 8 (VUser 1))); YCall (VCall (NInsert 1 0x0a010000 16 (VUser 2)))].
Example hd_child : forall k2 b2, (k2, b2) = (0x0a010000%N, 16%Z) \/ (k2, b2) = (0x0a000000%N, 8%Z) -> exists gs gs' hs hs' outs x1 x2 x3,
  yrun 32 1 hd_ops0 [ver0 nat] [] gs hs outs /\ 2 < length gs /\ is_Some (content (nth 2 gs (ver0 nat)) !! norm 32 k2 (adj 32 b2)) /\
  yrun 32 (S (length hd_ops0)) [YFind 2 k2 b2; YCall (VCall (NInsert 2 0x0a020000 16 (VUser 3))); YSet (length hs) (VUser 7)] gs hs gs' hs' [x1; x2; x3].
Proof.
  intros k2 b2 Hk. destruct (C83_results nat c32 (hd_ops0 ++ [YFind 2 k2 b2; YCall (VCall (NInsert 2 0x0a020000 16 (VUser 3))); YSet 0 (VUser 7)])) as (outs & gs' & hs' & H & _); [by left|destruct Hk as [[= -> ->]|[= -> ->]]; by repeat constructor|].
  cbn [hd_ops0 app] in H. destruct outs as [|y1 [|y2 [|x1 [|x2 [|x3 [|]]]]]]; try (cbn [yrun] in H; naive_solver).
  destruct H as (g1 & h1 & H1 & g2 & h2 & H2 & H3). inversion H1 as [? ? ? S1| | | | | |]; subst. inversion S1; subst. inversion H2 as [? ? ? S2| | | | | |]; subst. inversion S2; subst.
  eexists _, gs', [], hs', [_; _], x1, x2, x3. split; [|split; [|split; [|exact H3]]].
  - eexists _, _. split; [exact H1|]. eexists _, _. split; [exact H2|]. done.
  - cbn. lia.
  - destruct Hk as [[= -> ->]|[= -> ->]]; vm_compute; by eexists.
Qed.
Example hd_kinds : covers (norm 32 0x0a000000 8) (norm 32 0x0a020000 16) /\ ~ covers (norm 32 0x0a010000 16) (norm 32 0x0a020000 16).
Proof. split; by apply (bool_decide_unpack _); vm_compute. Qed.

(** ** [C83_all]: in version 2 above, from which the insertion of 10.2.0.0/16 (3) makes version 3, all
    values are replaced. Version 3 gets that of 10.1.0.0/16, but not that of 10.0.0.0/8; version 1
    has neither from the same call. *)
Definition hd_ops1 : list (yop nat) := hd_ops0 ++ [YCall (VCall (NInsert 2 0x0a020000 16 (VUser 3)))].
Definition hd_all : list (yop nat) := YEnum 2 :: imap (fun j v => YSet (0 + j) v) [VUser 7; VUser 8].
Example hd_all_run : match result (run (y_hist c32 (hd_ops1 ++ hd_all ++ [YCall (VCall (NEnumerate 1)); YCall (VCall (NEnumerate 2)); YCall (VCall (NEnumerate 3))]) [None] []) ∅ 1%positive) with
  | inl r => map (fun x => match x with OList e => map (fun y => (y.1.1, y.2)) e | _ => [] end) r | inr _ => [] end =
  [ []; []; []; [(0x0a000000%N, VUser 1); (0x0a010000%N, VUser 2)]; []; [];
    [(0x0a000000%N, VUser 1)];
    [(0x0a000000%N, VUser 7); (0x0a010000%N, VUser 8)];
    [(0x0a000000%N, VUser 1); (0x0a010000%N, VUser 8); (0x0a020000%N, VUser 3)] ].
Proof. vm_compute. reflexivity. Qed.
Example hd_all_met : exists gs gs' hs' outs outs' l,
  yrun 32 1 hd_ops1 [ver0 nat] [] gs [] outs /\ yrun 32 4 hd_all gs [] gs' hs' (OList l :: outs') /\ length l = 2.
Proof.
  destruct (C83_results nat c32 (hd_ops1 ++ hd_all)) as (outs & gs' & hs' & H & Hw); [by left|by repeat constructor|].
  specialize (Hw ∅). eapply (wp_run _ _ _ _ 1%positive) in Hw; [|intros l _; apply lookup_empty]. destruct Hw as (a & h' & n' & W' & Hrun & -> & _).
  assert (E : outs = [ONone; ONone; ONone; OList [(0x0a000000%N, 8%N, VUser 1); (0x0a010000%N, 16%N, VUser 2)]; ONone; ONone]).
  { apply (f_equal result) in Hrun. cbn [result fst] in Hrun. assert (E : inl outs = inl (B := err) [ONone; ONone; ONone; OList [(0x0a000000%N, 8%N, VUser (U := nat) 1); (0x0a010000%N, 16%N, VUser 2)]; ONone; ONone]); [|by injection E]. rewrite <- Hrun. vm_compute. reflexivity. }
  clear Hrun. subst outs. cbn [hd_ops1 hd_ops0 app] in H. destruct H as (g1 & h1 & H1 & g2 & h2 & H2 & g3 & h3 & H3 & H).
  inversion H1; subst. inversion H2; subst. inversion H3; subst.
  eexists g3, gs', hs', [ONone; ONone; ONone], [ONone; ONone], _. split_and!; [|exact H|done].
  eexists _, _. split; [exact H1|]. eexists _, _. split; [exact H2|]. eexists _, _. by split; [exact H3|].
Qed.
