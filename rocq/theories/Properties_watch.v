(** * Property C86: reading versions of a radix tree while a client goes on with others. *)
(** One goroutine makes any number of calls, each of any number of others reads versions in [J] and nodes
    kept from them, again by any number of calls; [astep], [asafe] as in C85: single memory accesses are
    interleaved. [y_all], [y_hist]: the client of C83.
    [spares_all] (WatchSpec.v): each call is [apart] from the versions in [J] as in C85, and
    InplaceInsert is not called on them. *)
From Verif Require Import Prog History NumModel NumSpec NumAbs NumPropProofs NumNavSpec VersSpec VersProofs StampSpec HandleSpec HandleProofs LoopProofs ApartSpec WatchSpec NumSim.
From Verif Require Import Concurrent ApartProofs WatchProofs Properties_kept.
Open Scope nat_scope.

(** C86: after any calls: the goroutine that goes on and those that read never race; each reader gets
    the answers that the versions gave before; the client and all its later calls behave as if it had been alone.
    (They all end: [C85_ends].) *)
Theorem C86_watch : forall U c (h : heap U) (ops : list (yop U)), num_cfg c -> Forall (yop_ok (cW c)) ops ->
  wp (y_all c ops [None] []) h (dom h) (fun r h1 _ => exists gs hs, yrun (cW c) 1 ops [ver0 U] [] gs hs r.2 /\
    forall ops2 J rss, Forall (yop_ok (cW c)) ops2 -> (forall j, j ∈ J -> j < length gs) -> spares_all (cW c) J (S (length ops)) gs hs ops2 ->
    Forall (fun rds => Forall (fun o => yop_ok (cW c) o /\ looks o) rds /\ reads_all (cW c) J gs hs rds) rss ->
    forall st, rtc astep (h1, y_all c ops2 r.1.1 r.1.2, map (fun rds => y_hist c rds r.1.1 r.1.2) rss) st -> asafe st /\
      (forall m x, st.2 !! m = Some (Ret x) -> exists rds hs', rss !! m = Some rds /\ yrun (cW c) (S (length ops)) rds gs hs gs hs' x) /\
      (forall x, st.1.2 = Ret x -> exists gs1 hs1, yrun (cW c) (S (length ops)) ops2 gs hs gs1 hs1 x.2 /\
         forall ops3, Forall (yop_ok (cW c)) ops3 -> wp (y_hist c ops3 x.1.1 x.1.2) st.1.1 (dom st.1.1) (fun r3 _ _ => exists gs' hs', yrun (cW c) (S (length ops) + length ops2) ops3 gs1 hs1 gs' hs' r3))).
Proof. intros U c h ops Hc. exact (pf_watch c (num_cfg_ok c Hc) h ops). Qed.
Print Assumptions C86_watch.

(** C86: a client that makes no call to InplaceInsert and sets no Value spares all versions. *)
Theorem C86_persists : forall U W J (ops : list (yop U)), Forall persists ops -> forall n (gs : list (ver U)) hs, spares_all W J n gs hs ops.
Proof. exact @pf_persists. Qed.
Print Assumptions C86_persists.

(** C86: a client that derives trees b := a.Insert(key, bits, v) and sets the same prefix again by
    b.InplaceInsert(key, bits, w), any number of times, spares all versions that were there before. *)
Theorem C86_pairs : forall U W J l ops (gs : list (ver U)) hs outs, yrun W 1 ops [ver0 U] [] gs hs outs -> (forall j, j ∈ J -> j < length gs) ->
  spares_all W J (S (length ops)) gs hs (pairs (length gs) l).
Proof. exact @pf_pairs. Qed.
Print Assumptions C86_pairs.

(** C86: any client that calls reading methods on versions in [J] and reads the fields of nodes that it has got
    itself in this way may be one of the readers. *)
Theorem C86_reader : forall U W J (gs : list (ver U)) hs rds, J <> [] -> Forall (inside J (length hs)) rds -> Forall looks rds /\ reads_all W J gs hs rds.
Proof. exact @pf_reader. Qed.
Print Assumptions C86_reader.
Example wr_met : Forall (inside (U := nat) [1; 2] (length [Some (3, norm 32 0x0a010000 16)])) [YFind 2 0x0a010000 16; YEnum 1; YGet 2; YGet 1; YCall (VCall (NMatch 2 0x0a010000 16))].
Proof. repeat (apply List.Forall_cons; [cbn [inside length]; first [lia|by left|right; by left]|]). by constructor. Qed.

(** ** A case of [C86_watch]: from version 2 (10.0.0.0/8 and 10.1.0.0/16) the client makes version 3 with
    10.2.0.0/16, sets it in place, makes version 4 from version 3 with another value of 10.1.0.0/16 and
    sets that in place. One goroutine finds and reads the node of 10.1.0.0/16 in version 2 and enumerates
    this version, another searches versions 1 and 2. *)
Definition wa_pairs : list (nat * N * Z * value nat * value nat) := [(2, 0x0a020000%N, 16%Z, VUser 3, VUser 9); (3, 0x0a010000%N, 16%Z, VUser 4, VUser 8)].
Definition wa_reads : list (list (yop nat)) := [[YFind 2 0x0a010000 16; YGet 0; YCall (VCall (NEnumerate 2))]; [YCall (VCall (NMatch 1 0x0a010000 16)); YCall (VCall (NMatch 2 0x0a010000 16))]].
Example wa_met : exists gs hs outs, yrun 32 1 hd_ops0 [ver0 nat] [] gs hs outs /\ (forall j, j ∈ [1; 2] -> j < length gs) /\
  Forall (yop_ok 32) (pairs 3 wa_pairs) /\ spares_all 32 [1; 2] (S (length hd_ops0)) gs hs (pairs 3 wa_pairs) /\
  Forall (fun rds => Forall (fun o => yop_ok 32 o /\ looks o) rds /\ reads_all 32 [1; 2] gs hs rds) wa_reads.
Proof.
  destruct (C83_results nat c32 hd_ops0) as (outs & gs & hs & H & _); [by left|by repeat constructor|]. exists gs, hs, outs. split; [exact H|].
  assert (Hl : length gs = 3 /\ hs = []).
  { cbn [hd_ops0] in H. destruct outs as [|y1 [|y2 [|]]]; try (cbn [yrun] in H; naive_solver). destruct H as (g1 & h1 & H1 & g2 & h2 & H2 & [-> ->]).
    inversion H1 as [? ? ? S1| | | | | |]; subst. inversion S1; subst. inversion H2 as [? ? ? S2| | | | | |]; subst. inversion S2; subst. done. }
  destruct Hl as [Hl ->]. assert (HJ : forall j, j ∈ [1; 2] -> j < length gs) by (rewrite Hl; intros j Hj; rewrite !elem_of_cons, elem_of_nil in Hj; lia).
  assert (I1 : 1 ∈ [1; 2]) by (by left). assert (I2 : 2 ∈ [1; 2]) by (right; by left).
  split; [exact HJ|]. split; [by repeat constructor|]. split; [rewrite <- Hl; by eapply C86_pairs|].
  repeat apply List.Forall_cons; [| |by constructor]; (split; [by repeat constructor|]); cbn [reads_all].
  - split; [by exists 2|]. split; [done|]. intros n1 hs1 x1 S1. inversion S1; subst. cbn [app]. split.
    { exists 2. split; [done|]. cbn [reads nth]. unfold found. by destruct (content _ !! _). }
    split; [done|]. intros n2 hs2 x2 S2. split; [by exists 2|]. done.
  - split; [by exists 1|]. split; [done|]. intros n1 hs1 x1 S1. split; [by exists 2|]. done.
Qed.
(** The accesses alternate; the readers get what versions 1 and 2 have. *)
Definition wa_state : heap nat * prog nat (list ptr * list ptr * list (nout nat)) * list (prog nat (list (nout nat))) :=
  match run (y_all c32 hd_ops0 [None] []) ∅ 1%positive with
  | (inl r, h1, _) => (h1, y_all c32 (pairs 3 wa_pairs) r.1.1 r.1.2, map (fun rds => y_hist c32 rds r.1.1 r.1.2) wa_reads)
  | (_, h1, _) => (h1, Ret ([], [], []), [])
  end.
Example wa_run :
  let st := fold_left choose (concat (map (fun l => [(None, l); (Some 0, 1%positive); (Some 1, 1%positive)]) (map Pos.of_succ_nat (seq 100 60)))) wa_state in
  (match st.1.2 with Ret x => Some x.2 | _ => None end, map (fun r => match r with Ret x => Some x | _ => None end) st.2) =
  (Some [ONone; ONone; ONone; ONone],
   [Some [OBool true; OList [(0x0a010000%N, 16%N, VUser 2)]; OList [(0x0a000000%N, 8%N, VUser 1); (0x0a010000%N, 16%N, VUser 2)]];
    Some [OVal (VUser 1, true); OVal (VUser 2, true)]]).
Proof. vm_compute. reflexivity. Qed.
