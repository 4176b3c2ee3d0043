(** * Property C84: a loop over the nodes of a radix tree that sets their values. *)
(** [c_loop f tree s] (LoopProofs.v): "for n := range tree.Enumerate() { ... }" where the body
    sets n.Value to what [f] computes from its state, n.Key, n.Bits and n.Value, while the
    goroutine started by Enumerate is still walking the tree. [always], [like]: see C64.
    [y_all]: the client of C83. [calls], [written] (LoopSpec.v): what the body computes for the
    entries of a list in order, and the versions after setting those values one by one. *)
From Verif Require Import Prog History NumModel NumSpec NumAbs NumPropProofs NumNavSpec VersSpec VersProofs StampSpec HandleSpec HandleProofs LoopSpec NumSim.
From Verif Require Import Channel ChanUpdModel ChanUpdProofs LoopProofs Properties_kept.
Open Scope nat_scope.

(** C84: after any calls, on any version, under every schedule: the loop ends, having called its
    body once for each entry in the order of Enumerate with the values before the loop, and has
    changed nothing but values; all later calls on all versions, and all kept nodes, see the
    versions as [written] gives them. *)
Theorem C84_schedules : forall U St c (f : St -> nentry (U := U) -> St * option (value U)) (h : heap U) (ops : list (yop U)), num_cfg c -> Forall (yop_ok (cW c)) ops ->
  wp (y_all c ops [None] []) h (dom h) (fun r h1 _ => exists gs hs, yrun (cW c) 1 ops [ver0 U] [] gs hs r.2 /\
    forall i s, exists l h2, s_enum (cW c) (content (nth i gs (ver0 U))) l /\ let y := calls f s l in
      always h1 (c_loop c f (nth i r.1.1 None) s) h2 y.1 /\ like h2 h1 /\
      forall ops2, Forall (yop_ok (cW c)) ops2 ->
        wp (y_hist c ops2 r.1.1 r.1.2) h2 (dom h2) (fun r2 _ _ => exists gs' hs', yrun (cW c) (S (length ops)) ops2 (written (cW c) i l y.2 gs) hs gs' hs' r2)).
Proof. intros U St c f h ops Hc. exact (pf_loop c f (num_cfg_ok c Hc) h ops). Qed.
Print Assumptions C84_schedules.

(** C84: the tree of the loop then enumerates the same keys with the new values. *)
Theorem C84_itself : forall U W St (f : St -> nentry (U := U) -> St * option (value U)) s i (gs : list (ver U)) l, s_enum W (content (nth i gs (ver0 U))) l ->
  let rs := (calls f s l).2 in s_enum W (content (nth i (written W i l rs gs) (ver0 U))) (zip_with (fun e o => (e.1, default e.2 o)) l rs).
Proof. exact @pf_itself. Qed.
Print Assumptions C84_itself.

(** C84: another version gets the new values at the prefixes that it has from the same call as
    the tree of the loop, and stays as it is at all others. *)
Theorem C84_others : forall U W St (f : St -> nentry (U := U) -> St * option (value U)) s i (gs : list (ver U)) l, s_enum W (content (nth i gs (ver0 U))) l ->
  let rs := (calls f s l).2 in
  forall j, let g := nth j gs (ver0 U) in let g' := nth j (written W i l rs gs) (ver0 U) in
  (forall r, both (nth i gs (ver0 U)) g r -> exists p k v0 o kv,
     l !! p = Some (k, r.1, v0) /\ r = norm W k r.1 /\ rs !! p = Some o /\ content g !! r = Some kv /\ content g' !! r = Some (kv.1, default kv.2 o)) /\
  (forall r, ~ both (nth i gs (ver0 U)) g r -> content g' !! r = content g !! r) /\ since g' = since g.
Proof. exact @pf_written. Qed.
Print Assumptions C84_others.

(** C84: in any memory, the goroutines end as the loop over the nodes collected first does. *)
Theorem C84_refines : forall U St c (f : St -> nentry (U := U) -> St * option (value U)) (h : heap U) tree s W Q,
  wp (xs <- n_enumerate c tree ;; seq_loop f s (map fst xs)) h W Q ->
  exists h' s' W', Q s' h' W' /\ always h (c_loop c f tree s) h' s' /\ like h' h.
Proof. intros U St c f. exact (loop_always c f). Qed.
Print Assumptions C84_refines.

(** ** The versions of [hd_all_run]: 1 has 10.0.0.0/8, 2 in addition 10.1.0.0/16, 3 in addition
    10.2.0.0/16. The loop over version 2 adds 10 to the values, except that of 10.0.0.0/8 if
    [skip] says so, and notes the lengths. Version 3 gets the new value of 10.1.0.0/16.
    17 or 18 steps, whatever their order. *)
Definition add10 (skip : bool) (s : list N) (e : nentry (U := nat)) : list N * option (value nat) :=
  (s ++ [e.1.2], match e.2 with VUser x => if skip && N.eqb e.1.2 8 then None else Some (VUser (10 + x)) | _ => None end).
Example loop_run : forall skip,
  match run (y_all c32 hd_ops1 [None] []) ∅ 1%positive with
  | (inl r, h1, _) =>
    match exec h1 (c_loop c32 (add10 skip) (nth 2 r.1.1 None) []) h1 with
    | Some (h2, s, steps) => (s, steps, map (fun i => match result (run (n_enumerate c32 (nth i r.1.1 None)) h2 100%positive) with inl l => map as_entry l | inr _ => [] end) [1; 2; 3])
    | None => ([], 0, [])
    end
  | _ => ([], 0, [])
  end =
  let a := (0x0a000000%N, 8%N, VUser (if skip then 1 else 11)) in let b := (0x0a010000%N, 16%N, VUser 12) in
  ([8%N; 16%N], if skip then 17 else 18,
   [[(0x0a000000%N, 8%N, VUser 1)]; [a; b]; [(0x0a000000%N, 8%N, VUser 1); b; (0x0a020000%N, 16%N, VUser 3)]]).
Proof. intros []; vm_compute; reflexivity. Qed.
