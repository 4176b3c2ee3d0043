(** * Functional (zipper) version of the red-black tree algorithms: a proof
    device between RbModel.v (memory) and RbSpec.v (sorted lists). *)
From Verif Require Import Prog RbSpec.

Section fn.
Context {U : Type}.
Local Notation value := (value U).

Inductive tree := E | T (red : bool) (l : tree) (k : bytes) (v : value) (r : tree).
Implicit Types t l r : tree.

(** A node on the path with a hole in direction [f_dir]; [f_oth] is the other child. *)
Record frame := Fr { f_red : bool; f_k : bytes; f_v : value; f_dir : bool; f_oth : tree; f_mark : bool }.
Implicit Types f : frame.

Definition mk (d c : bool) (near : tree) (k : bytes) (v : value) (far : tree) : tree :=
  if d then T c far k v near else T c near k v far.
Definition plug1 f t := mk (f_dir f) (f_red f) t (f_k f) (f_v f) (f_oth f).
Fixpoint plug (ctx : list frame) t : tree :=
  match ctx with [] => t | f :: ctx => plug ctx (plug1 f t) end.
Definition child (d : bool) t : tree :=
  match t with E => E | T _ l _ _ r => if d then r else l end.
Definition isred t : bool := match t with E => false | T c _ _ _ _ => c end.
Definition recolor (c : bool) t : tree := match t with E => E | T _ l k v r => T c l k v r end.
Definition flip t : tree :=
  match t with
  | E => E
  | T c l k v r => if isred l && isred r then T true (recolor false l) k v (recolor false r) else t
  end.

Section ops.
Variable cmp : bytes -> bytes -> Z.
Variable key : bytes.

Definition pre t : tree := match t with E => T true E key VNil E | _ => flip t end.

Definition fixv (ctx : list frame) t : option (list frame * tree) :=
  match ctx with
  | [] => Some (ctx, t)
  | f1 :: rest =>
    if isred t && f_red f1 then
      match rest with
      | [] => None
      | f2 :: rest =>
        if Bool.eqb (f_dir f1) (f_dir f2) then
          Some (Fr false (f_k f1) (f_v f1) (f_dir f1)
                   (mk (f_dir f2) true (f_oth f1) (f_k f2) (f_v f2) (f_oth f2)) false :: rest, t)
        else
          match t with
          | E => None
          | T _ l k v r =>
            Some (rest, mk (f_dir f2) false
                    (mk (f_dir f1) true (child (f_dir f2) t) (f_k f1) (f_v f1) (f_oth f1)) k v
                    (mk (f_dir f2) true (child (f_dir f1) t) (f_k f2) (f_v f2) (f_oth f2)))
          end
      end
    else Some (ctx, t)
  end.

Definition todir (k : bytes) : bool := (cmp k key <? 0)%Z.

Fixpoint ins_loop (fuel : nat) (ctx : list frame) t (v : value) : option tree :=
  match fuel with
  | O => None
  | S fuel =>
    match fixv ctx (pre t) with
    | Some (ctx', T c l k v0 r) =>
      if (cmp k key =? 0)%Z then Some (plug ctx' (T c l k v r))
      else let d := todir k in
           ins_loop fuel (Fr c k v0 d (if d then l else r) false :: ctx') (if d then r else l) v
    | _ => None
    end
  end.
Definition f_ins (fuel : nat) t (v : value) : option tree :=
  match t with E => Some (T false E key v E) | _ => recolor false <$> ins_loop fuel [] t v end.

Fixpoint f_get t : value * bool :=
  match t with
  | E => (VNil, false)
  | T _ l k v r =>
    if (cmp k key =? 0)%Z then (v, true) else if todir k then f_get r else f_get l
  end.

(** One step of the deletion at node [T c l k v r] with [dir]. *)
Definition del_step (ctx : list frame) (c : bool) l (k : bytes) (v : value) r (dir mark : bool) : list frame :=
  let near := if dir then r else l in
  let oth := if dir then l else r in
  if negb c && negb (isred near) then
    match oth with
    | T true _ sk sv _ =>
      Fr true k v dir (child dir oth) mark :: Fr false sk sv dir (child (negb dir) oth) false :: ctx
    | _ =>
      match ctx with
      | [] => [Fr c k v dir oth mark]
      | f1 :: rest =>
        let pd := f_dir f1 in
        match f_oth f1 with
        | E => Fr c k v dir oth mark :: ctx
        | T sc sl sk sv sr as s =>
          if negb (isred sl) && negb (isred sr) then
            Fr true k v dir oth mark :: Fr false (f_k f1) (f_v f1) pd (recolor true s) (f_mark f1) :: rest
          else
            match child pd s with
            | T true _ qk qv _ as q =>
              Fr true k v dir oth mark :: Fr false (f_k f1) (f_v f1) pd (child pd q) (f_mark f1) ::
              Fr true qk qv pd (mk pd false (child (negb pd) q) sk sv (child (negb pd) s)) false :: rest
            | _ =>
              Fr true k v dir oth mark :: Fr false (f_k f1) (f_v f1) pd (child pd s) (f_mark f1) ::
              Fr true sk sv pd (recolor false (child (negb pd) s)) false :: rest
            end
        end
      end
    end
  else Fr c k v dir oth mark :: ctx.

Fixpoint del_walk (ctx : list frame) t : list frame :=
  match t with
  | E => ctx
  | T c l k v r =>
    let dir := todir k in
    let ctx' := del_step ctx c l k v r dir (cmp k key =? 0)%Z in
    if dir then del_walk ctx' r else del_walk ctx' l
  end.

Definition marked (ctx : list frame) : bool := existsb f_mark ctx.
(** Replace key and value in the marked frame nearest to the hole. *)
Fixpoint set_marked (k : bytes) (v : value) (ctx : list frame) : list frame :=
  match ctx with
  | [] => []
  | f :: ctx => if f_mark f then Fr (f_red f) k v (f_dir f) (f_oth f) true :: ctx
                else f :: set_marked k v ctx
  end.
Definition del_end (ctx : list frame) : tree :=
  match ctx with
  | [] => E
  | f :: rest =>
    if marked ctx then
      plug (if f_mark f then rest else set_marked (f_k f) (f_v f) rest) (f_oth f)
    else plug ctx E
  end.
Definition f_del t : tree * bool :=
  let ctx := del_walk [] t in (recolor false (del_end ctx), marked ctx).
End ops.

Fixpoint inord t : list (bytes * value) :=
  match t with E => [] | T _ l k v r => inord l ++ (k, v) :: inord r end.
Fixpoint height t : nat :=
  match t with E => 0 | T _ l _ _ r => S (max (height l) (height r)) end.
End fn.
Global Arguments tree : clear implicits.
Global Arguments frame : clear implicits.

(** ** Red-black shape. *)
Section shape.
Context {U : Type}.
Local Notation value := (value U).
Local Notation tree := (tree U).
Local Notation frame := (frame U).

(** [rb t c n]: no red node has a red child, every path has [n] black nodes,
    the root's colour is [c]. *)
Fixpoint rb (t : tree) (c : bool) (n : nat) : Prop :=
  match t with
  | E => c = false /\ n = 0
  | T true l _ _ r => c = true /\ rb l false n /\ rb r false n
  | T false l _ _ r => c = false /\ exists m c1 c2, n = S m /\ rb l c1 m /\ rb r c2 m
  end.

Lemma rb_color t c n : rb t c n -> isred t = c.
Proof. destruct t as [|[] l k v r]; simpl; naive_solver. Qed.

(** The hole of [ctx] accepts a tree of colour [c] and black height [n]. *)
Fixpoint okctx (ctx : list frame) (c : bool) (n : nat) : Prop :=
  match ctx with
  | [] => True
  | f :: ctx =>
    if f_red f then c = false /\ rb (f_oth f) false n /\ okctx ctx true n
    else (exists c', rb (f_oth f) c' n) /\ okctx ctx false (S n)
  end.

Lemma okctx_black ctx c n : okctx ctx c n -> okctx ctx false n.
Proof. destruct ctx as [|f ctx]; simpl; [done|]. destruct (f_red f); naive_solver. Qed.

Lemma rb_mk_red d near k v far n : rb near false n -> rb far false n -> rb (mk d true near k v far) true n.
Proof. intros. by destruct d; simpl. Qed.
Lemma rb_mk_black d near k v far n c1 c2 : rb near c1 n -> rb far c2 n -> rb (mk d false near k v far) false (S n).
Proof. intros. destruct d; simpl; (split; [done|]); eauto 10. Qed.

Lemma plug_ok ctx : forall t c n, okctx ctx c n -> rb t c n -> exists c' n', rb (plug ctx t) c' n'.
Proof.
  induction ctx as [|f ctx IH]; intros t c n; simpl; [eauto|].
  destruct (f_red f) eqn:Ef.
  - intros (-> & Ho & Hc) Ht. eapply IH; [exact Hc|]. unfold plug1. rewrite Ef. by apply rb_mk_red.
  - intros ([c' Ho] & Hc) Ht. eapply IH; [exact Hc|]. unfold plug1. rewrite Ef. by eapply rb_mk_black.
Qed.

(** An existing tree taken apart. *)
Lemma rb_inv t c n : rb t c n ->
  match t with
  | E => c = false /\ n = 0
  | T c' l _ _ r => c' = c /\
     if c then rb l false n /\ rb r false n else exists m c1 c2, n = S m /\ rb l c1 m /\ rb r c2 m
  end.
Proof. destruct t as [|[] l k v r]; simpl; naive_solver. Qed.

Lemma rb_black_root t c n : rb t c n -> exists n', rb (recolor false t) false n'.
Proof.
  intros H. apply rb_inv in H. destruct t as [|c' l k v r]; simpl in *; [eauto|].
  destruct H as [-> H]. destruct c; [|naive_solver].
  exists (S n). naive_solver.
Qed.
Lemma rb_recolor_black t n : rb t true n -> rb (recolor false t) false (S n).
Proof.
  intros H. apply rb_inv in H. destruct t as [|c' l k v r]; simpl in *; [naive_solver|].
  destruct H as [-> H]. naive_solver.
Qed.
Lemma rb_recolor_red t n : rb t false (S n) -> isred (child false t) = false -> isred (child true t) = false ->
  rb (recolor true t) true n.
Proof.
  intros H H1 H2. apply rb_inv in H. destruct t as [|c' l k v r]; simpl in *; [naive_solver|].
  destruct H as (-> & m & c1 & c2 & [= <-] & Hl & Hr).
  pose proof (rb_color _ _ _ Hl) as E1. pose proof (rb_color _ _ _ Hr) as E2. rewrite H1 in E1. rewrite H2 in E2. subst. done.
Qed.

(** Balance: the height is at most twice the black height (plus one). *)
Lemma rb_height t c n : rb t c n -> height t <= 2 * n + (if c then 1 else 0).
Proof.
  revert c n. induction t as [|c' l IHl k v r IHr]; intros c n H; simpl; [lia|].
  apply rb_inv in H as [-> H]. destruct c.
  - destruct H as [Hl Hr]. apply IHl in Hl. apply IHr in Hr. lia.
  - destruct H as (m & c1 & c2 & -> & Hl & Hr). apply IHl in Hl. apply IHr in Hr.
    destruct c1, c2; lia.
Qed.
Lemma rb_size t c n : rb t c n -> 2 ^ n <= length (inord t) + 1.
Proof.
  revert c n. induction t as [|c' l IHl k v r IHr]; intros c n H.
  - destruct H as [_ ->]. simpl. lia.
  - apply rb_inv in H as [-> H]. simpl inord. rewrite app_length. simpl length. destruct c.
    + destruct H as [Hl Hr]. apply IHl in Hl. apply IHr in Hr. lia.
    + destruct H as (m & c1 & c2 & -> & Hl & Hr). apply IHl in Hl. apply IHr in Hr. simpl. lia.
Qed.
Lemma rb_log t n : rb t false n -> height t <= 2 * Nat.log2 (length (inord t) + 1).
Proof.
  intros H. pose proof (rb_height _ _ _ H) as Hh. pose proof (rb_size _ _ _ H) as Hs.
  assert (n <= Nat.log2 (length (inord t) + 1)).
  { rewrite <- (Nat.log2_pow2 n) by lia. by apply Nat.log2_le_mono. }
  simpl in Hh. lia.
Qed.
End shape.

(** ** Insertion. *)
Section ins.
Context {U : Type}.
Local Notation value := (value U).
Local Notation tree := (tree U).
Local Notation frame := (frame U).
Variable cmp : bytes -> bytes -> Z.
Variable key : bytes.
Local Notation todir := (todir cmp key).
(** The search meets a key equal to [key], or would stop at [key] itself. *)
Definition stops (t : tree) : Prop := cmp key key = 0%Z \/ (f_get cmp key t).2 = true.
Lemma stops_recolor c t : stops (recolor c t) <-> stops t.
Proof. by destruct t. Qed.
Lemma stops_child c l k v r : stops (T c l k v r) -> (cmp k key =? 0)%Z = false -> stops (if todir k then r else l).
Proof. unfold stops. cbn [f_get]. intros [H|H] Hk; [by left|right]. rewrite Hk in H. by destruct (todir k). Qed.
Lemma stops_flip t : stops t -> stops (flip t).
Proof.
  destruct t as [|c l k v r]; [done|]. cbn [flip]. destruct (isred l && isred r); [|done]. unfold stops. cbn [f_get].
  intros [H|H]; [by left|right]. destruct (cmp k key =? 0)%Z; [done|]. by destruct (todir k), l, r.
Qed.

Fixpoint plen (t : tree) : nat :=
  match t with E => 0 | T _ l k _ r => S (if todir k then plen r else plen l) end.

Lemma plen_recolor c t : plen (recolor c t) = plen t.
Proof. by destruct t. Qed.
Lemma plen_flip t : plen (flip t) = plen t.
Proof.
  destruct t as [|c l k v r]; simpl; [done|]. destruct (isred l && isred r); simpl; [|done].
  by rewrite !plen_recolor.
Qed.
Lemma plen_height t : plen t <= height t.
Proof. induction t as [|c l IHl k v r IHr]; simpl; [lia|]. destruct (todir k); lia. Qed.

(** The next node on the path cannot cause a violation. *)
Definition calm (t : tree) : Prop := t <> E /\ isred (flip t) = false.
Definition calm_next (t : tree) : Prop :=
  match t with E => False | T _ l k _ r => calm (if todir k then r else l) end.

Record inv (ctx : list frame) (t : tree) (n : nat) : Prop := {
  inv_t : rb t (isred t) n;
  inv_ctx : okctx ctx (isred t) n;
  inv_red_parent : match ctx with
    | f1 :: rest => f_red f1 = true -> calm t \/
        match rest with f2 :: _ => isred (f_oth f2) = false | [] => False end
    | [] => True
    end;
  inv_red : isred t = true ->
    match ctx with f1 :: _ => isred (f_oth f1) = false \/ calm_next t | [] => False end;
  inv_stops : stops t;
  inv_dir : Forall (fun f => f_dir f = todir (f_k f)) ctx }.

Lemma calm_recolor l : rb l true 0 \/ (exists n, rb l true n) -> calm (recolor false l).
Proof.
  intros H. assert (exists n, rb l true n) as [n H'] by naive_solver. clear H.
  apply rb_inv in H'. destruct l as [|c l k v r]; [naive_solver|]. destruct H' as (-> & Hl & Hr).
  split; [done|]. simpl. by rewrite (rb_color _ _ _ Hl).
Qed.

(** What [pre] does. *)
Lemma pre_ok t n : rb t (isred t) n ->
  (* nothing *) (pre key t = t /\ t <> E /\ (isred t = true \/ isred (child false t) && isred (child true t) = false)) \/
  (* new node *) (t = E /\ n = 0 /\ pre key t = T true E key VNil E) \/
  (* flip *) (exists l k v r, t = T false l k v r /\ isred (flip t) = true /\ pre key t = T true (recolor false l) k v (recolor false r) /\
      calm (recolor false l) /\ calm (recolor false r) /\ rb (recolor false l) false n /\ rb (recolor false r) false n).
Proof.
  intros H. destruct t as [|c l k v r].
  - right. left. destruct H as [_ ->]. done.
  - simpl pre. destruct (isred l && isred r) eqn:E1.
    + apply andb_true_iff in E1 as [E1 E2]. right. right. exists l, k, v, r.
      apply rb_inv in H as [_ H]. simpl isred in H. destruct c.
      { destruct H as [Hl _]. rewrite (rb_color _ _ _ Hl) in E1. done. }
      destruct H as (m & c1 & c2 & -> & Hl & Hr).
      pose proof (rb_color _ _ _ Hl) as E3. pose proof (rb_color _ _ _ Hr) as E4. rewrite E1 in E3. rewrite E2 in E4. subst.
      split_and!; [done|simpl; by rewrite E1, E2|done|apply calm_recolor; eauto|apply calm_recolor; eauto|by apply rb_recolor_black..].
    + left. split_and!; [done|done|]. destruct c; [by left|right]. done.
Qed.

Lemma child_mk_near d c near k v far : child d (mk d c near k v far : tree) = near.
Proof. by destruct d. Qed.
Lemma child_mk_far d c near k v far : child (negb d) (mk d c near k v far : tree) = far.
Proof. by destruct d. Qed.

Lemma Hplug (ctx : list frame) : forall c n (t : tree), okctx ctx c n -> rb t c n -> t <> E ->
  exists c' n', rb (plug ctx t) c' n' /\ plug ctx t <> E.
Proof.
  induction ctx as [|f ctx IH]; intros c n t; simpl; [eauto|].
    intros H1 H2 _. destruct (f_red f) eqn:Ef.
    - destruct H1 as (-> & Ho & Hc). eapply IH; [exact Hc| |by unfold plug1, mk; destruct (f_dir f)].
      unfold plug1. rewrite Ef. by apply rb_mk_red.
    - destruct H1 as ([c' Ho] & Hc). eapply IH; [exact Hc| |by unfold plug1, mk; destruct (f_dir f)].
      unfold plug1. rewrite Ef. by eapply rb_mk_black.
Qed.

Lemma ins_loop_ok v : forall fuel ctx t n, inv ctx t n ->
  2 * plen t + (if isred t then 0 else 1) < fuel ->
  exists t' c' n', ins_loop cmp key fuel ctx t v = Some t' /\ rb t' c' n' /\ t' <> E.
Proof.
  induction fuel as [|fuel IH]; intros ctx t n Hinv Hf; [lia|].
  cbn [ins_loop].
  pose proof Hplug as Hplug.
  destruct Hinv as [Ht Hctx Hrp Hr Hst Hdir].
  destruct (pre_ok t n Ht) as [(-> & Hne & Hk)|[(-> & -> & ->)|(l & k & v0 & r & -> & Hfl & -> & Hcl & Hcr & Hl & Hrr)]].
  - (* unchanged *)
    assert (fixv ctx t = Some (ctx, t)) as ->.
    { destruct ctx as [|f1 rest]; [done|]. simpl. destruct (isred t) eqn:Et; [|done]. simpl.
      simpl in Hctx. destruct (f_red f1); [naive_solver|done]. }
    destruct t as [|c l k v0 r]; [done|]. destruct (cmp k key =? 0)%Z eqn:Ecmp.
    { assert (Ht' : rb (T c l k v r) c n) by exact Ht.
      destruct (Hplug ctx c n (T c l k v r)) as (c' & n' & ? & ?); [done|done|done|]. eauto 10. }
    apply stops_child in Hst; [|done].
    cbv zeta. set (d := todir k) in *. simpl isred in *.
    assert (Hlen : plen (if d then r else l) < plen (T c l k v0 r)).
    { cbn [plen]. fold d. destruct d; lia. }
    apply rb_inv in Ht as [_ Ht]. destruct c.
    + destruct Ht as [Hl Hrr]. eapply IH; [|destruct (isred (if d then r else l)); lia].
      assert (Hx : rb (if d then r else l) false n) by by destruct d.
      assert (Ho : rb (if d then l else r) false n) by by destruct d.
      specialize (Hr eq_refl). destruct ctx as [|f1 rest]; [done|]. split; rewrite ?(rb_color _ _ _ Hx).
      * exact Hx.
      * simpl. simpl in Hctx. done.
      * intros _. destruct Hr as [Hr|Hr]; [by right|]. left. cbn [calm_next] in Hr. fold d in Hr. done.
      * done.
      * exact Hst.
      * constructor; [done|done].
    + destruct Ht as (m & c1 & c2 & -> & Hl & Hrr). destruct Hk as [Hk|Hk]; [done|].
      eapply (IH _ _ m); [|destruct (isred (if d then r else l)); lia].
      assert (exists cx, rb (if d then r else l) cx m) as [cx Hx] by (destruct d; eauto).
      assert (exists co, rb (if d then l else r) co m) as [co Ho] by (destruct d; eauto).
      split; rewrite ?(rb_color _ _ _ Hx).
      * exact Hx.
      * simpl. eauto.
      * done.
      * intros ->. left. simpl. simpl in Hk. pose proof (rb_color _ _ _ Hx).
        destruct d; [by destruct (isred l), (isred r)|by destruct (isred l), (isred r)].
      * exact Hst.
      * constructor; [done|done].
  - (* new node *)
    assert (Hself : cmp key key = 0%Z) by (destruct Hst; done).
    destruct ctx as [|f1 rest].
    { simpl. rewrite Hself. simpl. eexists _, true, 0. split; [done|]. split; [|done]. simpl. done. }
    simpl fixv. destruct (f_red f1) eqn:Ef1.
    + simpl in Hctx. rewrite Ef1 in Hctx. destruct Hctx as (_ & Ho1 & Hc).
      destruct (Hrp eq_refl) as [[? _]|Hrp']; [done|]. destruct rest as [|f2 rest]; [done|].
      simpl in Hc. destruct (f_red f2) eqn:Ef2; [naive_solver|]. destruct Hc as ([c2 Ho2] & Hc).
      pose proof (rb_color _ _ _ Ho2) as E2. rewrite Hrp' in E2. subst c2.
      destruct (Bool.eqb (f_dir f1) (f_dir f2)) eqn:Ed.
      * rewrite Hself. simpl.
        destruct (Hplug (Fr false (f_k f1) (f_v f1) (f_dir f1) (mk (f_dir f2) true (f_oth f1) (f_k f2) (f_v f2) (f_oth f2)) false :: rest)
          true 0 (T true E key v E)) as (c' & n' & ? & ?); [|done|done|eauto 10].
        simpl. split; [|done]. exists true. by apply rb_mk_red.
      * set (P := mk (f_dir f1) true E (f_k f1) (f_v f1) (f_oth f1)).
        assert (HP : rb P true 0) by by apply rb_mk_red.
        assert (HG : rb (mk (f_dir f2) true E (f_k f2) (f_v f2) (f_oth f2)) true 0) by by apply rb_mk_red.
        assert (Ech : forall b : bool, (if b then E else E : tree) = E) by (by intros []). rewrite !Ech. fold P.
        set (G := mk (f_dir f2) true E (f_k f2) (f_v f2) (f_oth f2)) in *.
        destruct (Hplug rest false 1 (mk (f_dir f2) false P key v G)) as (c' & n' & Hz1 & Hz2);
          [done|by eapply rb_mk_black|by unfold mk; destruct (f_dir f2)|].
        destruct (f_dir f2); simpl; rewrite Hself; simpl; eauto 10.
    + simpl. rewrite Hself. simpl.
      destruct (Hplug (f1 :: rest) true 0 (T true E key v E)) as (c' & n' & ? & ?); [|done|done|eauto 10].
      simpl. simpl in Hctx. rewrite Ef1 in *. done.
  - (* colour flip *)
    assert (Hst' : (cmp k key =? 0)%Z = false -> forall b, b = todir k -> stops (if b then recolor false r else recolor false l)).
    { intros Hk b ->. apply stops_child in Hst; [|done]. destruct (todir k); by apply stops_recolor. }
    clear Hst. set (l' := recolor false l) in *. set (r' := recolor false r) in *.
    assert (Hlen : plen (T true l' k v0 r') = plen (T false l k v0 r)).
    { cbn [plen]. unfold l', r'. by rewrite !plen_recolor. }
    rewrite <- Hlen in Hf. simpl isred in *. clearbody l' r'. clear Hlen Hr Ht.
    assert (Hok : okctx ctx true n -> exists t' c' n',
      (if (cmp k key =? 0)%Z then Some (plug ctx (T true l' k v r'))
       else let d := todir k in ins_loop cmp key fuel (Fr true k v0 d (if d then l' else r') false :: ctx) (if d then r' else l') v)
      = Some t' /\ rb t' c' n' /\ t' <> E).
    { intros Hctx'. destruct (cmp k key =? 0)%Z eqn:Ecmp.
      { destruct (Hplug ctx true n (T true l' k v r')) as (c' & n' & ? & ?); [done|done|done|]. eauto 10. }
      cbv zeta. set (d := todir k).
      assert (Hx : rb (if d then r' else l') false n) by by destruct d.
      assert (Ho : rb (if d then l' else r') false n) by by destruct d.
      eapply (IH _ _ n).
      - split; rewrite ?(rb_color _ _ _ Hx).
        + done.
        + simpl. done.
        + intros _. left. by destruct d.
        + done.
        + by apply Hst'.
        + constructor; done.
      - cbn [plen] in Hf. fold d in Hf. rewrite ?(rb_color _ _ _ Hx). destruct d; simpl in *; lia. }
    destruct ctx as [|f1 rest]; [simpl; by apply Hok|].
    simpl fixv. destruct (f_red f1) eqn:Ef1; simpl.
    2: { apply Hok. simpl. simpl in Hctx. rewrite Ef1 in *. done. }
    destruct (Hrp eq_refl) as [[_ Hcalm]|Hrp'].
    { exfalso. simpl in Hcalm, Hfl. congruence. }
    destruct rest as [|f2 rest]; [done|].
    simpl in Hctx. rewrite Ef1 in Hctx. destruct Hctx as (_ & Ho1 & Hc).
    destruct (f_red f2) eqn:Ef2; [naive_solver|]. destruct Hc as ([c2 Ho2] & Hc).
    pose proof (rb_color _ _ _ Ho2) as E2. rewrite Hrp' in E2. subst c2.
    inversion Hdir as [|? ? Hd1 Hdir']; subst. inversion Hdir' as [|? ? Hd2 Hdir'']; subst.
    destruct (Bool.eqb (f_dir f1) (f_dir f2)) eqn:Ed; simpl.
    + (* single rotation *)
      set (F := Fr false (f_k f1) (f_v f1) (f_dir f1) (mk (f_dir f2) true (f_oth f1) (f_k f2) (f_v f2) (f_oth f2)) false).
      assert (HctxF : okctx (F :: rest) true n).
      { simpl. split; [|done]. exists true. by apply rb_mk_red. }
      destruct (cmp k key =? 0)%Z eqn:Ecmp.
      { destruct (Hplug (F :: rest) true n (T true l' k v r')) as (c' & n' & ? & ?); [done|done|done|]. eauto 10. }
      set (d := todir k) in *.
      assert (Hx : rb (if d then r' else l') false n) by by destruct d.
      assert (Ho : rb (if d then l' else r') false n) by by destruct d.
      eapply (IH _ _ n).
      * split; rewrite ?(rb_color _ _ _ Hx).
        -- done.
        -- simpl. simpl in HctxF. done.
        -- intros _. left. by destruct d.
        -- done.
        -- by apply Hst'.
        -- constructor; [done|]. constructor; done.
      * cbn [plen] in Hf. fold d in Hf. rewrite ?(rb_color _ _ _ Hx). destruct d; simpl in *; lia.
    + (* double rotation *)
      set (t0 := T true l' k v0 r').
      assert (Hch : forall b, rb (child b t0) false n) by (by intros []).
      assert (Hcalm : forall b, calm (child b t0)) by (by intros []).
      set (P := mk (f_dir f1) true (child (f_dir f2) t0) (f_k f1) (f_v f1) (f_oth f1)).
      set (G := mk (f_dir f2) true (child (f_dir f1) t0) (f_k f2) (f_v f2) (f_oth f2)).
      assert (HP : rb P true n) by by apply rb_mk_red.
      assert (HG : rb G true n) by by apply rb_mk_red.
      assert (HcP : calm_next P).
      { unfold P, mk. destruct (f_dir f1) eqn:E1; simpl; rewrite <- Hd1; simpl; apply Hcalm. }
      assert (HcG : calm_next G).
      { unfold G, mk. destruct (f_dir f2) eqn:E1; simpl; rewrite <- Hd2; simpl; apply Hcalm. }
      assert (HlP : plen P = S (plen (child (f_dir f2) t0))).
      { unfold P, mk. destruct (f_dir f1) eqn:E1; simpl; by rewrite <- Hd1. }
      assert (HlG : plen G = S (plen (child (f_dir f1) t0))).
      { unfold G, mk. destruct (f_dir f2) eqn:E1; simpl; by rewrite <- Hd2. }
      assert (HsP : (cmp k key =? 0)%Z = false -> f_dir f2 = todir k -> stops P).
      { intros Hk Ek. apply (Hst' Hk) in Ek. destruct Ek as [Ek|Ek]; [by left|right].
        unfold P, mk. destruct (f_dir f1) eqn:E1; cbn [f_get]; rewrite <- Hd1; destruct (cmp (f_k f1) key =? 0)%Z; try done; by destruct (f_dir f2). }
      assert (HsG : (cmp k key =? 0)%Z = false -> f_dir f1 = todir k -> stops G).
      { intros Hk Ek. apply (Hst' Hk) in Ek. destruct Ek as [Ek|Ek]; [by left|right].
        unfold G, mk. destruct (f_dir f2) eqn:E2; cbn [f_get]; rewrite <- Hd2; destruct (cmp (f_k f2) key =? 0)%Z; try done; by destruct (f_dir f1). }
      assert (Hstep : forall x o d, stops x -> ((x = P /\ o = G) \/ (x = G /\ o = P)) -> d = todir k -> plen x <= plen t0 ->
         exists t' c' n', ins_loop cmp key fuel (Fr false k v0 d o false :: rest) x v = Some t' /\ rb t' c' n' /\ t' <> E).
      { intros x o d Hsx Hxo Ed' Hlen.
        assert (Hx : rb x true n) by naive_solver. assert (Ho : rb o true n) by naive_solver.
        assert (Hcx : calm_next x) by naive_solver.
        eapply (IH _ _ n).
        - split; rewrite ?(rb_color _ _ _ Hx).
          + done.
          + simpl. split; [|done]. eauto.
          + done.
          + intros _. by right.
          + done.
          + by constructor.
        - rewrite (rb_color _ _ _ Hx). assert (Hf' : 2 * plen t0 + 1 < S fuel) by exact Hf.
          change (2 * plen x + 0 < fuel). lia. }
      assert (Hplen : plen t0 = S (plen (child (todir k) t0))).
      { unfold t0. simpl. by destruct (todir k). }
      change (if f_dir f2 then r' else l') with (child (f_dir f2) t0).
      change (if f_dir f1 then r' else l') with (child (f_dir f1) t0). fold P. fold G.
      clearbody P G. destruct (f_dir f2) eqn:E2; simpl.
      * destruct (cmp k key =? 0)%Z eqn:Ecmp.
        { destruct (Hplug rest false (S n) (T false G k v P)) as (c' & n' & ? & ?);
            [done|by apply (rb_mk_black true P k v G n true true)|done|eauto 10]. }
        destruct (todir k) eqn:Ek.
        -- eapply Hstep; [first [apply HsP|apply HsG]; first [done|by destruct (f_dir f1)]|naive_solver|done|]. fold t0. lia.
        -- eapply Hstep; [first [apply HsP|apply HsG]; first [done|by destruct (f_dir f1)]|naive_solver|done|]. fold t0. destruct (f_dir f1); [done|]. lia.
      * destruct (cmp k key =? 0)%Z eqn:Ecmp.
        { destruct (Hplug rest false (S n) (T false P k v G)) as (c' & n' & ? & ?);
            [done|by apply (rb_mk_black false P k v G n true true)|done|eauto 10]. }
        destruct (todir k) eqn:Ek.
        -- eapply Hstep; [first [apply HsP|apply HsG]; first [done|by destruct (f_dir f1)]|naive_solver|done|]. fold t0. destruct (f_dir f1); [|done]. lia.
        -- eapply Hstep; [first [apply HsP|apply HsG]; first [done|by destruct (f_dir f1)]|naive_solver|done|]. fold t0. lia.
Qed.
End ins.
