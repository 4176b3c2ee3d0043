(** * iptree on memory: replacing values in place in one of many trees. *)
From Verif Require Import Prog NumModel NumBits NumFun NumSim NumOrder NumSpec NumAbs NumFoot NumLoc IpModel IpSpec IpBits IpAbs IpAbs2 IpAbs3 NumShare IpUpd IpKinds.
From Coq Require Import ZifyBool ZifyNat ZifyN.
Open Scope N_scope.

Section kinds.
Context {U : Type}.
Local Notation heap := (heap U).
Local Notation value := (value U).
Local Notation nmap := (@gmap pfx (@prod_eq_dec N N_eq_dec N N_eq_dec) (@prod_countable N N_eq_dec N_countable N N_eq_dec N_countable) (prod N value)).
Local Notation kinds := (kd -> gset loc).
Implicit Types (h : heap) (K : kinds).

Definition vlike (v v' : value) : Prop := v' = v \/ (plain v /\ plain v').
Lemma nrep_vrel h h' : vrel h h' -> forall t p, nrep h p t -> exists t', same_shape t t' /\ nrep h' p t' /\ Forall2 (fun e e' : entry U => e'.1 = e.1 /\ vlike e.2 e'.2) (f_enum t) (f_enum t').
Proof.
  intros Hv. induction t as [|k b lf w l IHl r IHr]; intros p H.
  - exists NE. split_and!; [done|done|constructor].
  - destruct H as (a & c0 & c1 & -> & Ha & H0 & H1). destruct (IHl _ H0) as (l' & Sl & Ll & El), (IHr _ H1) as (r' & Sr & Lr & Er).
    destruct (vrel_cell _ _ _ _ Hv Ha) as (v & Ha' & Hv'). cbn [nn_val nn_leaf] in Hv'.
    exists (NT k b lf v l' r'). split_and!.
    + split_and!; try done. intros ->. destruct Hv' as [->|[? _]]; done.
    + by exists a, c0, c1.
    + cbn [f_enum]. apply Forall2_app; [|by apply Forall2_app]. destruct lf; constructor; [|constructor]. split; [done|]. cbn [snd]. destruct Hv' as [->|(_ & ? & ?)]; [by left|by right].
Qed.
Definition mlike (m m' : nmap) : Prop := forall q, match m !! q, m' !! q with
  | None, None => True | Some kv, Some kv' => kv'.1 = kv.1 /\ vlike kv.2 kv'.2 | _, _ => False end.
Lemma in_vrel c h h' F p (m : nmap) : cfg_ok c -> vrel h h' -> ntree_in c h F p m -> exists m' : nmap, ntree_in c h' F p m' /\ mlike m m'.
Proof.
  intros Hc Hv (h0 & Hs & Hd & t & Hw & Hr & Ha).
  set (h0' := hr h' F).
  assert (HF : F ⊆ dom h'). { rewrite <- Hd. etrans; [by apply subseteq_dom|by apply vrel_dom]. }
  assert (Hv0 : vrel h0 h0').
  { intros l. specialize (Hv l). destruct (decide (l ∈ F)) as [Hin|Hin].
    - unfold h0'. rewrite hr_lookup, decide_True by done. assert (Hin' := Hin). rewrite <- Hd in Hin'. apply elem_of_dom in Hin' as [x Hx]. rewrite Hx. by rewrite (lookup_weaken _ _ _ _ Hx Hs) in Hv.
    - by rewrite (proj1 (not_elem_of_dom h0 l)) by (by rewrite Hd). }
  destruct (nrep_vrel _ _ Hv0 _ _ Hr) as (t' & St & Rt & Et). pose proof (same_shape_wf c _ _ St Hw) as Hw'. destruct (content_of c Hc t' Hw') as [m' Ha'].
  exists m'. split; [exists h0'; split_and!; [apply hr_sub|by apply hr_dom|by exists t']|].
  intros q. destruct (m !! q) as [[k v]|] eqn:E, (m' !! q) as [[k' v']|] eqn:E'; [| | |done].
  - apply Ha in E as [E1 E2]. apply elem_of_list_lookup in E1 as [i Ei]. destruct (Forall2_lookup_l _ _ _ _ _ Et Ei) as ([[k2 b2] v2] & Ei2 & X1 & X2). cbn [fst snd] in *. injection X1 as -> ->.
    assert (m' !! q = Some (k, v2)) as E3. { apply Ha'. split; [by eapply elem_of_list_lookup_2|done]. } rewrite E3 in E'. injection E' as <- <-. done.
  - apply Ha in E as [E1 E2]. apply elem_of_list_lookup in E1 as [i Ei]. destruct (Forall2_lookup_l _ _ _ _ _ Et Ei) as ([[k2 b2] v2] & Ei2 & X1 & X2). cbn [fst snd] in *. injection X1 as -> ->.
    assert (m' !! q = Some (k, v2)) as E3. { apply Ha'. split; [by eapply elem_of_list_lookup_2|done]. } by rewrite E3 in E'.
  - apply Ha' in E' as [E1 E2]. apply elem_of_list_lookup in E1 as [i Ei]. destruct (Forall2_lookup_r _ _ _ _ _ Et Ei) as ([[k2 b2] v2] & Ei2 & X1 & X2). cbn [fst snd] in *. injection X1 as <- <-.
    assert (m !! q = Some (k', v2)) as E3. { apply Ha. split; [by eapply elem_of_list_lookup_2|done]. } by rewrite E3 in E.
Qed.
Lemma mlike_plain (m m' : nmap) : mlike m m' -> plain_map m -> plain_map m'.
Proof. intros H Hp q k v E. specialize (H q). rewrite E in H. destruct (m !! q) as [[k0 v0]|] eqn:E0; [|done]. destruct H as [_ [H|[_ H]]]; [|done]. cbn [snd] in H. subst v. by eapply Hp. Qed.
Lemma mlike_empty (m m' : nmap) : mlike m m' -> m = ∅ <-> m' = ∅.
Proof.
  intros H. split; intros ->; apply map_eq; intros q; specialize (H q); rewrite lookup_empty in H |- *; [by destruct (m' !! q)|by destruct (m !! q)].
Qed.
Lemma mlike_at (m m' : nmap) (x : N) : mlike m m' -> match m !! (64, x), m' !! (64, x) with
  | None, None => True | Some kv, Some kv' => kv'.1 = kv.1 /\ vlike kv.2 kv'.2 | _, _ => False end.
Proof. intros H. exact (H (64, x)). Qed.
Lemma mlike_inv (m m' : nmap) : mlike m m' -> (forall q k v, m !! q = Some (k, v) -> q.1 <> 64 -> plain v) -> forall q k v, m' !! q = Some (k, v) -> q.1 <> 64 -> plain v.
Proof.
  intros H Hp q k v E Hq. pose proof (H q) as X. change (m' !! (q : pfx) = Some (k, v)) in E. rewrite E in X. destruct (m !! (q : pfx)) as [[k0 v0]|] eqn:E0; [|done]. destruct X as [_ [X|[_ X]]]; [|done]. cbn [snd] in X. subst v. by apply (Hp q k0 v0).
Qed.
Lemma fin_choice (P : N -> nmap -> Prop) (L : list N) : (forall x, exists s, P x s) -> (forall x, x ∉ L -> P x ∅) -> exists ss, forall x, P x (ss x).
Proof.
  intros H1 H2.
  assert (H : forall L' : list N, exists ss, forall x, x ∈ L' \/ x ∉ L -> P x (ss x)).
  { induction L' as [|y L' [ss IH]]; [exists (fun _ => ∅); intros x [Hx|Hx]; [by apply elem_of_nil in Hx|by apply H2]|].
    destruct (H1 y) as [s Hs]. exists (fun x => if decide (x = y) then s else ss x). intros x Hx. destruct (decide (x = y)) as [->|Hne]; [done|]. apply IH. destruct Hx as [Hx|Hx]; [|by right]. apply elem_of_cons in Hx as [Hx|Hx]; [done|by left]. }
  destruct (H L) as [ss Hs]. exists ss. intros x. apply Hs. destruct (decide (x ∈ L)); [by left|by right].
Qed.
Lemma kitree_vrel h h' K t G : kgood h K -> vrel h h' -> kitree h K t G -> kgood h' K /\ exists G', kitree h' K t G'.
Proof.
  intros [G1 G2] Hv Ht. split; [split; [intros i; etrans; [apply G1|by apply vrel_dom]|done]|].
  destruct t as [a|]; [|by exists (fun _ => None)]. destruct Ht as (Hr & r4 & r6 & Ha & (m4 & A1 & A2 & A3) & (m & ss & B1 & [S1 S2 S3] & B3)).
  destruct (in_vrel c32 _ _ _ _ _ c32_ok Hv A1) as (m4' & A1' & M4). destruct (in_vrel c64 _ _ _ _ _ c64_ok Hv B1) as (m' & B1' & M6).
  destruct (fin_choice (fun x s' => exists s, ntree_in c64 h' (K (KSub x)) s s' /\ plain_map s' /\ match m' !! (64, x) with Some kv => kv.2 = VSub s /\ s' <> ∅ | None => s = None /\ s' = ∅ end)
    (map (fun e => e.1.2) (map_to_list m))) as [ss' Hss].
  - intros x. destruct (S1 x) as (s & X1 & X2). destruct (in_vrel c64 _ _ _ _ _ c64_ok Hv X1) as (s' & Y1 & Y2). exists s', s. split_and!; [done|by eapply mlike_plain|].
    pose proof (mlike_at _ _ x M6) as X. destruct (m !! (64, x)) as [[k v]|], (m' !! (64, x)) as [[k' v']|]; try done; cbn [fst snd] in *; unfold vlike in *.
    + destruct X2 as [X0 X2], X as [_ X]. subst v. destruct X as [->|[Hp _]]; [|done]. split; [done|]. by rewrite <- (mlike_empty _ _ Y2).
    + destruct X2 as [-> X2]. split; [done|]. by apply (mlike_empty _ _ Y2).
  - intros x Hx. exists None. pose proof (mlike_at _ _ x M6) as X. destruct (m !! (64, x)) as [kv|] eqn:E.
    + destruct Hx. apply elem_of_list_fmap. exists ((64, x), kv). split; [done|]. by apply elem_of_map_to_list.
    + destruct (m' !! (64, x)); [done|]. split_and!; [|by intros ???|done|done]. eapply in_grow; [done| | |apply (ntree_in_nil c64)]; [clear; set_solver|]. etrans; [apply G1|by apply vrel_dom].
  - exists (fun q : net => if q.1 then six m' ss' q.2 else vals m4' q.2). split; [done|]. exists r4, r6. split_and!.
    + specialize (Hv a). by rewrite Ha in Hv.
    + exists m4'. split_and!; [done|by eapply mlike_plain|done].
    + exists m', ss'. split_and!; [done| |done]. split.
      * intros x. destruct (Hss x) as (s & Y1 & Y2 & Y3). by exists s.
      * by eapply mlike_inv.
      * intros x. by destruct (Hss x) as (s & Y1 & Y2 & Y3).
Qed.
End kinds.
