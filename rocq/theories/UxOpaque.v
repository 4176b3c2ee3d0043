(** * uintX iptree: programs do not look at the values they store (as Opaque.v). *)
From Verif Require Import Prog History NumModel IpModel IpSpec IpHist Opaque UxModel UxHist.
Open Scope N_scope.

Section opaque.
Context {U' U : Type}.
Variable f : U' -> value U.
Hypothesis Hf : forall u, plain (f u).
Local Notation erv := (erv f).
Local Notation psim := (psim f).
Local Notation val_ := (val_ f).
Tactic Notation "intro2" ident(x) := let y := fresh in let H := fresh in intros x y H; hnf in H; try subst y.
Lemma er_sub v : sub_of (erv v) = sub_of v.
Proof using Hf. destruct v as [|u|p|p]; cbn [erv sub_of]; try done. specialize (Hf u). by destruct (f u). Qed.
Lemma ps_ux_insert t n v' v : val_ v' v -> psim same (ux_insert_net t n v') (ux_insert_net t n v).
Proof using Hf.
  intros Hv. destruct n as [n|]; cbn [ux_insert_net]; [|by constructor]. eapply psim_bind; [apply ps_roots|]. intro2 r. destruct (ip4_key n) as [[k b]|].
  { eapply psim_bind; [by apply ps_n_insert|]. intro2 x. eapply psim_bind; [by apply ps_alloc_|]. intro2 l. by constructor. }
  destruct (ip6_key n) as [[[[hk hb] lk] lb]|]; [|by constructor].
  eapply psim_bind; [apply ps_n_exact|]. intro2 e. cbn [fst snd]. cbv zeta. rewrite er_sub.
  eapply psim_bind; [by apply ps_n_insert|]. intro2 s2. eapply psim_bind; [by apply ps_n_insert|]. intro2 x. eapply psim_bind; [by apply ps_alloc_|]. intro2 l. by constructor.
Qed.
Lemma ps_ux_inplace t n v' v : val_ v' v -> psim same (ux_inplace_insert_net t n v') (ux_inplace_insert_net t n v).
Proof using Hf.
  intros Hv. destruct n as [n|]; cbn [ux_inplace_insert_net]; [|by constructor]. destruct (ip4_key n) as [[k b]|].
  { eapply psim_bind; [apply ps_ld_ip|]. intro2 r. eapply psim_bind; [by apply ps_n_inplace|]. intro2 x. apply (ps_store_ f t (CIp _ _)). }
  destruct (ip6_key n) as [[[[hk hb] lk] lb]|]; [|by constructor].
  eapply psim_bind; [apply ps_ld_ip|]. intro2 r.
  eapply psim_bind; [apply ps_n_exact|]. intro2 e. cbn [fst snd]. cbv zeta. rewrite er_sub. destruct e.2.
  - eapply psim_bind; [by apply ps_n_inplace|]. intro2 s2. destruct (ptr_eqb _ _); [by constructor|].
    eapply psim_bind; [by apply ps_n_inplace|]. intro2 x. apply (ps_store_ f t (CIp _ _)).
  - eapply psim_bind; [by apply ps_n_inplace|]. intro2 s2. eapply psim_bind; [by apply ps_n_inplace|]. intro2 x. apply (ps_store_ f t (CIp _ _)).
Qed.
Lemma ps_ux_get t n : psim (got f) (ux_get_net t n) (ux_get_net t n).
Proof using Hf.
  destruct t as [a|], n as [n|]; cbn [ux_get_net]; try by constructor. eapply psim_bind; [apply ps_ld_ip|]. intro2 r.
  destruct (ip4_key n) as [[k b]|]; [apply ps_n_match|]. destruct (ip6_key n) as [[[[hk hb] lk] lb]|]; [|by constructor].
  eapply psim_bind; [apply ps_n_match|]. intro2 s. cbn [fst snd]. destruct (negb s.2); [by constructor|]. rewrite er_sub.
  eapply psim_bind; [apply ps_n_match|]. intro2 x. cbn [fst snd]. destruct (x.2 || (hb <? 64)); [by constructor|].
  eapply psim_bind; [apply ps_n_match|]. intro2 y. cbn [fst snd]. destruct (negb y.2); [by constructor|]. rewrite er_sub. apply ps_n_match.
Qed.
Lemma ps_ux_delete t n : psim same (ux_delete_net t n) (ux_delete_net t n).
Proof using Hf.
  destruct t as [a|], n as [n|]; cbn [ux_delete_net]; try by constructor. eapply psim_bind; [apply ps_ld_ip|]. intro2 r.
  destruct (ip4_key n) as [[k b]|].
  { eapply psim_bind; [apply ps_n_delete|]. intro2 x. destruct x.2; [|by constructor]. eapply psim_bind; [by apply ps_alloc_|]. intro2 l. by constructor. }
  destruct (ip6_key n) as [[[[hk hb] lk] lb]|]; [|by constructor].
  eapply psim_bind; [apply ps_n_exact|]. intro2 e. cbn [fst snd]. destruct e.2; [|by constructor]. rewrite er_sub.
  eapply psim_bind; [apply ps_n_delete|]. intro2 x. destruct x.2; [|by constructor].
  eapply (psim_bind f same).
  { destruct x.1; [by apply ps_n_insert|]. eapply psim_bind; [apply ps_n_delete|]. intro2 y. by constructor. }
  intro2 r64. eapply psim_bind; [by apply ps_alloc_|]. intro2 l. by constructor.
Qed.
Lemma ps_ux_enum6 n : psim (pairs f) (ux_enum6 n) (ux_enum6 (ern f n)).
Proof using Hf.
  unfold ux_enum6. cbn [nn_val ern]. rewrite er_sub. eapply psim_bind; [apply ps_n_enumerate|]. intros xs' xs Hx. constructor. unfold pairs. induction Hx as [|x' x xs' xs -> Hx IH]; cbn [map]; [done|]. by f_equal.
Qed.
Lemma ps_ux_enumerate t : psim (pairs f) (ux_enumerate t) (ux_enumerate t).
Proof using Hf.
  destruct t as [a|]; cbn [ux_enumerate]; [|by constructor]. eapply psim_bind; [apply ps_ld_ip|]. intro2 r.
  eapply psim_bind; [apply ps_n_enumerate|]. intros xs' xs Hx. eapply psim_bind; [apply ps_n_enumerate|]. intros ys' ys Hy.
  eapply (psim_bind f (fun z' z => z = map (map (erp f)) z')).
  - induction Hy as [|y' y ys' ys -> Hy IH]; cbn [mapM]; [by constructor|]. eapply psim_bind; [apply ps_ux_enum6|]. intro2 z. eapply psim_bind; [apply IH|]. intro2 zs. by constructor.
  - intro2 z'. constructor. unfold pairs. rewrite map_app, concat_map. f_equal.
    induction Hx as [|x' x xs' xs -> Hx IH]; cbn [map]; [done|]. by f_equal.
Qed.
Lemma ps_ux_fill t l' l : Forall2 (fun x' x => x = (x'.1, erv x'.2)) l' l -> psim same (ux_fill t l') (ux_fill t l).
Proof using Hf.
  induction 1 as [|[k v] ? l' l -> H IH]; cbn [ux_fill fst snd]; [by constructor|]. eapply psim_bind; [rewrite !ux_inplace_key_eq; by apply ps_ux_inplace|]. intros _ _ _. exact IH.
Qed.
Lemma ps_ux_exec vs o' o : op_sim f o' o -> psim (fun r' r => r'.1 = r.1 /\ out_sim f r'.2 r.2) (ux_exec vs o') (ux_exec vs o).
Proof using Hf.
  destruct o' as [l'|i' k' v'|i' k'|i' k'|i'], o as [l|i k v|i k|i k|i]; cbn [op_sim ux_exec]; try done.
  - intros H. eapply psim_bind; [unfold ip_new; eapply psim_bind; [by apply ps_alloc_|intro2 x; by apply (ps_ret f same)]|]. intro2 n. eapply psim_bind; [by apply ps_ux_fill|]. intros _ _ _. by constructor.
  - intros (-> & -> & ->). rewrite !ux_insert_key_eq. eapply psim_bind; [by apply ps_ux_insert|]. intro2 n. by constructor.
  - intros (-> & ->). rewrite !ux_delete_key_eq. eapply psim_bind; [apply ps_ux_delete|]. intro2 n. by constructor.
  - intros (-> & ->). rewrite !ux_get_key_eq. eapply psim_bind; [apply ps_ux_get|]. intro2 vb; destruct vb as [v b]. constructor. split; [done|]. unfold ival. cbn [fst snd out_sim]. by destruct b.
  - intros ->. eapply psim_bind; [apply ps_ux_enumerate|]. intros e ? He. constructor. by split.
Qed.
End opaque.
