(** * UpdateDescendants does not look at values: callbacks that are programs. *)
From Verif Require Import Prog NumModel IpModel IpSpec IpHist IpUpdProofs Opaque.
Open Scope N_scope.

Section by_.
Context {U' U St' St : Type}.
Variable f : U' -> value U.
Hypothesis Hf : forall u, plain (f u).
Local Notation psim := (psim f).
Local Notation erp := (erp f).
Local Notation erv := (erv f).
Variable SR : St' -> St -> Prop.
Variable cb' : St' -> pair_ (U := U') -> prog U' (St' * option (value U')).
Variable cb : St -> pair_ (U := U) -> prog U (St * option (value U)).
Hypothesis Hcb : forall s' s x, SR s' s -> psim (fun r' r => SR r'.1 r.1 /\ r.2 = erv <$> r'.2) (cb' s' x) (cb s (erp x)).
Lemma psb_node mk' mk s' s l : (forall n, mk (ern f n) = erp (mk' n)) -> SR s' s -> psim SR (upd_node cb' mk' s' l) (upd_node cb mk s l).
Proof using Hcb.
  intros Hmk Hs. unfold upd_node. eapply psim_bind; [apply ps_ld_num|]. intros n' n Hn0; hnf in Hn0; subst n. rewrite Hmk. eapply psim_bind; [by apply Hcb|]. intros [s1' r'] [s1 r] [H1 H2]. cbn [fst snd] in *. subst r.
  destruct r' as [v|]; cbn [fmap option_fmap option_map]; [|by constructor].
  eapply psim_bind; [apply (ps_st_num f _ (NumN (nn_key n') (nn_bits n') (nn_leaf n') v (nn_c0 n') (nn_c1 n'))); reflexivity|]. intros _ _ _. by constructor.
Qed.
Lemma psb_list mk' mk : (forall n, mk (ern f n) = erp (mk' n)) -> forall ls s' s, SR s' s -> psim SR (upd_list cb' mk' s' ls) (upd_list cb mk s ls).
Proof using Hcb. intros Hmk. induction ls as [|l ls IH]; intros s' s Hs; cbn [upd_list]; [by constructor|]. eapply psim_bind; [by apply psb_node|]. intros s1' s1 H1. by apply IH. Qed.
Lemma psb_top ls : forall s' s, SR s' s -> psim SR (upd_top cb' s' ls) (upd_top cb s ls).
Proof using Hcb Hf.
  induction ls as [|l ls IH]; intros s' s Hs; cbn [upd_top]; [by constructor|]. eapply psim_bind; [apply ps_ld_num|]. intros n' n Hn0; hnf in Hn0; subst n. cbn [nn_val ern].
  assert (Hn : psim SR (upd_node cb' pair6 s' l) (upd_node cb pair6 s l)) by (by apply psb_node).
  eapply (psim_bind f SR); [|intros s1' s1 H1; by apply IH]. destruct (nn_val n') as [|u|p|p]; cbn [Opaque.erv]; try exact Hn.
  - specialize (Hf u). by destruct (f u).
  - eapply psim_bind; [apply ps_n_enumerate|]. intros xs' xs Hx. rewrite (sents_fst f _ _ Hx). by apply psb_list.
Qed.
Lemma ps_update_by t n s' s : SR s' s -> psim SR (ip_update_by cb' t n s') (ip_update_by cb t n s).
Proof using Hcb Hf.
  intros Hs. destruct n as [n|]; cbn [ip_update_by]; [|by constructor]. destruct (ip4_key n) as [[k b]|].
  { eapply psim_bind; [apply ps_ld_ip|]. intros r r0 Hn0; hnf in Hn0; subst r0. eapply psim_bind; [apply ps_n_find|]. intros tg tg0 Hn0; hnf in Hn0; subst tg0. destruct tg; [|by constructor]. eapply psim_bind; [apply ps_below|]. intros ls ls0 Hn0; hnf in Hn0; subst ls0. by apply psb_list. }
  destruct (ip6_key n) as [[[[hk hb] lk] lb]|]; [|by constructor].
  eapply psim_bind; [apply ps_ld_ip|]. intros r r0 Hn0; hnf in Hn0; subst r0. eapply psim_bind; [apply ps_n_find|]. intros tg tg0 Hn0; hnf in Hn0; subst tg0. destruct tg as [tl|]; [|by constructor].
  eapply psim_bind; [apply ps_ld_num|]. intros tn tn0 Hn0; hnf in Hn0; subst tn0. cbn [nn_val ern].
  assert (Ht : psim SR (ls <- below c64 (Some tl) ;; upd_top cb' s' ls) (ls <- below c64 (Some tl) ;; upd_top cb s ls)).
  { eapply psim_bind; [apply ps_below|]. intros ls ls0 Hn0; hnf in Hn0; subst ls0. by apply psb_top. }
  destruct (nn_val tn) as [|u|p|p]; cbn [Opaque.erv]; try exact Ht.
  - specialize (Hf u). by destruct (f u).
  - eapply psim_bind; [apply ps_ld_num|]. intros pn pn0 Hn0; hnf in Hn0; subst pn0. cbn [nn_key nn_bits ern]. eapply (psim_bind f same); [destruct (_ && _); [by constructor|apply ps_n_find]|]. intros tg tg0 Hn0; hnf in Hn0; subst tg0. destruct tg; [|by constructor].
    eapply psim_bind; [apply ps_below|]. intros ls ls0 Hn0; hnf in Hn0; subst ls0. by apply psb_list.
Qed.
End by_.
