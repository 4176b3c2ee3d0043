(** * Statements about UpdateDescendants with its goroutines. *)
From Verif Require Import Prog History NumModel NumSpec IpModel IpSpec IpUpdSpec IpHist IpPropProofs IpUpdProofs Channel ChanUpdModel ChanUpdProofs.
Open Scope nat_scope.

(** [m] reads memory [h] and returns [a]. *)
Definition returns {U A} (m : prog U A) (h : heap U) (a : A) : Prop := wp m h ∅ (fun x h' _ => x = a /\ h' = h).

Section proofs.
Context {U St : Type}.
Local Notation heap := (heap U).

Lemma ro_returns {A} (m : prog U A) (h : heap) W Q : ro m -> wp m h W Q -> exists a, Q a h W /\ returns m h a.
Proof.
  intros Hm. induction Hm as [a|e|l f Hf IH]; intros H; [|done|].
  - exists a. done.
  - cbn [wp] in H. destruct H as (c & E & H). destruct (IH c H) as (a & HQ & Ha). exists a. split; [done|]. unfold returns. cbn [wp]. eauto.
Qed.
Lemma ro_enum c fuel : forall p, ro (enumerate_ (U := U) c fuel p).
Proof.
  induction fuel as [|fuel IH]; intros [l|]; cbn [enumerate_]; [constructor..| |constructor]. apply ro_bind; [apply (ro_ld_num (Some l))|]. intros nn.
  apply ro_bind; [destruct (nn_c0 nn); [apply IH|constructor]|]. intros xs. apply ro_bind; [destruct (nn_c1 nn); [apply IH|constructor]|]. intros ys. constructor.
Qed.
Lemma ro_n_enum c p : ro (n_enumerate (U := U) c p).
Proof. destruct p; [apply ro_enum|constructor]. Qed.
Lemma ro_mapM {A B} (f : A -> prog U B) l : (forall a, ro (f a)) -> ro (mapM f l).
Proof. intros Hf. induction l as [|a l IH]; cbn [mapM]; [constructor|]. apply ro_bind; [done|]. intros b. apply ro_bind; [done|]. intros. constructor. Qed.
Lemma ro_ip_enum t : ro (ip_enumerate (U := U) t).
Proof.
  destruct t as [a|]; [|constructor]. cbn [ip_enumerate]. apply ro_bind; [apply (ro_ld_ip (Some a))|]. intros r. apply ro_bind; [apply ro_n_enum|]. intros xs.
  apply ro_bind; [apply ro_n_enum|]. intros ys. apply ro_bind; [|intros; constructor]. apply ro_mapM. intros [l n]. cbn [snd]. unfold enum6.
  destruct (nn_val n); try constructor. apply ro_bind; [apply ro_n_enum|]. intros. constructor.
Qed.

Variable cb : St -> pair_ (U := U) -> St * option (value U).
Hypothesis Hcb : cb_plain cb.
Lemma pf_update_schedules (h : heap) ops rops : Forall2 iresolves ops rops -> Forall iop_ok ops ->
  wp (run_hist ip_exec ops []) h ∅ (fun vs h1 _ => forall ver n p s, nth ver vs.1 None <> None -> net_is n p ->
    let t := nth ver vs.1 None in let l := iver rops ver in
    exists h2 s2 e e', always h1 (c_ip_update cb t n s) h2 s2 /\ like h2 h1 /\
      returns (ip_enumerate t) h1 e /\ returns (ip_enumerate t) h2 e' /\ nenumerates l e /\
      (is_target l n p -> uwalk cb p s e s2 e') /\
      (~ is_target l n p -> s2 = s /\ h2 = h1)).
Proof.
  intros Hops Hok. eapply wp_mono; [by apply (ip_pf_update_hist cb Hcb h ops rops)|]. cbn beta. intros vs h1 W1 H ver n p s Hne Hn. cbn zeta.
  specialize (H ver n p s (KNet None) None Hne Hn ltac:(apply ik_no_net; intros q Hq; inversion Hq)). cbn zeta in H.
  apply wp_bind_inv in H. destruct (ro_returns _ _ _ _ (ro_ip_enum _) H) as (e & H1 & He). clear H.
  apply wp_bind_inv in H1. destruct (update_always _ _ _ _ _ _ _ H1) as (h2 & s2 & W2 & H2 & Ha & Hl).
  apply wp_bind_inv in H2. destruct (ro_returns _ _ _ _ (ro_ip_enum _) H2) as (e' & H3 & He').
  exists h2, s2, e, e'. split; [done|]. split; [done|]. split; [done|]. split; [done|].
  apply wp_bind_inv in H3.
  destruct (nth ver vs.1 None) as [a|]; [|done]. cbn [ip_get_key ip_get_net wp bind] in H3. naive_solver.
Qed.
End proofs.
