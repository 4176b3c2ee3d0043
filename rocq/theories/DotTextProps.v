(** * The text of Dot as a graph. *)
From Verif Require Import Prog RbModel NumModel IpModel IpBits DotModel DotSpec DotText DotTextSpec DotTextProofs.
From Coq Require Import String.
Open Scope nat_scope.
Local Notation B := list_byte_of_string.

Lemma lex_seq st a b ts st1 ts' st2 : lex st a = Some (ts, st1) -> lex st1 b = Some (ts', st2) -> lex st (a ++ b) = Some (ts ++ ts', st2).
Proof.
  revert st ts. induction a as [|x a IH]; intros st ts Ha Hb; cbn [lex app] in *; [by injection Ha as <- <-|].
  destruct (next_char st x) as [[t1 st']|]; [|done]. destruct (lex st' a) as [[t2 st'']|] eqn:E; [|done].
  injection Ha as <- <-. rewrite (IH _ _ E Hb). by rewrite app_assoc.
Qed.
Lemma lex_digits ds : Forall (fun b => is_digit b = true) ds -> forall a, lex (LId a) ds = Some ([], LId (a ++ ds)).
Proof.
  induction 1 as [|b ds Hb Hds IH]; intros a; [by rewrite app_nil_r|]. cbn [lex next_char]. rewrite Hb, orb_true_r, IH.
  by rewrite <- app_assoc.
Qed.
Lemma lex_inside q a : inside q -> lex (LStr a) q = Some ([], LStr (a ++ q)).
Proof. intros H. rewrite <- (app_nil_r q) at 1. rewrite H. done. Qed.
Lemma node_id_fmt i : node_id i (TId (x4e :: fmt_d (N.of_nat i))).
Proof. exists (fmt_d (N.of_nat i)). split; [done|]. by apply digits_number. Qed.
Lemma lex_node_id i : lex LNone (B "N" ++ fmt_d (N.of_nat i)) = Some ([], LId (x4e :: fmt_d (N.of_nat i))).
Proof. apply (lex_seq _ _ _ [] (LId [x4e]) []); [done|]. apply lex_digits, fmt_d_digit. Qed.

(** A line that shows [q] between quotes. *)
Lemma lex_label i (q rest : bytes) extra : inside q ->
  lex LNone (rest ++ B "]" ++ [x0a]) = Some (extra ++ [TPunct "]"], LNone) ->
  lex LNone (B "N" ++ fmt_d (N.of_nat i) ++ B " " ++ (B "[label=""" ++ q ++ B """" ++ rest ++ B "]") ++ [x0a]) =
  Some ([TId (x4e :: fmt_d (N.of_nat i)); TPunct "["; TId (B "label"); TPunct "="; TStr q] ++ extra ++ [TPunct "]"], LNone).
Proof.
  intros Hq Hr.
  replace (B "N" ++ fmt_d (N.of_nat i) ++ B " " ++ (B "[label=""" ++ q ++ B """" ++ rest ++ B "]") ++ [x0a])
    with ((B "N" ++ fmt_d (N.of_nat i)) ++ (B " [label=""" ++ (q ++ (B """" ++ (rest ++ B "]" ++ [x0a])))))
    by (rewrite <- !app_assoc; done).
  eapply (lex_seq _ _ _ [] _ ([TId (x4e :: fmt_d (N.of_nat i)); TPunct "["; TId (B "label"); TPunct "="; TStr q] ++ extra ++ [TPunct "]"]));
    [apply lex_node_id|].
  eapply (lex_seq _ _ _ [TId (x4e :: fmt_d (N.of_nat i)); TPunct "["; TId (B "label"); TPunct "="] _ ([TStr q] ++ extra ++ [TPunct "]"])); [reflexivity|].
  eapply (lex_seq _ _ _ [] _ ([TStr q] ++ extra ++ [TPunct "]"])); [by apply lex_inside|].
  eapply (lex_seq _ _ _ [TStr q]); [reflexivity|]. exact Hr.
Qed.
Lemma lex_edge i a b :
  lex LNone (B "N" ++ fmt_d (N.of_nat i) ++ B " -> { N" ++ fmt_d (N.of_nat a) ++ B " N" ++ fmt_d (N.of_nat b) ++ B " }" ++ [x0a]) =
  Some ([TId (x4e :: fmt_d (N.of_nat i)); TArrow; TPunct "{"; TId (x4e :: fmt_d (N.of_nat a)); TId (x4e :: fmt_d (N.of_nat b)); TPunct "}"], LNone).
Proof.
  replace (B "N" ++ fmt_d (N.of_nat i) ++ B " -> { N" ++ fmt_d (N.of_nat a) ++ B " N" ++ fmt_d (N.of_nat b) ++ B " }" ++ [x0a])
    with ((B "N" ++ fmt_d (N.of_nat i)) ++ B " -> { " ++ (B "N" ++ fmt_d (N.of_nat a)) ++ B " " ++ (B "N" ++ fmt_d (N.of_nat b)) ++ B " }" ++ [x0a])
    by (rewrite <- !app_assoc; done).
  set (di := fmt_d (N.of_nat i)). set (da := fmt_d (N.of_nat a)). set (db := fmt_d (N.of_nat b)).
  eapply (lex_seq _ _ _ [] _ [TId (x4e :: di); TArrow; TPunct "{"; TId (x4e :: da); TId (x4e :: db); TPunct "}"]); [apply lex_node_id|].
  eapply (lex_seq _ _ _ [TId (x4e :: di); TArrow; TPunct "{"] _ [TId (x4e :: da); TId (x4e :: db); TPunct "}"]); [reflexivity|].
  eapply (lex_seq _ _ _ [] _ [TId (x4e :: da); TId (x4e :: db); TPunct "}"]); [apply lex_node_id|].
  eapply (lex_seq _ _ _ [TId (x4e :: da)] _ [TId (x4e :: db); TPunct "}"]); [reflexivity|].
  eapply (lex_seq _ _ _ [] _ [TId (x4e :: db); TPunct "}"]); [apply lex_node_id|]. reflexivity.
Qed.

Section text.
Context {U : Type}.
Variable is_print : N -> bool.
Variable gosyntax : value U -> bytes.

(** A way of showing nodes that can be read. *)
Definition readable {C} (str : option C -> bytes) (show : option C -> bytes -> list tok -> Prop) : Prop :=
  forall x, exists q rest extra, str x = B "[label=""" ++ q ++ B """" ++ rest ++ B "]" /\ inside q /\
    lex LNone (rest ++ B "]" ++ [x0a]) = Some (extra ++ [TPunct "]"], LNone) /\ show x q extra.

Lemma rb_readable : readable (rb_string is_print gosyntax) (rb_shows gosyntax).
Proof.
  intros [[[k v] red]|].
  2: { exists (B "nil"), (B " style=filled fontcolor=white fillcolor=black"). eexists. split; [reflexivity|]. split; [apply inside_plain; repeat constructor|].
       split; [|apply rs_nil]. reflexivity. }
  set (col := if red then B "fillcolor=red" else B "fontcolor=white fillcolor=black").
  exists (match v with VNil => quote is_print k | _ => B "k: \""" ++ quote is_print k ++ B "\"" v: \""" ++ quote is_print (gosyntax v) ++ B "\""" end).
  exists (B " style=filled " ++ col).
  exists (attribute "style" "filled" ++ (if red then attribute "fillcolor" "red" else attribute "fontcolor" "white" ++ attribute "fillcolor" "black")).
  assert (forall a c, inside a -> inside c -> inside (B "k: \""" ++ a ++ B "\"" v: \""" ++ c ++ B "\""")) as Hin.
  { intros a c Ha Hc. change (B "k: \""") with (B "k: " ++ B "\"""). change (B "\"" v: \""") with (B "\""" ++ B " v: " ++ B "\""").
    repeat apply inside_app; try done; try apply inside_esc; apply inside_plain; repeat constructor. }
  split; [|split; [|split]].
  - cbn [rb_string]. fold col. destruct v; rewrite <- ?app_assoc; reflexivity.
  - destruct v; try (apply Hin; apply quote_inside). apply quote_inside.
  - unfold col. destruct red; reflexivity.
  - apply (rs_key gosyntax k v red (quote is_print k)); [apply quote_unescape| |done].
    destruct v; [done|eexists; split; [apply (quote_unescape is_print)|reflexivity]..].
Qed.
Lemma rb_readable_d (uint : value U -> N) : readable (rb_string_d is_print uint) (rb_shows_d uint).
Proof.
  intros [[[k v] red]|].
  2: { exists (B "nil"), (B " style=filled fontcolor=white fillcolor=black"), (attribute "style" "filled" ++ attribute "fontcolor" "white" ++ attribute "fillcolor" "black").
    split; [reflexivity|]. split; [apply inside_plain; repeat constructor|]. split; [reflexivity|apply rd_nil]. }
  set (col := if red then B "fillcolor=red" else B "fontcolor=white fillcolor=black").
  exists (B "k: \""" ++ quote is_print k ++ B "\"" v: \""" ++ fmt_d (uint v) ++ B "\""").
  exists (B " style=filled " ++ col).
  exists (attribute "style" "filled" ++ (if red then attribute "fillcolor" "red" else attribute "fontcolor" "white" ++ attribute "fillcolor" "black")).
  assert (forall a c, inside a -> inside c -> inside (B "k: \""" ++ a ++ B "\"" v: \""" ++ c ++ B "\""")) as Hin.
  { intros a c Ha Hc. change (B "k: \""") with (B "k: " ++ B "\"""). change (B "\"" v: \""") with (B "\""" ++ B " v: " ++ B "\""").
    repeat apply inside_app; try done; try apply inside_esc; apply inside_plain; repeat constructor. }
  split; [|split; [|split]].
  - cbn [rb_string_d]. fold col. rewrite <- ?app_assoc. reflexivity.
  - apply Hin; [apply quote_inside|apply inside_plain, fmt_d_plain].
  - unfold col. destruct red; reflexivity.
  - apply rd_key; [apply quote_unescape|by apply digits_number|done].
Qed.
Lemma num_readable w : readable (num_string is_print gosyntax w) (num_shows gosyntax w).
Proof.
  intros [[[key bits] [v|]]|].
  - exists (B "k: " ++ fmt_x w key ++ B ", b: " ++ fmt_d bits ++ B ", v: \""" ++ quote is_print (gosyntax v) ++ B "\"""), [], [].
    split; [cbn [num_string app]; rewrite <- ?app_assoc; reflexivity|]. split; [|split; [reflexivity|]].
    + change (B ", v: \""") with (B ", v: " ++ B "\""").
      pose proof (inside_plain _ (fmt_x_plain w key)) as H1. pose proof (inside_plain _ (fmt_d_plain bits)) as H2. pose proof (quote_inside is_print (gosyntax v)) as H3.
      generalize dependent (fmt_x w key). generalize dependent (fmt_d bits). generalize dependent (quote is_print (gosyntax v)). intros.
      repeat apply inside_app; try done; try apply inside_esc; apply inside_plain; repeat constructor.
    + apply ns_node; [apply fmt_x_number|apply fmt_x_length|by apply digits_number|]. eexists. split; [apply (quote_unescape is_print)|reflexivity].
  - exists (B "k: " ++ fmt_x w key ++ B ", b: " ++ fmt_d bits ++ []), [], [].
    split; [cbn [num_string app]; rewrite <- ?app_assoc; reflexivity|]. split; [|split; [reflexivity|]].
    + pose proof (inside_plain _ (fmt_x_plain w key)) as H1. pose proof (inside_plain _ (fmt_d_plain bits)) as H2.
      generalize dependent (fmt_x w key). generalize dependent (fmt_d bits). intros.
      repeat apply inside_app; try done; apply inside_plain; repeat constructor.
    + apply ns_node; [apply fmt_x_number|apply fmt_x_length|by apply digits_number|done].
  - exists (B "nil"), [], []. split; [reflexivity|]. split; [apply inside_plain; repeat constructor|]. split; [reflexivity|apply ns_nil].
Qed.

Lemma text_graph {C} (str : option C -> bytes) show (ls : list (dline C)) : readable str show -> graph show (dot_text str ls) ls.
Proof.
  intros Hr. assert (exists tss, lex LNone (List.concat (map (line_text str) ls)) = Some (List.concat tss, LNone) /\ Forall2 (statement show) ls tss) as (tss & Hl & Hs).
  { induction ls as [|l ls (tss & IH & Hs)]; [by exists []|].
    assert (exists ts, lex LNone (line_text str l) = Some (ts, LNone) /\ statement show l ts) as (ts & Ht & H).
    { destruct l as [i x|i a b].
      - destruct (Hr x) as (q & rest & extra & E & Hq & Hrest & Hsh). eexists. split; [unfold line_text; rewrite E; by apply lex_label|].
        apply st_node; [apply node_id_fmt|done].
      - eexists. split; [apply lex_edge|]. apply st_edge; apply node_id_fmt. }
    exists (ts :: tss). split; [|by constructor]. cbn [map List.concat]. by eapply lex_seq. }
  exists tss. split; [|done]. unfold words, dot_text. rewrite app_assoc.
  eapply lex_seq; [reflexivity|]. eapply lex_seq; [exact Hl|]. reflexivity.
Qed.
End text.
