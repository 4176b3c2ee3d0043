(** * Made by tools/replay.py from uintX/strtree8/strtree_test.go. See ReplayText.v. *)
From Verif Require Import Prog RbModel DotModel ReplayText.
From Coq Require Import String.
Open Scope nat_scope.
Local Notation B := list_byte_of_string.
Local Notation prog := (prog bytes).
(** Numbers are given as their decimal digits. *)

Definition TestEmptyTree : bytes := lines [
  "digraph d {";
  "N0 [label=""nil"" style=filled fontcolor=white fillcolor=black]";
  "}"]%string.

Definition TestSingleNodeTree : bytes := lines [
  "digraph d {";
  "N0 [label=""k: \""k\"" v: \""1\"""" style=filled fontcolor=white fillcolor=black]";
  "}"]%string.

Definition TestThreeNodeTreeRed : bytes := lines [
  "digraph d {";
  "N0 [label=""k: \""1\"" v: \""0\"""" style=filled fontcolor=white fillcolor=black]";
  "N0 -> { N1 N2 }";
  "N1 [label=""k: \""0\"" v: \""0\"""" style=filled fillcolor=red]";
  "N2 [label=""k: \""2\"" v: \""0\"""" style=filled fillcolor=red]";
  "}"]%string.

Definition TestFiveNodeTree : bytes := lines [
  "digraph d {";
  "N0 [label=""k: \""1\"" v: \""0\"""" style=filled fontcolor=white fillcolor=black]";
  "N0 -> { N1 N2 }";
  "N1 [label=""k: \""0\"" v: \""0\"""" style=filled fontcolor=white fillcolor=black]";
  "N2 [label=""k: \""3\"" v: \""0\"""" style=filled fontcolor=white fillcolor=black]";
  "N2 -> { N3 N4 }";
  "N3 [label=""k: \""2\"" v: \""0\"""" style=filled fillcolor=red]";
  "N4 [label=""k: \""4\"" v: \""0\"""" style=filled fillcolor=red]";
  "}"]%string.

Definition Test16InversedNodeTree : bytes := lines [
  "digraph d {";
  "N0 [label=""k: \""C\"" v: \""0\"""" style=filled fontcolor=white fillcolor=black]";
  "N0 -> { N1 N2 }";
  "N1 [label=""k: \""8\"" v: \""0\"""" style=filled fillcolor=red]";
  "N1 -> { N3 N4 }";
  "N2 [label=""k: \""E\"" v: \""0\"""" style=filled fontcolor=white fillcolor=black]";
  "N2 -> { N5 N6 }";
  "N3 [label=""k: \""4\"" v: \""0\"""" style=filled fontcolor=white fillcolor=black]";
  "N3 -> { N7 N8 }";
  "N4 [label=""k: \""A\"" v: \""0\"""" style=filled fontcolor=white fillcolor=black]";
  "N4 -> { N9 N10 }";
  "N5 [label=""k: \""D\"" v: \""0\"""" style=filled fontcolor=white fillcolor=black]";
  "N6 [label=""k: \""F\"" v: \""0\"""" style=filled fontcolor=white fillcolor=black]";
  "N7 [label=""k: \""2\"" v: \""0\"""" style=filled fillcolor=red]";
  "N7 -> { N11 N12 }";
  "N8 [label=""k: \""6\"" v: \""0\"""" style=filled fillcolor=red]";
  "N8 -> { N13 N14 }";
  "N9 [label=""k: \""9\"" v: \""0\"""" style=filled fontcolor=white fillcolor=black]";
  "N10 [label=""k: \""B\"" v: \""0\"""" style=filled fontcolor=white fillcolor=black]";
  "N11 [label=""k: \""1\"" v: \""0\"""" style=filled fontcolor=white fillcolor=black]";
  "N11 -> { N15 N16 }";
  "N12 [label=""k: \""3\"" v: \""0\"""" style=filled fontcolor=white fillcolor=black]";
  "N13 [label=""k: \""5\"" v: \""0\"""" style=filled fontcolor=white fillcolor=black]";
  "N14 [label=""k: \""7\"" v: \""0\"""" style=filled fontcolor=white fillcolor=black]";
  "N15 [label=""k: \""0\"" v: \""0\"""" style=filled fillcolor=red]";
  "N16 [label=""nil"" style=filled fontcolor=white fillcolor=black]";
  "}"]%string.

Definition Test16DirectNodeTree : bytes := lines [
  "digraph d {";
  "N0 [label=""k: \""3\"" v: \""0\"""" style=filled fontcolor=white fillcolor=black]";
  "N0 -> { N1 N2 }";
  "N1 [label=""k: \""1\"" v: \""0\"""" style=filled fontcolor=white fillcolor=black]";
  "N1 -> { N3 N4 }";
  "N2 [label=""k: \""7\"" v: \""0\"""" style=filled fillcolor=red]";
  "N2 -> { N5 N6 }";
  "N3 [label=""k: \""0\"" v: \""0\"""" style=filled fontcolor=white fillcolor=black]";
  "N4 [label=""k: \""2\"" v: \""0\"""" style=filled fontcolor=white fillcolor=black]";
  "N5 [label=""k: \""5\"" v: \""0\"""" style=filled fontcolor=white fillcolor=black]";
  "N5 -> { N7 N8 }";
  "N6 [label=""k: \""B\"" v: \""0\"""" style=filled fontcolor=white fillcolor=black]";
  "N6 -> { N9 N10 }";
  "N7 [label=""k: \""4\"" v: \""0\"""" style=filled fontcolor=white fillcolor=black]";
  "N8 [label=""k: \""6\"" v: \""0\"""" style=filled fontcolor=white fillcolor=black]";
  "N9 [label=""k: \""9\"" v: \""0\"""" style=filled fillcolor=red]";
  "N9 -> { N11 N12 }";
  "N10 [label=""k: \""D\"" v: \""0\"""" style=filled fillcolor=red]";
  "N10 -> { N13 N14 }";
  "N11 [label=""k: \""8\"" v: \""0\"""" style=filled fontcolor=white fillcolor=black]";
  "N12 [label=""k: \""A\"" v: \""0\"""" style=filled fontcolor=white fillcolor=black]";
  "N13 [label=""k: \""C\"" v: \""0\"""" style=filled fontcolor=white fillcolor=black]";
  "N14 [label=""k: \""E\"" v: \""0\"""" style=filled fontcolor=white fillcolor=black]";
  "N14 -> { N15 N16 }";
  "N15 [label=""nil"" style=filled fontcolor=white fillcolor=black]";
  "N16 [label=""k: \""F\"" v: \""0\"""" style=filled fillcolor=red]";
  "}"]%string.

Definition Test16AlternatingNodeTree : bytes := lines [
  "digraph d {";
  "N0 [label=""k: \""6\"" v: \""0\"""" style=filled fontcolor=white fillcolor=black]";
  "N0 -> { N1 N2 }";
  "N1 [label=""k: \""2\"" v: \""0\"""" style=filled fontcolor=white fillcolor=black]";
  "N1 -> { N3 N4 }";
  "N2 [label=""k: \""A\"" v: \""0\"""" style=filled fontcolor=white fillcolor=black]";
  "N2 -> { N5 N6 }";
  "N3 [label=""k: \""0\"" v: \""0\"""" style=filled fontcolor=white fillcolor=black]";
  "N3 -> { N7 N8 }";
  "N4 [label=""k: \""4\"" v: \""0\"""" style=filled fontcolor=white fillcolor=black]";
  "N4 -> { N9 N10 }";
  "N5 [label=""k: \""8\"" v: \""0\"""" style=filled fontcolor=white fillcolor=black]";
  "N5 -> { N11 N12 }";
  "N6 [label=""k: \""C\"" v: \""0\"""" style=filled fillcolor=red]";
  "N6 -> { N13 N14 }";
  "N7 [label=""nil"" style=filled fontcolor=white fillcolor=black]";
  "N8 [label=""k: \""1\"" v: \""0\"""" style=filled fillcolor=red]";
  "N9 [label=""k: \""3\"" v: \""0\"""" style=filled fillcolor=red]";
  "N10 [label=""k: \""5\"" v: \""0\"""" style=filled fillcolor=red]";
  "N11 [label=""k: \""7\"" v: \""0\"""" style=filled fillcolor=red]";
  "N12 [label=""k: \""9\"" v: \""0\"""" style=filled fillcolor=red]";
  "N13 [label=""k: \""B\"" v: \""0\"""" style=filled fontcolor=white fillcolor=black]";
  "N14 [label=""k: \""E\"" v: \""0\"""" style=filled fontcolor=white fillcolor=black]";
  "N14 -> { N15 N16 }";
  "N15 [label=""k: \""D\"" v: \""0\"""" style=filled fillcolor=red]";
  "N16 [label=""k: \""F\"" v: \""0\"""" style=filled fillcolor=red]";
  "}"]%string.

Definition Test16AlternatingInversedNodeTree : bytes := lines [
  "digraph d {";
  "N0 [label=""k: \""9\"" v: \""0\"""" style=filled fontcolor=white fillcolor=black]";
  "N0 -> { N1 N2 }";
  "N1 [label=""k: \""5\"" v: \""0\"""" style=filled fontcolor=white fillcolor=black]";
  "N1 -> { N3 N4 }";
  "N2 [label=""k: \""D\"" v: \""0\"""" style=filled fontcolor=white fillcolor=black]";
  "N2 -> { N5 N6 }";
  "N3 [label=""k: \""3\"" v: \""0\"""" style=filled fillcolor=red]";
  "N3 -> { N7 N8 }";
  "N4 [label=""k: \""7\"" v: \""0\"""" style=filled fontcolor=white fillcolor=black]";
  "N4 -> { N9 N10 }";
  "N5 [label=""k: \""B\"" v: \""0\"""" style=filled fontcolor=white fillcolor=black]";
  "N5 -> { N11 N12 }";
  "N6 [label=""k: \""F\"" v: \""0\"""" style=filled fontcolor=white fillcolor=black]";
  "N6 -> { N13 N14 }";
  "N7 [label=""k: \""1\"" v: \""0\"""" style=filled fontcolor=white fillcolor=black]";
  "N7 -> { N15 N16 }";
  "N8 [label=""k: \""4\"" v: \""0\"""" style=filled fontcolor=white fillcolor=black]";
  "N9 [label=""k: \""6\"" v: \""0\"""" style=filled fillcolor=red]";
  "N10 [label=""k: \""8\"" v: \""0\"""" style=filled fillcolor=red]";
  "N11 [label=""k: \""A\"" v: \""0\"""" style=filled fillcolor=red]";
  "N12 [label=""k: \""C\"" v: \""0\"""" style=filled fillcolor=red]";
  "N13 [label=""k: \""E\"" v: \""0\"""" style=filled fillcolor=red]";
  "N14 [label=""nil"" style=filled fontcolor=white fillcolor=black]";
  "N15 [label=""k: \""0\"" v: \""0\"""" style=filled fillcolor=red]";
  "N16 [label=""k: \""2\"" v: \""0\"""" style=filled fillcolor=red]";
  "}"]%string.

Definition Test16_3AltNodeTree : bytes := lines [
  "digraph d {";
  "N0 [label=""k: \""5\"" v: \""0\"""" style=filled fontcolor=white fillcolor=black]";
  "N0 -> { N1 N2 }";
  "N1 [label=""k: \""3\"" v: \""0\"""" style=filled fontcolor=white fillcolor=black]";
  "N1 -> { N3 N4 }";
  "N2 [label=""k: \""9\"" v: \""0\"""" style=filled fontcolor=white fillcolor=black]";
  "N2 -> { N5 N6 }";
  "N3 [label=""k: \""1\"" v: \""0\"""" style=filled fontcolor=white fillcolor=black]";
  "N3 -> { N7 N8 }";
  "N4 [label=""k: \""4\"" v: \""0\"""" style=filled fontcolor=white fillcolor=black]";
  "N5 [label=""k: \""7\"" v: \""0\"""" style=filled fontcolor=white fillcolor=black]";
  "N5 -> { N9 N10 }";
  "N6 [label=""k: \""C\"" v: \""0\"""" style=filled fillcolor=red]";
  "N6 -> { N11 N12 }";
  "N7 [label=""k: \""0\"" v: \""0\"""" style=filled fillcolor=red]";
  "N8 [label=""k: \""2\"" v: \""0\"""" style=filled fillcolor=red]";
  "N9 [label=""k: \""6\"" v: \""0\"""" style=filled fillcolor=red]";
  "N10 [label=""k: \""8\"" v: \""0\"""" style=filled fillcolor=red]";
  "N11 [label=""k: \""A\"" v: \""0\"""" style=filled fontcolor=white fillcolor=black]";
  "N11 -> { N13 N14 }";
  "N12 [label=""k: \""E\"" v: \""0\"""" style=filled fontcolor=white fillcolor=black]";
  "N12 -> { N15 N16 }";
  "N13 [label=""nil"" style=filled fontcolor=white fillcolor=black]";
  "N14 [label=""k: \""B\"" v: \""0\"""" style=filled fillcolor=red]";
  "N15 [label=""k: \""D\"" v: \""0\"""" style=filled fillcolor=red]";
  "N16 [label=""k: \""F\"" v: \""0\"""" style=filled fillcolor=red]";
  "}"]%string.

Definition Test32AlternatingNodeTree : bytes := lines [
  "digraph d {";
  "N0 [label=""k: \""0E\"" v: \""0\"""" style=filled fontcolor=white fillcolor=black]";
  "N0 -> { N1 N2 }";
  "N1 [label=""k: \""06\"" v: \""0\"""" style=filled fontcolor=white fillcolor=black]";
  "N1 -> { N3 N4 }";
  "N2 [label=""k: \""16\"" v: \""0\"""" style=filled fontcolor=white fillcolor=black]";
  "N2 -> { N5 N6 }";
  "N3 [label=""k: \""02\"" v: \""0\"""" style=filled fontcolor=white fillcolor=black]";
  "N3 -> { N7 N8 }";
  "N4 [label=""k: \""0A\"" v: \""0\"""" style=filled fontcolor=white fillcolor=black]";
  "N4 -> { N9 N10 }";
  "N5 [label=""k: \""12\"" v: \""0\"""" style=filled fontcolor=white fillcolor=black]";
  "N5 -> { N11 N12 }";
  "N6 [label=""k: \""1A\"" v: \""0\"""" style=filled fontcolor=white fillcolor=black]";
  "N6 -> { N13 N14 }";
  "N7 [label=""k: \""00\"" v: \""0\"""" style=filled fontcolor=white fillcolor=black]";
  "N7 -> { N15 N16 }";
  "N8 [label=""k: \""04\"" v: \""0\"""" style=filled fontcolor=white fillcolor=black]";
  "N8 -> { N17 N18 }";
  "N9 [label=""k: \""08\"" v: \""0\"""" style=filled fontcolor=white fillcolor=black]";
  "N9 -> { N19 N20 }";
  "N10 [label=""k: \""0C\"" v: \""0\"""" style=filled fontcolor=white fillcolor=black]";
  "N10 -> { N21 N22 }";
  "N11 [label=""k: \""10\"" v: \""0\"""" style=filled fontcolor=white fillcolor=black]";
  "N11 -> { N23 N24 }";
  "N12 [label=""k: \""14\"" v: \""0\"""" style=filled fontcolor=white fillcolor=black]";
  "N12 -> { N25 N26 }";
  "N13 [label=""k: \""18\"" v: \""0\"""" style=filled fontcolor=white fillcolor=black]";
  "N13 -> { N27 N28 }";
  "N14 [label=""k: \""1C\"" v: \""0\"""" style=filled fillcolor=red]";
  "N14 -> { N29 N30 }";
  "N15 [label=""nil"" style=filled fontcolor=white fillcolor=black]";
  "N16 [label=""k: \""01\"" v: \""0\"""" style=filled fillcolor=red]";
  "N17 [label=""k: \""03\"" v: \""0\"""" style=filled fillcolor=red]";
  "N18 [label=""k: \""05\"" v: \""0\"""" style=filled fillcolor=red]";
  "N19 [label=""k: \""07\"" v: \""0\"""" style=filled fillcolor=red]";
  "N20 [label=""k: \""09\"" v: \""0\"""" style=filled fillcolor=red]";
  "N21 [label=""k: \""0B\"" v: \""0\"""" style=filled fillcolor=red]";
  "N22 [label=""k: \""0D\"" v: \""0\"""" style=filled fillcolor=red]";
  "N23 [label=""k: \""0F\"" v: \""0\"""" style=filled fillcolor=red]";
  "N24 [label=""k: \""11\"" v: \""0\"""" style=filled fillcolor=red]";
  "N25 [label=""k: \""13\"" v: \""0\"""" style=filled fillcolor=red]";
  "N26 [label=""k: \""15\"" v: \""0\"""" style=filled fillcolor=red]";
  "N27 [label=""k: \""17\"" v: \""0\"""" style=filled fillcolor=red]";
  "N28 [label=""k: \""19\"" v: \""0\"""" style=filled fillcolor=red]";
  "N29 [label=""k: \""1B\"" v: \""0\"""" style=filled fontcolor=white fillcolor=black]";
  "N30 [label=""k: \""1E\"" v: \""0\"""" style=filled fontcolor=white fillcolor=black]";
  "N30 -> { N31 N32 }";
  "N31 [label=""k: \""1D\"" v: \""0\"""" style=filled fillcolor=red]";
  "N32 [label=""k: \""1F\"" v: \""0\"""" style=filled fillcolor=red]";
  "}"]%string.

Definition TestTreeAfterNonExistingNodeDel : bytes := lines [
  "digraph d {";
  "N0 [label=""k: \""5\"" v: \""0\"""" style=filled fontcolor=white fillcolor=black]";
  "N0 -> { N1 N2 }";
  "N1 [label=""k: \""3\"" v: \""0\"""" style=filled fontcolor=white fillcolor=black]";
  "N1 -> { N3 N4 }";
  "N2 [label=""k: \""C\"" v: \""0\"""" style=filled fontcolor=white fillcolor=black]";
  "N2 -> { N5 N6 }";
  "N3 [label=""k: \""1\"" v: \""0\"""" style=filled fontcolor=white fillcolor=black]";
  "N3 -> { N7 N8 }";
  "N4 [label=""k: \""4\"" v: \""0\"""" style=filled fontcolor=white fillcolor=black]";
  "N5 [label=""k: \""9\"" v: \""0\"""" style=filled fillcolor=red]";
  "N5 -> { N9 N10 }";
  "N6 [label=""k: \""E\"" v: \""0\"""" style=filled fontcolor=white fillcolor=black]";
  "N6 -> { N11 N12 }";
  "N7 [label=""k: \""0\"" v: \""0\"""" style=filled fillcolor=red]";
  "N8 [label=""k: \""2\"" v: \""0\"""" style=filled fillcolor=red]";
  "N9 [label=""k: \""7\"" v: \""0\"""" style=filled fontcolor=white fillcolor=black]";
  "N9 -> { N13 N14 }";
  "N10 [label=""k: \""A\"" v: \""0\"""" style=filled fontcolor=white fillcolor=black]";
  "N10 -> { N15 N16 }";
  "N11 [label=""k: \""D\"" v: \""0\"""" style=filled fillcolor=red]";
  "N12 [label=""k: \""F\"" v: \""0\"""" style=filled fillcolor=red]";
  "N13 [label=""k: \""6\"" v: \""0\"""" style=filled fillcolor=red]";
  "N14 [label=""k: \""8\"" v: \""0\"""" style=filled fillcolor=red]";
  "N15 [label=""nil"" style=filled fontcolor=white fillcolor=black]";
  "N16 [label=""k: \""B\"" v: \""0\"""" style=filled fillcolor=red]";
  "}"]%string.

Definition TestTreeAfterNode6Deletion : bytes := lines [
  "digraph d {";
  "N0 [label=""k: \""5\"" v: \""0\"""" style=filled fontcolor=white fillcolor=black]";
  "N0 -> { N1 N2 }";
  "N1 [label=""k: \""3\"" v: \""0\"""" style=filled fontcolor=white fillcolor=black]";
  "N1 -> { N3 N4 }";
  "N2 [label=""k: \""C\"" v: \""0\"""" style=filled fontcolor=white fillcolor=black]";
  "N2 -> { N5 N6 }";
  "N3 [label=""k: \""1\"" v: \""0\"""" style=filled fontcolor=white fillcolor=black]";
  "N3 -> { N7 N8 }";
  "N4 [label=""k: \""4\"" v: \""0\"""" style=filled fontcolor=white fillcolor=black]";
  "N5 [label=""k: \""9\"" v: \""0\"""" style=filled fillcolor=red]";
  "N5 -> { N9 N10 }";
  "N6 [label=""k: \""E\"" v: \""0\"""" style=filled fontcolor=white fillcolor=black]";
  "N6 -> { N11 N12 }";
  "N7 [label=""k: \""0\"" v: \""0\"""" style=filled fillcolor=red]";
  "N8 [label=""k: \""2\"" v: \""0\"""" style=filled fillcolor=red]";
  "N9 [label=""k: \""7\"" v: \""0\"""" style=filled fontcolor=white fillcolor=black]";
  "N9 -> { N13 N14 }";
  "N10 [label=""k: \""A\"" v: \""0\"""" style=filled fontcolor=white fillcolor=black]";
  "N10 -> { N15 N16 }";
  "N11 [label=""k: \""D\"" v: \""0\"""" style=filled fillcolor=red]";
  "N12 [label=""k: \""F\"" v: \""0\"""" style=filled fillcolor=red]";
  "N13 [label=""nil"" style=filled fontcolor=white fillcolor=black]";
  "N14 [label=""k: \""8\"" v: \""0\"""" style=filled fillcolor=red]";
  "N15 [label=""nil"" style=filled fontcolor=white fillcolor=black]";
  "N16 [label=""k: \""B\"" v: \""0\"""" style=filled fillcolor=red]";
  "}"]%string.

Definition TestTreeAfterNodes7859Deletion : bytes := lines [
  "digraph d {";
  "N0 [label=""k: \""A\"" v: \""0\"""" style=filled fontcolor=white fillcolor=black]";
  "N0 -> { N1 N2 }";
  "N1 [label=""k: \""2\"" v: \""0\"""" style=filled fontcolor=white fillcolor=black]";
  "N1 -> { N3 N4 }";
  "N2 [label=""k: \""C\"" v: \""0\"""" style=filled fontcolor=white fillcolor=black]";
  "N2 -> { N5 N6 }";
  "N3 [label=""k: \""1\"" v: \""0\"""" style=filled fontcolor=white fillcolor=black]";
  "N3 -> { N7 N8 }";
  "N4 [label=""k: \""4\"" v: \""0\"""" style=filled fontcolor=white fillcolor=black]";
  "N4 -> { N9 N10 }";
  "N5 [label=""k: \""B\"" v: \""0\"""" style=filled fontcolor=white fillcolor=black]";
  "N6 [label=""k: \""E\"" v: \""0\"""" style=filled fontcolor=white fillcolor=black]";
  "N6 -> { N11 N12 }";
  "N7 [label=""k: \""0\"" v: \""0\"""" style=filled fillcolor=red]";
  "N8 [label=""nil"" style=filled fontcolor=white fillcolor=black]";
  "N9 [label=""k: \""3\"" v: \""0\"""" style=filled fillcolor=red]";
  "N10 [label=""nil"" style=filled fontcolor=white fillcolor=black]";
  "N11 [label=""k: \""D\"" v: \""0\"""" style=filled fillcolor=red]";
  "N12 [label=""k: \""F\"" v: \""0\"""" style=filled fillcolor=red]";
  "}"]%string.

Definition TestTreeSameNodeOnce : bytes := lines [
  "digraph d {";
  "N0 [label=""k: \""00\"" v: \""1\"""" style=filled fontcolor=white fillcolor=black]";
  "}"]%string.

Definition TestTreeSameNodeTwice : bytes := lines [
  "digraph d {";
  "N0 [label=""k: \""00\"" v: \""2\"""" style=filled fontcolor=white fillcolor=black]";
  "}"]%string.

(** uintX/strtree8/strtree_test.go TestNewTree *)
Definition t_TestNewTree : prog unit :=
  r <- str_new ;;
  d <- str_dot 200 r ;; check (beq (dot_text rb_text_number d) TestEmptyTree) ;;;
  Ret tt.
Example TestNewTree_passes : passes t_TestNewTree = true.
Proof. vm_compute. reflexivity. Qed.

(** uintX/strtree8/strtree_test.go TestNewTreeWithCustomComparison *)
Definition t_TestNewTreeWithCustomComparison : prog unit :=
  r <- str_new ;;
  d <- str_dot 200 r ;; check (beq (dot_text rb_text_number d) TestEmptyTree) ;;;
  Ret tt.
Example TestNewTreeWithCustomComparison_passes : passes t_TestNewTreeWithCustomComparison = true.
Proof. vm_compute. reflexivity. Qed.

(** uintX/strtree8/strtree_test.go TestInsert *)
Definition t_TestInsert : prog unit :=
  r <- Ret (None : ptr) ;;
  r <- str_insert 64 r (B "k") (VUser (B "1")) ;;
  d <- str_dot 200 r ;; check (beq (dot_text rb_text_number d) TestSingleNodeTree) ;;;
  r <- str_new ;;
  r <- str_insert 64 r (B "k") (VUser (B "1")) ;;
  d <- str_dot 200 r ;; check (beq (dot_text rb_text_number d) TestSingleNodeTree) ;;;
  r <- str_new ;;
  r <- str_insert 64 r (B "0") (VUser (B "0")) ;;
  r <- str_insert 64 r (B "1") (VUser (B "0")) ;;
  r <- str_insert 64 r (B "2") (VUser (B "0")) ;;
  d <- str_dot 200 r ;; check (beq (dot_text rb_text_number d) TestThreeNodeTreeRed) ;;;
  r <- str_new ;;
  r <- str_insert 64 r (B "1") (VUser (B "0")) ;;
  r <- str_insert 64 r (B "2") (VUser (B "0")) ;;
  r <- str_insert 64 r (B "0") (VUser (B "0")) ;;
  d <- str_dot 200 r ;; check (beq (dot_text rb_text_number d) TestThreeNodeTreeRed) ;;;
  r <- str_new ;;
  r <- str_insert 64 r (B "2") (VUser (B "0")) ;;
  r <- str_insert 64 r (B "0") (VUser (B "0")) ;;
  r <- str_insert 64 r (B "1") (VUser (B "0")) ;;
  d <- str_dot 200 r ;; check (beq (dot_text rb_text_number d) TestThreeNodeTreeRed) ;;;
  r <- str_new ;;
  r <- str_insert 64 r (B "0") (VUser (B "0")) ;;
  r <- str_insert 64 r (B "2") (VUser (B "0")) ;;
  r <- str_insert 64 r (B "1") (VUser (B "0")) ;;
  d <- str_dot 200 r ;; check (beq (dot_text rb_text_number d) TestThreeNodeTreeRed) ;;;
  r <- str_new ;;
  r <- str_insert 64 r (B "1") (VUser (B "0")) ;;
  r <- str_insert 64 r (B "0") (VUser (B "0")) ;;
  r <- str_insert 64 r (B "2") (VUser (B "0")) ;;
  d <- str_dot 200 r ;; check (beq (dot_text rb_text_number d) TestThreeNodeTreeRed) ;;;
  r <- str_new ;;
  r <- str_insert 64 r (B "2") (VUser (B "0")) ;;
  r <- str_insert 64 r (B "1") (VUser (B "0")) ;;
  r <- str_insert 64 r (B "0") (VUser (B "0")) ;;
  d <- str_dot 200 r ;; check (beq (dot_text rb_text_number d) TestThreeNodeTreeRed) ;;;
  r <- str_new ;;
  r <- str_insert 64 r (B "1") (VUser (B "0")) ;;
  r <- str_insert 64 r (B "0") (VUser (B "0")) ;;
  r <- str_insert 64 r (B "4") (VUser (B "0")) ;;
  r <- str_insert 64 r (B "2") (VUser (B "0")) ;;
  r <- str_insert 64 r (B "3") (VUser (B "0")) ;;
  d <- str_dot 200 r ;; check (beq (dot_text rb_text_number d) TestFiveNodeTree) ;;;
  r <- str_new ;;
  r <- str_insert 64 r (B "F") (VUser (B "0")) ;;
  r <- str_insert 64 r (B "E") (VUser (B "0")) ;;
  r <- str_insert 64 r (B "D") (VUser (B "0")) ;;
  r <- str_insert 64 r (B "C") (VUser (B "0")) ;;
  r <- str_insert 64 r (B "B") (VUser (B "0")) ;;
  r <- str_insert 64 r (B "A") (VUser (B "0")) ;;
  r <- str_insert 64 r (B "9") (VUser (B "0")) ;;
  r <- str_insert 64 r (B "8") (VUser (B "0")) ;;
  r <- str_insert 64 r (B "7") (VUser (B "0")) ;;
  r <- str_insert 64 r (B "6") (VUser (B "0")) ;;
  r <- str_insert 64 r (B "5") (VUser (B "0")) ;;
  r <- str_insert 64 r (B "4") (VUser (B "0")) ;;
  r <- str_insert 64 r (B "3") (VUser (B "0")) ;;
  r <- str_insert 64 r (B "2") (VUser (B "0")) ;;
  r <- str_insert 64 r (B "1") (VUser (B "0")) ;;
  r <- str_insert 64 r (B "0") (VUser (B "0")) ;;
  d <- str_dot 200 r ;; check (beq (dot_text rb_text_number d) Test16InversedNodeTree) ;;;
  r <- str_new ;;
  r <- str_insert 64 r (B "0") (VUser (B "0")) ;;
  r <- str_insert 64 r (B "1") (VUser (B "0")) ;;
  r <- str_insert 64 r (B "2") (VUser (B "0")) ;;
  r <- str_insert 64 r (B "3") (VUser (B "0")) ;;
  r <- str_insert 64 r (B "4") (VUser (B "0")) ;;
  r <- str_insert 64 r (B "5") (VUser (B "0")) ;;
  r <- str_insert 64 r (B "6") (VUser (B "0")) ;;
  r <- str_insert 64 r (B "7") (VUser (B "0")) ;;
  r <- str_insert 64 r (B "8") (VUser (B "0")) ;;
  r <- str_insert 64 r (B "9") (VUser (B "0")) ;;
  r <- str_insert 64 r (B "A") (VUser (B "0")) ;;
  r <- str_insert 64 r (B "B") (VUser (B "0")) ;;
  r <- str_insert 64 r (B "C") (VUser (B "0")) ;;
  r <- str_insert 64 r (B "D") (VUser (B "0")) ;;
  r <- str_insert 64 r (B "E") (VUser (B "0")) ;;
  r <- str_insert 64 r (B "F") (VUser (B "0")) ;;
  d <- str_dot 200 r ;; check (beq (dot_text rb_text_number d) Test16DirectNodeTree) ;;;
  r <- str_new ;;
  r <- str_insert 64 r (B "0") (VUser (B "0")) ;;
  r <- str_insert 64 r (B "2") (VUser (B "0")) ;;
  r <- str_insert 64 r (B "4") (VUser (B "0")) ;;
  r <- str_insert 64 r (B "6") (VUser (B "0")) ;;
  r <- str_insert 64 r (B "8") (VUser (B "0")) ;;
  r <- str_insert 64 r (B "A") (VUser (B "0")) ;;
  r <- str_insert 64 r (B "C") (VUser (B "0")) ;;
  r <- str_insert 64 r (B "E") (VUser (B "0")) ;;
  r <- str_insert 64 r (B "1") (VUser (B "0")) ;;
  r <- str_insert 64 r (B "3") (VUser (B "0")) ;;
  r <- str_insert 64 r (B "5") (VUser (B "0")) ;;
  r <- str_insert 64 r (B "7") (VUser (B "0")) ;;
  r <- str_insert 64 r (B "9") (VUser (B "0")) ;;
  r <- str_insert 64 r (B "B") (VUser (B "0")) ;;
  r <- str_insert 64 r (B "D") (VUser (B "0")) ;;
  r <- str_insert 64 r (B "F") (VUser (B "0")) ;;
  d <- str_dot 200 r ;; check (beq (dot_text rb_text_number d) Test16AlternatingNodeTree) ;;;
  r <- str_new ;;
  r <- str_insert 64 r (B "F") (VUser (B "0")) ;;
  r <- str_insert 64 r (B "D") (VUser (B "0")) ;;
  r <- str_insert 64 r (B "B") (VUser (B "0")) ;;
  r <- str_insert 64 r (B "9") (VUser (B "0")) ;;
  r <- str_insert 64 r (B "7") (VUser (B "0")) ;;
  r <- str_insert 64 r (B "5") (VUser (B "0")) ;;
  r <- str_insert 64 r (B "3") (VUser (B "0")) ;;
  r <- str_insert 64 r (B "1") (VUser (B "0")) ;;
  r <- str_insert 64 r (B "E") (VUser (B "0")) ;;
  r <- str_insert 64 r (B "C") (VUser (B "0")) ;;
  r <- str_insert 64 r (B "A") (VUser (B "0")) ;;
  r <- str_insert 64 r (B "8") (VUser (B "0")) ;;
  r <- str_insert 64 r (B "6") (VUser (B "0")) ;;
  r <- str_insert 64 r (B "4") (VUser (B "0")) ;;
  r <- str_insert 64 r (B "2") (VUser (B "0")) ;;
  r <- str_insert 64 r (B "0") (VUser (B "0")) ;;
  d <- str_dot 200 r ;; check (beq (dot_text rb_text_number d) Test16AlternatingInversedNodeTree) ;;;
  r <- str_new ;;
  r <- str_insert 64 r (B "0") (VUser (B "0")) ;;
  r <- str_insert 64 r (B "3") (VUser (B "0")) ;;
  r <- str_insert 64 r (B "6") (VUser (B "0")) ;;
  r <- str_insert 64 r (B "9") (VUser (B "0")) ;;
  r <- str_insert 64 r (B "C") (VUser (B "0")) ;;
  r <- str_insert 64 r (B "F") (VUser (B "0")) ;;
  r <- str_insert 64 r (B "1") (VUser (B "0")) ;;
  r <- str_insert 64 r (B "2") (VUser (B "0")) ;;
  r <- str_insert 64 r (B "4") (VUser (B "0")) ;;
  r <- str_insert 64 r (B "5") (VUser (B "0")) ;;
  r <- str_insert 64 r (B "7") (VUser (B "0")) ;;
  r <- str_insert 64 r (B "8") (VUser (B "0")) ;;
  r <- str_insert 64 r (B "A") (VUser (B "0")) ;;
  r <- str_insert 64 r (B "B") (VUser (B "0")) ;;
  r <- str_insert 64 r (B "D") (VUser (B "0")) ;;
  r <- str_insert 64 r (B "E") (VUser (B "0")) ;;
  d <- str_dot 200 r ;; check (beq (dot_text rb_text_number d) Test16_3AltNodeTree) ;;;
  r <- str_new ;;
  r <- str_insert 64 r (B "00") (VUser (B "0")) ;;
  r <- str_insert 64 r (B "02") (VUser (B "0")) ;;
  r <- str_insert 64 r (B "04") (VUser (B "0")) ;;
  r <- str_insert 64 r (B "06") (VUser (B "0")) ;;
  r <- str_insert 64 r (B "08") (VUser (B "0")) ;;
  r <- str_insert 64 r (B "0A") (VUser (B "0")) ;;
  r <- str_insert 64 r (B "0C") (VUser (B "0")) ;;
  r <- str_insert 64 r (B "0E") (VUser (B "0")) ;;
  r <- str_insert 64 r (B "10") (VUser (B "0")) ;;
  r <- str_insert 64 r (B "12") (VUser (B "0")) ;;
  r <- str_insert 64 r (B "14") (VUser (B "0")) ;;
  r <- str_insert 64 r (B "16") (VUser (B "0")) ;;
  r <- str_insert 64 r (B "18") (VUser (B "0")) ;;
  r <- str_insert 64 r (B "1A") (VUser (B "0")) ;;
  r <- str_insert 64 r (B "1C") (VUser (B "0")) ;;
  r <- str_insert 64 r (B "1E") (VUser (B "0")) ;;
  r <- str_insert 64 r (B "01") (VUser (B "0")) ;;
  r <- str_insert 64 r (B "03") (VUser (B "0")) ;;
  r <- str_insert 64 r (B "05") (VUser (B "0")) ;;
  r <- str_insert 64 r (B "07") (VUser (B "0")) ;;
  r <- str_insert 64 r (B "09") (VUser (B "0")) ;;
  r <- str_insert 64 r (B "0B") (VUser (B "0")) ;;
  r <- str_insert 64 r (B "0D") (VUser (B "0")) ;;
  r <- str_insert 64 r (B "0F") (VUser (B "0")) ;;
  r <- str_insert 64 r (B "11") (VUser (B "0")) ;;
  r <- str_insert 64 r (B "13") (VUser (B "0")) ;;
  r <- str_insert 64 r (B "15") (VUser (B "0")) ;;
  r <- str_insert 64 r (B "17") (VUser (B "0")) ;;
  r <- str_insert 64 r (B "19") (VUser (B "0")) ;;
  r <- str_insert 64 r (B "1B") (VUser (B "0")) ;;
  r <- str_insert 64 r (B "1D") (VUser (B "0")) ;;
  r <- str_insert 64 r (B "1F") (VUser (B "0")) ;;
  d <- str_dot 200 r ;; check (beq (dot_text rb_text_number d) Test32AlternatingNodeTree) ;;;
  r <- Ret (None : ptr) ;;
  r <- str_insert 64 r (B "00") (VUser (B "1")) ;;
  d <- str_dot 200 r ;; check (beq (dot_text rb_text_number d) TestTreeSameNodeOnce) ;;;
  r <- str_insert 64 r (B "00") (VUser (B "2")) ;;
  d <- str_dot 200 r ;; check (beq (dot_text rb_text_number d) TestTreeSameNodeTwice) ;;;
  Ret tt.
Example TestInsert_passes : passes t_TestInsert = true.
Proof. vm_compute. reflexivity. Qed.

(** uintX/strtree8/strtree_test.go TestInplaceInsert *)
Definition t_TestInplaceInsert : prog unit :=
  r <- str_new ;;
  str_inplace_insert 64 r (B "k") (VUser (B "1")) ;;;
  d <- str_dot 200 r ;; check (beq (dot_text rb_text_number d) TestSingleNodeTree) ;;;
  r <- str_new ;;
  str_inplace_insert 64 r (B "k") (VUser (B "1")) ;;;
  d <- str_dot 200 r ;; check (beq (dot_text rb_text_number d) TestSingleNodeTree) ;;;
  r <- str_new ;;
  str_inplace_insert 64 r (B "0") (VUser (B "0")) ;;;
  str_inplace_insert 64 r (B "1") (VUser (B "0")) ;;;
  str_inplace_insert 64 r (B "2") (VUser (B "0")) ;;;
  d <- str_dot 200 r ;; check (beq (dot_text rb_text_number d) TestThreeNodeTreeRed) ;;;
  r <- str_new ;;
  str_inplace_insert 64 r (B "1") (VUser (B "0")) ;;;
  str_inplace_insert 64 r (B "2") (VUser (B "0")) ;;;
  str_inplace_insert 64 r (B "0") (VUser (B "0")) ;;;
  d <- str_dot 200 r ;; check (beq (dot_text rb_text_number d) TestThreeNodeTreeRed) ;;;
  r <- str_new ;;
  str_inplace_insert 64 r (B "2") (VUser (B "0")) ;;;
  str_inplace_insert 64 r (B "0") (VUser (B "0")) ;;;
  str_inplace_insert 64 r (B "1") (VUser (B "0")) ;;;
  d <- str_dot 200 r ;; check (beq (dot_text rb_text_number d) TestThreeNodeTreeRed) ;;;
  r <- str_new ;;
  str_inplace_insert 64 r (B "0") (VUser (B "0")) ;;;
  str_inplace_insert 64 r (B "2") (VUser (B "0")) ;;;
  str_inplace_insert 64 r (B "1") (VUser (B "0")) ;;;
  d <- str_dot 200 r ;; check (beq (dot_text rb_text_number d) TestThreeNodeTreeRed) ;;;
  r <- str_new ;;
  str_inplace_insert 64 r (B "1") (VUser (B "0")) ;;;
  str_inplace_insert 64 r (B "0") (VUser (B "0")) ;;;
  str_inplace_insert 64 r (B "2") (VUser (B "0")) ;;;
  d <- str_dot 200 r ;; check (beq (dot_text rb_text_number d) TestThreeNodeTreeRed) ;;;
  r <- str_new ;;
  str_inplace_insert 64 r (B "2") (VUser (B "0")) ;;;
  str_inplace_insert 64 r (B "1") (VUser (B "0")) ;;;
  str_inplace_insert 64 r (B "0") (VUser (B "0")) ;;;
  d <- str_dot 200 r ;; check (beq (dot_text rb_text_number d) TestThreeNodeTreeRed) ;;;
  r <- str_new ;;
  str_inplace_insert 64 r (B "1") (VUser (B "0")) ;;;
  str_inplace_insert 64 r (B "0") (VUser (B "0")) ;;;
  str_inplace_insert 64 r (B "4") (VUser (B "0")) ;;;
  str_inplace_insert 64 r (B "2") (VUser (B "0")) ;;;
  str_inplace_insert 64 r (B "3") (VUser (B "0")) ;;;
  d <- str_dot 200 r ;; check (beq (dot_text rb_text_number d) TestFiveNodeTree) ;;;
  r <- str_new ;;
  str_inplace_insert 64 r (B "F") (VUser (B "0")) ;;;
  str_inplace_insert 64 r (B "E") (VUser (B "0")) ;;;
  str_inplace_insert 64 r (B "D") (VUser (B "0")) ;;;
  str_inplace_insert 64 r (B "C") (VUser (B "0")) ;;;
  str_inplace_insert 64 r (B "B") (VUser (B "0")) ;;;
  str_inplace_insert 64 r (B "A") (VUser (B "0")) ;;;
  str_inplace_insert 64 r (B "9") (VUser (B "0")) ;;;
  str_inplace_insert 64 r (B "8") (VUser (B "0")) ;;;
  str_inplace_insert 64 r (B "7") (VUser (B "0")) ;;;
  str_inplace_insert 64 r (B "6") (VUser (B "0")) ;;;
  str_inplace_insert 64 r (B "5") (VUser (B "0")) ;;;
  str_inplace_insert 64 r (B "4") (VUser (B "0")) ;;;
  str_inplace_insert 64 r (B "3") (VUser (B "0")) ;;;
  str_inplace_insert 64 r (B "2") (VUser (B "0")) ;;;
  str_inplace_insert 64 r (B "1") (VUser (B "0")) ;;;
  str_inplace_insert 64 r (B "0") (VUser (B "0")) ;;;
  d <- str_dot 200 r ;; check (beq (dot_text rb_text_number d) Test16InversedNodeTree) ;;;
  r <- str_new ;;
  str_inplace_insert 64 r (B "0") (VUser (B "0")) ;;;
  str_inplace_insert 64 r (B "1") (VUser (B "0")) ;;;
  str_inplace_insert 64 r (B "2") (VUser (B "0")) ;;;
  str_inplace_insert 64 r (B "3") (VUser (B "0")) ;;;
  str_inplace_insert 64 r (B "4") (VUser (B "0")) ;;;
  str_inplace_insert 64 r (B "5") (VUser (B "0")) ;;;
  str_inplace_insert 64 r (B "6") (VUser (B "0")) ;;;
  str_inplace_insert 64 r (B "7") (VUser (B "0")) ;;;
  str_inplace_insert 64 r (B "8") (VUser (B "0")) ;;;
  str_inplace_insert 64 r (B "9") (VUser (B "0")) ;;;
  str_inplace_insert 64 r (B "A") (VUser (B "0")) ;;;
  str_inplace_insert 64 r (B "B") (VUser (B "0")) ;;;
  str_inplace_insert 64 r (B "C") (VUser (B "0")) ;;;
  str_inplace_insert 64 r (B "D") (VUser (B "0")) ;;;
  str_inplace_insert 64 r (B "E") (VUser (B "0")) ;;;
  str_inplace_insert 64 r (B "F") (VUser (B "0")) ;;;
  d <- str_dot 200 r ;; check (beq (dot_text rb_text_number d) Test16DirectNodeTree) ;;;
  r <- str_new ;;
  str_inplace_insert 64 r (B "0") (VUser (B "0")) ;;;
  str_inplace_insert 64 r (B "2") (VUser (B "0")) ;;;
  str_inplace_insert 64 r (B "4") (VUser (B "0")) ;;;
  str_inplace_insert 64 r (B "6") (VUser (B "0")) ;;;
  str_inplace_insert 64 r (B "8") (VUser (B "0")) ;;;
  str_inplace_insert 64 r (B "A") (VUser (B "0")) ;;;
  str_inplace_insert 64 r (B "C") (VUser (B "0")) ;;;
  str_inplace_insert 64 r (B "E") (VUser (B "0")) ;;;
  str_inplace_insert 64 r (B "1") (VUser (B "0")) ;;;
  str_inplace_insert 64 r (B "3") (VUser (B "0")) ;;;
  str_inplace_insert 64 r (B "5") (VUser (B "0")) ;;;
  str_inplace_insert 64 r (B "7") (VUser (B "0")) ;;;
  str_inplace_insert 64 r (B "9") (VUser (B "0")) ;;;
  str_inplace_insert 64 r (B "B") (VUser (B "0")) ;;;
  str_inplace_insert 64 r (B "D") (VUser (B "0")) ;;;
  str_inplace_insert 64 r (B "F") (VUser (B "0")) ;;;
  d <- str_dot 200 r ;; check (beq (dot_text rb_text_number d) Test16AlternatingNodeTree) ;;;
  r <- str_new ;;
  str_inplace_insert 64 r (B "F") (VUser (B "0")) ;;;
  str_inplace_insert 64 r (B "D") (VUser (B "0")) ;;;
  str_inplace_insert 64 r (B "B") (VUser (B "0")) ;;;
  str_inplace_insert 64 r (B "9") (VUser (B "0")) ;;;
  str_inplace_insert 64 r (B "7") (VUser (B "0")) ;;;
  str_inplace_insert 64 r (B "5") (VUser (B "0")) ;;;
  str_inplace_insert 64 r (B "3") (VUser (B "0")) ;;;
  str_inplace_insert 64 r (B "1") (VUser (B "0")) ;;;
  str_inplace_insert 64 r (B "E") (VUser (B "0")) ;;;
  str_inplace_insert 64 r (B "C") (VUser (B "0")) ;;;
  str_inplace_insert 64 r (B "A") (VUser (B "0")) ;;;
  str_inplace_insert 64 r (B "8") (VUser (B "0")) ;;;
  str_inplace_insert 64 r (B "6") (VUser (B "0")) ;;;
  str_inplace_insert 64 r (B "4") (VUser (B "0")) ;;;
  str_inplace_insert 64 r (B "2") (VUser (B "0")) ;;;
  str_inplace_insert 64 r (B "0") (VUser (B "0")) ;;;
  d <- str_dot 200 r ;; check (beq (dot_text rb_text_number d) Test16AlternatingInversedNodeTree) ;;;
  r <- str_new ;;
  str_inplace_insert 64 r (B "0") (VUser (B "0")) ;;;
  str_inplace_insert 64 r (B "3") (VUser (B "0")) ;;;
  str_inplace_insert 64 r (B "6") (VUser (B "0")) ;;;
  str_inplace_insert 64 r (B "9") (VUser (B "0")) ;;;
  str_inplace_insert 64 r (B "C") (VUser (B "0")) ;;;
  str_inplace_insert 64 r (B "F") (VUser (B "0")) ;;;
  str_inplace_insert 64 r (B "1") (VUser (B "0")) ;;;
  str_inplace_insert 64 r (B "2") (VUser (B "0")) ;;;
  str_inplace_insert 64 r (B "4") (VUser (B "0")) ;;;
  str_inplace_insert 64 r (B "5") (VUser (B "0")) ;;;
  str_inplace_insert 64 r (B "7") (VUser (B "0")) ;;;
  str_inplace_insert 64 r (B "8") (VUser (B "0")) ;;;
  str_inplace_insert 64 r (B "A") (VUser (B "0")) ;;;
  str_inplace_insert 64 r (B "B") (VUser (B "0")) ;;;
  str_inplace_insert 64 r (B "D") (VUser (B "0")) ;;;
  str_inplace_insert 64 r (B "E") (VUser (B "0")) ;;;
  d <- str_dot 200 r ;; check (beq (dot_text rb_text_number d) Test16_3AltNodeTree) ;;;
  r <- str_new ;;
  str_inplace_insert 64 r (B "00") (VUser (B "0")) ;;;
  str_inplace_insert 64 r (B "02") (VUser (B "0")) ;;;
  str_inplace_insert 64 r (B "04") (VUser (B "0")) ;;;
  str_inplace_insert 64 r (B "06") (VUser (B "0")) ;;;
  str_inplace_insert 64 r (B "08") (VUser (B "0")) ;;;
  str_inplace_insert 64 r (B "0A") (VUser (B "0")) ;;;
  str_inplace_insert 64 r (B "0C") (VUser (B "0")) ;;;
  str_inplace_insert 64 r (B "0E") (VUser (B "0")) ;;;
  str_inplace_insert 64 r (B "10") (VUser (B "0")) ;;;
  str_inplace_insert 64 r (B "12") (VUser (B "0")) ;;;
  str_inplace_insert 64 r (B "14") (VUser (B "0")) ;;;
  str_inplace_insert 64 r (B "16") (VUser (B "0")) ;;;
  str_inplace_insert 64 r (B "18") (VUser (B "0")) ;;;
  str_inplace_insert 64 r (B "1A") (VUser (B "0")) ;;;
  str_inplace_insert 64 r (B "1C") (VUser (B "0")) ;;;
  str_inplace_insert 64 r (B "1E") (VUser (B "0")) ;;;
  str_inplace_insert 64 r (B "01") (VUser (B "0")) ;;;
  str_inplace_insert 64 r (B "03") (VUser (B "0")) ;;;
  str_inplace_insert 64 r (B "05") (VUser (B "0")) ;;;
  str_inplace_insert 64 r (B "07") (VUser (B "0")) ;;;
  str_inplace_insert 64 r (B "09") (VUser (B "0")) ;;;
  str_inplace_insert 64 r (B "0B") (VUser (B "0")) ;;;
  str_inplace_insert 64 r (B "0D") (VUser (B "0")) ;;;
  str_inplace_insert 64 r (B "0F") (VUser (B "0")) ;;;
  str_inplace_insert 64 r (B "11") (VUser (B "0")) ;;;
  str_inplace_insert 64 r (B "13") (VUser (B "0")) ;;;
  str_inplace_insert 64 r (B "15") (VUser (B "0")) ;;;
  str_inplace_insert 64 r (B "17") (VUser (B "0")) ;;;
  str_inplace_insert 64 r (B "19") (VUser (B "0")) ;;;
  str_inplace_insert 64 r (B "1B") (VUser (B "0")) ;;;
  str_inplace_insert 64 r (B "1D") (VUser (B "0")) ;;;
  str_inplace_insert 64 r (B "1F") (VUser (B "0")) ;;;
  d <- str_dot 200 r ;; check (beq (dot_text rb_text_number d) Test32AlternatingNodeTree) ;;;
  r <- Ret (None : ptr) ;;
  Ret tt.
Example TestInplaceInsert_passes : passes t_TestInplaceInsert = true.
Proof. vm_compute. reflexivity. Qed.
Definition t_TestInplaceInsert_panic0 : prog unit :=
  r <- Ret (None : ptr) ;;
  x <- str_inplace_insert 64 r (B "00") (VUser (B "0")) ;; Ret tt.
Example TestInplaceInsert_panic0_panics : panics t_TestInplaceInsert_panic0 = true.
Proof. vm_compute. reflexivity. Qed.

(** uintX/strtree8/strtree_test.go TestGet *)
Definition t_TestGet : prog unit :=
  r <- Ret (None : ptr) ;;
  x <- str_get 64 r (B "0") ;;
  let v := x.1 in
  let ok := x.2 in
  check (negb ok) ;;;
  r <- str_new ;;
  r <- str_insert 64 r (B "1") (VUser (B "1")) ;;
  r <- str_insert 64 r (B "0") (VUser (B "0")) ;;
  r <- str_insert 64 r (B "4") (VUser (B "4")) ;;
  r <- str_insert 64 r (B "2") (VUser (B "2")) ;;
  r <- str_insert 64 r (B "3") (VUser (B "3")) ;;
  x <- str_get 64 r (B "3") ;;
  let v := x.1 in
  let ok := x.2 in
  check (ok && val_is v (B "3")) ;;;
  x <- str_get 64 r (B "F") ;;
  let v := x.1 in
  let ok := x.2 in
  check (negb ok) ;;;
  Ret tt.
Example TestGet_passes : passes t_TestGet = true.
Proof. vm_compute. reflexivity. Qed.

(** uintX/strtree8/strtree_test.go TestEnumerate *)
Definition t_TestEnumerate : prog unit :=
  r <- Ret (None : ptr) ;;
  e1 <- str_enumerate 64 r ;; check (list_is pair_is e1 []) ;;;
  r <- str_new ;;
  r <- str_insert 64 r (B "1") (VUser (B "1")) ;;
  r <- str_insert 64 r (B "0") (VUser (B "0")) ;;
  r <- str_insert 64 r (B "4") (VUser (B "4")) ;;
  r <- str_insert 64 r (B "2") (VUser (B "2")) ;;
  r <- str_insert 64 r (B "3") (VUser (B "3")) ;;
  e1 <- str_enumerate 64 r ;; check (list_is pair_is e1 [((B "0"), (B "0")); ((B "1"), (B "1")); ((B "2"), (B "2")); ((B "3"), (B "3")); ((B "4"), (B "4"))]) ;;;
  Ret tt.
Example TestEnumerate_passes : passes t_TestEnumerate = true.
Proof. vm_compute. reflexivity. Qed.

(** uintX/strtree8/strtree_test.go TestDelete *)
Definition t_TestDelete : prog unit :=
  r <- Ret (None : ptr) ;;
  x <- str_delete 64 r (B "test") ;;
  let r := x.1 in
  let ok := x.2 in
  check (negb ok) ;;;
  r <- str_new ;;
  r <- str_insert 64 r (B "0") (VUser (B "0")) ;;
  r <- str_insert 64 r (B "3") (VUser (B "0")) ;;
  r <- str_insert 64 r (B "6") (VUser (B "0")) ;;
  r <- str_insert 64 r (B "9") (VUser (B "0")) ;;
  r <- str_insert 64 r (B "C") (VUser (B "0")) ;;
  r <- str_insert 64 r (B "F") (VUser (B "0")) ;;
  r <- str_insert 64 r (B "1") (VUser (B "0")) ;;
  r <- str_insert 64 r (B "2") (VUser (B "0")) ;;
  r <- str_insert 64 r (B "4") (VUser (B "0")) ;;
  r <- str_insert 64 r (B "5") (VUser (B "0")) ;;
  r <- str_insert 64 r (B "7") (VUser (B "0")) ;;
  r <- str_insert 64 r (B "8") (VUser (B "0")) ;;
  r <- str_insert 64 r (B "A") (VUser (B "0")) ;;
  r <- str_insert 64 r (B "B") (VUser (B "0")) ;;
  r <- str_insert 64 r (B "D") (VUser (B "0")) ;;
  r <- str_insert 64 r (B "E") (VUser (B "0")) ;;
  x <- str_delete 64 r (B "81") ;;
  let r := x.1 in
  let ok := x.2 in
  check (negb ok) ;;;
  d <- str_dot 200 r ;; check (beq (dot_text rb_text_number d) TestTreeAfterNonExistingNodeDel) ;;;
  x <- str_delete 64 r (B "6") ;;
  let r := x.1 in
  let ok := x.2 in
  check (ok) ;;;
  d <- str_dot 200 r ;; check (beq (dot_text rb_text_number d) TestTreeAfterNode6Deletion) ;;;
  x <- str_delete 64 r (B "7") ;;
  let r := x.1 in
  let ok := x.2 in
  check (ok) ;;;
  x <- str_delete 64 r (B "8") ;;
  let r := x.1 in
  let ok := x.2 in
  check (ok) ;;;
  x <- str_delete 64 r (B "5") ;;
  let r := x.1 in
  let ok := x.2 in
  check (ok) ;;;
  x <- str_delete 64 r (B "9") ;;
  let r := x.1 in
  let ok := x.2 in
  check (ok) ;;;
  d <- str_dot 200 r ;; check (beq (dot_text rb_text_number d) TestTreeAfterNodes7859Deletion) ;;;
  x <- str_delete 64 r (B "C") ;;
  let r := x.1 in
  let ok := x.2 in
  check (ok) ;;;
  x <- str_delete 64 r (B "E") ;;
  let r := x.1 in
  let ok := x.2 in
  check (ok) ;;;
  x <- str_delete 64 r (B "D") ;;
  let r := x.1 in
  let ok := x.2 in
  check (ok) ;;;
  x <- str_delete 64 r (B "A") ;;
  let r := x.1 in
  let ok := x.2 in
  check (ok) ;;;
  x <- str_delete 64 r (B "B") ;;
  let r := x.1 in
  let ok := x.2 in
  check (ok) ;;;
  x <- str_delete 64 r (B "4") ;;
  let r := x.1 in
  let ok := x.2 in
  check (ok) ;;;
  x <- str_delete 64 r (B "F") ;;
  let r := x.1 in
  let ok := x.2 in
  check (ok) ;;;
  x <- str_delete 64 r (B "0") ;;
  let r := x.1 in
  let ok := x.2 in
  check (ok) ;;;
  x <- str_delete 64 r (B "3") ;;
  let r := x.1 in
  let ok := x.2 in
  check (ok) ;;;
  x <- str_delete 64 r (B "1") ;;
  let r := x.1 in
  let ok := x.2 in
  check (ok) ;;;
  x <- str_delete 64 r (B "2") ;;
  let r := x.1 in
  let ok := x.2 in
  check (ok) ;;;
  d <- str_dot 200 r ;; check (beq (dot_text rb_text_number d) TestEmptyTree) ;;;
  Ret tt.
Example TestDelete_passes : passes t_TestDelete = true.
Proof. vm_compute. reflexivity. Qed.

(** uintX/strtree8/strtree_test.go TestIsEmpty *)
Definition t_TestIsEmpty : prog unit :=
  r <- Ret (None : ptr) ;;
  e <- str_is_empty r ;; check (e) ;;;
  r <- str_new ;;
  r <- str_insert 64 r (B "0") (VUser (B "0")) ;;
  r <- str_insert 64 r (B "3") (VUser (B "0")) ;;
  r <- str_insert 64 r (B "6") (VUser (B "0")) ;;
  e <- str_is_empty r ;; check (negb e) ;;;
  x <- str_delete 64 r (B "3") ;;
  let r := x.1 in
  let ok := x.2 in
  check (ok) ;;;
  e <- str_is_empty r ;; check (negb e) ;;;
  x <- str_delete 64 r (B "0") ;;
  let r := x.1 in
  x <- str_delete 64 r (B "6") ;;
  let r := x.1 in
  e <- str_is_empty r ;; check (e) ;;;
  Ret tt.
Example TestIsEmpty_passes : passes t_TestIsEmpty = true.
Proof. vm_compute. reflexivity. Qed.
