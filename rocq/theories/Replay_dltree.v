(** * Made by tools/replay.py from dltree/dltree_test.go. See ReplayText.v. *)
From Verif Require Import Prog RbModel DomModel DlModel DotModel ReplayText.
From Coq Require Import String.
Open Scope nat_scope.
Local Notation B := list_byte_of_string.
Local Notation prog := (prog bytes).

Definition TestEmptyTree : bytes := lines [
  "digraph d {";
  "N0 [label=""nil"" style=filled fontcolor=white fillcolor=black]";
  "}"]%string.

Definition TestSingleNodeTree : bytes := lines [
  "digraph d {";
  "N0 [label=""k: \""K\"" v: \""\""v\""\"""" style=filled fontcolor=white fillcolor=black]";
  "}"]%string.

Definition TestThreeNodeTreeRed : bytes := lines [
  "digraph d {";
  "N0 [label=""1"" style=filled fontcolor=white fillcolor=black]";
  "N0 -> { N1 N2 }";
  "N1 [label=""0"" style=filled fillcolor=red]";
  "N2 [label=""2"" style=filled fillcolor=red]";
  "}"]%string.

Definition TestFiveNodeTree : bytes := lines [
  "digraph d {";
  "N0 [label=""1"" style=filled fontcolor=white fillcolor=black]";
  "N0 -> { N1 N2 }";
  "N1 [label=""0"" style=filled fontcolor=white fillcolor=black]";
  "N2 [label=""3"" style=filled fontcolor=white fillcolor=black]";
  "N2 -> { N3 N4 }";
  "N3 [label=""2"" style=filled fillcolor=red]";
  "N4 [label=""4"" style=filled fillcolor=red]";
  "}"]%string.

Definition Test16InversedNodeTree : bytes := lines [
  "digraph d {";
  "N0 [label=""C"" style=filled fontcolor=white fillcolor=black]";
  "N0 -> { N1 N2 }";
  "N1 [label=""8"" style=filled fillcolor=red]";
  "N1 -> { N3 N4 }";
  "N2 [label=""E"" style=filled fontcolor=white fillcolor=black]";
  "N2 -> { N5 N6 }";
  "N3 [label=""4"" style=filled fontcolor=white fillcolor=black]";
  "N3 -> { N7 N8 }";
  "N4 [label=""A"" style=filled fontcolor=white fillcolor=black]";
  "N4 -> { N9 N10 }";
  "N5 [label=""D"" style=filled fontcolor=white fillcolor=black]";
  "N6 [label=""F"" style=filled fontcolor=white fillcolor=black]";
  "N7 [label=""2"" style=filled fillcolor=red]";
  "N7 -> { N11 N12 }";
  "N8 [label=""6"" style=filled fillcolor=red]";
  "N8 -> { N13 N14 }";
  "N9 [label=""9"" style=filled fontcolor=white fillcolor=black]";
  "N10 [label=""B"" style=filled fontcolor=white fillcolor=black]";
  "N11 [label=""1"" style=filled fontcolor=white fillcolor=black]";
  "N11 -> { N15 N16 }";
  "N12 [label=""3"" style=filled fontcolor=white fillcolor=black]";
  "N13 [label=""5"" style=filled fontcolor=white fillcolor=black]";
  "N14 [label=""7"" style=filled fontcolor=white fillcolor=black]";
  "N15 [label=""0"" style=filled fillcolor=red]";
  "N16 [label=""nil"" style=filled fontcolor=white fillcolor=black]";
  "}"]%string.

Definition Test16DirectNodeTree : bytes := lines [
  "digraph d {";
  "N0 [label=""3"" style=filled fontcolor=white fillcolor=black]";
  "N0 -> { N1 N2 }";
  "N1 [label=""1"" style=filled fontcolor=white fillcolor=black]";
  "N1 -> { N3 N4 }";
  "N2 [label=""7"" style=filled fillcolor=red]";
  "N2 -> { N5 N6 }";
  "N3 [label=""0"" style=filled fontcolor=white fillcolor=black]";
  "N4 [label=""2"" style=filled fontcolor=white fillcolor=black]";
  "N5 [label=""5"" style=filled fontcolor=white fillcolor=black]";
  "N5 -> { N7 N8 }";
  "N6 [label=""B"" style=filled fontcolor=white fillcolor=black]";
  "N6 -> { N9 N10 }";
  "N7 [label=""4"" style=filled fontcolor=white fillcolor=black]";
  "N8 [label=""6"" style=filled fontcolor=white fillcolor=black]";
  "N9 [label=""9"" style=filled fillcolor=red]";
  "N9 -> { N11 N12 }";
  "N10 [label=""D"" style=filled fillcolor=red]";
  "N10 -> { N13 N14 }";
  "N11 [label=""8"" style=filled fontcolor=white fillcolor=black]";
  "N12 [label=""A"" style=filled fontcolor=white fillcolor=black]";
  "N13 [label=""C"" style=filled fontcolor=white fillcolor=black]";
  "N14 [label=""E"" style=filled fontcolor=white fillcolor=black]";
  "N14 -> { N15 N16 }";
  "N15 [label=""nil"" style=filled fontcolor=white fillcolor=black]";
  "N16 [label=""F"" style=filled fillcolor=red]";
  "}"]%string.

Definition Test16AlternatingNodeTree : bytes := lines [
  "digraph d {";
  "N0 [label=""6"" style=filled fontcolor=white fillcolor=black]";
  "N0 -> { N1 N2 }";
  "N1 [label=""2"" style=filled fontcolor=white fillcolor=black]";
  "N1 -> { N3 N4 }";
  "N2 [label=""A"" style=filled fontcolor=white fillcolor=black]";
  "N2 -> { N5 N6 }";
  "N3 [label=""0"" style=filled fontcolor=white fillcolor=black]";
  "N3 -> { N7 N8 }";
  "N4 [label=""4"" style=filled fontcolor=white fillcolor=black]";
  "N4 -> { N9 N10 }";
  "N5 [label=""8"" style=filled fontcolor=white fillcolor=black]";
  "N5 -> { N11 N12 }";
  "N6 [label=""C"" style=filled fillcolor=red]";
  "N6 -> { N13 N14 }";
  "N7 [label=""nil"" style=filled fontcolor=white fillcolor=black]";
  "N8 [label=""1"" style=filled fillcolor=red]";
  "N9 [label=""3"" style=filled fillcolor=red]";
  "N10 [label=""5"" style=filled fillcolor=red]";
  "N11 [label=""7"" style=filled fillcolor=red]";
  "N12 [label=""9"" style=filled fillcolor=red]";
  "N13 [label=""B"" style=filled fontcolor=white fillcolor=black]";
  "N14 [label=""E"" style=filled fontcolor=white fillcolor=black]";
  "N14 -> { N15 N16 }";
  "N15 [label=""D"" style=filled fillcolor=red]";
  "N16 [label=""F"" style=filled fillcolor=red]";
  "}"]%string.

Definition Test16AlternatingInversedNodeTree : bytes := lines [
  "digraph d {";
  "N0 [label=""9"" style=filled fontcolor=white fillcolor=black]";
  "N0 -> { N1 N2 }";
  "N1 [label=""5"" style=filled fontcolor=white fillcolor=black]";
  "N1 -> { N3 N4 }";
  "N2 [label=""D"" style=filled fontcolor=white fillcolor=black]";
  "N2 -> { N5 N6 }";
  "N3 [label=""3"" style=filled fillcolor=red]";
  "N3 -> { N7 N8 }";
  "N4 [label=""7"" style=filled fontcolor=white fillcolor=black]";
  "N4 -> { N9 N10 }";
  "N5 [label=""B"" style=filled fontcolor=white fillcolor=black]";
  "N5 -> { N11 N12 }";
  "N6 [label=""F"" style=filled fontcolor=white fillcolor=black]";
  "N6 -> { N13 N14 }";
  "N7 [label=""1"" style=filled fontcolor=white fillcolor=black]";
  "N7 -> { N15 N16 }";
  "N8 [label=""4"" style=filled fontcolor=white fillcolor=black]";
  "N9 [label=""6"" style=filled fillcolor=red]";
  "N10 [label=""8"" style=filled fillcolor=red]";
  "N11 [label=""A"" style=filled fillcolor=red]";
  "N12 [label=""C"" style=filled fillcolor=red]";
  "N13 [label=""E"" style=filled fillcolor=red]";
  "N14 [label=""nil"" style=filled fontcolor=white fillcolor=black]";
  "N15 [label=""0"" style=filled fillcolor=red]";
  "N16 [label=""2"" style=filled fillcolor=red]";
  "}"]%string.

Definition Test16_3AltNodeTree : bytes := lines [
  "digraph d {";
  "N0 [label=""5"" style=filled fontcolor=white fillcolor=black]";
  "N0 -> { N1 N2 }";
  "N1 [label=""3"" style=filled fontcolor=white fillcolor=black]";
  "N1 -> { N3 N4 }";
  "N2 [label=""9"" style=filled fontcolor=white fillcolor=black]";
  "N2 -> { N5 N6 }";
  "N3 [label=""1"" style=filled fontcolor=white fillcolor=black]";
  "N3 -> { N7 N8 }";
  "N4 [label=""4"" style=filled fontcolor=white fillcolor=black]";
  "N5 [label=""7"" style=filled fontcolor=white fillcolor=black]";
  "N5 -> { N9 N10 }";
  "N6 [label=""C"" style=filled fillcolor=red]";
  "N6 -> { N11 N12 }";
  "N7 [label=""0"" style=filled fillcolor=red]";
  "N8 [label=""2"" style=filled fillcolor=red]";
  "N9 [label=""6"" style=filled fillcolor=red]";
  "N10 [label=""8"" style=filled fillcolor=red]";
  "N11 [label=""A"" style=filled fontcolor=white fillcolor=black]";
  "N11 -> { N13 N14 }";
  "N12 [label=""E"" style=filled fontcolor=white fillcolor=black]";
  "N12 -> { N15 N16 }";
  "N13 [label=""nil"" style=filled fontcolor=white fillcolor=black]";
  "N14 [label=""B"" style=filled fillcolor=red]";
  "N15 [label=""D"" style=filled fillcolor=red]";
  "N16 [label=""F"" style=filled fillcolor=red]";
  "}"]%string.

Definition Test32AlternatingNodeTree : bytes := lines [
  "digraph d {";
  "N0 [label=""0E"" style=filled fontcolor=white fillcolor=black]";
  "N0 -> { N1 N2 }";
  "N1 [label=""06"" style=filled fontcolor=white fillcolor=black]";
  "N1 -> { N3 N4 }";
  "N2 [label=""16"" style=filled fontcolor=white fillcolor=black]";
  "N2 -> { N5 N6 }";
  "N3 [label=""02"" style=filled fontcolor=white fillcolor=black]";
  "N3 -> { N7 N8 }";
  "N4 [label=""0A"" style=filled fontcolor=white fillcolor=black]";
  "N4 -> { N9 N10 }";
  "N5 [label=""12"" style=filled fontcolor=white fillcolor=black]";
  "N5 -> { N11 N12 }";
  "N6 [label=""1A"" style=filled fontcolor=white fillcolor=black]";
  "N6 -> { N13 N14 }";
  "N7 [label=""00"" style=filled fontcolor=white fillcolor=black]";
  "N7 -> { N15 N16 }";
  "N8 [label=""04"" style=filled fontcolor=white fillcolor=black]";
  "N8 -> { N17 N18 }";
  "N9 [label=""08"" style=filled fontcolor=white fillcolor=black]";
  "N9 -> { N19 N20 }";
  "N10 [label=""0C"" style=filled fontcolor=white fillcolor=black]";
  "N10 -> { N21 N22 }";
  "N11 [label=""10"" style=filled fontcolor=white fillcolor=black]";
  "N11 -> { N23 N24 }";
  "N12 [label=""14"" style=filled fontcolor=white fillcolor=black]";
  "N12 -> { N25 N26 }";
  "N13 [label=""18"" style=filled fontcolor=white fillcolor=black]";
  "N13 -> { N27 N28 }";
  "N14 [label=""1C"" style=filled fillcolor=red]";
  "N14 -> { N29 N30 }";
  "N15 [label=""nil"" style=filled fontcolor=white fillcolor=black]";
  "N16 [label=""01"" style=filled fillcolor=red]";
  "N17 [label=""03"" style=filled fillcolor=red]";
  "N18 [label=""05"" style=filled fillcolor=red]";
  "N19 [label=""07"" style=filled fillcolor=red]";
  "N20 [label=""09"" style=filled fillcolor=red]";
  "N21 [label=""0B"" style=filled fillcolor=red]";
  "N22 [label=""0D"" style=filled fillcolor=red]";
  "N23 [label=""0F"" style=filled fillcolor=red]";
  "N24 [label=""11"" style=filled fillcolor=red]";
  "N25 [label=""13"" style=filled fillcolor=red]";
  "N26 [label=""15"" style=filled fillcolor=red]";
  "N27 [label=""17"" style=filled fillcolor=red]";
  "N28 [label=""19"" style=filled fillcolor=red]";
  "N29 [label=""1B"" style=filled fontcolor=white fillcolor=black]";
  "N30 [label=""1E"" style=filled fontcolor=white fillcolor=black]";
  "N30 -> { N31 N32 }";
  "N31 [label=""1D"" style=filled fillcolor=red]";
  "N32 [label=""1F"" style=filled fillcolor=red]";
  "}"]%string.

Definition TestTreeAfterNonExistingNodeDel : bytes := lines [
  "digraph d {";
  "N0 [label=""5"" style=filled fontcolor=white fillcolor=black]";
  "N0 -> { N1 N2 }";
  "N1 [label=""3"" style=filled fontcolor=white fillcolor=black]";
  "N1 -> { N3 N4 }";
  "N2 [label=""9"" style=filled fontcolor=white fillcolor=black]";
  "N2 -> { N5 N6 }";
  "N3 [label=""1"" style=filled fontcolor=white fillcolor=black]";
  "N3 -> { N7 N8 }";
  "N4 [label=""4"" style=filled fontcolor=white fillcolor=black]";
  "N5 [label=""7"" style=filled fontcolor=white fillcolor=black]";
  "N5 -> { N9 N10 }";
  "N6 [label=""C"" style=filled fillcolor=red]";
  "N6 -> { N11 N12 }";
  "N7 [label=""0"" style=filled fillcolor=red]";
  "N8 [label=""2"" style=filled fillcolor=red]";
  "N9 [label=""6"" style=filled fillcolor=red]";
  "N10 [label=""8"" style=filled fillcolor=red]";
  "N11 [label=""A"" style=filled fontcolor=white fillcolor=black]";
  "N11 -> { N13 N14 }";
  "N12 [label=""E"" style=filled fontcolor=white fillcolor=black]";
  "N12 -> { N15 N16 }";
  "N13 [label=""nil"" style=filled fontcolor=white fillcolor=black]";
  "N14 [label=""B"" style=filled fillcolor=red]";
  "N15 [label=""D"" style=filled fillcolor=red]";
  "N16 [label=""F"" style=filled fillcolor=red]";
  "}"]%string.

Definition TestTreeAfterNode6Deletion : bytes := lines [
  "digraph d {";
  "N0 [label=""5"" style=filled fontcolor=white fillcolor=black]";
  "N0 -> { N1 N2 }";
  "N1 [label=""3"" style=filled fontcolor=white fillcolor=black]";
  "N1 -> { N3 N4 }";
  "N2 [label=""C"" style=filled fontcolor=white fillcolor=black]";
  "N2 -> { N5 N6 }";
  "N3 [label=""1"" style=filled fontcolor=white fillcolor=black]";
  "N3 -> { N7 N8 }";
  "N4 [label=""4"" style=filled fontcolor=white fillcolor=black]";
  "N5 [label=""9"" style=filled fillcolor=red]";
  "N5 -> { N9 N10 }";
  "N6 [label=""E"" style=filled fontcolor=white fillcolor=black]";
  "N6 -> { N11 N12 }";
  "N7 [label=""0"" style=filled fillcolor=red]";
  "N8 [label=""2"" style=filled fillcolor=red]";
  "N9 [label=""7"" style=filled fontcolor=white fillcolor=black]";
  "N9 -> { N13 N14 }";
  "N10 [label=""A"" style=filled fontcolor=white fillcolor=black]";
  "N10 -> { N15 N16 }";
  "N11 [label=""D"" style=filled fillcolor=red]";
  "N12 [label=""F"" style=filled fillcolor=red]";
  "N13 [label=""nil"" style=filled fontcolor=white fillcolor=black]";
  "N14 [label=""8"" style=filled fillcolor=red]";
  "N15 [label=""nil"" style=filled fontcolor=white fillcolor=black]";
  "N16 [label=""B"" style=filled fillcolor=red]";
  "}"]%string.

Definition TestTreeAfterNodes7859Deletion : bytes := lines [
  "digraph d {";
  "N0 [label=""A"" style=filled fontcolor=white fillcolor=black]";
  "N0 -> { N1 N2 }";
  "N1 [label=""2"" style=filled fontcolor=white fillcolor=black]";
  "N1 -> { N3 N4 }";
  "N2 [label=""C"" style=filled fontcolor=white fillcolor=black]";
  "N2 -> { N5 N6 }";
  "N3 [label=""1"" style=filled fontcolor=white fillcolor=black]";
  "N3 -> { N7 N8 }";
  "N4 [label=""4"" style=filled fontcolor=white fillcolor=black]";
  "N4 -> { N9 N10 }";
  "N5 [label=""B"" style=filled fontcolor=white fillcolor=black]";
  "N6 [label=""E"" style=filled fontcolor=white fillcolor=black]";
  "N6 -> { N11 N12 }";
  "N7 [label=""0"" style=filled fillcolor=red]";
  "N8 [label=""nil"" style=filled fontcolor=white fillcolor=black]";
  "N9 [label=""3"" style=filled fillcolor=red]";
  "N10 [label=""nil"" style=filled fontcolor=white fillcolor=black]";
  "N11 [label=""D"" style=filled fillcolor=red]";
  "N12 [label=""F"" style=filled fillcolor=red]";
  "}"]%string.

Definition TestTreeSameNodeOnce : bytes := lines [
  "digraph d {";
  "N0 [label=""k: \""00\"" v: \""\""test-1\""\"""" style=filled fontcolor=white fillcolor=black]";
  "}"]%string.

Definition TestTreeSameNodeTwice : bytes := lines [
  "digraph d {";
  "N0 [label=""k: \""00\"" v: \""\""test-2\""\"""" style=filled fontcolor=white fillcolor=black]";
  "}"]%string.

(** dltree/dltree_test.go TestNewTree *)
Definition t_TestNewTree : prog unit :=
  r <- dl_new ;;
  d <- dl_dot 200 r ;; check (beq (dot_text rb_text d) TestEmptyTree) ;;;
  Ret tt.
Example TestNewTree_passes : passes t_TestNewTree = true.
Proof. vm_compute. reflexivity. Qed.

(** dltree/dltree_test.go TestInsert *)
Definition t_TestInsert : prog unit :=
  r <- Ret (None : ptr) ;;
  r <- dl_insert 64 r (B "k") (VUser (B "v")) ;;
  d <- dl_dot 200 r ;; check (beq (dot_text rb_text d) TestSingleNodeTree) ;;;
  r <- dl_new ;;
  r <- dl_insert 64 r (B "k") (VUser (B "v")) ;;
  d <- dl_dot 200 r ;; check (beq (dot_text rb_text d) TestSingleNodeTree) ;;;
  r <- dl_new ;;
  r <- dl_insert 64 r (B "0") VNil ;;
  r <- dl_insert 64 r (B "1") VNil ;;
  r <- dl_insert 64 r (B "2") VNil ;;
  d <- dl_dot 200 r ;; check (beq (dot_text rb_text d) TestThreeNodeTreeRed) ;;;
  r <- dl_new ;;
  r <- dl_insert 64 r (B "1") VNil ;;
  r <- dl_insert 64 r (B "2") VNil ;;
  r <- dl_insert 64 r (B "0") VNil ;;
  d <- dl_dot 200 r ;; check (beq (dot_text rb_text d) TestThreeNodeTreeRed) ;;;
  r <- dl_new ;;
  r <- dl_insert 64 r (B "2") VNil ;;
  r <- dl_insert 64 r (B "0") VNil ;;
  r <- dl_insert 64 r (B "1") VNil ;;
  d <- dl_dot 200 r ;; check (beq (dot_text rb_text d) TestThreeNodeTreeRed) ;;;
  r <- dl_new ;;
  r <- dl_insert 64 r (B "0") VNil ;;
  r <- dl_insert 64 r (B "2") VNil ;;
  r <- dl_insert 64 r (B "1") VNil ;;
  d <- dl_dot 200 r ;; check (beq (dot_text rb_text d) TestThreeNodeTreeRed) ;;;
  r <- dl_new ;;
  r <- dl_insert 64 r (B "1") VNil ;;
  r <- dl_insert 64 r (B "0") VNil ;;
  r <- dl_insert 64 r (B "2") VNil ;;
  d <- dl_dot 200 r ;; check (beq (dot_text rb_text d) TestThreeNodeTreeRed) ;;;
  r <- dl_new ;;
  r <- dl_insert 64 r (B "2") VNil ;;
  r <- dl_insert 64 r (B "1") VNil ;;
  r <- dl_insert 64 r (B "0") VNil ;;
  d <- dl_dot 200 r ;; check (beq (dot_text rb_text d) TestThreeNodeTreeRed) ;;;
  r <- dl_new ;;
  r <- dl_insert 64 r (B "1") VNil ;;
  r <- dl_insert 64 r (B "0") VNil ;;
  r <- dl_insert 64 r (B "4") VNil ;;
  r <- dl_insert 64 r (B "2") VNil ;;
  r <- dl_insert 64 r (B "3") VNil ;;
  d <- dl_dot 200 r ;; check (beq (dot_text rb_text d) TestFiveNodeTree) ;;;
  r <- dl_new ;;
  r <- dl_insert 64 r (B "f") VNil ;;
  r <- dl_insert 64 r (B "e") VNil ;;
  r <- dl_insert 64 r (B "d") VNil ;;
  r <- dl_insert 64 r (B "c") VNil ;;
  r <- dl_insert 64 r (B "b") VNil ;;
  r <- dl_insert 64 r (B "a") VNil ;;
  r <- dl_insert 64 r (B "9") VNil ;;
  r <- dl_insert 64 r (B "8") VNil ;;
  r <- dl_insert 64 r (B "7") VNil ;;
  r <- dl_insert 64 r (B "6") VNil ;;
  r <- dl_insert 64 r (B "5") VNil ;;
  r <- dl_insert 64 r (B "4") VNil ;;
  r <- dl_insert 64 r (B "3") VNil ;;
  r <- dl_insert 64 r (B "2") VNil ;;
  r <- dl_insert 64 r (B "1") VNil ;;
  r <- dl_insert 64 r (B "0") VNil ;;
  d <- dl_dot 200 r ;; check (beq (dot_text rb_text d) Test16InversedNodeTree) ;;;
  r <- dl_new ;;
  r <- dl_insert 64 r (B "0") VNil ;;
  r <- dl_insert 64 r (B "1") VNil ;;
  r <- dl_insert 64 r (B "2") VNil ;;
  r <- dl_insert 64 r (B "3") VNil ;;
  r <- dl_insert 64 r (B "4") VNil ;;
  r <- dl_insert 64 r (B "5") VNil ;;
  r <- dl_insert 64 r (B "6") VNil ;;
  r <- dl_insert 64 r (B "7") VNil ;;
  r <- dl_insert 64 r (B "8") VNil ;;
  r <- dl_insert 64 r (B "9") VNil ;;
  r <- dl_insert 64 r (B "a") VNil ;;
  r <- dl_insert 64 r (B "b") VNil ;;
  r <- dl_insert 64 r (B "c") VNil ;;
  r <- dl_insert 64 r (B "d") VNil ;;
  r <- dl_insert 64 r (B "e") VNil ;;
  r <- dl_insert 64 r (B "f") VNil ;;
  d <- dl_dot 200 r ;; check (beq (dot_text rb_text d) Test16DirectNodeTree) ;;;
  r <- dl_new ;;
  r <- dl_insert 64 r (B "0") VNil ;;
  r <- dl_insert 64 r (B "2") VNil ;;
  r <- dl_insert 64 r (B "4") VNil ;;
  r <- dl_insert 64 r (B "6") VNil ;;
  r <- dl_insert 64 r (B "8") VNil ;;
  r <- dl_insert 64 r (B "a") VNil ;;
  r <- dl_insert 64 r (B "c") VNil ;;
  r <- dl_insert 64 r (B "e") VNil ;;
  r <- dl_insert 64 r (B "1") VNil ;;
  r <- dl_insert 64 r (B "3") VNil ;;
  r <- dl_insert 64 r (B "5") VNil ;;
  r <- dl_insert 64 r (B "7") VNil ;;
  r <- dl_insert 64 r (B "9") VNil ;;
  r <- dl_insert 64 r (B "b") VNil ;;
  r <- dl_insert 64 r (B "d") VNil ;;
  r <- dl_insert 64 r (B "f") VNil ;;
  d <- dl_dot 200 r ;; check (beq (dot_text rb_text d) Test16AlternatingNodeTree) ;;;
  r <- dl_new ;;
  r <- dl_insert 64 r (B "f") VNil ;;
  r <- dl_insert 64 r (B "d") VNil ;;
  r <- dl_insert 64 r (B "b") VNil ;;
  r <- dl_insert 64 r (B "9") VNil ;;
  r <- dl_insert 64 r (B "7") VNil ;;
  r <- dl_insert 64 r (B "5") VNil ;;
  r <- dl_insert 64 r (B "3") VNil ;;
  r <- dl_insert 64 r (B "1") VNil ;;
  r <- dl_insert 64 r (B "e") VNil ;;
  r <- dl_insert 64 r (B "c") VNil ;;
  r <- dl_insert 64 r (B "a") VNil ;;
  r <- dl_insert 64 r (B "8") VNil ;;
  r <- dl_insert 64 r (B "6") VNil ;;
  r <- dl_insert 64 r (B "4") VNil ;;
  r <- dl_insert 64 r (B "2") VNil ;;
  r <- dl_insert 64 r (B "0") VNil ;;
  d <- dl_dot 200 r ;; check (beq (dot_text rb_text d) Test16AlternatingInversedNodeTree) ;;;
  r <- dl_new ;;
  r <- dl_insert 64 r (B "0") VNil ;;
  r <- dl_insert 64 r (B "3") VNil ;;
  r <- dl_insert 64 r (B "6") VNil ;;
  r <- dl_insert 64 r (B "9") VNil ;;
  r <- dl_insert 64 r (B "c") VNil ;;
  r <- dl_insert 64 r (B "f") VNil ;;
  r <- dl_insert 64 r (B "1") VNil ;;
  r <- dl_insert 64 r (B "2") VNil ;;
  r <- dl_insert 64 r (B "4") VNil ;;
  r <- dl_insert 64 r (B "5") VNil ;;
  r <- dl_insert 64 r (B "7") VNil ;;
  r <- dl_insert 64 r (B "8") VNil ;;
  r <- dl_insert 64 r (B "a") VNil ;;
  r <- dl_insert 64 r (B "b") VNil ;;
  r <- dl_insert 64 r (B "d") VNil ;;
  r <- dl_insert 64 r (B "e") VNil ;;
  d <- dl_dot 200 r ;; check (beq (dot_text rb_text d) Test16_3AltNodeTree) ;;;
  r <- dl_new ;;
  r <- dl_insert 64 r (B "00") VNil ;;
  r <- dl_insert 64 r (B "02") VNil ;;
  r <- dl_insert 64 r (B "04") VNil ;;
  r <- dl_insert 64 r (B "06") VNil ;;
  r <- dl_insert 64 r (B "08") VNil ;;
  r <- dl_insert 64 r (B "0a") VNil ;;
  r <- dl_insert 64 r (B "0c") VNil ;;
  r <- dl_insert 64 r (B "0e") VNil ;;
  r <- dl_insert 64 r (B "10") VNil ;;
  r <- dl_insert 64 r (B "12") VNil ;;
  r <- dl_insert 64 r (B "14") VNil ;;
  r <- dl_insert 64 r (B "16") VNil ;;
  r <- dl_insert 64 r (B "18") VNil ;;
  r <- dl_insert 64 r (B "1a") VNil ;;
  r <- dl_insert 64 r (B "1c") VNil ;;
  r <- dl_insert 64 r (B "1e") VNil ;;
  r <- dl_insert 64 r (B "01") VNil ;;
  r <- dl_insert 64 r (B "03") VNil ;;
  r <- dl_insert 64 r (B "05") VNil ;;
  r <- dl_insert 64 r (B "07") VNil ;;
  r <- dl_insert 64 r (B "09") VNil ;;
  r <- dl_insert 64 r (B "0b") VNil ;;
  r <- dl_insert 64 r (B "0d") VNil ;;
  r <- dl_insert 64 r (B "0f") VNil ;;
  r <- dl_insert 64 r (B "11") VNil ;;
  r <- dl_insert 64 r (B "13") VNil ;;
  r <- dl_insert 64 r (B "15") VNil ;;
  r <- dl_insert 64 r (B "17") VNil ;;
  r <- dl_insert 64 r (B "19") VNil ;;
  r <- dl_insert 64 r (B "1b") VNil ;;
  r <- dl_insert 64 r (B "1d") VNil ;;
  r <- dl_insert 64 r (B "1f") VNil ;;
  d <- dl_dot 200 r ;; check (beq (dot_text rb_text d) Test32AlternatingNodeTree) ;;;
  r <- Ret (None : ptr) ;;
  r <- dl_insert 64 r (B "00") (VUser (B "test-1")) ;;
  d <- dl_dot 200 r ;; check (beq (dot_text rb_text d) TestTreeSameNodeOnce) ;;;
  r <- dl_insert 64 r (B "00") (VUser (B "test-2")) ;;
  d <- dl_dot 200 r ;; check (beq (dot_text rb_text d) TestTreeSameNodeTwice) ;;;
  Ret tt.
Example TestInsert_passes : passes t_TestInsert = true.
Proof. vm_compute. reflexivity. Qed.

(** dltree/dltree_test.go TestInplaceInsert *)
Definition t_TestInplaceInsert : prog unit :=
  r <- dl_new ;;
  dl_inplace_insert 64 r (B "k") (VUser (B "v")) ;;;
  d <- dl_dot 200 r ;; check (beq (dot_text rb_text d) TestSingleNodeTree) ;;;
  r <- dl_new ;;
  dl_inplace_insert 64 r (B "k") (VUser (B "v")) ;;;
  d <- dl_dot 200 r ;; check (beq (dot_text rb_text d) TestSingleNodeTree) ;;;
  r <- dl_new ;;
  dl_inplace_insert 64 r (B "0") VNil ;;;
  dl_inplace_insert 64 r (B "1") VNil ;;;
  dl_inplace_insert 64 r (B "2") VNil ;;;
  d <- dl_dot 200 r ;; check (beq (dot_text rb_text d) TestThreeNodeTreeRed) ;;;
  r <- dl_new ;;
  dl_inplace_insert 64 r (B "1") VNil ;;;
  dl_inplace_insert 64 r (B "2") VNil ;;;
  dl_inplace_insert 64 r (B "0") VNil ;;;
  d <- dl_dot 200 r ;; check (beq (dot_text rb_text d) TestThreeNodeTreeRed) ;;;
  r <- dl_new ;;
  dl_inplace_insert 64 r (B "2") VNil ;;;
  dl_inplace_insert 64 r (B "0") VNil ;;;
  dl_inplace_insert 64 r (B "1") VNil ;;;
  d <- dl_dot 200 r ;; check (beq (dot_text rb_text d) TestThreeNodeTreeRed) ;;;
  r <- dl_new ;;
  dl_inplace_insert 64 r (B "0") VNil ;;;
  dl_inplace_insert 64 r (B "2") VNil ;;;
  dl_inplace_insert 64 r (B "1") VNil ;;;
  d <- dl_dot 200 r ;; check (beq (dot_text rb_text d) TestThreeNodeTreeRed) ;;;
  r <- dl_new ;;
  dl_inplace_insert 64 r (B "1") VNil ;;;
  dl_inplace_insert 64 r (B "0") VNil ;;;
  dl_inplace_insert 64 r (B "2") VNil ;;;
  d <- dl_dot 200 r ;; check (beq (dot_text rb_text d) TestThreeNodeTreeRed) ;;;
  r <- dl_new ;;
  dl_inplace_insert 64 r (B "2") VNil ;;;
  dl_inplace_insert 64 r (B "1") VNil ;;;
  dl_inplace_insert 64 r (B "0") VNil ;;;
  d <- dl_dot 200 r ;; check (beq (dot_text rb_text d) TestThreeNodeTreeRed) ;;;
  r <- dl_new ;;
  dl_inplace_insert 64 r (B "1") VNil ;;;
  dl_inplace_insert 64 r (B "0") VNil ;;;
  dl_inplace_insert 64 r (B "4") VNil ;;;
  dl_inplace_insert 64 r (B "2") VNil ;;;
  dl_inplace_insert 64 r (B "3") VNil ;;;
  d <- dl_dot 200 r ;; check (beq (dot_text rb_text d) TestFiveNodeTree) ;;;
  r <- dl_new ;;
  dl_inplace_insert 64 r (B "f") VNil ;;;
  dl_inplace_insert 64 r (B "e") VNil ;;;
  dl_inplace_insert 64 r (B "d") VNil ;;;
  dl_inplace_insert 64 r (B "c") VNil ;;;
  dl_inplace_insert 64 r (B "b") VNil ;;;
  dl_inplace_insert 64 r (B "a") VNil ;;;
  dl_inplace_insert 64 r (B "9") VNil ;;;
  dl_inplace_insert 64 r (B "8") VNil ;;;
  dl_inplace_insert 64 r (B "7") VNil ;;;
  dl_inplace_insert 64 r (B "6") VNil ;;;
  dl_inplace_insert 64 r (B "5") VNil ;;;
  dl_inplace_insert 64 r (B "4") VNil ;;;
  dl_inplace_insert 64 r (B "3") VNil ;;;
  dl_inplace_insert 64 r (B "2") VNil ;;;
  dl_inplace_insert 64 r (B "1") VNil ;;;
  dl_inplace_insert 64 r (B "0") VNil ;;;
  d <- dl_dot 200 r ;; check (beq (dot_text rb_text d) Test16InversedNodeTree) ;;;
  r <- dl_new ;;
  dl_inplace_insert 64 r (B "0") VNil ;;;
  dl_inplace_insert 64 r (B "1") VNil ;;;
  dl_inplace_insert 64 r (B "2") VNil ;;;
  dl_inplace_insert 64 r (B "3") VNil ;;;
  dl_inplace_insert 64 r (B "4") VNil ;;;
  dl_inplace_insert 64 r (B "5") VNil ;;;
  dl_inplace_insert 64 r (B "6") VNil ;;;
  dl_inplace_insert 64 r (B "7") VNil ;;;
  dl_inplace_insert 64 r (B "8") VNil ;;;
  dl_inplace_insert 64 r (B "9") VNil ;;;
  dl_inplace_insert 64 r (B "a") VNil ;;;
  dl_inplace_insert 64 r (B "b") VNil ;;;
  dl_inplace_insert 64 r (B "c") VNil ;;;
  dl_inplace_insert 64 r (B "d") VNil ;;;
  dl_inplace_insert 64 r (B "e") VNil ;;;
  dl_inplace_insert 64 r (B "f") VNil ;;;
  d <- dl_dot 200 r ;; check (beq (dot_text rb_text d) Test16DirectNodeTree) ;;;
  r <- dl_new ;;
  dl_inplace_insert 64 r (B "0") VNil ;;;
  dl_inplace_insert 64 r (B "2") VNil ;;;
  dl_inplace_insert 64 r (B "4") VNil ;;;
  dl_inplace_insert 64 r (B "6") VNil ;;;
  dl_inplace_insert 64 r (B "8") VNil ;;;
  dl_inplace_insert 64 r (B "a") VNil ;;;
  dl_inplace_insert 64 r (B "c") VNil ;;;
  dl_inplace_insert 64 r (B "e") VNil ;;;
  dl_inplace_insert 64 r (B "1") VNil ;;;
  dl_inplace_insert 64 r (B "3") VNil ;;;
  dl_inplace_insert 64 r (B "5") VNil ;;;
  dl_inplace_insert 64 r (B "7") VNil ;;;
  dl_inplace_insert 64 r (B "9") VNil ;;;
  dl_inplace_insert 64 r (B "b") VNil ;;;
  dl_inplace_insert 64 r (B "d") VNil ;;;
  dl_inplace_insert 64 r (B "f") VNil ;;;
  d <- dl_dot 200 r ;; check (beq (dot_text rb_text d) Test16AlternatingNodeTree) ;;;
  r <- dl_new ;;
  dl_inplace_insert 64 r (B "f") VNil ;;;
  dl_inplace_insert 64 r (B "d") VNil ;;;
  dl_inplace_insert 64 r (B "b") VNil ;;;
  dl_inplace_insert 64 r (B "9") VNil ;;;
  dl_inplace_insert 64 r (B "7") VNil ;;;
  dl_inplace_insert 64 r (B "5") VNil ;;;
  dl_inplace_insert 64 r (B "3") VNil ;;;
  dl_inplace_insert 64 r (B "1") VNil ;;;
  dl_inplace_insert 64 r (B "e") VNil ;;;
  dl_inplace_insert 64 r (B "c") VNil ;;;
  dl_inplace_insert 64 r (B "a") VNil ;;;
  dl_inplace_insert 64 r (B "8") VNil ;;;
  dl_inplace_insert 64 r (B "6") VNil ;;;
  dl_inplace_insert 64 r (B "4") VNil ;;;
  dl_inplace_insert 64 r (B "2") VNil ;;;
  dl_inplace_insert 64 r (B "0") VNil ;;;
  d <- dl_dot 200 r ;; check (beq (dot_text rb_text d) Test16AlternatingInversedNodeTree) ;;;
  r <- dl_new ;;
  dl_inplace_insert 64 r (B "0") VNil ;;;
  dl_inplace_insert 64 r (B "3") VNil ;;;
  dl_inplace_insert 64 r (B "6") VNil ;;;
  dl_inplace_insert 64 r (B "9") VNil ;;;
  dl_inplace_insert 64 r (B "c") VNil ;;;
  dl_inplace_insert 64 r (B "f") VNil ;;;
  dl_inplace_insert 64 r (B "1") VNil ;;;
  dl_inplace_insert 64 r (B "2") VNil ;;;
  dl_inplace_insert 64 r (B "4") VNil ;;;
  dl_inplace_insert 64 r (B "5") VNil ;;;
  dl_inplace_insert 64 r (B "7") VNil ;;;
  dl_inplace_insert 64 r (B "8") VNil ;;;
  dl_inplace_insert 64 r (B "a") VNil ;;;
  dl_inplace_insert 64 r (B "b") VNil ;;;
  dl_inplace_insert 64 r (B "d") VNil ;;;
  dl_inplace_insert 64 r (B "e") VNil ;;;
  d <- dl_dot 200 r ;; check (beq (dot_text rb_text d) Test16_3AltNodeTree) ;;;
  r <- dl_new ;;
  dl_inplace_insert 64 r (B "00") VNil ;;;
  dl_inplace_insert 64 r (B "02") VNil ;;;
  dl_inplace_insert 64 r (B "04") VNil ;;;
  dl_inplace_insert 64 r (B "06") VNil ;;;
  dl_inplace_insert 64 r (B "08") VNil ;;;
  dl_inplace_insert 64 r (B "0a") VNil ;;;
  dl_inplace_insert 64 r (B "0c") VNil ;;;
  dl_inplace_insert 64 r (B "0e") VNil ;;;
  dl_inplace_insert 64 r (B "10") VNil ;;;
  dl_inplace_insert 64 r (B "12") VNil ;;;
  dl_inplace_insert 64 r (B "14") VNil ;;;
  dl_inplace_insert 64 r (B "16") VNil ;;;
  dl_inplace_insert 64 r (B "18") VNil ;;;
  dl_inplace_insert 64 r (B "1a") VNil ;;;
  dl_inplace_insert 64 r (B "1c") VNil ;;;
  dl_inplace_insert 64 r (B "1e") VNil ;;;
  dl_inplace_insert 64 r (B "01") VNil ;;;
  dl_inplace_insert 64 r (B "03") VNil ;;;
  dl_inplace_insert 64 r (B "05") VNil ;;;
  dl_inplace_insert 64 r (B "07") VNil ;;;
  dl_inplace_insert 64 r (B "09") VNil ;;;
  dl_inplace_insert 64 r (B "0b") VNil ;;;
  dl_inplace_insert 64 r (B "0d") VNil ;;;
  dl_inplace_insert 64 r (B "0f") VNil ;;;
  dl_inplace_insert 64 r (B "11") VNil ;;;
  dl_inplace_insert 64 r (B "13") VNil ;;;
  dl_inplace_insert 64 r (B "15") VNil ;;;
  dl_inplace_insert 64 r (B "17") VNil ;;;
  dl_inplace_insert 64 r (B "19") VNil ;;;
  dl_inplace_insert 64 r (B "1b") VNil ;;;
  dl_inplace_insert 64 r (B "1d") VNil ;;;
  dl_inplace_insert 64 r (B "1f") VNil ;;;
  d <- dl_dot 200 r ;; check (beq (dot_text rb_text d) Test32AlternatingNodeTree) ;;;
  r <- Ret (None : ptr) ;;
  Ret tt.
Example TestInplaceInsert_passes : passes t_TestInplaceInsert = true.
Proof. vm_compute. reflexivity. Qed.
Definition t_TestInplaceInsert_panic0 : prog unit :=
  r <- Ret (None : ptr) ;;
  x <- dl_inplace_insert 64 r (B "00") (VUser (B "test")) ;; Ret tt.
Example TestInplaceInsert_panic0_panics : panics t_TestInplaceInsert_panic0 = true.
Proof. vm_compute. reflexivity. Qed.

(** dltree/dltree_test.go TestGet *)
Definition t_TestGet : prog unit :=
  r <- Ret (None : ptr) ;;
  x <- dl_get 64 r (B "0") ;;
  let v := x.1 in
  let ok := x.2 in
  check (negb ok) ;;;
  r <- dl_new ;;
  r <- dl_insert 64 r (B "1") (VUser (B "test-1")) ;;
  r <- dl_insert 64 r (B "0") (VUser (B "test-0")) ;;
  r <- dl_insert 64 r (B "4") (VUser (B "test-4")) ;;
  r <- dl_insert 64 r (B "2") (VUser (B "test-2")) ;;
  r <- dl_insert 64 r (B "3") (VUser (B "test-3")) ;;
  x <- dl_get 64 r (B "2") ;;
  let v := x.1 in
  let ok := x.2 in
  check (ok && val_is v (B "test-2")) ;;;
  x <- dl_get 64 r (B "3") ;;
  let v := x.1 in
  let ok := x.2 in
  check (ok && val_is v (B "test-3")) ;;;
  x <- dl_get 64 r (B "f") ;;
  let v := x.1 in
  let ok := x.2 in
  check (negb ok) ;;;
  Ret tt.
Example TestGet_passes : passes t_TestGet = true.
Proof. vm_compute. reflexivity. Qed.

(** dltree/dltree_test.go TestEnumerate *)
Definition t_TestEnumerate : prog unit :=
  r <- Ret (None : ptr) ;;
  e1 <- dl_enumerate 64 r ;; check (list_is pair_is e1 []) ;;;
  r <- dl_new ;;
  r <- dl_insert 64 r (B "1") (VUser (B "test-1")) ;;
  r <- dl_insert 64 r (B "0") (VUser (B "test-0")) ;;
  r <- dl_insert 64 r (B "4") (VUser (B "test-4")) ;;
  r <- dl_insert 64 r (B "2") (VUser (B "test-2")) ;;
  r <- dl_insert 64 r (B "3") (VUser (B "test-3")) ;;
  e1 <- dl_enumerate 64 r ;; check (list_is pair_is e1 [((B "0"), (B "test-0")); ((B "1"), (B "test-1")); ((B "2"), (B "test-2")); ((B "3"), (B "test-3")); ((B "4"), (B "test-4"))]) ;;;
  Ret tt.
Example TestEnumerate_passes : passes t_TestEnumerate = true.
Proof. vm_compute. reflexivity. Qed.

(** dltree/dltree_test.go TestDelete *)
Definition t_TestDelete : prog unit :=
  r <- Ret (None : ptr) ;;
  x <- dl_delete 64 r (B "test") ;;
  let r := x.1 in
  let ok := x.2 in
  check (negb ok) ;;;
  r <- dl_new ;;
  r <- dl_insert 64 r (B "0") VNil ;;
  r <- dl_insert 64 r (B "3") VNil ;;
  r <- dl_insert 64 r (B "6") VNil ;;
  r <- dl_insert 64 r (B "9") VNil ;;
  r <- dl_insert 64 r (B "c") VNil ;;
  r <- dl_insert 64 r (B "f") VNil ;;
  r <- dl_insert 64 r (B "1") VNil ;;
  r <- dl_insert 64 r (B "2") VNil ;;
  r <- dl_insert 64 r (B "4") VNil ;;
  r <- dl_insert 64 r (B "5") VNil ;;
  r <- dl_insert 64 r (B "7") VNil ;;
  r <- dl_insert 64 r (B "8") VNil ;;
  r <- dl_insert 64 r (B "a") VNil ;;
  r <- dl_insert 64 r (B "b") VNil ;;
  r <- dl_insert 64 r (B "d") VNil ;;
  r <- dl_insert 64 r (B "e") VNil ;;
  x <- dl_delete 64 r (B "81") ;;
  let r := x.1 in
  let ok := x.2 in
  check (negb ok) ;;;
  d <- dl_dot 200 r ;; check (beq (dot_text rb_text d) TestTreeAfterNonExistingNodeDel) ;;;
  x <- dl_delete 64 r (B "6") ;;
  let r := x.1 in
  let ok := x.2 in
  check (ok) ;;;
  d <- dl_dot 200 r ;; check (beq (dot_text rb_text d) TestTreeAfterNode6Deletion) ;;;
  x <- dl_delete 64 r (B "7") ;;
  let r := x.1 in
  let ok := x.2 in
  check (ok) ;;;
  x <- dl_delete 64 r (B "8") ;;
  let r := x.1 in
  let ok := x.2 in
  check (ok) ;;;
  x <- dl_delete 64 r (B "5") ;;
  let r := x.1 in
  let ok := x.2 in
  check (ok) ;;;
  x <- dl_delete 64 r (B "9") ;;
  let r := x.1 in
  let ok := x.2 in
  check (ok) ;;;
  d <- dl_dot 200 r ;; check (beq (dot_text rb_text d) TestTreeAfterNodes7859Deletion) ;;;
  x <- dl_delete 64 r (B "c") ;;
  let r := x.1 in
  let ok := x.2 in
  check (ok) ;;;
  x <- dl_delete 64 r (B "e") ;;
  let r := x.1 in
  let ok := x.2 in
  check (ok) ;;;
  x <- dl_delete 64 r (B "d") ;;
  let r := x.1 in
  let ok := x.2 in
  check (ok) ;;;
  x <- dl_delete 64 r (B "a") ;;
  let r := x.1 in
  let ok := x.2 in
  check (ok) ;;;
  x <- dl_delete 64 r (B "b") ;;
  let r := x.1 in
  let ok := x.2 in
  check (ok) ;;;
  x <- dl_delete 64 r (B "4") ;;
  let r := x.1 in
  let ok := x.2 in
  check (ok) ;;;
  x <- dl_delete 64 r (B "f") ;;
  let r := x.1 in
  let ok := x.2 in
  check (ok) ;;;
  x <- dl_delete 64 r (B "0") ;;
  let r := x.1 in
  let ok := x.2 in
  check (ok) ;;;
  x <- dl_delete 64 r (B "3") ;;
  let r := x.1 in
  let ok := x.2 in
  check (ok) ;;;
  x <- dl_delete 64 r (B "1") ;;
  let r := x.1 in
  let ok := x.2 in
  check (ok) ;;;
  x <- dl_delete 64 r (B "2") ;;
  let r := x.1 in
  let ok := x.2 in
  check (ok) ;;;
  d <- dl_dot 200 r ;; check (beq (dot_text rb_text d) TestEmptyTree) ;;;
  Ret tt.
Example TestDelete_passes : passes t_TestDelete = true.
Proof. vm_compute. reflexivity. Qed.

(** dltree/dltree_test.go TestIsEmpty *)
Definition t_TestIsEmpty : prog unit :=
  r <- Ret (None : ptr) ;;
  e <- dl_is_empty r ;; check (e) ;;;
  r <- dl_new ;;
  r <- dl_insert 64 r (B "0") VNil ;;
  r <- dl_insert 64 r (B "3") VNil ;;
  r <- dl_insert 64 r (B "6") VNil ;;
  e <- dl_is_empty r ;; check (negb e) ;;;
  x <- dl_delete 64 r (B "3") ;;
  let r := x.1 in
  let ok := x.2 in
  check (ok) ;;;
  e <- dl_is_empty r ;; check (negb e) ;;;
  x <- dl_delete 64 r (B "0") ;;
  let r := x.1 in
  x <- dl_delete 64 r (B "6") ;;
  let r := x.1 in
  e <- dl_is_empty r ;; check (e) ;;;
  Ret tt.
Example TestIsEmpty_passes : passes t_TestIsEmpty = true.
Proof. vm_compute. reflexivity. Qed.

(** dltree/dltree_test.go TestRawMethods *)
Definition t_TestRawMethods : prog unit :=
  r <- Ret (None : ptr) ;;
  r <- dl_raw_insert 64 r (B "K") (VUser (B "v")) ;;
  d <- dl_dot 200 r ;; check (beq (dot_text rb_text d) TestSingleNodeTree) ;;;
  r <- dl_new ;;
  r <- dl_raw_insert 64 r (B "K") (VUser (B "v")) ;;
  d <- dl_dot 200 r ;; check (beq (dot_text rb_text d) TestSingleNodeTree) ;;;
  r <- dl_new ;;
  dl_raw_inplace_insert 64 r (B "K") (VUser (B "v")) ;;;
  d <- dl_dot 200 r ;; check (beq (dot_text rb_text d) TestSingleNodeTree) ;;;
  r <- dl_new ;;
  dl_raw_inplace_insert 64 r (B "K") (VUser (B "v")) ;;;
  d <- dl_dot 200 r ;; check (beq (dot_text rb_text d) TestSingleNodeTree) ;;;
  r <- Ret (None : ptr) ;;
  x <- dl_raw_get 64 r (B "0") ;;
  let v := x.1 in
  let ok := x.2 in
  check (negb ok) ;;;
  r <- dl_new ;;
  r <- dl_insert 64 r (B "1") (VUser (B "test-1")) ;;
  r <- dl_insert 64 r (B "0") (VUser (B "test-0")) ;;
  r <- dl_insert 64 r (B "4") (VUser (B "test-4")) ;;
  r <- dl_insert 64 r (B "2") (VUser (B "test-2")) ;;
  r <- dl_insert 64 r (B "3") (VUser (B "test-3")) ;;
  x <- dl_raw_get 64 r (B "3") ;;
  let v := x.1 in
  let ok := x.2 in
  check (ok && val_is v (B "test-3")) ;;;
  e <- Ret (None : ptr) ;;
  e1 <- dl_raw_enumerate 64 e ;; check (list_is pair_is e1 []) ;;;
  e1 <- dl_raw_enumerate 64 r ;; check (list_is pair_is e1 [((B "0"), (B "test-0")); ((B "1"), (B "test-1")); ((B "2"), (B "test-2")); ((B "3"), (B "test-3")); ((B "4"), (B "test-4"))]) ;;;
  x <- dl_raw_delete 64 e (B "0") ;;
  let e := x.1 in
  let ok := x.2 in
  check (negb ok) ;;;
  x <- dl_raw_delete 64 r (B "0") ;;
  let ok := x.2 in
  check (ok) ;;;
  Ret tt.
Example TestRawMethods_passes : passes t_TestRawMethods = true.
Proof. vm_compute. reflexivity. Qed.
