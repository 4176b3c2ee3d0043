(** * The tests domain/name_test.go, domain/label_test.go and etc/names_test.go, translated by hand.
    See ReplayText.v. The model keeps a label without the length byte in front of it, which the code
    stores at index 0 of the buffer. *)
From Verif Require Import Prog DomModel EtcModel ReplayText.
From Coq Require Import String.
Open Scope nat_scope.
Local Notation B := list_byte_of_string.
Import Byte.
(** name_test.go *)
Example TestNameMakeNameFromString : make_name (B "wiki.example.com") = DOk (Name (B "wiki.example.com") ([x03] ++ (B "COM") ++ [x07] ++ (B "EXAMPLE") ++ [x04] ++ (B "WIKI"))).
Proof. vm_compute. reflexivity. Qed.
Example TestNameMakeNameFromStringEmpty : make_name (B "") = DOk (Name [] []).
Proof. vm_compute. reflexivity. Qed.
Example TestNameMakeNameFromStringDot : make_name (B ".") = DOk (Name (B ".") []).
Proof. vm_compute. reflexivity. Qed.
Example TestNameMakeNameFromStringWithNameTooLong : make_name (B "toooooooooooooooooooooooooooooooooooooooooooooooooooooooooooooo.loooooooooooooooooooooooooooooooooooooooooooooooooooooooooooong.doooooooooooooooooooooooooooooooooooooooooooooooooooooooooomain.naaaaaaaaaaaaaaaaaaaaaaaaaaaaaaaaaaaaaaaaaaaaaaaaaaaaaaaaaaaame") = DErr ErrNameTooLong.
Proof. vm_compute. reflexivity. Qed.
Example TestNameMakeNameFromStringWithTooManyLabels : make_name (B "0.1.2.3.4.5.6.7.8.9.0.1.2.3.4.5.6.7.8.9.0.1.2.3.4.5.6.7.8.9.0.1.2.3.4.5.6.7.8.9.0.1.2.3.4.5.6.7.8.9.0.1.2.3.4.5.6.7.8.9.0.1.2.3.4.5.6.7.8.9.0.1.2.3.4.5.6.7.8.9.0.1.2.3.4.5.6.7.8.9.0.1.2.3.4.5.6.7.8.9.0.1.2.3.4.5.6.7.8.9.0.1.2.3.4.5.6.7.8.9.0.1.2.3.4.5.6.7") = DErr ErrTooManyLabels.
Proof. vm_compute. reflexivity. Qed.
Example TestNameMakeNameFromStringWithTooLongLabel : make_name (B "www.looooooooooooooooooooooooooooooooooooooooooooooooooooooooooooong.com") = DErr ErrLabelTooLong.
Proof. vm_compute. reflexivity. Qed.
Definition www : name := match make_name (B "www.example.com") with DOk n => n | _ => Name [] [] end.
Definition wiki : name := match make_name (B "wiki.example.com") with DOk n => n | _ => Name [] [] end.
Example TestNameMakeNameFromReflection : make_name_from_reflection (VName www) = ROk www.
Proof. vm_compute. reflexivity. Qed.
Example TestNameMakeNameFromReflection_string : make_name_from_reflection (VString (B "www.example.com")) = ROk www.
Proof. vm_compute. reflexivity. Qed.
Example TestNameMakeNameFromReflectionPtr : make_name_from_reflection (VPtr (Some (VName www))) = ROk www.
Proof. vm_compute. reflexivity. Qed.
Example TestNameMakeNameFromReflectionPanicWrongType : make_name_from_reflection (VPtr (Some VOther)) = RBadType.
Proof. vm_compute. reflexivity. Qed.
Example TestNameMakeNameFromReflectionPanicWrongString : make_name_from_reflection (VString (B "empty..label")) = RBadString ErrEmptyLabel.
Proof. vm_compute. reflexivity. Qed.
Example TestNameString : nm_h wiki = B "wiki.example.com".
Proof. vm_compute. reflexivity. Qed.
Example TestGetLabel : (name_get_label wiki 0, name_get_label wiki 4, name_get_label wiki 12) = (Some (B "COM", 4%Z), Some (B "EXAMPLE", 12%Z), Some (B "WIKI", 0%Z)).
Proof. vm_compute. reflexivity. Qed.
Example TestGetLabelWithRoot : name_get_label (Name [] []) 0 = Some ([], 0%Z).
Proof. vm_compute. reflexivity. Qed.
Example TestGetLabelWithInvalidOffset : (name_get_label wiki (-1), name_get_label wiki (Z.of_nat (List.length (nm_c wiki))), name_get_label wiki 2) = (Some ([], (-1)%Z), Some ([], (-1)%Z), Some ([], (-1)%Z)).
Proof. vm_compute. reflexivity. Qed.
Definition labels_until (stop : nat) : list bytes * bool :=
  match run (get_labels (U := bytes) (fun ls l => Ret (ls ++ [l], negb (stop <=? List.length (ls ++ [l])))) wiki []) ∅ 1%positive with
  | (inl x, _, _) => x | _ => ([], false) end.
Example TestGetLabels : labels_until 100 = ([B "COM"; B "EXAMPLE"; B "WIKI"], true).
Proof. vm_compute. reflexivity. Qed.
Example TestGetLabelsWithError : labels_until 2 = ([B "COM"; B "EXAMPLE"], false).
Proof. vm_compute. reflexivity. Qed.
(** label_test.go *)
Example TestLabelMakeLabel : make_label (B "la\098el.") = DOk (B "LABEL").
Proof. vm_compute. reflexivity. Qed.
Example TestLabelMakeLabelWithInvalidInput : make_label (B "la\999el.") = DErr ErrInvalidEscape.
Proof. vm_compute. reflexivity. Qed.
Example TestLabelMakeHumanReadableLabel : make_human_label (B "LABEL .") = Some (B "label\032\.").
Proof. vm_compute. reflexivity. Qed.
Example TestLabelMakeHumanReadableLabelWithTooLongLabels_1 : make_human_label (B "0123456789012345678901234567890123456789012345678901234567890123456789012345678901234567890123456789012345678901234567890123456789012345678901234567890123456789012345678901234567890123456789012345678901234567890123456789012345678901234567890123456789012") = Some (B "012345678901234567890123456789012345678901234567890123456789012345678901234567890123456789012345678901234567890123456789012345678901234567890123456789012345678901234567890123456789012345678901234567890123456789012345678901234567890123456789012345678901").
Proof. vm_compute. reflexivity. Qed.
Example TestLabelMakeHumanReadableLabelWithTooLongLabels_2 : make_human_label (B "01234567890123456789012345678901234567890123456789012345678901234567890123456789012345678901234567890123456789012345678901234567890123456789012345678901234567890123456789012345678901234567890123456789012345678901234567890123456789012345678901234567890.") = Some (B "01234567890123456789012345678901234567890123456789012345678901234567890123456789012345678901234567890123456789012345678901234567890123456789012345678901234567890123456789012345678901234567890123456789012345678901234567890123456789012345678901234567890").
Proof. vm_compute. reflexivity. Qed.
Example TestLabelMakeHumanReadableLabelWithTooLongLabels_3 : make_human_label (B "012345678901234567890123456789012345678901234567890123456789012345678901234567890123456789012345678901234567890123456789012345678901234567890123456789012345678901234567890123456789012345678901234567890123456789012345678901234567890123456789012345678 0") = Some (B "012345678901234567890123456789012345678901234567890123456789012345678901234567890123456789012345678901234567890123456789012345678901234567890123456789012345678901234567890123456789012345678901234567890123456789012345678901234567890123456789012345678").
Proof. vm_compute. reflexivity. Qed.
Example TestLabelMarkLabels : mark_loop 5 (B "one.two.three.four.five") 0 0 EReg 0 [] = DOk [0; 4; 8; 14; 19].
Proof. vm_compute. reflexivity. Qed.
Example TestLabelMarkLabelsWithEndingDot : mark_loop 5 (B "one.two.three.four.five.") 0 0 EReg 0 [] = DOk [0; 4; 8; 14; 19].
Proof. vm_compute. reflexivity. Qed.
Example TestLabelMarkLabelsWithEscapes : mark_loop 5 (B "one\.two.th\\ree.four.five.\115\105\120") 0 0 EReg 0 [] = DOk [0; 9; 17; 22; 27].
Proof. vm_compute. reflexivity. Qed.
Example TestLabelMarkLabelsWithInvalidEscape : mark_loop max_labels (B "invalid\") 0 0 EReg 0 [] = DErr ErrInvalidEscape.
Proof. vm_compute. reflexivity. Qed.
Example TestLabelMarkLabelsWithInvalidEscapedDigits_0 : mark_loop max_labels (B "invalid\512") 0 0 EReg 0 [] = DErr ErrInvalidEscape.
Proof. vm_compute. reflexivity. Qed.
Example TestLabelMarkLabelsWithInvalidEscapedDigits_1 : mark_loop max_labels (B "invalid\2ff") 0 0 EReg 0 [] = DErr ErrInvalidEscape.
Proof. vm_compute. reflexivity. Qed.
Example TestLabelMarkLabelsWithInvalidEscapedDigits_2 : mark_loop max_labels (B "invalid\260") 0 0 EReg 0 [] = DErr ErrInvalidEscape.
Proof. vm_compute. reflexivity. Qed.
Example TestLabelMarkLabelsWithInvalidEscapedDigits_3 : mark_loop max_labels (B "invalid\25f") 0 0 EReg 0 [] = DErr ErrInvalidEscape.
Proof. vm_compute. reflexivity. Qed.
Example TestLabelMarkLabelsWithInvalidEscapedDigits_4 : mark_loop max_labels (B "invalid\256") 0 0 EReg 0 [] = DErr ErrInvalidEscape.
Proof. vm_compute. reflexivity. Qed.
Example TestLabelMarkLabelsWithEmptyLabel : mark_loop max_labels (B "one.two..four.five") 0 0 EReg 0 [] = DErr ErrEmptyLabel.
Proof. vm_compute. reflexivity. Qed.
Example TestLabelMarkLabelsWithTooManyLabels : mark_loop 5 (B "0.1.2.3.4.5") 0 0 EReg 0 [] = DErr ErrTooManyLabels.
Proof. vm_compute. reflexivity. Qed.
Example TestLabelMarkLabelsWithMoreTooManyLabels : mark_loop 5 (B "0.1.2.3.4.5.6.7.8.9") 0 0 EReg 0 [] = DErr ErrTooManyLabels.
Proof. vm_compute. reflexivity. Qed.
Example TestLabelGetLabel : get_label (B "label") = DOk (B "LABEL").
Proof. vm_compute. reflexivity. Qed.
Example TestLabelGetLabelWithEndingDot : get_label (B "label.") = DOk (B "LABEL").
Proof. vm_compute. reflexivity. Qed.
Example TestLabelGetLabelWithDot : get_label (B "la.bel.") = DPanic.
Proof. vm_compute. reflexivity. Qed.
Example TestLabelGetLabelWithEscapes : get_label (B "\l\a\.\\\b\101\l\046.") = DOk (B "LA.\BEL.").
Proof. vm_compute. reflexivity. Qed.
Example TestLabelGetLabelWithInvalidEscape : get_label (B "\l\a\.\\\b\e\") = DErr ErrInvalidEscape.
Proof. vm_compute. reflexivity. Qed.
Example TestLabelGetLabelWithInvalidEscapedDigits_0 : get_label (B "invalid\512") = DErr ErrInvalidEscape.
Proof. vm_compute. reflexivity. Qed.
Example TestLabelGetLabelWithInvalidEscapedDigits_1 : get_label (B "invalid\2ff") = DErr ErrInvalidEscape.
Proof. vm_compute. reflexivity. Qed.
Example TestLabelGetLabelWithInvalidEscapedDigits_2 : get_label (B "invalid\260") = DErr ErrInvalidEscape.
Proof. vm_compute. reflexivity. Qed.
Example TestLabelGetLabelWithInvalidEscapedDigits_3 : get_label (B "invalid\25f") = DErr ErrInvalidEscape.
Proof. vm_compute. reflexivity. Qed.
Example TestLabelGetLabelWithInvalidEscapedDigits_4 : get_label (B "invalid\256") = DErr ErrInvalidEscape.
Proof. vm_compute. reflexivity. Qed.
Example TestLabelGetLabelWithLabelTooLong : get_label (B "0123456789012345678901234567890123456789012345678901234567890123") = DErr ErrLabelTooLong.
Proof. vm_compute. reflexivity. Qed.
Example TestLabelGetLabelWithEscapedLabelTooLong_0 : get_label (B "looooooooooooooooooooooooooooooooooooooooooooooooooooooooooooon\g") = DErr ErrLabelTooLong.
Proof. vm_compute. reflexivity. Qed.
Example TestLabelGetLabelWithEscapedLabelTooLong_1 : get_label (B "looooooooooooooooooooooooooooooooooooooooooooooooooooooooooooon\103") = DErr ErrLabelTooLong.
Proof. vm_compute. reflexivity. Qed.
(** etc/names_test.go *)
Example TestNameGetRelName_1 : get_rel_name 40 (B "/a/b/c/d/e") [B "/"; B "a"; B "b"; B "c"] = inl (B "d/e").
Proof. vm_compute. reflexivity. Qed.
Example TestNameGetRelName_2 : get_rel_name 40 (B "/a/b/c/d/e") [B "/"; B "a"; B "B"; B "c"] = inl (B "e").
Proof. vm_compute. reflexivity. Qed.
Example TestNameFullSplit_1 : full_split 40 (B "/a/b/c") = inl [B "/"; B "a"; B "b"; B "c"].
Proof. vm_compute. reflexivity. Qed.
Example TestNameFullSplit_2 : full_split 40 (B "/a/b/c/d/e/f/g/h/i/j/k") = inl [B "/"; B "a"; B "b"; B "c"; B "d"; B "e"; B "f"; B "g"; B "h"; B "i"; B "j"; B "k"].
Proof. vm_compute. reflexivity. Qed.
Example TestNameFullSplit_3 : full_split 40 (B "a/b/c") = inl [B "a"; B "b"; B "c"].
Proof. vm_compute. reflexivity. Qed.
Example TestNameFullSplit_4 : full_split 40 (B "a//b/./c/") = inl [B "a"; B "b"; B "c"].
Proof. vm_compute. reflexivity. Qed.
Example TestNameHasPrefix_1 : has_prefix [B "/"; B "a"; B "b"; B "c"; B "d"] [B "/"; B "a"; B "b"; B "c"] = inl true.
Proof. vm_compute. reflexivity. Qed.
Example TestNameHasPrefix_2 : has_prefix [B "/"; B "a"; B "b"] [B "/"; B "a"; B "b"; B "c"] = inl false.
Proof. vm_compute. reflexivity. Qed.
Example TestNameHasPrefix_3 : has_prefix [B "/"; B "a"; B "B"; B "c"; B "d"] [B "/"; B "a"; B "b"; B "c"] = inl false.
Proof. vm_compute. reflexivity. Qed.
