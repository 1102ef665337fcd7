(** The checks of /repo/test/common_test.hpp, evaluated. *)
From Coq Require Import List NArith Bool Strings.String Strings.Byte.
From Verif Require Import Lib.Res Lib.Bytes Lib.BytesFacts Lib.Text Common.Model.
Import ListNotations.
Local Open Scope N_scope.

(** A tab, a new line, a vertical tab, a carriage return *)
Definition ht : bytes := [x09].
Definition lf : bytes := [x0a].
Definition vt : bytes := [x0b].
Definition cr : bytes := [x0d].
(** Wide characters of ASCII text *)
Definition L (s : string) : list N := map b2n (B s).

(** common_test.hpp:8-35 *)
Lemma C121_checkMagic :
  let actual := [x01; x02; x03; x04; x05; x06; x07; x08] in
  checkMagic actual 8 [x01; x02; x03; x04] 4 0 = Ok true /\ checkMagic actual 8 [x01; x02; x03; xa4] 4 0 = Ok false /\
  checkMagic actual 8 [x02; x03; x04; x05] 4 1 = Ok true /\ checkMagic actual 8 [x06; x07] 2 7 = Ok false /\
  checkMagic actual 8 [x01; x02; x03; x04; x05; x06; x07; x08; x09] 9 0 = Ok false.
Proof. vm_compute. repeat split. Qed.
(** common_test.hpp:36-55, 56-68 *)
Lemma C121_times :
  FileTimeToString 0 = B "1601-01-01 00:00:00" /\ FileTimeToString 1 = B "1601-01-01 00:00:00" /\ FileTimeToString 132223284000000000 = B "2020-01-01 05:00:00" /\
  FileTimeToString (2 ^ 64 - 1) = B "60056-05-28 05:36:10" /\
  displayDuration 0 = B "00:00:00" /\ displayDuration 2592000000000 = B "72:00:00" /\ displayDuration 1657127941371 = B "46:01:52.794137".
Proof. vm_compute. repeat split. Qed.
(** common_test.hpp:69-95 *)
Lemma C121_iequals :
  iequals [] [] = true /\ iequals (B "abc") (B "ABC") = true /\ iequals (B "ABC") (B "abc") = true /\ iequals (B "abc") (B "ABCD") = false /\ iequals (B "ABCD") (B "abc") = false /\
  iequals (B "this is a test") (B "This Is A Test") = true /\ iequals (B "this is a test") (B "This Is not A Test") = false /\
  iequals_w (L "abc") (L "ABC") = true /\ iequals_w (L "ABC") (L "abc") = true /\ iequals_w (L "abc") (L "ABCD") = false /\ iequals_w (L "ABCD") (L "abc") = false.
Proof. vm_compute. repeat split. Qed.
(** common_test.hpp:126-192 *)
Definition testset1 : list bytes := [B "test"; B "test test"; B "test" ++ cr ++ lf ++ B "test"; B "test" ++ ht ++ B "test"; B "test" ++ vt ++ B "test"].
Definition testset2 : list bytes :=
  [B "test" ++ lf; B "test" ++ cr; B "test" ++ vt; B "test" ++ cr ++ lf; B "test "; B "test " ++ cr ++ lf ++ ht ++ vt ++ cr].
Definition testset3 : list bytes :=
  [B " test"; vt ++ B "test"; ht ++ B "test"; cr ++ B "test"; lf ++ B "test"; cr ++ lf ++ B "test"; cr ++ lf ++ ht ++ vt ++ B " test"].
Definition testset4 : list bytes := [B " test test "; ht ++ B " test test" ++ cr ++ lf].
Lemma C121_trim :
  Forall (fun i => ltrim ws_chars i = i /\ rtrim ws_chars i = i /\ trim ws_chars i = i) testset1 /\
  Forall (fun i => ltrim ws_chars i = i /\ rtrim ws_chars i = B "test" /\ trim ws_chars i = B "test") testset2 /\
  Forall (fun i => ltrim ws_chars i = B "test" /\ rtrim ws_chars i = i /\ trim ws_chars i = B "test") testset3 /\
  Forall (fun i => trim ws_chars i = B "test test") testset4.
Proof. unfold testset1, testset2, testset3, testset4. repeat split; repeat constructor; reflexivity. Qed.
(** common_test.hpp:193-226 *)
Lemma C121_strings :
  erasenulls [] = [] /\ erasenulls (B "test" ++ [x00; x00; x00; x00; x00; x00]) = B "test" /\
  erasenulls [x00; x00; x00; x74; x65; x00; x73; x00; x74; x00] = B "test" /\
  (s <- convert (L "test") ;; Ok (erasenulls s)) = Ok (B "test") /\
  convert [] = Ok [] /\ convert (L "test") = Ok (B "test") /\ convert (L "This is a simple test") = Ok (B "This is a simple test").
Proof. vm_compute. repeat split. Qed.
(** common_test.hpp:263-328, for every content *)
Lemma C121_files : forall content, lenN content < 2 ^ 32 -> getFileSize (Some content) = lenN content /\ readFile (Some content) (lenN content) = content.
Proof.
  intros content H. assert (E : u32 (lenN content) = lenN content) by (unfold u32; apply N.mod_small; exact H). unfold getFileSize, readFile. rewrite E, N.ltb_irrefl. split; [reflexivity|].
  rewrite <- (app_nil_r content) at 2. apply takeN_app_exact.
Qed.
(** common_test.hpp:329-355 *)
Lemma C121_bits :
  map (ExtractBits 0xAA 1) [1; 2; 3; 4; 5; 6; 7; 8; 9] = map Ok [0; 1; 0; 1; 0; 1; 0; 1; 0] /\
  map (ExtractBits 0xBA 2) [1; 2; 3; 4; 5; 6; 7; 8; 9] = map Ok [2; 1; 2; 3; 3; 1; 2; 1; 0].
Proof. vm_compute. repeat split. Qed.
Lemma C121_bit_zero : forall num count, ExtractBits num count 0 = UB.
Proof. reflexivity. Qed.
(** common_test.hpp:356-376 *)
Lemma C121_guids :
  let test1 := [x00; x00; x00; x00; x00; x00; x00; x00; x00; x00; x00; x00; x00; x00; x00; x00] in
  let test2 := [x00; x00; x00; x00; x00; x00; x00; x00; x00; x00; x00; x00; x00; x00; x00; x01] in
  let test3 := [x01; x23; x45; x67; x89; xab; xcd; xef; x01; x23; x45; x67; x89; xab; xcd; xef] in
  let test4 := test3 in
  VerifyGuids test3 test4 = Ok true /\ VerifyGuids test4 test3 = Ok true /\
  Forall (fun p => VerifyGuids (fst p) (snd p) = Ok false)
    [(test1, test2); (test1, test3); (test1, test4); (test2, test1); (test2, test3); (test2, test4); (test3, test1); (test3, test2); (test4, test1); (test4, test2)].
Proof. cbv zeta. split; [reflexivity|]. split; [reflexivity|]. repeat constructor; reflexivity. Qed.
(** common_test.hpp:377-412 *)
Lemma C121_escapes :
  JsonEscape (B "test") = B "test" /\ JsonEscape (ht ++ B "test" ++ cr ++ lf) = B "\ttest\r\n" /\ JsonEscape (B """test""") = B "\""test\""" /\
  JsonEscape (B "foo" ++ [xa2] ++ B "bar") = B "foo\u00A2bar" /\
  (let t1 := [B "one"; B "two"; B "three"; B "four" ++ ht ++ [xc2; xa2]] in
   vector_join t1 (B "|") false = B "one|two|three|four" ++ ht ++ [xc2; xa2] /\
   vector_join t1 (B ",") true = B """one"",""two"",""three"",""four" ++ ht ++ [xc2; xa2] ++ B """") /\
  (let t2 := map dec [1; 2; 3; 4] in vector_join t2 (B "|") false = B "1|2|3|4" /\ vector_join t2 (B ",") true = B """1"",""2"",""3"",""4""") /\
  vector_join [] (B "|") false = [] /\ vector_join [] (B ",") true = [].
Proof. vm_compute. repeat split. Qed.
