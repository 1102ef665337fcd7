(** The checks of /repo/test/common_test.hpp.  Statements only; the names of the samples are in
    [Common/UnitTests.v]. *)
From Coq Require Import List NArith Bool Strings.String Strings.Byte.
From Verif Require Import Lib.Res Lib.Bytes Lib.Text Common.Model Common.UnitTests.
Import ListNotations.
Local Open Scope N_scope.

(** ** C121: the project's own unit tests *)
Theorem C121_tests_of_signatures : let actual := [x01; x02; x03; x04; x05; x06; x07; x08] in
  checkMagic actual 8 [x01; x02; x03; x04] 4 0 = Ok true /\ checkMagic actual 8 [x01; x02; x03; xa4] 4 0 = Ok false /\
  checkMagic actual 8 [x02; x03; x04; x05] 4 1 = Ok true /\ checkMagic actual 8 [x06; x07] 2 7 = Ok false /\
  checkMagic actual 8 [x01; x02; x03; x04; x05; x06; x07; x08; x09] 9 0 = Ok false.
Proof. exact C121_checkMagic. Qed.
Print Assumptions C121_tests_of_signatures.

Theorem C121_tests_of_times : FileTimeToString 0 = B "1601-01-01 00:00:00" /\ FileTimeToString 1 = B "1601-01-01 00:00:00" /\ FileTimeToString 132223284000000000 = B "2020-01-01 05:00:00" /\
  FileTimeToString (2 ^ 64 - 1) = B "60056-05-28 05:36:10" /\
  displayDuration 0 = B "00:00:00" /\ displayDuration 2592000000000 = B "72:00:00" /\ displayDuration 1657127941371 = B "46:01:52.794137".
Proof. exact C121_times. Qed.
Print Assumptions C121_tests_of_times.

Theorem C121_tests_of_comparison : iequals [] [] = true /\ iequals (B "abc") (B "ABC") = true /\ iequals (B "ABC") (B "abc") = true /\ iequals (B "abc") (B "ABCD") = false /\ iequals (B "ABCD") (B "abc") = false /\
  iequals (B "this is a test") (B "This Is A Test") = true /\ iequals (B "this is a test") (B "This Is not A Test") = false /\
  iequals_w (L "abc") (L "ABC") = true /\ iequals_w (L "ABC") (L "abc") = true /\ iequals_w (L "abc") (L "ABCD") = false /\ iequals_w (L "ABCD") (L "abc") = false.
Proof. exact C121_iequals. Qed.
Print Assumptions C121_tests_of_comparison.

Theorem C121_tests_of_trimming : Forall (fun i => ltrim ws_chars i = i /\ rtrim ws_chars i = i /\ trim ws_chars i = i) testset1 /\
  Forall (fun i => ltrim ws_chars i = i /\ rtrim ws_chars i = B "test" /\ trim ws_chars i = B "test") testset2 /\
  Forall (fun i => ltrim ws_chars i = B "test" /\ rtrim ws_chars i = i /\ trim ws_chars i = B "test") testset3 /\
  Forall (fun i => trim ws_chars i = B "test test") testset4.
Proof. exact C121_trim. Qed.
Print Assumptions C121_tests_of_trimming.

Theorem C121_tests_of_strings : erasenulls [] = [] /\ erasenulls (B "test" ++ [x00; x00; x00; x00; x00; x00]) = B "test" /\
  erasenulls [x00; x00; x00; x74; x65; x00; x73; x00; x74; x00] = B "test" /\
  (s <- convert (L "test") ;; Ok (erasenulls s)) = Ok (B "test") /\
  convert [] = Ok [] /\ convert (L "test") = Ok (B "test") /\ convert (L "This is a simple test") = Ok (B "This is a simple test").
Proof. exact C121_strings. Qed.
Print Assumptions C121_tests_of_strings.

Theorem C121_tests_of_files : forall content, lenN content < 2 ^ 32 -> getFileSize (Some content) = lenN content /\ readFile (Some content) (lenN content) = content.
Proof. exact C121_files. Qed.
Print Assumptions C121_tests_of_files.

Theorem C121_tests_of_bits : map (ExtractBits 0xAA 1) [1; 2; 3; 4; 5; 6; 7; 8; 9] = map Ok [0; 1; 0; 1; 0; 1; 0; 1; 0] /\
  map (ExtractBits 0xBA 2) [1; 2; 3; 4; 5; 6; 7; 8; 9] = map Ok [2; 1; 2; 3; 3; 1; 2; 1; 0].
Proof. exact C121_bits. Qed.
Print Assumptions C121_tests_of_bits.

Theorem C121_tests_of_bit_zero_refuted : forall num count, ExtractBits num count 0 = UB.
Proof. exact C121_bit_zero. Qed.
Print Assumptions C121_tests_of_bit_zero_refuted.

Theorem C121_tests_of_identifiers : let test1 := [x00; x00; x00; x00; x00; x00; x00; x00; x00; x00; x00; x00; x00; x00; x00; x00] in
  let test2 := [x00; x00; x00; x00; x00; x00; x00; x00; x00; x00; x00; x00; x00; x00; x00; x01] in
  let test3 := [x01; x23; x45; x67; x89; xab; xcd; xef; x01; x23; x45; x67; x89; xab; xcd; xef] in
  let test4 := test3 in
  VerifyGuids test3 test4 = Ok true /\ VerifyGuids test4 test3 = Ok true /\
  Forall (fun p => VerifyGuids (fst p) (snd p) = Ok false)
    [(test1, test2); (test1, test3); (test1, test4); (test2, test1); (test2, test3); (test2, test4); (test3, test1); (test3, test2); (test4, test1); (test4, test2)].
Proof. exact C121_guids. Qed.
Print Assumptions C121_tests_of_identifiers.

Theorem C121_tests_of_output : JsonEscape (B "test") = B "test" /\ JsonEscape (ht ++ B "test" ++ cr ++ lf) = B "\ttest\r\n" /\ JsonEscape (B """test""") = B "\""test\""" /\
  JsonEscape (B "foo" ++ [xa2] ++ B "bar") = B "foo\u00A2bar" /\
  (let t1 := [B "one"; B "two"; B "three"; B "four" ++ ht ++ [xc2; xa2]] in
   vector_join t1 (B "|") false = B "one|two|three|four" ++ ht ++ [xc2; xa2] /\
   vector_join t1 (B ",") true = B """one"",""two"",""three"",""four" ++ ht ++ [xc2; xa2] ++ B """") /\
  (let t2 := map dec [1; 2; 3; 4] in vector_join t2 (B "|") false = B "1|2|3|4" /\ vector_join t2 (B ",") true = B """1"",""2"",""3"",""4""") /\
  vector_join [] (B "|") false = [] /\ vector_join [] (B ",") true = [].
Proof. exact C121_escapes. Qed.
Print Assumptions C121_tests_of_output.
