(** Properties of the characteristics of libraries. Statements only; the vocabulary is in [Exe/Published2.v], [Exe/Spec.v] and [Common/Spec.v]. *)
From Coq Require Import List NArith Bool Strings.String.
From Verif Require Import Lib.Res Lib.Bytes Lib.Text Common.Spec Common.Fields Exe.Model Exe.Spec Exe.Published2 Exe.PropertyLemmas3.
Import ListNotations.
Local Open Scope N_scope.

(** ** C139: characteristics of libraries *)
Theorem C139_words_of_the_stack_size : forall p (content : bytes) pe stack, supported p -> lenN content < 2 ^ 32 ->
  number_at content 60 4 pe -> pe + 104 < lenN content -> pe + 104 < 2048 -> number_at content (pe + 96) 4 stack ->
  exists i, exec_detail p (Some content) = Ok i /\
    (forall k word, In (k, word) dll_characteristics -> ~ In k without_words -> (In word (x_DllCharacteristics i) <-> N.testbit stack k = true)) /\
    (forall word, In word (x_DllCharacteristics i) -> exists k, In (k, word) dll_characteristics /\ ~ In k without_words).
Proof. exact C139_exact. Qed.
Print Assumptions C139_words_of_the_stack_size.

Theorem C139_characteristics_refuted : exists content pe i, lenN content < 2 ^ 32 /\ number_at content 60 4 pe /\ window content pe 4 pe_sig /\
  number_at content (pe + 94) 2 (2 ^ 6 + 2 ^ 8) /\ pe + 104 < lenN content /\
  exec_detail linux64 (Some content) = Ok i /\ x_DllCharacteristics i = [].
Proof. exact C139_missing_refuted. Qed.
Print Assumptions C139_characteristics_refuted.

Theorem C139_other_words_refuted : exists content pe i, lenN content < 2 ^ 32 /\ number_at content 60 4 pe /\ window content pe 4 pe_sig /\
  number_at content (pe + 94) 2 0 /\ number_at content (pe + 96) 4 4096 /\ pe + 104 < lenN content /\
  exec_detail linux64 (Some content) = Ok i /\ x_DllCharacteristics i = [] /\
  exists content' i', number_at content' 60 4 pe /\ window content' pe 4 pe_sig /\ number_at content' (pe + 94) 2 0 /\ number_at content' (pe + 96) 4 12288 /\
    exec_detail linux64 (Some content') = Ok i' /\ x_DllCharacteristics i' = [B "WDM_DRIVER"].
Proof. exact C139_invented_refuted. Qed.
Print Assumptions C139_other_words_refuted.

Example C139_example : number_at (dll_image 320 1048576) 60 4 64 /\ 64 + 104 < lenN (dll_image 320 1048576) /\ number_at (dll_image 320 1048576) (64 + 96) 4 1048576 /\
  In (6, B "DYNAMIC_BASE") dll_characteristics /\ ~ In 6 without_words.
Proof. exact C139_ex. Qed.
