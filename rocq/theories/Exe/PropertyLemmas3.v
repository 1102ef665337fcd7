(** Lemmas about the characteristics of libraries. *)
From Coq Require Import List NArith ZArith Bool Lia Strings.String.
From Coq Require Import ZifyBool ZifyNat ZifyN.
From Verif Require Import Lib.Res Lib.Bytes Lib.BytesFacts Lib.Text Common.Model Common.Spec Common.Fields Common.ReadProofs Common.FieldProofs
     Exe.Tables Exe.Model Exe.Spec Exe.Proofs Exe.PropertyLemmas Exe.PropertyLemmas2 Exe.Published Exe.Published2.
Import ListNotations.
Local Open Scope N_scope.

Definition bits16 : list N := [0;1;2;3;4;5;6;7;8;9;10;11;12;13;14;15].
Lemma map_bits k w : In (2 ^ k, w) DllCharacteristicsMap -> In k bits16.
Proof.
  intros I. assert (2 ^ k < 2 ^ 16).
  { assert (F : forallb (fun r => fst r <? 2 ^ 16) DllCharacteristicsMap = true) by (vm_compute; reflexivity).
    rewrite forallb_forall in F. apply F in I. cbn in I. apply N.ltb_lt in I. exact I. }
  assert (k < 16) by (apply N.pow_lt_mono_r_iff with (a := 2); lia). unfold bits16. cbn [In]. lia.
Qed.
Lemma row_of k w : In (2 ^ k, w) DllCharacteristicsMap <-> In (k, w) dll_characteristics /\ ~ In k without_words.
Proof.
  split.
  - intros I. pose proof (map_bits k w I) as J.
    assert (F : forallb (fun j => forallb (fun r => negb (fst r =? 2 ^ j) || (has_row dll_characteristics (j, snd r) && negb (existsb (N.eqb j) without_words))) DllCharacteristicsMap) bits16 = true) by (vm_compute; reflexivity).
    rewrite forallb_forall in F. apply F in J. rewrite forallb_forall in J. apply J in I. cbn [fst snd] in I. rewrite N.eqb_refl in I. cbn [negb orb] in I.
    apply andb_true_iff in I. destruct I as (I & N). split; [apply has_row_in; exact I|]. intros K. apply negb_true_iff in N.
    assert (existsb (N.eqb k) without_words = true) by (apply existsb_exists; exists k; split; [exact K|apply N.eqb_refl]). congruence.
  - intros (I & N).
    assert (F : forallb (fun e => has_row DllCharacteristicsMap (2 ^ fst e, snd e) || existsb (N.eqb (fst e)) without_words) dll_characteristics = true) by (vm_compute; reflexivity).
    rewrite forallb_forall in F. apply F in I. cbn [fst snd] in I. apply orb_true_iff in I. destruct I as [I|I]; [apply has_row_in; exact I|].
    exfalso. apply N. apply existsb_exists in I. destruct I as (j & J & E). apply N.eqb_eq in E. subst j. exact J.
Qed.
Lemma words_differ k k' w : In (k, w) dll_characteristics -> In (k', w) dll_characteristics -> k = k'.
Proof.
  intros I J. assert (F : forallb (fun e => forallb (fun f => negb (bytes_eqb (snd e) (snd f)) || (fst e =? fst f)) dll_characteristics) dll_characteristics = true) by (vm_compute; reflexivity).
  rewrite forallb_forall in F. apply F in I. rewrite forallb_forall in I. apply I in J. cbn [fst snd] in J. rewrite bytes_eqb_refl in J. cbn [negb orb] in J. apply N.eqb_eq. exact J.
Qed.
Lemma C139_exact : forall p (content : bytes) pe stack, supported p -> lenN content < 2 ^ 32 ->
  number_at content 60 4 pe -> pe + 104 < lenN content -> pe + 104 < 2048 -> number_at content (pe + 96) 4 stack ->
  exists i, exec_detail p (Some content) = Ok i /\
    (forall k word, In (k, word) dll_characteristics -> ~ In k without_words -> (In word (x_DllCharacteristics i) <-> N.testbit stack k = true)) /\
    (forall word, In word (x_DllCharacteristics i) -> exists k, In (k, word) dll_characteristics /\ ~ In k without_words).
Proof.
  intros p content pe stack Hp Hc Hn Hl Hw Hs.
  destruct (C30_optional_lemma p content pe Hp Hc Hn Hl Hw) as (i & E & F).
  exists i. split; [exact E|].
  assert (X : forall off n, off + n <= 104 -> exists v, number_at content (pe + off) n v) by (intros off n H; apply number_at_ex; lia).
  destruct (X 76 4) as (x1 & H1); [lia|]. destruct (X 92 4) as (x2 & H2); [lia|].
  destruct (X 26 1) as (x3 & H3); [lia|]. destruct (X 27 1) as (x4 & H4); [lia|].
  destruct (X 64 2) as (x5 & H5); [lia|]. destruct (X 66 2) as (x6 & H6); [lia|].
  destruct (X 68 2) as (x7 & H7); [lia|]. destruct (X 70 2) as (x8 & H8); [lia|].
  destruct (X 72 2) as (x9 & H9); [lia|]. destruct (X 74 2) as (x10 & H10); [lia|].
  destruct (F x2 x1 stack x3 x4 x5 x6 x7 x8 x9 x10) as (_ & _ & (sel & S & ->) & _); [assumption..|].
  assert (D : forall w, In w (map snd sel) <-> exists k, In (2 ^ k, w) DllCharacteristicsMap /\ N.testbit stack k = true).
  { intros w. rewrite in_map_iff. split.
    - intros ([m w'] & <- & I). apply (picked_in _ _ _ S) in I. destruct I as (I & k & K & T).
      cbn in K. subst m. exists k. auto.
    - intros (k & I & T). exists (2 ^ k, w). split; [reflexivity|].
      apply (picked_in _ _ _ S). split; [exact I|]. exists k. auto. }
  split.
  - intros k w I N. rewrite D. split.
    + intros (k' & I' & T). apply row_of in I'. rewrite (words_differ k k' w I (proj1 I')). exact T.
    + intros T. exists k. split; [apply row_of; auto|exact T].
  - intros w I. apply D in I. destruct I as (k & I & _). exists k. apply row_of. exact I.
Qed.
Definition dll_image (dll stack : N) : bytes :=
  dos_stub 64 ++ coff_header pe_sig 332 8226 ++ to_le 2 267 ++ [x0e; x1d] ++ zeros 64 ++ to_le 2 2 ++ to_le 2 dll ++ to_le 4 stack ++ zeros 120.
Lemma C139_missing_refuted : exists content pe i, lenN content < 2 ^ 32 /\ number_at content 60 4 pe /\ window content pe 4 pe_sig /\
  number_at content (pe + 94) 2 (2 ^ 6 + 2 ^ 8) /\ pe + 104 < lenN content /\
  exec_detail linux64 (Some content) = Ok i /\ x_DllCharacteristics i = [].
Proof.
  exists (dll_image 320 1048576), 64. eexists. split; [vm_compute; reflexivity|].
  split; [apply number_at_slice; vm_compute; reflexivity|].
  split; [apply slice_window; vm_compute; reflexivity|].
  split; [apply number_at_slice; vm_compute; reflexivity|].
  split; [vm_compute; reflexivity|]. split; [vm_compute; reflexivity|]. vm_compute. reflexivity.
Qed.
Lemma C139_invented_refuted : exists content pe i, lenN content < 2 ^ 32 /\ number_at content 60 4 pe /\ window content pe 4 pe_sig /\
  number_at content (pe + 94) 2 0 /\ number_at content (pe + 96) 4 4096 /\ pe + 104 < lenN content /\
  exec_detail linux64 (Some content) = Ok i /\ x_DllCharacteristics i = [] /\
  exists content' i', number_at content' 60 4 pe /\ window content' pe 4 pe_sig /\ number_at content' (pe + 94) 2 0 /\ number_at content' (pe + 96) 4 12288 /\
    exec_detail linux64 (Some content') = Ok i' /\ x_DllCharacteristics i' = [B "WDM_DRIVER"].
Proof.
  exists (dll_image 0 4096), 64. eexists. split; [vm_compute; reflexivity|].
  split; [apply number_at_slice; vm_compute; reflexivity|].
  split; [apply slice_window; vm_compute; reflexivity|].
  split; [apply number_at_slice; vm_compute; reflexivity|].
  split; [apply number_at_slice; vm_compute; reflexivity|].
  split; [vm_compute; reflexivity|]. split; [vm_compute; reflexivity|]. split; [vm_compute; reflexivity|].
  exists (dll_image 0 12288). eexists.
  split; [apply number_at_slice; vm_compute; reflexivity|].
  split; [apply slice_window; vm_compute; reflexivity|].
  split; [apply number_at_slice; vm_compute; reflexivity|].
  split; [apply number_at_slice; vm_compute; reflexivity|].
  split; vm_compute; reflexivity.
Qed.
Lemma C139_ex : number_at (dll_image 320 1048576) 60 4 64 /\ 64 + 104 < lenN (dll_image 320 1048576) /\ number_at (dll_image 320 1048576) (64 + 96) 4 1048576 /\
  In (6, B "DYNAMIC_BASE") dll_characteristics /\ ~ In 6 without_words.
Proof.
  split; [apply number_at_slice; vm_compute; reflexivity|]. split; [vm_compute; reflexivity|]. split; [apply number_at_slice; vm_compute; reflexivity|].
  split; [right; left; reflexivity|]. unfold without_words. cbn [In]. lia.
Qed.
