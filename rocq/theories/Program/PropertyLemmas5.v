(** Lemmas for C127: the program ends. *)
From Coq Require Import List NArith ZArith Lia Bool Strings.String ZifyBool ZifyNat ZifyN.
From Verif Require Import Lib.Res Lib.Bytes Lib.BytesFacts Lib.Text Common.Model Common.Spec Magic.Table Magic.Model Magic.Spec Ole.Model Ole.Spec Ole.Statements
     Ole.Samples Ole.PathSamples Ole.ChainProofs Asf.Spec Asf.Statements Zip.Model Detect.Model Detect.Spec Detect.Statements Detect.Samples Detect.TreeSpec Program.Model.
From Verif Require Asf.PropertyLemmas Excel.Spec Excel.Samples Excel.PropertyLemmas3 Detect.PropertyLemmas.
From Verif Require Import Program.Statements Program.Samples Program.EndStatements Program.EndProofs.
Import ListNotations.
Local Open Scope N_scope.

Lemma C127_end : forall pl msg archive content fs file more, supported pl -> lenN content < 2 ^ 32 -> fs file = Some content ->
  (starts content (B "PK") -> archive (Some content) <> Fuel) ->
  (starts content asf_magic -> forall i, ~ occurs_at extension_guid content i) ->
  (starts content [xd0; xcf; x11; xe0] -> readable_compound pl content) ->
  program pl msg archive fs (file :: more) <> Fuel.
Proof. intros pl msg archive content fs file more P L E H1 H2 H3. exact (program_nofuel pl msg archive content P L H1 H2 H3 fs file more E). Qed.

Lemma C127_most : forall pl msg archive content fs file more, supported pl -> lenN content < 2 ^ 32 -> fs file = Some content ->
  ~ starts content (B "PK") -> ~ starts content asf_magic -> ~ starts content [xd0; xcf; x11; xe0] ->
  program pl msg archive fs (file :: more) <> Fuel.
Proof. intros pl msg archive content fs file more P L E H1 H2 H3. apply (C127_end pl msg archive content); tauto. Qed.
(** ** Files that are read on and on *)
Lemma chains_ok c : table_size (c_fat c) -> table_size (c_minifat c) ->
  forallb (fun n => is_ok (follow (if 4096 <=? n_size n then c_fat c else c_minifat c) (n_start n))) (c_dir c) = true -> chains_end c.
Proof.
  intros T1 T2 H. apply Forall_forall. intros n I E. rewrite forallb_forall in H. specialize (H n I).
  apply follow_endless in E; [|destruct (4096 <=? n_size n); assumption]. rewrite E in H. discriminate H.
Qed.
Lemma tree_ok d height : forallb (fun k => match nthN d k with
     | Some n => negb ((n_type n =? 1) || (n_type n =? 2) || (n_type n =? 5)) || match members_of d k with Some l => forallb (fun j => height j <? height k) l | None => false end
     | None => true end) (map N.of_nat (seq 0 (List.length d))) = true -> finite_tree d.
Proof.
  intros H. exists height. intros k n Hk U. rewrite forallb_forall in H. specialize (H k). rewrite Hk in H.
  assert (I : In k (map N.of_nat (seq 0 (List.length d)))).
  { apply in_map_iff. exists (N.to_nat k). split; [lia|]. apply in_seq. apply nthN_bound in Hk. unfold lenN in Hk. lia. }
  specialize (H I). assert (V : (n_type n =? 1) || (n_type n =? 2) || (n_type n =? 5) = true) by (destruct U as [U|[U|U]]; rewrite U; reflexivity).
  rewrite V in H. cbn [negb orb] in H. destruct (members_of d k) as [l|] eqn:M; [|discriminate H]. exists l. split; [apply members_of_sound in M; exact (proj1 M)|].
  rewrite forallb_forall in H. apply Forall_forall. intros j J. specialize (H j J). lia.
Qed.
(** The chain of the workbook comes back to its first sector *)
Definition mini_cycle : list N := [1; 2; 3; 0; EOC].
Definition file_cycle : bytes := build 2 fat_d mini_cycle dir_book small_book [].
Definition comp_cycle : compound := compound_of fat_d mini_cycle dir_book small_book.
Lemma cycle_stored : stored_as file_cycle comp_cycle.
Proof. apply (stored_ok_sound _ _ 2 1). vm_compute. reflexivity. Qed.
(** A formula that makes its reader go back *)
Definition back_book : bytes := Excel.Samples.one_book 0x06 Excel.PropertyLemmas3.choose_formula.
Definition dir_back : list node :=
  [mkNode n_root 5 FREE FREE 1 3 512; mkNode (a "Workbook") 2 2 FREE FREE 0 (lenN back_book); mkNode (a "Notes") 2 FREE FREE FREE 4 64;
   unused; unused; unused; unused; unused].
Definition small_back : bytes := pad 256 back_book ++ repeatN x41 64.
Definition file_back : bytes := build 2 fat_d mini_book dir_back small_back [].
Definition comp_back : compound := compound_of fat_d mini_book dir_back small_back.
Lemma back_stored : stored_as file_back comp_back.
Proof. apply (stored_ok_sound _ _ 2 1). vm_compute. reflexivity. Qed.
Definition asf_stuck : bytes := asf_file 1 x01 x02 [(extension_guid, Asf.PropertyLemmas.stuck_extension)] [].
Lemma any_format content : results windows no_text no_archive (Some content) = Fuel ->
  forall more, program windows no_text no_archive (one_file content) (B "f" :: more) = Fuel.
Proof. intros E more. unfold program. change (one_file content (B "f")) with (Some content). rewrite E. reflexivity. Qed.
Ltac tree h := apply (tree_ok _ h); vm_compute; reflexivity.
Definition flat (k : N) : N := match k with 0 => 1 | _ => 0 end.
Lemma size_ok (t : list N) : lenN t <= 4294967292 -> table_size t.
Proof. intros H. exact H. Qed.

Lemma Forall2_length {A B} (R : A -> B -> Prop) l m : Forall2 R l m -> List.length l = List.length m.
Proof. induction 1; cbn; congruence. Qed.
Lemma starts_taken (content w : bytes) : takeN (lenN w) content = w -> starts content w.
Proof. intros H. unfold starts, occurs_at. exists [], (dropN (lenN w) content). split; [|reflexivity]. rewrite <- (takeN_dropN (lenN w) content) at 1. rewrite H. reflexivity. Qed.
Lemma C127_asf : exists content, starts content asf_magic /\ lenN content < 1000 /\
  forall more, program windows no_text no_archive (one_file content) (B "f" :: more) = Fuel.
Proof. exists asf_stuck. split; [apply starts_taken; vm_compute; reflexivity|]. split; [vm_compute; reflexivity|]. apply any_format. vm_compute. reflexivity. Qed.
Lemma C127_tree : exists f c, stored_as f c /\ clean c /\ chains_end c /\ (forall n, In n (c_dir c) -> ~ book_name (n_name n)) /\
  forall more, program windows no_text no_archive (one_file f) (B "f" :: more) = Fuel.
Proof.
  exists file_loop, comp_loop. split; [exact loop_stored|]. split; [exact loop_clean|].
  split; [apply chains_ok; [vm_compute; discriminate|vm_compute; discriminate|vm_compute; reflexivity]|].
  split; [|apply any_format; vm_compute; reflexivity].
  intros n I [H|H]; apply Forall2_length in H;
    (assert (L : forallb (fun n => negb (List.length (n_name n) =? 8)%nat && negb (List.length (n_name n) =? 4)%nat) (c_dir comp_loop) = true) by (vm_compute; reflexivity));
    rewrite forallb_forall in L; specialize (L n I); rewrite H in L; discriminate L.
Qed.
Lemma C127_chain : exists f c, stored_as f c /\ clean c /\ finite_tree (c_dir c) /\
  forall more, program windows no_text no_archive (one_file f) (B "f" :: more) = Fuel.
Proof.
  exists file_cycle, comp_cycle. split; [exact cycle_stored|]. split; [repeat constructor|].
  split; [tree flat|]. apply any_format. vm_compute. reflexivity.
Qed.
Lemma C127_book : exists f c, stored_as f c /\ clean c /\ finite_tree (c_dir c) /\ chains_end c /\
  forall more, program windows no_text no_archive (one_file f) (B "f" :: more) = Fuel.
Proof.
  exists file_back, comp_back. split; [exact back_stored|]. split; [repeat constructor|].
  split; [tree flat|]. split; [apply chains_ok; [vm_compute; discriminate|vm_compute; discriminate|vm_compute; reflexivity]|].
  apply any_format. vm_compute. reflexivity.
Qed.

(** ** A workbook that is read to the end *)
Lemma book_names n : In n (c_dir comp_book) -> book_name (n_name n) -> nthN (c_dir comp_book) 1 = Some n.
Proof.
  intros I H. assert (L : List.length (n_name n) = 8%nat \/ List.length (n_name n) = 4%nat) by (destruct H as [H|H]; apply Forall2_length in H; [left|right]; exact H). clear H.
  repeat destruct I as [I|I]; try contradiction; subst n; (reflexivity || (exfalso; vm_compute in L; destruct L as [L|L]; discriminate L)).
Qed.
Lemma C127_ex : readable_compound windows file_book /\ lenN file_book < 2 ^ 32 /\ starts file_book [xd0; xcf; x11; xe0].
Proof.
  split; [|split; [vm_compute; reflexivity|apply starts_taken; vm_compute; reflexivity]].
  exists comp_book. split; [exact book_stored|]. split; [tree flat|]. intros _. split; [exact book_clean|].
  split; [apply chains_ok; [vm_compute; discriminate|vm_compute; discriminate|vm_compute; reflexivity]|].
  intros n I _ H. apply book_names in H; [|exact I]. vm_compute in H. injection H as <-. exists Excel.Samples.book. split.
  - apply (content_ok_sound _ _ _ [0; 1; 2; 3] (pad 256 Excel.Samples.book)). vm_compute. reflexivity.
  - split; [vm_compute; reflexivity|]. exact (proj1 Excel.PropertyLemmas3.C101_ex).
Qed.
