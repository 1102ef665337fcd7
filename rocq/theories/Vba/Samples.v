(** VBA projects for the examples. *)
From Coq Require Import List NArith ZArith Bool Lia Strings.String.
From Coq Require Import ZifyBool ZifyNat ZifyN.
From Verif Require Import Lib.Res Lib.Bytes Lib.BytesFacts Lib.Text Common.Spec Common.Fields Ole.Model Ole.Spec Ole.Statements Ole.Samples Ole.PathSamples
     Vba.Model Vba.Spec Vba.Proofs Vba.ShapeProofs Vba.Analyze Vba.DirSpec Vba.FileSpec.
Import ListNotations.
Local Open Scope N_scope.

(** SysKind, LCID, LCIDInvoke, CodePage *)
Definition head38 : bytes :=
  to_le 2 1 ++ to_le 4 4 ++ to_le 4 1 ++ to_le 2 2 ++ to_le 4 4 ++ to_le 4 1033 ++
  to_le 2 20 ++ to_le 4 4 ++ to_le 4 1033 ++ to_le 2 3 ++ to_le 4 2 ++ to_le 2 1252.
Definition module1 : vba_module :=
  mkVba (B "M1") (Some (text (B "M1"))) (B "M1") (text (B "M1")) [] [] 3 0 65535 false false true.
Definition module2 : vba_module :=
  mkVba (B "M2") None (B "M2") (text (B "M2")) (B "d") (text (B "d")) 5 0 65535 true true false.
Definition project1 : vba_project :=
  mkVp head38 (B "P") [] [] [] [] 0 0 1500000000 7 [] [] [] 65535 [module1; module2].
Definition stdole : reference := mkRef (B "stdole") (text (B "stdole")) (B "*\G{00020430}#2.0#0#x#OLE").
Definition project2 : vba_project :=
  mkVp head38 (B "P") [] [] [] [] 0 0 1500000000 7 [] [] [stdole] 65535 [module1].
Definition project0 : vba_project :=
  mkVp head38 (B "P") [] [] [] [] 0 0 1500000000 7 [] [] [] 65535
    [mkVba (B "M") None (B "M") (text (B "M1")) [] [] 3 0 65535 false false true].

(** A compound file: storage Macros, in it storage VBA with the streams dir, M1, _VBA_PROJECT. *)
Definition code1 : bytes := B "Sub a()".
Definition dir_text : bytes := stored_as_literals (dir_stored project0).
Definition m1_text : bytes := [x61; x62; x63] ++ stored_as_literals code1.
Definition version_text : bytes := [xcc; x61; x97; x00; x00; xff; x00; x00].
Definition n_macros := text (B "Macros").
Definition dirv : list node :=
  [mkNode n_root 5 FREE FREE 1 3 512; mkNode n_macros 1 FREE FREE 2 0 0; mkNode (text (B "VBA")) 1 FREE FREE 3 0 0;
   mkNode (text (B "dir")) 2 4 5 FREE 0 (lenN dir_text); mkNode (text (B "M1")) 2 FREE FREE FREE 4 (lenN m1_text);
   mkNode (text (B "_VBA_PROJECT")) 2 FREE FREE FREE 5 8; unused; unused].
Definition minifatv : list N := [1; 2; 3; EOC; EOC; EOC].
Definition fatv : list N := [4294967293; 4; EOC; EOC; EOC].
Definition smallv : bytes := pad 256 dir_text ++ pad 64 m1_text ++ version_text.
Definition filev : bytes := build 2 fatv minifatv dirv smallv [].
Definition compv : compound := compound_of fatv minifatv dirv smallv.
Lemma filev_stored : stored_as filev compv.
Proof. apply (stored_ok_sound filev compv 2 1). vm_compute. reflexivity. Qed.
Lemma filev_clean : clean compv.
Proof. repeat constructor. Qed.
Lemma filev_stream names content k n l data : walk dirv 0 names = Some k -> nthN dirv k = Some n -> n_type n = 2 ->
  content_ok filev compv n l data content = true -> stream_at filev compv names content.
Proof.
  intros W Hn T C. exists k, n. split; [apply walk_sound; exact W|]. split; [exact Hn|]. split; [exact T|].
  apply (content_ok_sound _ _ _ l data). exact C.
Qed.
Lemma plainb n : n <> [] -> forallb (fun c => negb (c =? 47)) n = true -> plain_name n.
Proof. intros H F. split; [exact H|]. intros K. rewrite forallb_forall in F. apply F in K. cbn in K. discriminate. Qed.
Lemma filev_project : project_streams filev compv [n_macros] 151 project0 [code1].
Proof.
  split; [|split].
  - exists version_text. split; [|split].
    + eapply (filev_stream _ _ 5 _ [5] (pad 64 version_text)); [vm_compute; reflexivity|reflexivity|reflexivity|vm_compute; reflexivity].
    + vm_compute. discriminate.
    + apply num_ok. vm_compute. reflexivity.
  - exists dir_text. split; [|split].
    + eapply (filev_stream _ _ 3 _ [0; 1; 2; 3] (pad 256 dir_text)); [vm_compute; reflexivity|reflexivity|reflexivity|vm_compute; reflexivity].
    + apply literals_container.
    + vm_compute. discriminate.
  - constructor; [|constructor]. split; [apply plainb; [discriminate|reflexivity]|].
    exists [x61; x62; x63], (stored_as_literals code1). split; [|split; [|split]].
    + eapply (filev_stream _ _ 4 _ [4] (pad 64 m1_text)); [vm_compute; reflexivity|reflexivity|reflexivity|vm_compute; reflexivity].
    + reflexivity.
    + apply literals_container.
    + vm_compute. discriminate.
Qed.
Definition good_moduleb (m : vba_module) : bool :=
  forallb (fun u => u <? 65536) (vm_stream_wide m) && (vm_offset m <? 4294967296) && negb (lenN (vm_stream m) =? 0).
Definition good_projectb (p : vba_project) : bool :=
  (lenN (vp_head p) =? 38) && (vp_major p <? 4294967296) && (vp_minor p <? 65536) && forallb good_moduleb (vp_modules p).
Lemma good_projectb_sound p : good_projectb p = true -> good_project p.
Proof.
  unfold good_projectb. rewrite !andb_true_iff. intros [[[H1 H2] H3] H4]. change (2 ^ 32) with 4294967296.
  split; [lia|]. split; [change (2 ^ 32) with 4294967296; lia|]. split; [lia|].
  apply Forall_forall. intros m Hm. rewrite forallb_forall in H4. apply H4 in Hm. unfold good_moduleb in Hm. rewrite !andb_true_iff in Hm.
  destruct Hm as [[A1 A2] A3]. split; [|split; [change (2 ^ 32) with 4294967296; lia|intros K; rewrite K in A3; discriminate]].
  apply Forall_forall. intros u Hu. rewrite forallb_forall in A1. apply A1 in Hu. lia.
Qed.
Lemma good0 : good_project project0.
Proof. apply good_projectb_sound. vm_compute. reflexivity. Qed.
Lemma good1 : good_project project1.
Proof. apply good_projectb_sound. vm_compute. reflexivity. Qed.
Lemma good2 : good_project project2.
Proof. apply good_projectb_sound. vm_compute. reflexivity. Qed.
