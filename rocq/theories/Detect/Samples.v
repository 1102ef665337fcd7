(** Compound files for the examples, with a checker for their trees. *)
From Coq Require Import List NArith ZArith Bool Lia Sorted Strings.String.
From Coq Require Import ZifyBool ZifyNat ZifyN.
From Verif Require Import Lib.Res Lib.Bytes Lib.BytesFacts Lib.Text Common.Model Common.Spec Ole.Model Ole.Spec Ole.Statements Ole.Samples Ole.PathSamples
     Vba.FileSpec Vba.Samples Propset.Samples Docs.PropertyLemmas Detect.Spec.
Import ListNotations.
Local Open Scope N_scope.

(** ** Reading the tree of a directory *)
Fixpoint chain_of (fuel : nat) (t : list N) (b : N) : option (list N) :=
  match fuel with
  | O => None
  | S k =>
      match nthN t b with
      | None => Some []
      | Some c => match chain_of k t c with Some l => Some (b :: l) | None => None end
      end
  end.
Definition sectors_of (f : bytes) (c : compound) (n : node) (l : list N) : res (list bytes) :=
  if 4096 <=? n_size n then mapM (fun b => slice f (2 ^ c_shift c * (b + 1)) (2 ^ c_shift c)) l
  else mapM (fun b => slice (c_mini c) (2 ^ c_small_shift c * b) (2 ^ c_small_shift c)) l.
Definition content_of (f : bytes) (c : compound) (n : node) : option bytes :=
  match chain_of 20 (if 4096 <=? n_size n then c_fat c else c_minifat c) (n_start n) with
  | Some l =>
      match sectors_of f c n l with
      | Ok ws => let data := List.concat ws in if content_ok f c n l data (takeN (n_size n) data) then Some (takeN (n_size n) data) else None
      | _ => None
      end
  | None => None
  end.
Lemma content_of_sound f c n b : content_of f c n = Some b -> stream_content f c n b.
Proof.
  unfold content_of. destruct (chain_of _ _ _) as [l|]; [|discriminate]. destruct (sectors_of f c n l) as [ws| | |]; try discriminate. cbv zeta.
  destruct (content_ok _ _ _ _ _ _) eqn:E; [|discriminate]. intros H. injection H as <-. eapply content_ok_sound. exact E.
Qed.
Definition plain_b (x : list N) : bool := negb (lenN x =? 0) && forallb (fun c => negb (c =? 47)) x.
Lemma plain_b_sound x : plain_b x = true -> plain_name x.
Proof. unfold plain_b. intros H. apply andb_true_iff in H. destruct H as [H1 H2]. apply plainb; [intros ->; discriminate H1|exact H2]. Qed.
Fixpoint tree (fuel : nat) (f : bytes) (c : compound) (k : N) : option (list item) :=
  match fuel with
  | O => None
  | S fuel =>
      match nthN (c_dir c) k with
      | Some n =>
          if (n_type n =? 1) || (n_type n =? 5) then
            match members_of (c_dir c) k with
            | Some l =>
                (fix go (l : list N) : option (list item) :=
                   match l with
                   | [] => Some []
                   | j :: r =>
                       match nthN (c_dir c) j, go r with
                       | Some m, Some items =>
                           if plain_b (n_name m) then
                             if n_type m =? 2 then match content_of f c m with Some b => Some (IStream (n_name m) b :: items) | None => None end
                             else if n_type m =? 1 then match tree fuel f c j with Some sub => Some (IStorage (n_name m) sub :: items) | None => None end
                             else None
                           else None
                       | _, _ => None
                       end
                   end) l
            | None => None
            end
          else None
      | None => None
      end
  end.
Lemma tree_sound f c fuel : forall k items, tree fuel f c k = Some items -> holds f c k items.
Proof.
  induction fuel as [|fuel IH]; intros k items H; cbn [tree] in H; [discriminate H|].
  destruct (nthN (c_dir c) k) as [n|] eqn:En; [|discriminate H]. destruct (_ || _) eqn:Et; [|discriminate H].
  destruct (members_of (c_dir c) k) as [l|] eqn:El; [|discriminate H].
  apply (holds_storage f c k n l items En); [lia|apply members_of_sound; exact El|]. clear El.
  revert items H. induction l as [|j r IHl]; intros items H; [injection H as <-; constructor|].
  destruct (nthN (c_dir c) j) as [m|] eqn:Ej; [|discriminate H]. destruct ((fix go (l : list N) : option (list item) := _) r) as [its|]; [|discriminate H].
  destruct (plain_b (n_name m)) eqn:Ep; [|discriminate H]. apply plain_b_sound in Ep. destruct (N.eqb_spec (n_type m) 2) as [T2|T2].
  - destruct (content_of f c m) as [b|] eqn:Eb; [|discriminate H]. injection H as <-. apply lists_stream; [exact Ej|exact T2|exact Ep|apply content_of_sound; exact Eb|].
    apply IHl. reflexivity.
  - destruct (N.eqb_spec (n_type m) 1) as [T1|T1]; [|discriminate H]. destruct (tree fuel f c j) as [sub|] eqn:Es; [|discriminate H]. injection H as <-.
    apply lists_storage; [exact Ej|exact T1|exact Ep|apply IH; exact Es|]. apply IHl. reflexivity.
Qed.

(** ** A document *)
Definition fat_d : list N := [4294967293; 4; EOC; EOC; EOC].
Definition word_part : bytes := takeN 160 word6.
Definition dir_doc : list node :=
  [mkNode n_root 5 FREE FREE 1 3 512; mkNode (a "WordDocument") 2 2 3 FREE 0 160; mkNode (a "ObjectPool") 1 FREE FREE 4 0 0;
   mkNode ([5] ++ a "SummaryInformation") 2 FREE FREE FREE 3 72; mkNode (a "Notes") 2 FREE FREE FREE 5 30; unused; unused; unused].
Definition mini_doc : list N := [1; 2; EOC; 4; EOC; EOC].
Definition small_doc : bytes := pad 192 word_part ++ pad 128 count_bytes ++ pad 64 (repeatN x41 30).
Definition file_doc : bytes := build 2 fat_d mini_doc dir_doc small_doc [].
Definition comp_doc : compound := compound_of fat_d mini_doc dir_doc small_doc.
Definition items_doc : list item :=
  [IStorage (a "ObjectPool") [IStream (a "Notes") (repeatN x41 30)]; IStream (a "WordDocument") word_part;
   IStream ([5] ++ a "SummaryInformation") count_bytes].
Lemma doc_stored : stored_as file_doc comp_doc.
Proof. apply (stored_ok_sound file_doc comp_doc 2 1). vm_compute. reflexivity. Qed.
Lemma doc_clean : clean comp_doc.
Proof. repeat constructor. Qed.
Lemma doc_holds : holds file_doc comp_doc 0 items_doc.
Proof. apply (tree_sound _ _ 3). vm_compute. reflexivity. Qed.

(** A workbook whose name begins with another letter, and storages with macros. *)
Definition one_stream (name : list N) : list node :=
  [mkNode n_root 5 FREE FREE 1 3 512; mkNode name 2 FREE FREE FREE 0 64; unused; unused; unused; unused; unused; unused].
Definition file_one (name : list N) : bytes := build 2 fat_d [EOC] (one_stream name) (counting 64) [].
Definition comp_one (name : list N) : compound := compound_of fat_d [EOC] (one_stream name) (counting 64).
Definition n_orkbook : list N := [343] ++ a "orkbook".
Lemma orkbook_stored : stored_as (file_one n_orkbook) (comp_one n_orkbook).
Proof. apply (stored_ok_sound _ _ 2 1). vm_compute. reflexivity. Qed.
Lemma orkbook_clean : clean (comp_one n_orkbook).
Proof. repeat constructor. Qed.
Lemma orkbook_holds : holds (file_one n_orkbook) (comp_one n_orkbook) 0 [IStream n_orkbook (counting 64)].
Proof. apply (tree_sound _ _ 3). vm_compute. reflexivity. Qed.
Lemma drm_stored : stored_as (file_one (a "DRMContent")) (comp_one (a "DRMContent")).
Proof. apply (stored_ok_sound _ _ 2 1). vm_compute. reflexivity. Qed.
Lemma drm_clean : clean (comp_one (a "DRMContent")).
Proof. repeat constructor. Qed.
Lemma drm_holds : holds (file_one (a "DRMContent")) (comp_one (a "DRMContent")) 0 [IStream (a "DRMContent") (counting 64)].
Proof. apply (tree_sound _ _ 3). vm_compute. reflexivity. Qed.

(** The layout of vbaProject.bin: the storage VBA is in the root. *)
Definition dir_bin : list node :=
  [mkNode n_root 5 FREE FREE 1 3 512; mkNode (text (B "VBA")) 1 FREE FREE 2 0 0;
   mkNode (text (B "dir")) 2 3 4 FREE 0 (lenN dir_text); mkNode (text (B "M1")) 2 FREE FREE FREE 4 (lenN m1_text);
   mkNode (text (B "_VBA_PROJECT")) 2 FREE FREE FREE 5 8; unused; unused; unused].
Definition file_bin : bytes := build 2 fatv minifatv dir_bin smallv [].
Definition comp_bin : compound := compound_of fatv minifatv dir_bin smallv.
Definition items_bin : list item :=
  [IStorage (a "VBA") [IStream (a "M1") m1_text; IStream (a "dir") dir_text; IStream (a "_VBA_PROJECT") version_text]].
Lemma bin_stored : stored_as file_bin comp_bin.
Proof. apply (stored_ok_sound _ _ 2 1). vm_compute. reflexivity. Qed.
Lemma bin_clean : clean comp_bin.
Proof. repeat constructor. Qed.
Lemma bin_holds : holds file_bin comp_bin 0 items_bin.
Proof. apply (tree_sound _ _ 3). vm_compute. reflexivity. Qed.
Definition items_v : list item := [IStorage (a "Macros") items_bin].
Lemma v_holds : holds filev compv 0 items_v.
Proof. apply (tree_sound _ _ 4). vm_compute. reflexivity. Qed.

(** A storage that is its own only member. *)
Definition dir_loop : list node :=
  [mkNode n_root 5 FREE FREE 1 3 512; mkNode (a "A") 1 FREE FREE 1 0 0; unused; unused; unused; unused; unused; unused].
Definition file_loop : bytes := build 2 fat_d [EOC] dir_loop (counting 64) [].
Definition comp_loop : compound := compound_of fat_d [EOC] dir_loop (counting 64).
Lemma loop_stored : stored_as file_loop comp_loop.
Proof. apply (stored_ok_sound _ _ 2 1). vm_compute. reflexivity. Qed.
Lemma loop_clean : clean comp_loop.
Proof. repeat constructor. Qed.
