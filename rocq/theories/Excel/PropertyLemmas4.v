(** The statements of [Excel/Properties4.v]. *)
From Coq Require Import List NArith ZArith Bool Lia Strings.String Strings.Byte.
From Coq Require Import ZifyBool ZifyNat ZifyN.
From Verif Require Import Lib.Res Lib.Bytes Lib.BytesFacts Lib.Text Common.Model Common.Spec
     Excel.Model Excel.Records Excel.Engine Excel.Spec Excel.Statements Excel.EngineProofs Excel.Samples
     Magic.Spec Magic.DocProofs Magic.DocBase Magic.DocUnique Asf.DocProofs Vba.Statements Vba.OutputProofs Propset.DocProofs
     Excel.DocStatements Excel.FineProofs Excel.DocProofs Excel.DocXml.
Import ListNotations.
Local Open Scope N_scope.
Ltac Zify.zify_post_hook ::= Z.div_mod_to_equations.
Arguments N.pow : simpl never.

(** ** The documents are determined by what was read *)
Lemma Forall2_fun {A C} (R : A -> C -> Prop) l a b : (forall x y z, R x y -> R x z -> y = z) -> Forall2 R l a -> Forall2 R l b -> a = b.
Proof.
  intros K H. revert b. induction H as [|x y l a H1 F IH]; intros b G; inversion G; subst; [reflexivity|]. f_equal; [eapply K; eassumption|apply IH; assumption].
Qed.
Lemma denotes_fun v j k : denotes v j -> denotes v k -> j = k.
Proof. destruct v; cbn [denotes]; intros; try congruence; eapply json_value_fun; eassumption. Qed.
Lemma member_fun f m n : field_member f m -> field_member f n -> m = n.
Proof. destruct m, n. unfold field_member. cbn [fst snd]. intros [-> A] [-> C]. f_equal. eapply denotes_fun; eassumption. Qed.
Ltac stored_same := repeat match goal with
  | H : stored ?r ?o ?a, K : stored ?r ?o ?b |- _ => assert (a = b) by (unfold stored in *; congruence); subst b; clear K
  | H : ?t = Ok ?a, K : ?t = Ok ?b |- _ => assert (a = b) by congruence; subst b; clear K
  end.
Lemma record_members_fun p r a b : record_members p r a -> record_members p r b -> a = b.
Proof.
  unfold record_members. destruct (r_body r).
  all: try (intros (l1 & E1 & F1) (l2 & E2 & F2); assert (l1 = l2) by congruence; subst; eapply Forall2_fun; [exact member_fun|eassumption..]).
  all: try congruence.
  - intros (? & ? & ? & ? & ? & ? & ? & ? & ? & ? & ? & ? & ? & H) (? & ? & ? & ? & ? & ? & ? & ? & ? & ? & ? & ? & ? & K).
    repeat match goal with H : _ /\ _ |- _ => destruct H end. stored_same. congruence.
  - intros [].
Qed.
Lemma record_doc_fun p r a b : record_doc p r a -> record_doc p r b -> a = b.
Proof. intros (m & M & ->) (n & N & ->). rewrite (record_members_fun p r m n M N). reflexivity. Qed.
Lemma records_doc_fun p l a b : records_doc p l a -> records_doc p l b -> a = b.
Proof. intros (m & M & ->) (n & N & ->). rewrite (Forall2_fun _ l m n (record_doc_fun p) M N). reflexivity. Qed.
Lemma sheet_doc_fun p s a b : sheet_doc p s a -> sheet_doc p s b -> a = b.
Proof.
  intros (m & M & ->) (n & N & ->). destruct (snd s) as [|r l]; [congruence|]. destruct M as (u & U & ->), N as (v & V & ->).
  rewrite (records_doc_fun p _ u v U V). reflexivity.
Qed.
Lemma workbook_members_fun p x a b : workbook_members p x a -> workbook_members p x b -> a = b.
Proof.
  intros (g & js & G & J & ->) (h & ks & H & K & ->). rewrite (records_doc_fun p _ g h G H), (Forall2_fun _ _ js ks (sheet_doc_fun p) J K). reflexivity.
Qed.
Lemma excel_doc_fun p x a b : excel_doc p x a -> excel_doc p x b -> a = b.
Proof. intros (m & M & ->) (n & N & ->). rewrite (workbook_members_fun p x m n M N). reflexivity. Qed.
Lemma content_fun t a b : xml_content t a -> xml_content t b -> a = b.
Proof.
  intros A C. assert (K : forall l, xml_content t l -> xml_document (xelem (B "a") t) (XElem (B "a") l)).
  { intros l L. apply elem_one; [apply letters_name; reflexivity|exact L]. }
  pose proof (xml_document_fun _ _ _ (K a A) (K b C)). congruence.
Qed.
Lemma contents_fun v j k : contents v j -> contents v k -> j = k.
Proof. destruct v; cbn [contents]; intros; try congruence; eapply content_fun; eassumption. Qed.
Lemma element_fun f m n : field_element f m -> field_element f n -> m = n.
Proof. intros (a & A & ->) (b & C & ->). rewrite (contents_fun _ a b A C). reflexivity. Qed.
Lemma record_elements_fun p r a b : record_elements p r a -> record_elements p r b -> a = b.
Proof.
  unfold record_elements. destruct (r_body r).
  all: try (intros (l1 & E1 & F1) (l2 & E2 & F2); assert (l1 = l2) by congruence; subst; eapply Forall2_fun; [exact element_fun|eassumption..]).
  all: try congruence.
  - intros (? & ? & ? & ? & ? & ? & ? & ? & ? & ? & ? & ? & ? & H) (? & ? & ? & ? & ? & ? & ? & ? & ? & ? & ? & ? & ? & K).
    repeat match goal with H : _ /\ _ |- _ => destruct H end. stored_same. congruence.
  - intros [].
Qed.
Lemma record_element_fun p r a b : record_element p r a -> record_element p r b -> a = b.
Proof. intros (m & M & ->) (n & N & ->). rewrite (record_elements_fun p r m n M N). reflexivity. Qed.
Lemma records_element_fun p l a b : records_element p l a -> records_element p l b -> a = b.
Proof. intros (m & M & ->) (n & N & ->). rewrite (Forall2_fun _ l m n (record_element_fun p) M N). reflexivity. Qed.
Lemma sheet_element_fun p s a b : sheet_element p s a -> sheet_element p s b -> a = b.
Proof.
  intros (m & M & ->) (n & N & ->). destruct (snd s) as [|r l]; [congruence|]. destruct M as (u & U & ->), N as (v & V & ->).
  rewrite (records_element_fun p _ u v U V). reflexivity.
Qed.
Lemma workbook_elements_fun p x a b : workbook_elements p x a -> workbook_elements p x b -> a = b.
Proof.
  intros (g & js & G & J & ->) (h & ks & H & K & ->). rewrite (records_element_fun p _ g h G H), (Forall2_fun _ _ js ks (sheet_element_fun p) J K). reflexivity.
Qed.
Lemma excel_element_fun p x a b : excel_element p x a -> excel_element p x b -> a = b.
Proof. intros (m & M & ->) (n & N & ->). rewrite (workbook_elements_fun p x m n M N). reflexivity. Qed.

(** ** C102 *)
Lemma C102_json : forall p what (S : bytes) x t, lenN S < 2 ^ 30 -> Detailer p what S = Ok x -> excel_json p x = Ok t ->
  Forall json_literal (raw_of x) -> exists j, excel_doc p x j /\ forall k, json_value t k <-> k = j.
Proof.
  intros p what S x t HS HD E R. destruct (excel_json_ok p what S x t HS HD R E) as (j & D & J). exists j. split; [exact D|].
  intros k. split; [intros K; eapply json_value_fun; eassumption|intros ->; exact J].
Qed.
Lemma C102_unique : forall p x j k, excel_doc p x j -> excel_doc p x k -> j = k.
Proof. exact excel_doc_fun. Qed.
Lemma sst_body p before d r ss l : built p before 0x600 0xFC d r -> r_body r = SST ss l ->
  exists total unique, l = [fld "cstTotal" (Int total); fld "cstUnique" (Int unique)] ++
    match ss with
    | [] => []
    | _ => [fld "strings" (Raw (B "[" ++ join (B ",") (map (fun s => q ++ JsonEscape s ++ q) ss) ++ B "]")
                               (List.concat (map (fun s => B "<string>" ++ XmlEscape s ++ B "</string>") ss)))]
    end.
Proof.
  unfold built, ParseRecord. intros H E. destruct (record_body _ _ _ _ _) as [b|[]| |] eqn:K; try discriminate H. injection H as <-. cbn [r_body] in E. subst b.
  change (record_body p before 0x600 0xFC d) with (SSTRecord p d) in K. unfold SSTRecord in K. opened K. injection K as <- <-. do 2 eexists. reflexivity.
Qed.
Lemma C102_strings : forall p before d r ss l j, built p before 0x600 0xFC d r -> r_body r = SST ss l -> record_doc p r j ->
  exists total unique, shows p r "cstTotal" (Int total) /\ shows p r "cstUnique" (Int unique) /\
  j = JObj ([jfield (B "Type") (GetRecordTypeStr (r_type r)); jmem "Length" (JNum (lenN (r_data r)));
             jmem "cstTotal" (jint total); jmem "cstUnique" (jint unique)] ++
            match ss with [] => [] | _ => [jmem "strings" (JArr (map (fun s => JStr (map b2n (until_nul s))) ss))] end).
Proof.
  intros p before d r ss l j H E D. destruct (sst_body p before d r ss l H E) as (total & unique & ->). exists total, unique.
  assert (Hf : fields p r = Ok ([fld "cstTotal" (Int total); fld "cstUnique" (Int unique)] ++
    match ss with
    | [] => []
    | _ => [fld "strings" (Raw (B "[" ++ join (B ",") (map (fun s => q ++ JsonEscape s ++ q) ss) ++ B "]")
                               (List.concat (map (fun s => B "<string>" ++ XmlEscape s ++ B "</string>") ss)))]
    end)) by (unfold fields; rewrite E; reflexivity).
  split; [eexists; split; [exact Hf|left; reflexivity]|]. split; [eexists; split; [exact Hf|right; left; reflexivity]|].
  eapply record_doc_fun; [exact D|]. eexists. split; [|reflexivity].
  unfold record_members. rewrite E. eexists. split; [exact Hf|]. constructor; [split; reflexivity|]. constructor; [split; reflexivity|].
  destruct ss as [|s ss]; [constructor|]. constructor; [split; [reflexivity|]|constructor]. cbn [snd fld denotes jmem].
  apply (strings_json_value (s :: ss)). discriminate.
Qed.
(** A user name with a quotation mark, a path with a quotation mark, and a name that ends the text *)
Definition user_book (name : string) : bytes := one_book 0x5C (text_of name).
Definition sup_book (path : string) : bytes := one_book 0x1AE (to_le 2 0 ++ text_of path).
Definition reads (p : platform) (what : exn -> bytes) (S : bytes) (x : excel_info) : Prop :=
  lenN S < 2 ^ 30 /\ Detailer p what S = Ok x.
Lemma C102_user : forall p what, exists S x t, reads p what S x /\ S = user_book "Ann ""A"" Lee" /\ excel_json p x = Ok t /\ forall j, ~ json_value t j.
Proof.
  intros p what. exists (user_book "Ann ""A"" Lee"). do 2 eexists. split; [split; [vm_compute; reflexivity|vm_compute; reflexivity]|].
  split; [reflexivity|]. split; [vm_compute; reflexivity|]. apply json_reject. vm_compute. reflexivity.
Qed.
Lemma C102_path : forall p what, exists S x t, reads p what S x /\ S = sup_book "C:\books\a.xls" /\ excel_json p x = Ok t /\ forall j, ~ json_value t j.
Proof.
  intros p what. exists (sup_book "C:\books\a.xls"). do 2 eexists. split; [split; [vm_compute; reflexivity|vm_compute; reflexivity]|].
  split; [reflexivity|]. split; [vm_compute; reflexivity|]. apply json_reject. vm_compute. reflexivity.
Qed.
Definition is_ok {A} (r : res A) : bool := match r with Ok _ => true | _ => false end.
Lemma C102_ex : reads linux64 said_text book book_info /\ Forall json_literal (raw_of book_info) /\ In (B "me") (raw_of book_info) /\
  is_ok (excel_json linux64 book_info) = true /\ List.length (x_sheets book_info) = 2%nat.
Proof.
  split; [split; [vm_compute; reflexivity|vm_compute; reflexivity]|].
  assert (E : raw_of book_info = [[]; B "me"]) by (vm_compute; reflexivity). rewrite E. split.
  - constructor; [constructor|]. constructor; [|constructor]. repeat (constructor; [split; [split; vm_compute; congruence|split; discriminate]|]). constructor.
  - split; [right; left; reflexivity|]. split; vm_compute; reflexivity.
Qed.

(** ** C103 *)
Lemma C103_xml : forall p what (S : bytes) x t, lenN S < 2 ^ 30 -> Detailer p what S = Ok x -> excel_xml p x = Ok t ->
  Forall xml_literal (raw_of x) -> exists e, excel_element p x e /\ forall k, xml_document t k <-> k = e.
Proof.
  intros p what S x t HS HD E R. destruct (excel_xml_ok p what S x t HS HD R E) as (j & D & J). exists j. split; [exact D|].
  intros k. split; [intros K; eapply xml_document_fun; eassumption|intros ->; exact J].
Qed.
Lemma C103_unique : forall p x j k, excel_element p x j -> excel_element p x k -> j = k.
Proof. exact excel_element_fun. Qed.
Lemma C103_strings : forall p before d r ss l e, built p before 0x600 0xFC d r -> r_body r = SST ss l -> record_element p r e ->
  exists total unique, shows p r "cstTotal" (Int total) /\ shows p r "cstUnique" (Int unique) /\
  e = xel "Record" ([xfield (B "Type") (GetRecordTypeStr (r_type r)); xnum "Length" (lenN (r_data r));
             xfield (B "cstTotal") (dec_z total); xfield (B "cstUnique") (dec_z unique)] ++
            match ss with [] => [] | _ => [xel "strings" (map (xescaped (B "string")) ss)] end).
Proof.
  intros p before d r ss l j H E D. destruct (sst_body p before d r ss l H E) as (total & unique & ->). exists total, unique.
  assert (Hf : fields p r = Ok ([fld "cstTotal" (Int total); fld "cstUnique" (Int unique)] ++
    match ss with
    | [] => []
    | _ => [fld "strings" (Raw (B "[" ++ join (B ",") (map (fun s => q ++ JsonEscape s ++ q) ss) ++ B "]")
                               (List.concat (map (fun s => B "<string>" ++ XmlEscape s ++ B "</string>") ss)))]
    end)) by (unfold fields; rewrite E; reflexivity).
  split; [eexists; split; [exact Hf|left; reflexivity]|]. split; [eexists; split; [exact Hf|right; left; reflexivity]|].
  eapply record_element_fun; [exact D|]. eexists. split; [|reflexivity].
  unfold record_elements. rewrite E. eexists. split; [exact Hf|].
  constructor; [eexists; split; reflexivity|]. constructor; [eexists; split; reflexivity|].
  destruct ss as [|s ss]; [constructor|]. constructor; [|constructor]. eexists. split; [|reflexivity]. cbn [snd fld contents].
  apply (string_elements (s :: ss)).
Qed.
Lemma C103_user : forall p what, exists S x t, reads p what S x /\ S = user_book "Smith & Co" /\ excel_xml p x = Ok t /\ forall e, ~ xml_document t e.
Proof.
  intros p what. exists (user_book "Smith & Co"). do 2 eexists. split; [split; [vm_compute; reflexivity|vm_compute; reflexivity]|].
  split; [reflexivity|]. split; [vm_compute; reflexivity|]. apply xml_reject. vm_compute. reflexivity.
Qed.
Lemma C103_cdata : forall p before, exists r, built p before 0x600 0x207 (text_of "a&b") r /\
  forall e, record_element p r e -> e = xel "Record" [xfield (B "Type") (B "String"); xnum "Length" 6; xel "String" [XCData (B "a&#38;b")]].
Proof.
  intros p before. eexists. split; [vm_compute; reflexivity|]. intros e D. eapply record_element_fun; [exact D|].
  eexists. split; [|reflexivity]. eexists. split; [reflexivity|]. constructor; [|constructor]. eexists. split; [|reflexivity].
  cbn [snd contents]. apply (xc_cdata (B "a&#38;b") [] []); [|constructor]. apply (XmlEscape_no_close (B "a&b")).
Qed.
Lemma C103_ex : reads linux64 said_text book book_info /\ Forall xml_literal (raw_of book_info) /\ In (B "me") (raw_of book_info) /\
  is_ok (excel_xml linux64 book_info) = true.
Proof.
  split; [split; [vm_compute; reflexivity|vm_compute; reflexivity]|].
  assert (E : raw_of book_info = [[]; B "me"]) by (vm_compute; reflexivity). rewrite E. split.
  - constructor; [constructor|]. constructor; [|constructor]. repeat (constructor; [split; [split; vm_compute; congruence|intros [?|[?|?]]; discriminate]|]). constructor.
  - split; [right; left; reflexivity|]. vm_compute; reflexivity.
Qed.
