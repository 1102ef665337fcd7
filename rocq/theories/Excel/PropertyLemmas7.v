(** Lemmas about code pages. *)
From Coq Require Import List NArith ZArith Bool Lia Strings.String Strings.Byte.
From Verif Require Import Lib.Res Lib.Bytes Lib.Text Common.Model Excel.Tables Excel.Model Excel.Records Excel.Engine Excel.Statements Excel.DocStatements Excel.FieldSpec Excel.FieldStatements
     Excel.FieldProofs Excel.PassProofs Excel.LinkProofs Excel.RecordProofs Excel.PropertyLemmas5 Excel.PageSpec.
Import ListNotations.
Local Open Scope N_scope.

Lemma page_fields p before d r l : built p before 0x600 0x42 d r -> fields p r = Ok l ->
  l = [fld "CodePage" (Num (bit_field d 0 16)); fld "CodePageStr" (Esc (CPToString (bit_field d 0 16)))].
Proof.
  intros H E. destruct (built_body p before _ d r H) as (b & Hb & ->). change (CodePageRecord d = Ok b) in Hb.
  unfold CodePageRecord in Hb. steps Hb. injection Hb as <-. apply us_val in E0; [|reflexivity]. change (8 * 0) with 0 in E0. subst x.
  cbn [fields r_body] in E. injection E as <-. reflexivity.
Qed.
Lemma pages_distinct : NoDup (map fst code_pages).
Proof. apply distinct_nodup. vm_compute. reflexivity. Qed.
Lemma pages_found : forallb (fun e => (fst e =? gb18030) || found code_pages (fst e) (B (snd e))) page_identifiers = true.
Proof. vm_compute. reflexivity. Qed.
Lemma found_pages : forallb (fun e => existsb (fun f => fst f =? fst e) page_identifiers) code_pages = true.
Proof. vm_compute. reflexivity. Qed.
Lemma C141_listed : forall p before d r l s, built p before 0x600 0x42 d r -> fields p r = Ok l -> In (bit_field d 0 16, s) page_identifiers -> bit_field d 0 16 <> gb18030 ->
  l = [fld "CodePage" (Num (bit_field d 0 16)); fld "CodePageStr" (Esc (B s))].
Proof.
  intros p before d r l s H E I N. rewrite (page_fields p before d r l H E). enough (Q : CPToString (bit_field d 0 16) = B s) by (rewrite Q; reflexivity). unfold CPToString.
  apply named_in; [exact pages_distinct|]. apply found_in. pose proof pages_found as F. rewrite forallb_forall in F. apply F in I. cbn [fst snd] in I.
  apply N.eqb_neq in N. rewrite N in I. exact I.
Qed.
Lemma C141_unlisted : forall p before d r l, built p before 0x600 0x42 d r -> fields p r = Ok l -> (forall s, ~ In (bit_field d 0 16, s) page_identifiers) ->
  l = [fld "CodePage" (Num (bit_field d 0 16)); fld "CodePageStr" (Esc (B "Unknown"))].
Proof.
  intros p before d r l H E N. rewrite (page_fields p before d r l H E). enough (Q : CPToString (bit_field d 0 16) = B "Unknown") by (rewrite Q; reflexivity). unfold CPToString.
  apply named_out. intros I. apply in_map_iff in I. destruct I as ((k & t) & K & I). cbn [fst] in K. subst k.
  pose proof found_pages as F. rewrite forallb_forall in F. apply F in I. cbn [fst] in I. apply existsb_exists in I. destruct I as ((k & s) & J & K). cbn [fst] in K. apply N.eqb_eq in K. subst k.
  exact (N s J).
Qed.
Lemma C141_chinese : forall p before d r l, built p before 0x600 0x42 d r -> fields p r = Ok l -> bit_field d 0 16 = gb18030 ->
  l = [fld "CodePage" (Num gb18030); fld "CodePageStr" (Esc (B "Windows XP and later:?GB18030 Simplified Chinese (4 byte); Chinese Simplified (GB18030)"))].
Proof. intros p before d r l H E N. rewrite (page_fields p before d r l H E), N. vm_compute. reflexivity. Qed.
Lemma C141_workbook : forall p before d r l, built p before 0x600 0x42 d r -> fields p r = Ok l -> In (bit_field d 0 16) workbook_pages ->
  l = [fld "CodePage" (Num (bit_field d 0 16)); fld "CodePageStr" (Esc (B "Unknown"))].
Proof. intros p before d r l H E I. rewrite (page_fields p before d r l H E). destruct I as [K|[K|[]]]; rewrite <- K; vm_compute; reflexivity. Qed.
Lemma C141_refuted : exists p d r l s, built p [] 0x600 0x42 d r /\ fields p r = Ok l /\ In (bit_field d 0 16, s) page_identifiers /\ ~ In (fld "CodePageStr" (Esc (B s))) l.
Proof.
  exists linux64, (to_le 2 54936). eexists. eexists. exists "Windows XP and later: GB18030 Simplified Chinese (4 byte); Chinese Simplified (GB18030)"%string.
  split; [vm_compute; reflexivity|]. split; [vm_compute; reflexivity|]. split.
  - replace (bit_field (to_le 2 54936) 0 16) with 54936 by (vm_compute; reflexivity).
    assert (F : existsb (fun e => (fst e =? 54936) && String.eqb (snd e) "Windows XP and later: GB18030 Simplified Chinese (4 byte); Chinese Simplified (GB18030)"%string) page_identifiers = true) by (vm_compute; reflexivity).
    apply existsb_exists in F. destruct F as ((k & t) & I & K). cbn [fst snd] in K. apply andb_prop in K. destruct K as [K1 K2]. apply N.eqb_eq in K1. apply String.eqb_eq in K2. subst. exact I.
  - vm_compute. intros [K|[K|[]]]; discriminate K.
Qed.
Lemma C141_ex : In (437, "OEM United States"%string) page_identifiers /\ (forall s, ~ In (438, s) page_identifiers) /\ lenN page_identifiers = 152 /\
  exists r, built linux64 [] 0x600 0x42 (to_le 2 437) r /\ fields linux64 r = Ok [fld "CodePage" (Num 437); fld "CodePageStr" (Esc (B "OEM United States"))].
Proof.
  split; [right; left; reflexivity|]. split; [|split; [reflexivity|]].
  - intros s I. assert (F : forallb (fun e => negb (fst e =? 438)) page_identifiers = true) by (vm_compute; reflexivity). rewrite forallb_forall in F. apply F in I. discriminate I.
  - eexists. split; [vm_compute; reflexivity|]. vm_compute. reflexivity.
Qed.
