(** What the documents for a workbook say, used in the statements. *)
From Coq Require Import List NArith ZArith Bool Strings.String.
From Verif Require Import Lib.Res Lib.Bytes Lib.Text Common.Model Excel.Model Excel.Records Excel.Engine
     Magic.Spec Magic.DocBase Vba.Statements.
Import ListNotations.
Local Open Scope N_scope.

(** ** Texts that are written as they are *)
Definition texts (l : list field) : list bytes :=
  flat_map (fun f => match snd f with Str s => [s] | _ => [] end) l.
(** The user name, the code names, the names of function groups, the paths and sheet names of
    other workbooks and the names of their functions *)
Definition raw_texts (r : rec) : list bytes :=
  match r_body r with
  | ExternName (Some s) => [s]
  | SupBook _ rgst l => rgst ++ texts l
  | Fields l => if (r_type r =? 0x5C) || (r_type r =? 0x9A) || (r_type r =? 0x1BA) then texts l else []
  | _ => []
  end.
Definition raw_of (x : excel_info) : list bytes := x_error x :: flat_map raw_texts (map fst (x_list x)).

(** ** JSON *)
Definition jmem (n : string) (j : jval) : list N * jval := (map b2n (B n), j).
Definition jint (z : Z) : jval := if (z <? 0)%Z then JReal z 0 else JNum (Z.to_N z).
(** The value of a field; [Raw] and [Bare] are texts that denote a value. *)
Definition denotes (v : value) (j : jval) : Prop :=
  match v with
  | Num n => j = JNum n
  | Int z => j = jint z
  | Str s => j = JStr (map b2n s)
  | Esc s => j = JStr (map b2n (until_nul s))
  | Raw t _ | Bare t => json_value t j
  end.
Definition field_member (f : field) (m : list N * jval) : Prop :=
  fst m = map b2n (fst (fst f)) /\ denotes (snd f) (snd m).
Definition locale (c : N) : jval := JObj [jmem "Code" (JNum c); jfield (B "Name") (GetCountryName c)].
Definition flag_members (f : N) : list (list N * jval) :=
  [jmem "Reserved1" (JNum (bits f 0 1)); jmem "Reserved2" (JNum (bits f 1 1)); jmem "fCryptoAPI" (JNum (bits f 2 1));
   jmem "fDocProps" (JNum (bits f 3 1)); jmem "fExternal" (JNum (bits f 4 1)); jmem "fAES" (JNum (bits f 5 1));
   jmem "Unused" (JNum (bits f 6 26))].
Definition rc4_members (major minor : N) : list (list N * jval) :=
  [jfield (B "EncryptionType") (B "RC4"); jmem "RC4Version" (JObj [jmem "Major" (JNum major); jmem "Minor" (JNum minor)])].
(** The numbers of the header of an encrypted workbook: the field at [off] is the number [n]. *)
Definition stored (r : rec) (off n : N) : Prop := load (r_data r) off 4 = Ok n.
(** The members of a record after its type and length *)
Definition record_members (p : platform) (r : rec) (ms : list (list N * jval)) : Prop :=
  match r_body r with
  | Country a b => ms = [jmem "WorkbookLocale" (locale a); jmem "OSLocale" (locale b)]
  | FilePassXor k v => ms = [jfield (B "EncryptionType") (B "XOR"); jmem "XorKey" (JNum k); jmem "XorVerification" (JNum v)]
  | FilePassRC4 major minor s v h =>
      ms = rc4_members major minor ++
           [jfield (B "Salt") (bin2hex11 s); jfield (B "EncryptedVerifier") (bin2hex11 v);
            jfield (B "EncryptedVerifierHash") (bin2hex11 h)]
  | FilePassCrypto major minor csp voff h =>
      exists f f2 size alg hash ks prov r1 name vsize salt ver vhash,
        stored r 6 f /\ stored r 14 f2 /\ stored r 18 size /\ stored r 22 alg /\ stored r 26 hash /\ stored r 30 ks /\
        stored r 34 prov /\ stored r 38 r1 /\ convert csp = Ok name /\ stored r voff vsize /\
        slice (r_data r) (voff + 4) 16 = Ok salt /\ slice (r_data r) (voff + 20) 16 = Ok ver /\ stored r (voff + 36) vhash /\
        ms = rc4_members major minor ++
             [jmem "Flags" (JObj (flag_members f));
              jmem "EncryptionHeader" (JObj (jmem "Flags" (JObj (flag_members f2)) ::
                [jmem "SizeExtra" (JNum size); jmem "AlgID" (JNum alg); jmem "AlgIDHash" (JNum hash); jmem "KeySize" (JNum ks);
                 jmem "ProviderType" (JNum prov); jmem "Reserved1" (JNum r1); jmem "Reserved2" (JNum r1)]));
              jtext (B "CSPName") (erasenulls name);
              jmem "EncryptionVerifierHeader" (JObj [jmem "SaltSize" (JNum vsize); jfield (B "Salt") (bin2hex11 salt);
                jfield (B "EncryptedVerifier") (bin2hex11 ver); jmem "VerifierHashSize" (JNum vhash)]);
              jfield (B "EncryptedVerifierHash") (bin2hex11 h)]
  | FilePassUnset => False
  | FilePassOther t => ms = [jmem "EncryptionType" (JNum t)]
  | _ => exists l, fields p r = Ok l /\ Forall2 field_member l ms
  end.
Definition record_doc (p : platform) (r : rec) (j : jval) : Prop :=
  exists ms, record_members p r ms /\
    j = JObj (jfield (B "Type") (GetRecordTypeStr (r_type r)) :: jmem "Length" (JNum (lenN (r_data r))) :: ms).
Definition records_doc (p : platform) (l : list rec) (m : list N * jval) : Prop :=
  exists js, Forall2 (record_doc p) l js /\ m = jmem "Records" (JArr js).
(** A sheet with its records *)
Definition sheet_doc (p : platform) (s : sheet * list rec) (j : jval) : Prop :=
  exists ms, match snd s with [] => ms = [] | l => exists m, records_doc p l m /\ ms = [m] end /\
    j = JObj ([jtext (B "Name") (sh_name (fst s)); jfield (B "Type") (GetSheetTypeStr (sh_type (fst s)));
               jfield (B "Visiblity") (GetVisibilityStr (sh_visibility (fst s))); jmem "Offset" (JNum (sh_offset (fst s)))] ++ ms).
(** The sheets, in order, with the records that lie in them *)
Definition sheets_of (x : excel_info) : list (sheet * list rec) :=
  map (fun e => (snd e, records_of x (Some (fst e)))) (numbered 0 (x_sheets x)).
(** What is said of a workbook after the description of the file *)
Definition workbook_members (p : platform) (x : excel_info) (ms : list (list N * jval)) : Prop :=
  exists g js, records_doc p (records_of x None) g /\ Forall2 (sheet_doc p) (sheets_of x) js /\
    ms = [jmem "globals" (JObj [g])] ++
         match js with [] => [] | _ => [jmem "sheets" (JArr js)] end ++
         match x_error x with [] => [] | s => [jfield (B "ERROR") s] end.
Definition excel_doc (p : platform) (x : excel_info) (j : jval) : Prop :=
  exists ms, workbook_members p x ms /\ j = JObj (item_members (x_ext x) ++ ms).

(** ** XML *)
Definition xel (n : string) (l : list xnode) : xnode := XElem (B n) l.
(** The contents of the element of a field *)
Definition contents (v : value) (l : list xnode) : Prop :=
  match v with
  | Num n => l = xtext (dec n)
  | Int z => l = xtext (dec_z z)
  | Str s | Bare s => l = xtext s
  | Esc s => l = optional s (XText (map exchanged (map b2n s)))
  | Raw _ t => xml_content t l
  end.
Definition field_element (f : field) (e : xnode) : Prop :=
  exists l, contents (snd f) l /\ e = XElem (snd (fst f)) l.
Definition xnum (n : string) (k : N) : xnode := xfield (B n) (dec k).
Definition locale_nodes (c : N) : list xnode := [xnum "Code" c; xfield (B "Name") (GetCountryName c)].
Definition flag_nodes (f : N) : list xnode :=
  [xnum "Reserved1" (bits f 0 1); xnum "Reserved2" (bits f 1 1); xnum "fCryptoAPI" (bits f 2 1); xnum "fDocProps" (bits f 3 1);
   xnum "fExternal" (bits f 4 1); xnum "fAES" (bits f 5 1); xnum "Unused" (bits f 6 26)].
Definition rc4_nodes (major minor : N) : list xnode :=
  [xfield (B "EncryptionType") (B "RC4"); xel "RC4Version" [xnum "Major" major; xnum "Minor" minor]].
Definition record_elements (p : platform) (r : rec) (es : list xnode) : Prop :=
  match r_body r with
  | Country a b => es = [xel "WorkbookLocale" (locale_nodes a); xel "OSLocale" (locale_nodes b)]
  | FilePassXor k v => es = [xfield (B "EncryptionType") (B "XOR"); xnum "XorKey" k; xnum "XorVerification" v]
  | FilePassRC4 major minor s v h =>
      es = rc4_nodes major minor ++
           [xfield (B "Salt") (bin2hex11 s); xfield (B "EncryptedVerifier") (bin2hex11 v);
            xfield (B "EncryptedVerifierHash") (bin2hex11 h)]
  | FilePassCrypto major minor csp voff h =>
      exists f f2 size alg hash ks prov r1 name vsize salt ver vhash,
        stored r 6 f /\ stored r 14 f2 /\ stored r 18 size /\ stored r 22 alg /\ stored r 26 hash /\ stored r 30 ks /\
        stored r 34 prov /\ stored r 38 r1 /\ convert csp = Ok name /\ stored r voff vsize /\
        slice (r_data r) (voff + 4) 16 = Ok salt /\ slice (r_data r) (voff + 20) 16 = Ok ver /\ stored r (voff + 36) vhash /\
        es = rc4_nodes major minor ++
             [xel "Flags" (flag_nodes f);
              xel "EncryptionHeader" (xel "Flags" (flag_nodes f2) ::
                [xnum "SizeExtra" size; xnum "AlgID" alg; xnum "AlgIDHash" hash; xnum "KeySize" ks; xnum "ProviderType" prov;
                 xnum "Reserved1" r1; xnum "Reserved2" r1]);
              xescaped (B "CSPName") (erasenulls name);
              xel "EncryptionVerifierHeader" [xnum "SaltSize" vsize; xfield (B "Salt") (bin2hex11 salt);
                xfield (B "EncryptedVerifier") (bin2hex11 ver); xnum "VerifierHashSize" vhash];
              xfield (B "EncryptedVerifierHash") (bin2hex11 h)]
  | FilePassUnset => False
  | FilePassOther t => es = [xnum "EncryptionType" t]
  | _ => exists l, fields p r = Ok l /\ Forall2 field_element l es
  end.
Definition record_element (p : platform) (r : rec) (e : xnode) : Prop :=
  exists es, record_elements p r es /\
    e = xel "Record" (xfield (B "Type") (GetRecordTypeStr (r_type r)) :: xnum "Length" (lenN (r_data r)) :: es).
Definition records_element (p : platform) (l : list rec) (e : xnode) : Prop :=
  exists es, Forall2 (record_element p) l es /\ e = xel "Records" es.
Definition sheet_element (p : platform) (s : sheet * list rec) (e : xnode) : Prop :=
  exists es, match snd s with [] => es = [] | l => exists m, records_element p l m /\ es = [m] end /\
    e = xel "Sheet" ([xescaped (B "Name") (sh_name (fst s)); xfield (B "Type") (GetSheetTypeStr (sh_type (fst s)));
                      xfield (B "Visiblity") (GetVisibilityStr (sh_visibility (fst s))); xnum "Offset" (sh_offset (fst s))] ++ es).
Definition workbook_elements (p : platform) (x : excel_info) (l : list xnode) : Prop :=
  exists g es, records_element p (records_of x None) g /\ Forall2 (sheet_element p) (sheets_of x) es /\
    l = [xel "globals" [g]] ++
        match es with [] => [] | _ => [xel "sheets" es] end ++
        match x_error x with [] => [] | s => [xfield (B "ERROR") s] end.
Definition excel_element (p : platform) (x : excel_info) (e : xnode) : Prop :=
  exists l, workbook_elements p x l /\ e = xel "item" (base_elements (x_ext x) ++ l).
