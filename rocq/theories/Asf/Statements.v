(** Vocabulary that mentions the result objects of the ASF model. *)
From Coq Require Import List NArith Bool Strings.String.
From Verif Require Import Lib.Res Lib.Bytes Lib.Text Common.Model Common.Utf8 Magic.Spec Magic.Model Magic.DocProofs
     Magic.DocBase Asf.Tables Asf.Model Asf.Spec.
Import ListNotations.
Local Open Scope N_scope.

(** What the program reports for a file that carries the ASF signature: the parser is given
    the file and its first 64 KiB. *)
Definition asf_answer (p : platform) (content : bytes) : res (list Result) :=
  asf_Detailer p (Some content) (takeN 65536 content).

(** The header object of a file, its stated number of objects and its size in bytes. *)
Definition header_size (objs : list (bytes * bytes)) : N := 30 + lenN (stored_all objs).

(** How an object that is not looked into is reported: the name of its GUID, its data. *)
Definition reported (o : bytes * bytes) : asf_object := AUnknown (ASFTypeFromGuid (fst o)) (snd o).

(** ** Codec lists *)

(** The characters of a name that are shown: all but the zero ones. *)
Definition shown (u : list N) : list N := filter (fun c => negb (c =? 0)) u.
Definition begins (text : bytes) (c : codec) : Prop := exists t, shown (k_name c) = map b2n text ++ t.

(** The entry reported for a codec; a text without surrogates is shown in UTF-8. *)
Definition entry_shows (c : codec) (e : codec_entry) : Prop :=
  c_type e = k_type c /\ c_info e = k_info c /\
  (Forall scalar (k_name c) -> utf8 (c_name e) (shown (k_name c))) /\
  (Forall scalar (k_desc c) -> utf8 (c_desc e) (shown (k_desc c))).

(** The kind of file announced for a list of codecs. *)
Definition one_audio (l : list codec) : Prop := exists c, l = [c] /\ begins (B "Windows Media Audio") c.
Definition some_video (l : list codec) : Prop :=
  (forall c, l <> [c]) /\ Exists (begins (B "Windows Media Video")) l.
Definition kind_of (l : list codec) (e : ExtensionInfo) : Prop :=
  (one_audio l /\ e = wma_base) \/ (some_video l /\ e = wmv_base) \/
  (~ one_audio l /\ ~ some_video l /\ e = asf_base).

(** ** Documents *)

(** Objects whose texts are plain ASCII and whose lists are not empty. *)
Definition codec_plain (c : codec_entry) : bool := plain (c_name c) && plain (c_desc c).
Fixpoint obj_plain (o : asf_object) : bool :=
  match o with
  | AUnknown t _ => plain t
  | AHeader _ _ _ _ => true
  | AFile _ _ _ _ _ _ _ _ _ _ _ _ => true
  | AStream _ st ec _ _ _ _ _ _ _ => plain st && plain ec
  | AExt _ ct _ _ _ ch => plain ct && forallb obj_plain ch
  | AContent _ t a c d r => plain t && plain a && plain c && plain d && plain r
  | AExtContent _ _ l => negb (match l with [] => true | _ => false end) &&
                         forallb (fun d => plain (fst d) && plain (snd d)) l
  | ACodecs _ id _ l => plain id && negb (match l with [] => true | _ => false end) && forallb codec_plain l
  end.

Definition jnumber (key : bytes) (n : N) : list N * jval := (map b2n key, JNum n).
Definition codec_jval (c : codec_entry) : jval :=
  JObj [jfield (B "type") (CodecTypeStr (c_type c)); jfield (B "name") (c_name c);
        jfield (B "description") (c_desc c); jfield (B "info") (bin2hex11 (c_info c))].
(** The value each object stands for. *)
Fixpoint obj_jval (o : asf_object) : jval :=
  JObj (jfield (B "Type") (obj_type o) ::
  match o with
  | AUnknown _ d => [jfield (B "Data") (bin2hex11 d)]
  | AHeader _ n r1 r2 => [jnumber (B "Number") n; jnumber (B "Alignment") r1; jnumber (B "Architecture") r2]
  | AFile _ id fs cr dp pl se pre fl mi ma br =>
      [jfield (B "file_id") (bin2hex11 id); jnumber (B "file_size") fs; jnumber (B "creation") cr;
       jnumber (B "dp_count") dp; jnumber (B "play_duration") pl; jnumber (B "send_duration") se;
       jnumber (B "preroll") pre; jnumber (B "flags") fl; jnumber (B "min_dp_size") mi;
       jnumber (B "max_dp_size") ma; jnumber (B "max_bitrate") br]
  | AStream _ st ec t tl el fl re td ed =>
      [jfield (B "stream_type") st; jfield (B "error_correction_type") ec; jnumber (B "time_offset") t;
       jnumber (B "type_specific_data_length") tl; jnumber (B "error_correction_data_length") el;
       jnumber (B "flags") fl; jnumber (B "reserved") re;
       jfield (B "type_specific_data") (bin2hex11 td); jfield (B "error_correction_data") (bin2hex11 ed)]
  | AExt _ ct cs sz ed ch =>
      [jfield (B "clock_type") ct; jfield (B "clock_size") (dec cs);
       jfield (B "header_extension_data_size") (dec sz);
       match ch with
       | [] => jfield (B "header_extension_data") (bin2hex11 ed)
       | _ => (map b2n (B "children"), JArr (map obj_jval ch))
       end]
  | AContent _ t a c d r =>
      [jfield (B "title") t; jfield (B "author") a; jfield (B "copyright") c; jfield (B "description") d;
       jfield (B "rating") r]
  | AExtContent _ n l =>
      [jnumber (B "content_descriptors_count") n;
       (map b2n (B "attributes"),
        JObj (map (fun d => jfield (trim ws_chars (fst d)) (trim ws_chars (snd d))) l))]
  | ACodecs _ id n l =>
      [jfield (B "codec_id") id; jfield (B "codec_entries_count") (dec n);
       (map b2n (B "codecs"), JArr (map codec_jval l))]
  end).

Definition xnumber (key : bytes) (n : N) : xnode := xfield key (dec n).
Definition codec_xnode (c : codec_entry) : xnode :=
  XElem (B "codec") [xfield (B "type") (CodecTypeStr (c_type c)); xfield (B "name") (c_name c);
                     xfield (B "description") (c_desc c); xfield (B "info") (bin2hex11 (c_info c))].
Fixpoint obj_xnode (o : asf_object) : xnode :=
  XElem (B "ASFObject") (xfield (B "Type") (obj_type o) ::
  match o with
  | AUnknown _ d => [xfield (B "Data") (bin2hex11 d)]
  | AHeader _ n r1 r2 => [xnumber (B "Number") n; xnumber (B "Alignment") r1; xnumber (B "Architecture") r2]
  | AFile _ id fs cr dp pl se pre fl mi ma br =>
      [xfield (B "file_id") (bin2hex11 id); xnumber (B "file_size") fs; xnumber (B "creation") cr;
       xnumber (B "dp_count") dp; xnumber (B "play_duration") pl; xnumber (B "send_duration") se;
       xnumber (B "preroll") pre; xnumber (B "flags") fl; xnumber (B "min_dp_size") mi;
       xnumber (B "max_dp_size") ma; xnumber (B "max_bitrate") br]
  | AStream _ st ec t tl el fl re td ed =>
      [xfield (B "stream_type") st; xfield (B "error_correction_type") ec; xnumber (B "time_offset") t;
       xnumber (B "type_specific_data_length") tl; xnumber (B "error_correction_data_length") el;
       xnumber (B "flags") fl; xnumber (B "reserved") re;
       xfield (B "type_specific_data") (bin2hex11 td); xfield (B "error_correction_data") (bin2hex11 ed)]
  | AExt _ ct cs sz ed ch =>
      [xfield (B "clock_type") ct; xnumber (B "clock_size") cs;
       xnumber (B "header_extension_data_size") sz;
       match ch with
       | [] => xfield (B "header_extension_data") (bin2hex11 ed)
       | _ => XElem (B "children") (map obj_xnode ch)
       end]
  | AContent _ t a c d r =>
      [xfield (B "title") t; xfield (B "author") a; xfield (B "copyright") c; xfield (B "description") d;
       xfield (B "rating") r]
  | AExtContent _ n l =>
      [xnumber (B "content_descriptors_count") n;
       XElem (B "attributes") (List.concat (map (fun d =>
         [xfield (B "Name") (trim ws_chars (fst d)); xfield (B "Value") (trim ws_chars (snd d))]) l))]
  | ACodecs _ id n l =>
      [xfield (B "codec_id") id; xnumber (B "codec_entries_count") n;
       XElem (B "codecs") (map codec_xnode l)]
  end).
