(** Proofs about the MP4, RIFF, DWG and WordPerfect parsers. *)
From Coq Require Import List NArith ZArith Bool Lia Strings.String.
From Coq Require Import ZifyBool ZifyNat ZifyN.
From Verif Require Import Lib.Res Lib.Bytes Lib.BytesFacts Lib.Text Lib.NumSpec Lib.NumFacts
     Common.Model Common.Spec Common.Fields Common.FieldProofs Common.ReadProofs
     Magic.Model Magic.Spec Magic.DocProofs Magic.DocBase Exe.Model Exe.Spec Exe.Proofs
     Media.Model Media.WordPerfect Media.Spec.
Import ListNotations.
Local Open Scope N_scope.
Ltac Zify.zify_post_hook ::= Z.div_mod_to_equations.

(** ** MP4 *)
Lemma mp4_short buffer : lenN buffer < 15 -> mp4_Detailer buffer = Throw RangeError.
Proof.
  intros H. unfold mp4_Detailer, mp4_detail. rewrite ReadUInt_throw by lia. reflexivity.
Qed.
Lemma mp4_edge buffer : lenN buffer = 15 -> mp4_Detailer buffer = UB.
Proof.
  intros H. destruct (ReadUInt_unsafe_iff buffer 12 false) as [_ U]; [lia|].
  specialize (U (or_introl (conj (eq_sym H) eq_refl))).
  unfold mp4_Detailer, mp4_detail, ReadUInt in *. change (u32 (12 + 3)) with 15 in *.
  rewrite H in *. change (15 <? 15) with false in *. cbn iota in *.
  destruct (rd_lt buffer 12) as (a & Ea & _); [lia|]. rewrite Ea. cbn [bind].
  change (u32 (12 + 1)) with 13. destruct (rd_lt buffer 13) as (b & Eb & _); [lia|]. rewrite Eb. cbn [bind].
  change (u32 (12 + 2)) with 14. destruct (rd_lt buffer 14) as (c & Ec & _); [lia|]. rewrite Ec. cbn [bind].
  rewrite rd_ge by lia. reflexivity.
Qed.

Definition mp4_base : ExtensionInfo := mkExt (B "mp4") [] [] 0 (B "MPEG-4 Media File").

Lemma mp4_fields buffer code v : window buffer 8 4 code -> be_number_at buffer 12 4 v ->
  mp4_detail buffer = Ok (mkMp4 mp4_base v (GetBrandName code) code).
Proof.
  intros Hc (w & Hw & <-). unfold mp4_detail.
  rewrite (ReadUInt_value buffer 12 w false); [|lia|exact Hw]. cbn [bind].
  apply slice_window in Hc. rewrite Hc. reflexivity.
Qed.
Lemma mp4_ok buffer : 16 <= lenN buffer -> mp4_Detailer buffer = Ok [plain_result mp4_base].
Proof.
  intros H. pose proof (occurs_window buffer 8 4) as Hc. pose proof (occurs_window buffer 12 4) as Hw.
  unfold mp4_Detailer. rewrite (mp4_fields buffer _ _ (Hc ltac:(lia)) (ex_intro _ _ (conj (Hw ltac:(lia)) eq_refl))).
  reflexivity.
Qed.

Lemma brand_lookup_named rows code : code_named rows (B "Unknonw FTYP") code (brand_lookup rows code).
Proof.
  induction rows as [|[c n] t IH]; cbn [brand_lookup].
  - right. split; [reflexivity|]. intros ? [].
  - destruct (bytes_eqb code c) eqn:E.
    + apply bytes_eqb_eq in E. subst c. left. left. reflexivity.
    + assert (N : code <> c) by (intros ->; rewrite bytes_eqb_refl in E; discriminate).
      destruct IH as [H|[H1 H2]]; [left; right; exact H|]. right. split; [exact H1|].
      intros m [X|X]; [congruence|]. exact (H2 m X).
Qed.

Fixpoint distinct_codes (rows : list (bytes * bytes)) : bool :=
  match rows with
  | [] => true
  | (c, _) :: t => negb (existsb (fun e => bytes_eqb c (fst e)) t) && distinct_codes t
  end.
Lemma code_named_fun rows f code n n' : distinct_codes rows = true ->
  code_named rows f code n -> code_named rows f code n' -> n = n'.
Proof.
  intros D. assert (U : forall a b, In (code, a) rows -> In (code, b) rows -> a = b).
  { induction rows as [|[c m] t IH]; [intros ? ? []|]. cbn [distinct_codes] in D.
    apply andb_true_iff in D. destruct D as [D1 D2]. apply negb_true_iff, Bool.not_true_iff_false in D1.
    assert (X : forall a, In (c, a) t -> False).
    { intros a Ha. apply D1, existsb_exists. exists (c, a). split; [exact Ha|apply bytes_eqb_refl]. }
    intros a b [Ha|Ha] [Hb|Hb].
    - congruence.
    - inversion Ha; subst. destruct (X _ Hb).
    - inversion Hb; subst. destruct (X _ Ha).
    - exact (IH D2 a b Ha Hb). }
  intros [H|[H1 H2]] [K|[K1 K2]]; [exact (U _ _ H K)|destruct (K2 _ H)|destruct (H2 _ K)|congruence].
Qed.

(** ** RIFF *)
Lemma window_split (buf : bytes) off a b x y : lenN x = a -> lenN y = b ->
  (window buf off (a + b) (x ++ y) <-> window buf off a x /\ window buf (off + a) b y).
Proof.
  intros <- <-. split.
  - intros [L (pre & post & E & P)]. rewrite <- app_assoc in E. split; (split; [reflexivity|]).
    + exists pre, (y ++ post). auto.
    + exists (pre ++ x), post. rewrite <- app_assoc. rewrite lenN_app. auto with arith. split; [exact E|lia].
  - intros [H1 H2]. pose proof (window_eq _ _ _ _ H1) as [L1 E1]. pose proof (window_eq _ _ _ _ H2) as [L2 E2].
    split; [apply lenN_app|]. exists (takeN off buf), (dropN (off + lenN x + lenN y) buf). split.
    + rewrite <- (takeN_dropN off buf) at 1. f_equal. rewrite <- (takeN_dropN (lenN x) (dropN off buf)).
      rewrite <- E1, <- app_assoc. f_equal. rewrite dropN_dropN.
      rewrite <- (takeN_dropN (lenN y) (dropN (off + lenN x) buf)), <- E2. f_equal.
      rewrite dropN_dropN. reflexivity.
    + rewrite lenN_takeN. lia.
Qed.

Lemma riff_total buffer : exists ext, riff_try riff_kinds buffer = Ok ext.
Proof.
  assert (H : forall rows, (forall e, In e rows -> lenN (fst e) = 8) -> exists ext, riff_try rows buffer = Ok ext).
  { induction rows as [|[p e] t IH]; intros H; cbn [riff_try]; [eexists; reflexivity|].
    specialize (H (p, e) (or_introl eq_refl)) as Hp. cbn [fst] in Hp.
    destruct (checkMagic_iff buffer p 8) as (r & E & _). rewrite Hp in E. rewrite E. cbn [bind].
    destruct r; [eexists; reflexivity|]. apply IH. intros. apply H. right. assumption. }
  apply H. intros e He. repeat (destruct He as [<-|He]; [reflexivity|]). destruct He.
Qed.

Lemma riff_try_spec rows buffer : (forall e, In e rows -> lenN (fst e) = 8) ->
  (exists p e, In (p, e) rows /\ occurs_at p buffer 8 /\ riff_try rows buffer = Ok e) \/
  ((forall p e, In (p, e) rows -> ~ occurs_at p buffer 8) /\ riff_try rows buffer = Ok (B "riff")).
Proof.
  induction rows as [|[p e] t IH]; intros H; cbn [riff_try].
  - right. split; [intros ? ? []|reflexivity].
  - specialize (H (p, e) (or_introl eq_refl)) as Hp. cbn [fst] in Hp.
    destruct (checkMagic_iff buffer p 8) as (r & E & Hr). rewrite Hp in E. rewrite E. cbn [bind].
    destruct r.
    + left. exists p, e. split; [left; reflexivity|]. split; [apply Hr; reflexivity|reflexivity].
    + destruct IH as [(p' & e' & H1 & H2 & H3)|[H1 H2]].
      { intros. apply H. right. assumption. }
      * left. exists p', e'. split; [right; exact H1|]. auto.
      * right. split; [|exact H2]. intros p' e' [X|X] O; [|exact (H1 _ _ X O)].
        inversion X; subst. apply Hr in O. discriminate.
Qed.

(** ** DWG *)
Fixpoint code_lookup (fallback : bytes) (rows : list (bytes * bytes)) (code : bytes) : bytes :=
  match rows with
  | [] => fallback
  | (c, n) :: t => if bytes_eqb code c then n else code_lookup fallback t code
  end.
Lemma code_lookup_named f rows code : code_named rows f code (code_lookup f rows code).
Proof.
  induction rows as [|[c n] t IH]; cbn [code_lookup].
  - right. split; [reflexivity|]. intros ? [].
  - destruct (bytes_eqb code c) eqn:E.
    + apply bytes_eqb_eq in E. subst c. left. left. reflexivity.
    + assert (N : code <> c) by (intros ->; rewrite bytes_eqb_refl in E; discriminate).
      destruct IH as [H|[H1 H2]]; [left; right; exact H|]. right. split; [exact H1|].
      intros m [X|X]; [congruence|]. exact (H2 m X).
Qed.

Lemma dwg_table b4 b5 :
  dwg_version (b2n b4) (b2n b5) = code_lookup [] dwg_releases (B "AC10" ++ [b4; b5]).
Proof.
  apply bytes_eqb_eq. revert b5. apply forall_bytes. revert b4. apply forall_bytes.
  vm_compute. reflexivity.
Qed.

Lemma dwg_named content tag : occurs_at (B "AC10") content 0 -> window content 0 6 tag ->
  exists name, dwg_Detailer content = Ok [plain_result (mkExt (B "dwg") [] [] 0 name)] /\
               code_named dwg_releases [] tag name.
Proof.
  intros (pre & post & E & P) [L (pre' & post' & E' & P')].
  apply lenN_0 in P, P'. subst pre pre'. cbn [app] in *.
  destruct tag as [|a [|b [|c [|d [|b4 [|b5 [|x y]]]]]]];
    try (unfold lenN in L; cbn [List.length] in L; lia).
  rewrite E' in E. cbn in E. inversion E; subst a b c d. clear E.
  exists (dwg_version (b2n b4) (b2n b5)). split.
  - unfold dwg_Detailer. rewrite E'. cbn [app]. 
    replace (5 <? lenN (x41 :: x43 :: x31 :: x30 :: b4 :: b5 :: post')) with true
      by (unfold lenN; cbn [List.length]; lia).
    reflexivity.
  - rewrite dwg_table. apply code_lookup_named.
Qed.
Lemma dwg_short content : lenN content <= 5 ->
  dwg_Detailer content = Ok [plain_result (mkExt (B "dwg") [] [] 0 [])].
Proof. intros H. unfold dwg_Detailer. replace (5 <? lenN content) with false by lia. reflexivity. Qed.

(** ** WordPerfect *)
Lemma wp_dangling p buffer i : In i (wp_Detailer buffer) ->
  wp_ToJson p i = UB /\ wp_ToXml p i = UB.
Proof. intros [<-|[]]. split; reflexivity. Qed.
Lemma wp_rows buffer i : In i (wp_Detailer buffer) ->
  wp_ToText i = Ok (B "wp" ++ [x09] ++ B "Word Perfect File" ++ [x09] ++ B "0") /\
  wp_ToCsv i = Ok (B "wp,Word Perfect File,0").
Proof. intros [<-|[]]. split; reflexivity. Qed.

Lemma read_number i b off n v : wp_Header i = Some b -> number_at b off n v -> wp_read i off n = Ok v.
Proof.
  intros E (w & H & <-). unfold wp_read. rewrite E. apply slice_window in H. rewrite H. reflexivity.
Qed.

Lemma wp_names_plain k : plain (fileTypeToString k) = true.
Proof.
  unfold fileTypeToString. destruct (lookup wp_file_types k) eqn:E; [|reflexivity].
  apply lookup_in in E. revert E. 
  assert (H : forallb (fun e => plain (snd e)) wp_file_types = true) by (vm_compute; reflexivity).
  rewrite forallb_forall in H. intros E. exact (H _ E).
Qed.

Lemma member_obj key t m : jplain key = true -> json_members t m ->
  json_members (q ++ key ++ q ++ B ": " ++ B "{" ++ t ++ B "}") [(map b2n key, JObj m)].
Proof.
  intros Hk Hm. 
  replace (q ++ key ++ q ++ B ": " ++ B "{" ++ t ++ B "}") with
    ([] ++ (q ++ key ++ q) ++ [] ++ colon :: [x20] ++ (x7b :: t ++ [x7d]) ++ [])
    by (unfold q, B; cbn; rewrite ?app_nil_r; flat).
  apply jm_one; auto using ws_nil, ws_space.
  - apply (jstring key). apply jplain_str. exact Hk.
  - apply jv_obj. exact Hm.
Qed.

Lemma wp_json p i b prod ft maj min enc : info_plain (wp_base i) = true -> wp_Header i = Some b ->
  number_at b (wp_prod_type p) 1 prod -> number_at b (wp_file_type p) 1 ft ->
  number_at b (wp_major p) 1 maj -> number_at b (wp_minor p) 1 min -> number_at b (wp_encrypt p) 4 enc ->
  exists t, wp_ToJson p i = Ok t /\
    json_value t (JObj (wp_members (wp_base i) (dec prod) (fileTypeToString ft) (dec maj) (dec min) (dec enc))).
Proof.
  intros Hp Hb H1 H2 H3 H4 H5. unfold wp_ToJson.
  rewrite (read_number _ _ _ _ _ Hb H1), (read_number _ _ _ _ _ Hb H2), (read_number _ _ _ _ _ Hb H3),
    (read_number _ _ _ _ _ Hb H4), (read_number _ _ _ _ _ Hb H5). cbn [bind].
  eexists. split; [reflexivity|].
  pose proof (wp_names_plain ft) as Pf. set (f := fileTypeToString ft) in *.
  pose proof (dec_plain prod) as P1. pose proof (dec_plain maj) as P3.
  pose proof (dec_plain min) as P4. pose proof (dec_plain enc) as P5.
  set (d1 := dec prod) in *. set (d3 := dec maj) in *. set (d4 := dec min) in *. set (d5 := dec enc) in *.
  assert (T : forall k v, jplain k = true -> plain v = true -> json_members
            (q ++ k ++ q ++ B ":" ++ q ++ v ++ q) [jfield k v]).
  { intros k v Hk Hv. apply (member_plain k v [] []); auto using ws_nil. }
  assert (A : forall t m k v, json_members t m -> jplain k = true -> plain v = true ->
            json_members (t ++ B "," ++ q ++ k ++ q ++ B ":" ++ q ++ v ++ q) (m ++ [jfield k v])).
  { intros t m k v H Hk Hv. change (B ",") with (comma :: []).
    apply (members_app t m); [exact H|]. apply (members_ws []); [apply ws_nil|]. apply T; assumption. }
  assert (J : json_members
   (((((q ++ B "ProductType" ++ q ++ B ":" ++ q ++ d1 ++ q) ++
      (B "," ++ q ++ B "FileType" ++ q ++ B ":" ++ q ++ f ++ q)) ++
      (B "," ++ q ++ B "MajorVersion" ++ q ++ B ":" ++ q ++ d3 ++ q)) ++
      (B "," ++ q ++ B "MinorVersion" ++ q ++ B ":" ++ q ++ d4 ++ q)) ++
      (B "," ++ q ++ B "Encrypt" ++ q ++ B ":" ++ q ++ d5 ++ q))
   [jfield (B "ProductType") d1; jfield (B "FileType") f; jfield (B "MajorVersion") d3;
          jfield (B "MinorVersion") d4; jfield (B "Encrypt") d5]).
  { apply (A _ [jfield (B "ProductType") d1; jfield (B "FileType") f; jfield (B "MajorVersion") d3;
          jfield (B "MinorVersion") d4]); [|reflexivity|assumption].
    apply (A _ [jfield (B "ProductType") d1; jfield (B "FileType") f; jfield (B "MajorVersion") d3]);
      [|reflexivity|assumption].
    apply (A _ [jfield (B "ProductType") d1; jfield (B "FileType") f]); [|reflexivity|assumption].
    apply (A _ [jfield (B "ProductType") d1]); [|reflexivity|assumption].
    apply T; [reflexivity|assumption]. }
  apply (member_obj (B "Header")) in J; [|reflexivity].
  apply (members_ws [x20]) in J; [|apply ws_space].
  pose proof (members_app _ _ _ _ (base_json _ Hp) J) as M.
  apply jv_obj in M. unfold wp_members. cbn [app] in M |- *.
  match goal with H : json_value ?a ?v |- json_value ?b ?v => replace b with a; [exact H|] end.
  unfold B, q, comma; cbn. repeat (rewrite <- ?app_assoc; cbn [app]). reflexivity.
Qed.
