(** Lemmas in the form of the properties, with examples and refutations. *)
From Coq Require Import List NArith ZArith Lia Bool Strings.String ZifyBool ZifyNat ZifyN.
From Verif Require Import Lib.Res Lib.Bytes Lib.BytesFacts Lib.Text Lib.NumSpec Common.Model Common.Spec Common.Fields Common.Utf8
  Common.ReadProofs Common.FieldProofs Common.Utf8Proofs Magic.Spec Magic.DocUnique Asf.DocProofs Vba.Statements Ole.Model Propset.Model Propset.Output
  Propset.Spec Propset.Statements Propset.ValueProofs Propset.StreamProofs Propset.MemoryProofs Propset.NumberProofs Propset.DocProofs
  Propset.WideProofs Propset.Samples.
Import ListNotations.
Local Open Scope N_scope.
Ltac Zify.zify_post_hook ::= Z.div_mod_to_equations.
Arguments N.pow : simpl never.
Arguments Z.pow : simpl never.

(** ** C66 *)
Lemma reports_impl (R R' : stored -> value -> Prop) ges ps (P : stored -> bool) : (forall v r, P v = false -> R v r -> R' v r) ->
  Forall2 (reports_as R) ges ps -> Forall (fun ge => P (e_value (snd ge)) = false) ges -> Forall2 (reports_as R') ges ps.
Proof.
  intros H. induction 1 as [|ge p ges ps K _ IH]; intros F; inversion F; subst; constructor; auto.
  destruct K as (A & B1 & C & D). repeat split; auto.
Qed.
Lemma C66_exact pl buf sets : lenN buf + 12 < 2 ^ 32 -> property_sets buf sets ->
  none_of is_name sets -> none_of is_i4 sets -> (pl = windows \/ none_of is_wide sets) ->
  exists l, ParseBytes pl buf = Ok l /\ Forall2 (reports_as shows) (all_entries sets) l.
Proof.
  intros HL Hp Hn H4 Hw. destruct (C66_general pl buf sets HL Hp Hn Hw) as (l & E & F). exists l. split; [exact E|].
  apply (reports_impl taken shows _ _ is_i4); [|exact F|exact H4].
  intros v r Hv (v' & T & S). destruct T as [z z' _|v _]; [discriminate Hv|exact S].
Qed.
Lemma sample_small (b : bytes) : (lenN b + 12 <? 4294967296) = true -> lenN b + 12 < 2 ^ 32.
Proof. change (2 ^ 32) with 4294967296. lia. Qed.
Definition none_b (f : stored -> bool) (sets : list pset) : bool := forallb (fun ge => negb (f (e_value (snd ge)))) (all_entries sets).
Lemma none_b_ok f sets : none_b f sets = true -> none_of f sets.
Proof.
  unfold none_b, none_of. rewrite forallb_forall, Forall_forall. intros H x Hx. specialize (H x Hx). apply negb_true_iff in H. exact H.
Qed.
Lemma C66_ex : lenN summary_bytes + 12 < 2 ^ 32 /\ property_sets summary_bytes [summary] /\ none_of is_name [summary] /\
  none_of is_i4 [summary] /\ none_of is_wide [summary] /\ none_of is_special [summary] /\ lenN (all_entries [summary]) = 9.
Proof.
  split; [apply sample_small; vm_compute; reflexivity|]. split; [exact summary_ok|].
  split; [apply none_b_ok; reflexivity|]. split; [apply none_b_ok; reflexivity|]. split; [apply none_b_ok; reflexivity|].
  split; [apply none_b_ok; vm_compute; reflexivity|reflexivity].
Qed.
(** A count of one is reported as 16777216. *)
Lemma C66_i4_refuted : exists buf sets l, property_sets buf sets /\ ParseBytes windows buf = Ok l /\ ParseBytes linux64 buf = Ok l /\
  map (fun ge => e_value (snd ge)) (all_entries sets) = [SI4 1] /\ map p_value l = [VInt 16777216].
Proof. exists count_bytes, [count]. eexists. split; [exact count_ok|]. split; [vm_compute; reflexivity|]. repeat split; vm_compute; reflexivity. Qed.
Lemma C66_wide_linux_refuted : exists buf sets, property_sets buf sets /\ none_of is_name sets /\
  Exists (fun ge => long_wide (e_value (snd ge)) = true) (all_entries sets) /\
  ParseBytes linux64 buf = Throw RangeError /\ exists l, ParseBytes windows buf = Ok l.
Proof.
  exists wide_bytes, [wide]. split; [exact wide_ok|]. split; [apply none_b_ok; reflexivity|].
  split; [vm_compute; constructor; reflexivity|]. split; [vm_compute; reflexivity|]. eexists. vm_compute. reflexivity.
Qed.
(** The name of a stream is taken for a wide string of twice its length. *)
Lemma C66_name_windows buf off t u pid f : lenN buf + 12 < 2 ^ 32 -> In t [31; 66; 67; 68; 69] -> number_at buf off 2 t ->
  number_at buf (off + 4) 4 (lenN u + 1) -> Forall (fun c => c < 65536) u -> window buf (off + 8) (2 * lenN u) (units 2 u) ->
  exists s, ReadProperty windows buf off pid f = Ok (mkProp pid f t (VString s)) /\ ~ In x00 s /\
    (Forall scalar u -> utf8 s (filter (fun c => negb (c =? 0)) u)).
Proof.
  intros HL Ht Hn Hs Hu Hw. pose proof (number_at_len _ _ _ _ Hn) as L1. pose proof (window_len _ _ _ _ Hw) as L2.
  replace (off + 8) with (off + 4 + 4) in * by lia.
  destruct (wide_value buf t (off + 4) _ u Ht ltac:(lia) Hu eq_refl Hs Hw) as (s & Es & E). exists (erasenulls s).
  unfold ReadProperty. destruct (number_slice _ _ _ _ Hn) as (w & Ew & El). rewrite Ew. cbn [bind]. rewrite El, u32_small by lia.
  rewrite E. split; [reflexivity|]. split.
  - unfold erasenulls. intros K. apply filter_In in K. destruct K as [_ K]. discriminate K.
  - intros Hsc. apply convert_nonzero in Es. eapply convert_utf8; [exact Es|].
    apply Forall_forall. intros c Hc. apply filter_In in Hc. rewrite Forall_forall in Hsc. apply Hsc. tauto.
Qed.
Lemma C66_name_refuted : exists buf sets l, property_sets buf sets /\ ParseBytes windows buf = Ok l /\
  e_value (snd (nth 0 (all_entries sets) ([], mkEntry 0 0 (SOther 0)))) = SName 66 (B "prop4" ++ [x00]) /\
  exists s r, map p_value l = VString s :: r /\ s <> B "prop4".
Proof.
  exists named_bytes, [named]. eexists. split; [exact named_ok|]. split; [vm_compute; reflexivity|]. split; [reflexivity|].
  eexists. eexists. split; [vm_compute; reflexivity|]. intros E. discriminate E.
Qed.

Lemma C66_stream pl s name e : open_stream pl s name = Ok (Some e) ->
  ParseStream pl s e = (m <- ReadStream pl s name ;; match known m with Some buf => ParseBytes pl buf | None => UB end).
Proof.
  intros H. unfold ParseStream, ReadStream. rewrite H. cbn [bind]. destruct (stream_blocks s e) as [blocks| | |]; try reflexivity. cbn [bind].
  destruct (stream_read _ _ _ _ _ _) as [[data n]| | |]; try reflexivity. cbn [bind]. destruct (n =? d_size e); reflexivity.
Qed.
(** ** C67 *)
Lemma mapM_no_ub {A C} (f : A -> res C) l : (forall x, In x l -> f x <> UB) -> mapM f l <> UB.
Proof.
  induction l as [|x l IH]; intros H; cbn [mapM]; [discriminate|].
  pose proof (H x (or_introl eq_refl)) as Hx. destruct (f x); cbn [bind]; try congruence.
  assert (Hl : mapM f l <> UB) by (apply IH; intros y Hy; apply H; right; exact Hy).
  destruct (mapM f l); cbn [bind]; congruence.
Qed.
Lemma C67_safe pl buf ts : lenN buf + 12 < 2 ^ 32 -> tables_in buf ts ->
  Forall (fun place => ~ (lenN buf < snd place mod 2 ^ 32 + 2 \/
                          exists t, number_at buf (snd place mod 2 ^ 32) 2 t /\ value_overrun buf (snd place mod 2 ^ 32) t)) (places ts) ->
  ParseBytes pl buf <> UB.
Proof.
  intros HL Ht Hs. rewrite (parse_exact pl buf ts ltac:(lia) Ht).
  assert (M : mapM (read_rows pl buf) ts <> UB).
  { apply mapM_no_ub. intros t Hin. unfold read_rows. destruct Ht as [_ Ht]. destruct (In_nthN _ _ Hin) as [i Hi].
    destruct (Ht i t Hi) as (Hg & _). destruct (format_ok (t_format t) (proj1 Hg)) as (f & -> & _). cbn [bind].
    apply mapM_no_ub. intros e He. unfold read_entry. intros X. rewrite C67_value_exact in X; [|exact HL|unfold u32; apply N.mod_lt; discriminate].
    rewrite Forall_forall in Hs. apply (Hs (fst e, t_start t + snd e)); [|exact X].
    unfold places. apply in_flat_map. exists t. split; [exact Hin|]. apply in_map_iff. exists e. auto. }
  destruct (mapM (read_rows pl buf) ts); cbn [bind]; congruence.
Qed.
Lemma C67_table_refuted : exists buf, lenN buf = 56 /\ ParseBytes windows buf = UB /\ ParseBytes linux64 buf = UB.
Proof. exists long_table. vm_compute. auto. Qed.
Lemma C67_wide_refuted : exists buf, lenN buf = 72 /\ ParseBytes windows buf = UB /\ ParseBytes linux64 buf = UB.
Proof. exists empty_wide. vm_compute. auto. Qed.
Definition summary_tables : list table := map table_of [summary].
Lemma C67_ex : tables_in summary_bytes summary_tables /\ lenN (places summary_tables) = 9 /\
  exists l, ParseBytes linux64 summary_bytes = Ok l.
Proof.
  split; [apply tables_of; exact summary_ok|]. split; [vm_compute; reflexivity|]. eexists. vm_compute. reflexivity.
Qed.

(** ** C68, C69 *)
Lemma C68_ex : map (ToJson linux64) [mkProp 100 FMTID_SummaryInformation 5 (VFloat (Num false 6755399441055744 (-52)));
                                     mkProp 12 FMTID_SummaryInformation 64 (VInt 132223284000000000)] =
  [B "{""Property"":""Unknown Property Identifier (100)"",""Type"":""VT_R8"",""Value"":1.5}";
   B "{""Property"":""Creation Time"",""Type"":""VT_FILETIME"",""Value"":""2020-01-01 05:00:00""}"].
Proof. vm_compute. reflexivity. Qed.
Lemma C68_ex_digits : value_ok (VFloat (Num false 7378697629483821 (-66))) /\
  double_text linux64 (Num false 7378697629483821 (-66)) = B "0.0001" /\
  double_text windows (Num true 4503599627370497 (-80)) = B "-3.72529e-09".
Proof. split; [split; [reflexivity|lia]|]. split; vm_compute; reflexivity. Qed.
Lemma C68_special_refuted : exists buf sets p, property_sets buf sets /\ none_of is_name sets /\ none_of is_wide sets /\
  ParseBytes linux64 buf = Ok [p] /\ ParseBytes windows buf = Ok [p] /\ forall pl j, ~ json_value (ToJson pl p) j.
Proof.
  exists special_bytes, [special]. eexists. split; [exact special_ok|]. split; [apply none_b_ok; reflexivity|]. split; [apply none_b_ok; reflexivity|].
  split; [vm_compute; reflexivity|]. split; [vm_compute; reflexivity|]. intros pl. apply special_json. cbn. tauto.
Qed.
(** Minus one. *)
Lemma C68_negative_refuted : exists buf sets p, property_sets buf sets /\
  map (fun ge => e_value (snd ge)) (all_entries sets) = [SI2 (-1)] /\ ParseBytes linux64 buf = Ok [p] /\
  ToJson linux64 p = B "{""Property"":""Unknown Property Identifier (2)"",""Type"":""VT_I2"",""Value"":18446744073709551615}".
Proof.
  exists negative_bytes, [negative]. eexists. split; [exact negative_ok|]. split; [reflexivity|].
  split; [vm_compute; reflexivity|]. vm_compute. reflexivity.
Qed.
(** A date with identifier 10 outside the summary. *)
Lemma C68_duration_refuted : exists p, p_fmt p = FMTID_UserDefined /\ p_type p = 64 /\ p_value p = VInt 132223284000000000 /\
  ToJson linux64 p = B "{""Property"":""Unknown Property Identifier (10)"",""Type"":""VT_FILETIME"",""Value"":""3672869:00:00""}".
Proof. exists (mkProp 10 FMTID_UserDefined 64 (VInt 132223284000000000)). repeat split; vm_compute; reflexivity. Qed.

Lemma C69_document pl p : value_ok (p_value p) -> exists x,
  xml_document (ToXML pl p) (property_element (PropertyIdentifierToString (p_fmt p) (p_pid p)) (PropertyTypeToString (p_type p)) x) /\
  xml_shows (p_value p) x.
Proof.
  intros H. destruct (property_xml pl p [] [] H xc_nil) as (x & Hx & Hs). rewrite app_nil_r in Hx. exists x. split; [exact Hx|exact Hs].
Qed.
Lemma C69_ex : ToXML linux64 (mkProp 2 FMTID_SummaryInformation 30 (VString (B "a&b"))) =
  B "<PropertyItem><Property>Title</Property><Type>VT_LPSTR</Type><Value>a&#38;b</Value></PropertyItem>".
Proof. vm_compute. reflexivity. Qed.
Lemma C69_time_refuted : exists p, p_type p = 64 /\
  ToXML linux64 p = B "<PropertyItem><Property>Creation Time</Property><Type>VT_FILETIME</Type><Value>132223284000000000</Value></PropertyItem>" /\
  ToJson linux64 p = B "{""Property"":""Creation Time"",""Type"":""VT_FILETIME"",""Value"":""2020-01-01 05:00:00""}".
Proof. exists (mkProp 12 FMTID_SummaryInformation 64 (VInt 132223284000000000)). repeat split; vm_compute; reflexivity. Qed.

(** ** C70 *)
Definition spec_names : list (N * bytes) :=
  let pick (ns : list N) (base : N) (pre : bytes) :=
    flat_map (fun n => match lookup n element_types with Some s => [(base + n, pre ++ s)] | None => [] end) ns in
  plain_types ++ pick vector_elements 4096 (B "VT_VECTOR|") ++ pick array_elements 8192 (B "VT_ARRAY|").
Lemma type_names_spec : type_names = spec_names.
Proof. vm_compute. reflexivity. Qed.
Lemma lookup_first t : NoDup (map fst t) -> forall n s, In (n, s) t -> lookup n t = Some s.
Proof.
  induction t as [|[k v] t IH]; cbn [map fst]; intros ND n s H; [contradiction|]. inversion ND as [|? ? K ND']; subst. cbn [lookup].
  destruct H as [H|H].
  - injection H as -> ->. rewrite N.eqb_refl. reflexivity.
  - destruct (N.eqb_spec n k) as [->|_]; [|apply IH; assumption]. exfalso. apply K. apply in_map_iff. exists (k, s). auto.
Qed.
Fixpoint nodup_b {A} (eqb : A -> A -> bool) (l : list A) : bool :=
  match l with [] => true | x :: r => negb (existsb (eqb x) r) && nodup_b eqb r end.
Lemma nodup_b_ok {A} (eqb : A -> A -> bool) : (forall a b, eqb a b = true <-> a = b) -> forall l, nodup_b eqb l = true -> NoDup l.
Proof.
  intros E. induction l as [|x l IH]; cbn [nodup_b]; intros H; constructor; apply andb_true_iff in H; destruct H as [H1 H2]; [|auto].
  intros K. apply negb_true_iff in H1. assert (X : existsb (eqb x) l = true) by (apply existsb_exists; exists x; split; [exact K|apply E; reflexivity]). congruence.
Qed.
Lemma named_in t s : type_named t s <-> In (t, s) type_names.
Proof.
  rewrite type_names_spec. unfold spec_names. cbv zeta. rewrite !in_app_iff, !in_flat_map.
  assert (L : forall n s, In (n, s) element_types -> lookup n element_types = Some s).
  { apply lookup_first. apply (nodup_b_ok N.eqb N.eqb_eq). vm_compute. reflexivity. }
  split.
  - intros [n x H|n x Hn H|n x Hn H]; [left; exact H|right; left|right; right]; exists n; (split; [exact Hn|]); rewrite (L n x H); left; reflexivity.
  - intros [H|[(n & Hn & H)|(n & Hn & H)]]; [apply tn_plain; exact H| |];
      destruct (lookup n element_types) eqn:El; try contradiction; destruct H as [H|[]]; injection H as <- <-;
      [apply tn_vector|apply tn_array]; try exact Hn; apply lookup_in; exact El.
Qed.
Lemma C70_types t : (forall s, type_named t s -> PropertyTypeToString t = s) /\
  ((forall s, ~ type_named t s) -> PropertyTypeToString t = B "Unknown Property Type (" ++ dec t ++ B ")").
Proof.
  unfold PropertyTypeToString. split.
  - intros s H. apply named_in in H. rewrite (lookup_first type_names) with (s := s); [reflexivity| |exact H].
    apply (nodup_b_ok N.eqb N.eqb_eq). vm_compute. reflexivity.
  - intros H. destruct (lookup t type_names) as [s|] eqn:E; [|reflexivity]. exfalso. apply (H s). apply named_in. apply lookup_in. exact E.
Qed.
Lemma lookup_inj t : NoDup (map snd t) -> forall n m s, lookup n t = Some s -> lookup m t = Some s -> n = m.
Proof.
  intros ND n m s H1 H2. apply lookup_in in H1. apply lookup_in in H2. clear - ND H1 H2.
  induction t as [|[k v] t IH]; cbn [map snd] in ND; [contradiction|]. inversion ND as [|? ? K ND']; subst.
  destruct H1 as [H1|H1], H2 as [H2|H2].
  - congruence.
  - injection H1 as -> ->. exfalso. apply K. apply in_map_iff. exists (m, s). auto.
  - injection H2 as -> ->. exfalso. apply K. apply in_map_iff. exists (n, s). auto.
  - auto.
Qed.
Definition known_name (s : bytes) : bool := negb (bytes_eqb (firstn 8 s) (B "Unknown ")).
Lemma lookup_known t n s : forallb (fun r => known_name (snd r)) t = true -> lookup n t = Some s -> known_name s = true.
Proof. intros H E. apply lookup_in in E. rewrite forallb_forall in H. exact (H _ E). Qed.
Lemma named_inj (t : list (N * bytes)) (pre : bytes) :
  NoDup (map snd t) -> forallb (fun r => known_name (snd r)) t = true -> (forall n, known_name (pre ++ dec n ++ B ")") = false) ->
  forall a b, match lookup a t with Some n => n | None => pre ++ dec a ++ B ")" end = match lookup b t with Some n => n | None => pre ++ dec b ++ B ")" end -> a = b.
Proof.
  intros ND K U a b H. destruct (lookup a t) as [x|] eqn:Ea, (lookup b t) as [y|] eqn:Eb.
  - subst y. exact (lookup_inj _ ND _ _ _ Ea Eb).
  - exfalso. pose proof (lookup_known _ _ _ K Ea) as X. rewrite H, U in X. discriminate X.
  - exfalso. pose proof (lookup_known _ _ _ K Eb) as X. rewrite <- H, U in X. discriminate X.
  - apply app_inv_head in H. apply app_inv_tail in H. pose proof (Lib.NumFacts.dec_num_dec a) as X. rewrite H, Lib.NumFacts.dec_num_dec in X. congruence.
Qed.
Lemma C70_identifiers f a b : PropertyIdentifierToString f a = PropertyIdentifierToString f b -> a = b.
Proof.
  destruct f; unfold PropertyIdentifierToString; cbv zeta;
    first [ apply (named_inj [] (B "Unknown Property Identifier (")); [constructor|reflexivity|reflexivity]
          | apply named_inj; [apply (nodup_b_ok bytes_eqb bytes_eqb_eq); vm_compute; reflexivity|vm_compute; reflexivity|reflexivity] ].
Qed.
(** Identifiers that mean the same in every set have a name in one of them only. *)
Lemma C70_reserved_refuted : PropertyIdentifierToString FMTID_DocSummaryInformation 2147483648 = B "Locale" /\
  PropertyIdentifierToString FMTID_SummaryInformation 2147483648 = B "Unknown Property Identifier (2147483648)" /\
  PropertyIdentifierToString FMTID_SummaryInformation 1 = B "CodePage" /\
  PropertyIdentifierToString FMTID_UserDefined 1 = B "Unknown Property Identifier (1)".
Proof. vm_compute. auto. Qed.
Lemma C70_properties pid s : (In (pid, s) summary_properties -> PropertyIdentifierToString FMTID_SummaryInformation pid = s) /\
  (In (pid, s) document_properties -> PropertyIdentifierToString FMTID_DocSummaryInformation pid = s).
Proof.
  assert (L : forall f t, forallb (fun r => bytes_eqb (PropertyIdentifierToString f (fst r)) (snd r)) t = true -> In (pid, s) t ->
    PropertyIdentifierToString f pid = s).
  { intros f t H I. rewrite forallb_forall in H. specialize (H _ I). apply bytes_eqb_eq in H. exact H. }
  split; apply L; vm_compute; reflexivity.
Qed.
Lemma C70_ex : type_named 4126 (B "VT_VECTOR|VT_LPSTR") /\ (forall s, ~ type_named 9 s).
Proof.
  split; [apply named_in; vm_compute; tauto|]. intros s H. apply named_in in H.
  apply (lookup_first type_names) in H; [discriminate H|]. apply (nodup_b_ok N.eqb N.eqb_eq). vm_compute. reflexivity.
Qed.
