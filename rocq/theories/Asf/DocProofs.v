(** The JSON and XML texts of ASF objects. *)
From Coq Require Import List NArith ZArith Bool Lia Strings.String.
From Coq Require Import ZifyBool ZifyNat ZifyN.
From Verif Require Import Lib.Res Lib.Bytes Lib.BytesFacts Lib.Text Lib.NumSpec Lib.NumFacts
     Common.Model Common.Spec Common.EscapeProofs Magic.Spec Magic.Model Magic.DocProofs Magic.DocBase
     Asf.Tables Asf.Model Asf.Spec Asf.Statements Asf.Proofs.
Import ListNotations.
Local Open Scope N_scope.
Ltac Zify.zify_post_hook ::= Z.div_mod_to_equations.

(** ** Numbers *)
Lemma dec_lead_zero n r : dec n = x30 :: r -> r = [].
Proof.
  intros E. destruct (N.eq_dec n 0) as [->|Hn]; [vm_compute in E; injection E as <-; reflexivity|].
  exfalso. pose proof (dec_num_dec n) as H. rewrite E in H. unfold dec_num, num in H.
  cbn [num_acc] in H. change (digit_value 10 x30) with (Some 0) in H. cbv iota beta in H.
  assert (H' : r <> []) by (intros ->; vm_compute in H; injection H as H; apply Hn; symmetry; exact H).
  assert (D : dec_num r = Some n) by (unfold dec_num; rewrite num_nonempty by exact H'; exact H).
  pose proof (length_dec_le (List.length r) n) as L.
  assert (B : n < 10 ^ N.of_nat (List.length r)).
  { clear - D. unfold dec_num in D. destruct r as [|c r]; [discriminate|]. unfold num in D.
    assert (G : forall s acc v, num_acc 10 acc s = Some v -> v < (acc + 1) * 10 ^ N.of_nat (List.length s)).
    { induction s as [|d s IH]; intros acc v; cbn [num_acc List.length].
      - intros [= ->]. change (10 ^ N.of_nat 0) with 1. lia.
      - destruct (digit_value 10 d) as [x|] eqn:Ex; [|discriminate]. intros Hv. apply IH in Hv.
        assert (x < 10). { unfold digit_value in Ex. cbv zeta in Ex.
          destruct (_ <? 10) eqn:E10 in Ex; [|discriminate]. injection Ex as <-. lia. }
        replace (N.of_nat (S (List.length s))) with (N.succ (N.of_nat (List.length s))) by lia.
        rewrite N.pow_succ_r'. nia. }
    apply G in D. lia. }
  specialize (L B). rewrite E in L. cbn [List.length] in L. destruct r; [congruence|]. cbn [List.length] in L. lia.
Qed.
Lemma dec_number n : json_number (dec n) n.
Proof. split; [apply dec_num_dec|]. apply dec_lead_zero. Qed.

(** ** Members *)
Lemma js_one k v : jplain k = true -> plain v = true -> json_members (js k v) [jfield k v].
Proof. intros Hk Hv. apply (member_plain k v [] []); auto using ws_nil. Qed.
Lemma jn_one k n : jplain k = true -> json_members (jn k n) [jnumber k n].
Proof.
  intros Hk. unfold jn, jnumber.
  replace (q ++ k ++ q ++ B ":" ++ dec n) with ([] ++ (q ++ k ++ q) ++ [] ++ colon :: [] ++ dec n ++ [])
    by (unfold q, B; cbn; rewrite ?app_nil_r; flat).
  apply jm_one; auto using ws_nil.
  - apply (jstring k). apply jplain_str. exact Hk.
  - apply jv_num. apply dec_number.
Qed.
Lemma more t1 m1 t2 m2 : json_members t1 [m1] -> json_members t2 m2 -> json_members (t1 ++ B "," ++ t2) (m1 :: m2).
Proof. intros H1 H2. apply (members_app t1 [m1] t2 m2 H1 H2). Qed.
Lemma js_more k v t m : jplain k = true -> plain v = true -> json_members t m ->
  json_members (js k v ++ B "," ++ t) (jfield k v :: m).
Proof. intros. apply more; auto using js_one. Qed.
Lemma jn_more k n t m : jplain k = true -> json_members t m -> json_members (jn k n ++ B "," ++ t) (jnumber k n :: m).
Proof. intros. apply more; auto using jn_one. Qed.
Lemma member_value key w t v : jplain key = true -> json_ws w -> json_value t v ->
  json_members (q ++ key ++ q ++ B ":" ++ w ++ t) [(map b2n key, v)].
Proof.
  intros Hk Hw Hv.
  replace (q ++ key ++ q ++ B ":" ++ w ++ t) with ([] ++ (q ++ key ++ q) ++ [] ++ colon :: w ++ t ++ [])
    by (unfold q, B; cbn; rewrite ?app_nil_r; flat).
  apply jm_one; auto using ws_nil. apply (jstring key). apply jplain_str. exact Hk.
Qed.
Lemma object t m : json_members t m -> json_value (B "{" ++ t ++ B "}") (JObj m).
Proof. apply jv_obj. Qed.
Lemma array ts vs : Forall2 json_value ts vs -> ts <> [] -> json_value (B "[" ++ join (B ",") ts ++ B "]") (JArr vs).
Proof. intros H Hn. apply (jv_arr (join (B ",") ts)). apply elements_join; assumption. Qed.

Lemma plain_filter f s : plain s = true -> plain (filter f s) = true.
Proof.
  unfold plain. rewrite !forallb_forall. intros H c Hc. apply filter_In in Hc. apply H. tauto.
Qed.
Lemma ltrim_plain cs s : plain s = true -> plain (ltrim cs s) = true.
Proof.
  induction s as [|c s IH]; intros H; [reflexivity|]. cbn [ltrim]. destruct (in_set cs c); [|exact H].
  apply IH. cbn [plain forallb] in H. apply andb_true_iff in H. apply H.
Qed.
Lemma erasenulls_hex l : erasenulls (bin2hex11 l) = bin2hex11 l.
Proof.
  unfold erasenulls. pose proof (plain_no_nul _ (bin2hex_plain l)) as H. revert H.
  generalize (bin2hex11 l) as s. induction s as [|c s IH]; intros H; [reflexivity|]. cbn [filter].
  destruct (byte_eqb c x00) eqn:E.
  - apply byte_eqb_eq in E. subst. elim H. left. reflexivity.
  - cbn [negb]. rewrite IH; [reflexivity|]. intros K. apply H. right. exact K.
Qed.

Lemma codec_type_plain t : plain (CodecTypeStr t) = true.
Proof. unfold CodecTypeStr. repeat destruct (_ =? _); reflexivity. Qed.

Lemma guid_name_plain g : plain (ASFTypeFromGuid g) = true.
Proof.
  destruct (guid_lookup_cases guid_types g) as [I|[I _]].
  - assert (H : forallb (fun r => plain (snd r)) guid_types = true) by (vm_compute; reflexivity).
    rewrite forallb_forall in H. exact (H _ I).
  - unfold ASFTypeFromGuid. rewrite I. reflexivity.
Qed.

(** ** Induction over objects and the children of header extensions *)
Section Ind.
  Variable P : asf_object -> Prop.
  Hypothesis HU : forall t d, P (AUnknown t d).
  Hypothesis HH : forall a b c d, P (AHeader a b c d).
  Hypothesis HF : forall d id a b c e f g h i j k, P (AFile d id a b c e f g h i j k).
  Hypothesis HS : forall d a b c e f g h i j, P (AStream d a b c e f g h i j).
  Hypothesis HE : forall d a b c e ch, Forall P ch -> P (AExt d a b c e ch).
  Hypothesis HC : forall d a b c e f, P (AContent d a b c e f).
  Hypothesis HX : forall d n l, P (AExtContent d n l).
  Hypothesis HL : forall d i n l, P (ACodecs d i n l).
  Fixpoint obj_induction (o : asf_object) : P o :=
    match o with
    | AUnknown t d => HU t d
    | AHeader a b c d => HH a b c d
    | AFile d id a b c e f g h i j k => HF d id a b c e f g h i j k
    | AStream d a b c e f g h i j => HS d a b c e f g h i j
    | AExt d a b c e ch => HE d a b c e ch ((fix go (l : list asf_object) : Forall P l :=
        match l with [] => Forall_nil P | x :: t => Forall_cons x (obj_induction x) (go t) end) ch)
    | AContent d a b c e f => HC d a b c e f
    | AExtContent d n l => HX d n l
    | ACodecs d i n l => HL d i n l
    end.
End Ind.

Lemma obj_type_plain o : obj_plain o = true -> plain (obj_type o) = true.
Proof. destruct o; cbn [obj_plain obj_type]; intros H; try reflexivity. exact H. Qed.

Lemma trim_plain s : plain s = true -> plain (trim ws_chars s) = true.
Proof. intros H. unfold trim, rtrim. apply ltrim_plain.
  rewrite <- (firstn_skipn (last_not_of ws_chars s) s), plain_app in H. apply andb_true_iff in H. apply H.
Qed.

Ltac jstep := first [apply js_more; [reflexivity| |] | apply jn_more; [reflexivity|]
                    | apply js_one; [reflexivity|] | apply jn_one; reflexivity].
Ltac jplains := auto using dec_plain, bin2hex_plain, codec_type_plain, trim_plain.

Lemma codec_json_value c : codec_plain c = true -> json_value (codec_json c) (codec_jval c).
Proof.
  unfold codec_plain. rewrite andb_true_iff. intros [H1 H2]. unfold codec_json, codec_jval.
  match goal with |- json_value ?t (JObj ?m) =>
    replace t with (B "{" ++ (js (B "type") (CodecTypeStr (c_type c)) ++ B "," ++ js (B "name") (c_name c) ++ B "," ++
       js (B "description") (c_desc c) ++ B "," ++ js (B "info") (bin2hex11 (c_info c))) ++ B "}")
      by (rewrite <- !app_assoc; reflexivity) end.
  apply object. repeat jstep; jplains.
Qed.

Lemma body_json (t : bytes) body ms : json_members (js (B "Type") t ++ B "," ++ body) ms ->
  json_value (B "{" ++ js (B "Type") t ++ B "," ++ body ++ B "}") (JObj ms).
Proof.
  intros H. apply object in H. revert H.
  match goal with |- json_value ?a _ -> json_value ?b _ => replace b with a; [auto|] end.
  rewrite <- !app_assoc. reflexivity.
Qed.

Lemma attributes_json (l : list (bytes * bytes)) : l <> [] -> forallb (fun d => plain (fst d) && plain (snd d)) l = true ->
  json_members (join (B ",") (map (fun d => js (trim ws_chars (fst d)) (trim ws_chars (snd d))) l))
               (map (fun d => jfield (trim ws_chars (fst d)) (trim ws_chars (snd d))) l).
Proof.
  induction l as [|[n v] l IH]; intros Hn H; [congruence|]. cbn [forallb fst snd] in H.
  rewrite !andb_true_iff in H. destruct H as [[Hk Hv] H].
  assert (J : json_members (js (trim ws_chars n) (trim ws_chars v)) [jfield (trim ws_chars n) (trim ws_chars v)])
    by (apply js_one; auto using plain_jplain, trim_plain).
  destruct l as [|d l]; [exact J|].
  change (json_members (js (trim ws_chars n) (trim ws_chars v) ++ B "," ++
     join (B ",") (map (fun d => js (trim ws_chars (fst d)) (trim ws_chars (snd d))) (d :: l)))
     (jfield (trim ws_chars n) (trim ws_chars v) ::
       map (fun d => jfield (trim ws_chars (fst d)) (trim ws_chars (snd d))) (d :: l))).
  apply more; [exact J|]. apply IH; [discriminate|exact H].
Qed.

Lemma Forall2_map {A C D} (R : C -> D -> Prop) (f : A -> C) (g : A -> D) l :
  Forall (fun x => R (f x) (g x)) l -> Forall2 R (map f l) (map g l).
Proof. induction 1; cbn [map]; constructor; auto. Qed.

Lemma obj_json o : obj_plain o = true -> json_value (obj_ToJson o) (obj_jval o).
Proof.
  induction o using obj_induction; intros Hp; pose proof (obj_type_plain _ Hp) as Ht; cbn [obj_plain] in Hp;
    rewrite ?andb_true_iff in Hp; cbn [obj_ToJson obj_jval]; apply body_json; cbn [obj_type] in *.
  - repeat jstep; jplains.
  - repeat jstep; jplains.
  - rewrite erasenulls_hex. repeat jstep; jplains.
  - destruct Hp as [H1 H2]. repeat jstep; jplains.
  - destruct Hp as [H1 H2]. do 4 (jstep; jplains).
    destruct ch as [|o ch]; [jstep; jplains|].
    replace (q ++ B "children" ++ q ++ B ": [" ++ join (B ",") (map obj_ToJson (o :: ch)) ++ B "]")
      with (q ++ B "children" ++ q ++ B ":" ++ [x20] ++ (B "[" ++ join (B ",") (map obj_ToJson (o :: ch)) ++ B "]"))
      by reflexivity.
    apply member_value; [reflexivity|apply ws_space|]. apply array; [|discriminate].
    apply Forall2_map. rewrite Forall_forall in H |- *. rewrite forallb_forall in H2. auto.
  - destruct Hp as [[[[H1 H2] H3] H4] H5]. repeat jstep; jplains.
  - destruct Hp as [H1 H2]. destruct l as [|x l]; [discriminate|].
    do 2 (jstep; jplains).
    replace (q ++ B "attributes" ++ q ++ B ": {" ++
      join (B ",") (map (fun d => js (trim ws_chars (fst d)) (trim ws_chars (snd d))) (x :: l)) ++ B "}")
      with (q ++ B "attributes" ++ q ++ B ":" ++ [x20] ++ (B "{" ++
      join (B ",") (map (fun d => js (trim ws_chars (fst d)) (trim ws_chars (snd d))) (x :: l)) ++ B "}")) by reflexivity.
    apply member_value; [reflexivity|apply ws_space|]. apply object. apply attributes_json; [discriminate|exact H2].
  - destruct Hp as [[H1 H2] H3]. destruct l as [|x l]; [discriminate|].
    do 3 (jstep; jplains).
    replace (q ++ B "codecs" ++ q ++ B ": [" ++ join (B ",") (map codec_json (x :: l)) ++ B "]")
      with (q ++ B "codecs" ++ q ++ B ":" ++ [x20] ++ (B "[" ++ join (B ",") (map codec_json (x :: l)) ++ B "]"))
      by reflexivity.
    apply member_value; [reflexivity|apply ws_space|]. apply array; [|discriminate].
    apply Forall2_map. rewrite Forall_forall. rewrite forallb_forall in H3. auto using codec_json_value.
Qed.

Lemma asf_json_value base headers : info_plain base = true -> headers <> [] -> forallb obj_plain headers = true ->
  json_value (asf_json base headers)
    (JObj (item_members base ++ [(map b2n (B "headers"), JArr (map obj_jval headers))])).
Proof.
  intros Hb Hn Hp. unfold asf_json. destruct headers as [|h t]; [congruence|].
  set (a := join (B ",") (map obj_ToJson (h :: t))).
  assert (A : json_value (B "[" ++ a ++ B "]") (JArr (map obj_jval (h :: t)))).
  { apply array; [|discriminate]. apply Forall2_map. rewrite Forall_forall. rewrite forallb_forall in Hp.
    auto using obj_json. }
  apply (member_value (B "headers") [] _ _ eq_refl ws_nil) in A. cbn [app] in A.
  apply (members_ws [x20]) in A; [|apply ws_space].
  pose proof (members_app _ _ _ _ (base_json _ Hb) A) as M. apply object in M.
  match goal with H : json_value ?x ?v |- json_value ?y ?v => replace y with x; [exact H|] end.
  unfold B, q, comma; cbn. repeat (rewrite <- ?app_assoc; cbn [app]). reflexivity.
Qed.

(** ** XML *)
Lemma xs_xelem k v : xs k v = xelem k v.
Proof. reflexivity. Qed.
Lemma xs_cons n s rest l : letters n = true -> plain s = true -> xml_content rest l ->
  xml_content (xs n s ++ rest) (xfield n s :: l).
Proof. rewrite xs_xelem. apply field_cons. Qed.
Lemma xs_one n s : letters n = true -> plain s = true -> xml_content (xs n s) [xfield n s].
Proof. intros. rewrite <- (app_nil_r (xs n s)). apply xs_cons; auto using xc_nil. Qed.
Lemma xn_cons n k rest l : letters n = true -> xml_content rest l ->
  xml_content (xs n (dec k) ++ rest) (xnumber n k :: l).
Proof. intros. apply xs_cons; auto using dec_plain. Qed.
Lemma xn_one n k : letters n = true -> xml_content (xs n (dec k)) [xnumber n k].
Proof. intros. apply xs_one; auto using dec_plain. Qed.

Ltac xstep := first [apply xs_cons; [reflexivity| |] | apply xs_one; [reflexivity|]].

Lemma contents (ts : list bytes) (ns : list xnode) :
  Forall2 (fun t n => forall rest l, xml_content rest l -> xml_content (t ++ rest) (n :: l)) ts ns ->
  xml_content (List.concat ts) ns.
Proof. induction 1 as [|t n ts ns H Hs IH]; cbn [List.concat]; [constructor|]. apply H. exact IH. Qed.

Lemma codec_xml_value c rest l : codec_plain c = true -> xml_content rest l ->
  xml_content (codec_xml c ++ rest) (codec_xnode c :: l).
Proof.
  unfold codec_plain. rewrite andb_true_iff. intros [H1 H2] Hr. unfold codec_xml, codec_xnode.
  rewrite xs_xelem. apply elem_cons; [apply letters_name; reflexivity| |exact Hr].
  repeat xstep; jplains.
Qed.

Lemma obj_xml o : obj_plain o = true -> forall rest l, xml_content rest l ->
  xml_content (obj_ToXml o ++ rest) (obj_xnode o :: l).
Proof.
  induction o using obj_induction; intros Hp rest xl Hr; pose proof (obj_type_plain _ Hp) as Ht; cbn [obj_plain] in Hp;
    rewrite ?andb_true_iff in Hp; cbn [obj_ToXml obj_xnode]; rewrite (xs_xelem (B "ASFObject"));
    (apply elem_cons; [apply letters_name; reflexivity| |exact Hr]); cbn [obj_type] in *; unfold xnumber.
  - repeat xstep; jplains.
  - repeat xstep; jplains.
  - rewrite erasenulls_hex. repeat xstep; jplains.
  - destruct Hp as [H1 H2]. repeat xstep; jplains.
  - destruct Hp as [H1 H2]. do 4 (xstep; jplains).
    destruct ch as [|o ch]; [xstep; jplains|].
    rewrite (xs_xelem (B "children")). apply elem_one; [apply letters_name; reflexivity|].
    apply contents. apply Forall2_map. rewrite Forall_forall in H |- *. rewrite forallb_forall in H2. auto.
  - destruct Hp as [[[[H1 H2] H3] H4] H5]. repeat xstep; jplains.
  - destruct Hp as [H1 H2]. destruct l as [|x l]; [discriminate|].
    do 2 (xstep; jplains). rewrite (xs_xelem (B "attributes")).
    apply elem_one; [apply letters_name; reflexivity|].
    clear H1. generalize dependent (x :: l). clear. intros l H2. induction l as [|d l IH]; [constructor|].
    cbn [map List.concat forallb] in *. rewrite !andb_true_iff in H2. destruct H2 as [[Hk Hv] H2].
    cbn [app]. rewrite <- app_assoc. xstep; [jplains|]. xstep; jplains.
  - destruct Hp as [[H1 H2] H3]. destruct l as [|x l]; [discriminate|].
    do 3 (xstep; jplains). rewrite (xs_xelem (B "codecs")).
    apply elem_one; [apply letters_name; reflexivity|].
    apply contents. apply Forall2_map. rewrite Forall_forall. rewrite forallb_forall in H3. auto using codec_xml_value.
Qed.

Lemma asf_xml_value base headers : info_plain base = true -> headers <> [] -> forallb obj_plain headers = true ->
  xml_document (asf_xml base headers)
    (XElem (B "item") (base_elements base ++ [XElem (B "headers") (map obj_xnode headers)])).
Proof.
  intros Hb Hn Hp. unfold asf_xml, xml_document. destruct headers as [|h t]; [congruence|].
  rewrite (xs_xelem (B "item")), (xs_xelem (B "headers")). apply elem_one; [apply letters_name; reflexivity|].
  apply base_xml; [exact Hb|]. apply elem_one; [apply letters_name; reflexivity|].
  apply contents. apply Forall2_map. rewrite Forall_forall. rewrite forallb_forall in Hp. auto using obj_xml.
Qed.
