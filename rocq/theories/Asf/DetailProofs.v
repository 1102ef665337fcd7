(** Lemmas about whole ASF files: the header, the list of objects, codec lists. *)
From Coq Require Import List NArith ZArith Bool Lia Strings.String.
From Coq Require Import ZifyBool ZifyNat ZifyN.
From Verif Require Import Lib.Res Lib.Bytes Lib.BytesFacts Lib.Text Common.Model Common.Spec Common.Fields
     Common.ReadProofs Common.FieldProofs Magic.Model Magic.GuessProofs Asf.Tables Asf.Model Asf.Spec Asf.Statements Asf.Proofs.
Import ListNotations.
Local Open Scope N_scope.
Ltac Zify.zify_post_hook ::= Z.div_mod_to_equations.
Arguments N.pow : simpl never.

(** ** The bytes handed to the parser *)
Lemma answer_data p content :
  asf_answer p content =
  let data := takeN 65536 content in
  let fuel := S (List.length data) in
  h <- Parse fuel p data 0 ;;
  match h with
  | None => Ok [asf_result asf_base []]
  | Some (AHeader size number r1 r2 as o) =>
      r <- detail_loop fuel (Parse fuel p data) number size 0 30 asf_base ;;
      Ok [asf_result (fst r) (o :: snd r)]
  | Some _ => UB
  end.
Proof.
  unfold asf_answer, asf_Detailer.
  assert (E : (if lenN (takeN 65536 content) =? 512 then readFile (Some content) (getFileSize (Some content))
               else takeN 65536 content) = takeN 65536 content).
  { destruct (lenN (takeN 65536 content) =? 512) eqn:E; [|reflexivity].
    rewrite lenN_takeN in E. unfold getFileSize. rewrite readFile_small by lia.
    rewrite Proofs.u32_small by lia. rewrite !takeN_all by lia. reflexivity. }
  rewrite E. reflexivity.
Qed.

Lemma takeN_app2 {A} n (l m : list A) : lenN l <= n -> takeN n (l ++ m) = l ++ takeN (n - lenN l) m.
Proof.
  intros H. rewrite !takeN_firstn, firstn_app. unfold lenN in *.
  rewrite firstn_all2 by lia. f_equal. f_equal. lia.
Qed.

Definition header_data (number : N) (r1 r2 : byte) (body : bytes) : bytes :=
  to_le 4 number ++ [r1; r2] ++ body.

Lemma lenN_header_data number r1 r2 body : lenN (header_data number r1 r2 body) = 6 + lenN body.
Proof. unfold header_data. rewrite !lenN_app, lenN_to_le. cbn. lia. Qed.

Lemma data_of_file number r1 r2 body rest : 30 + lenN body <= 65536 ->
  exists rest', takeN 65536 (asf_bytes number r1 r2 body rest) = asf_bytes number r1 r2 body rest'.
Proof.
  intros H. unfold asf_bytes. fold (header_data number r1 r2 body).
  exists (takeN (65536 - lenN (stored (header_guid, header_data number r1 r2 body))) rest).
  apply takeN_app2. rewrite lenN_stored by reflexivity. rewrite lenN_header_data. lia.
Qed.

(** The file, seen from the first object of the header *)
Definition prelude (number : N) (r1 r2 : byte) (body : bytes) : bytes :=
  header_guid ++ to_le 8 (24 + lenN (header_data number r1 r2 body)) ++ to_le 4 number ++ [r1; r2].
Lemma lenN_prelude number r1 r2 body : lenN (prelude number r1 r2 body) = 30.
Proof. unfold prelude. rewrite !lenN_app, !lenN_to_le. reflexivity. Qed.
Lemma file_prelude number r1 r2 body rest :
  asf_bytes number r1 r2 body rest = prelude number r1 r2 body ++ body ++ rest.
Proof.
  unfold asf_bytes, prelude, stored. cbn [fst snd]. fold (header_data number r1 r2 body).
  unfold header_data at 2. rewrite <- !app_assoc. reflexivity.
Qed.

Lemma Parse_file_header f p number r1 r2 body rest : lenN (asf_bytes number r1 r2 body rest) < 2 ^ 32 ->
  Parse (S f) p (asf_bytes number r1 r2 body rest) 0 =
  rmap Some (asf_header p (header_data number r1 r2 body) (30 + lenN body)).
Proof.
  intros H. unfold asf_bytes in *. fold (header_data number r1 r2 body) in *.
  pose proof (Parse_stored f p [] header_guid (header_data number r1 r2 body) rest eq_refl H) as E.
  cbn [app] in E. change (lenN []) with 0 in E.
  etransitivity; [exact E|]. rewrite make_header.
  replace (24 + lenN (header_data number r1 r2 body)) with (30 + lenN body); [reflexivity|].
  rewrite lenN_header_data. lia.
Qed.

(** ** The header *)
Lemma header_windows number r1 r2 body size : number < 2 ^ 32 ->
  asf_header windows (header_data number r1 r2 body) size = Ok (AHeader size number (b2n r1) (b2n r2)).
Proof.
  intros Hn. unfold asf_header, ReadULong. cbn [sizeof_long windows].
  rewrite lenN_header_data. replace (_ <? 0 + 4) with false by lia.
  pose proof (slice_mid [] (to_le 4 number) ([r1; r2] ++ body) 4 (lenN_to_le 4 number)) as E.
  cbn [app] in E. change (lenN []) with 0 in E. unfold header_data. cbn [app]. rewrite E. cbn [bind].
  rewrite le_to_le_id by (change (256 ^ N.of_nat 4) with (2 ^ 32); exact Hn).
  reflexivity.
Qed.

(** Where [long] has eight bytes, the two reserved bytes and the next two are read too. *)
Lemma header_linux number r1 r2 body size (w : bytes) rest : number < 2 ^ 32 -> lenN w = 2 ->
  body = w ++ rest ->
  asf_header linux64 (header_data number r1 r2 body) size =
  Ok (AHeader size (number + 2 ^ 32 * le (r1 :: r2 :: w)) (b2n r1) (b2n r2)).
Proof.
  intros Hn Hw ->. unfold asf_header, ReadULong. cbn [sizeof_long linux64].
  rewrite lenN_header_data, lenN_app, Hw. replace (_ <? 0 + 8) with false by lia.
  unfold header_data.
  pose proof (slice_mid [] (to_le 4 number ++ r1 :: r2 :: w) rest 8) as S.
  cbn [app] in S. change (lenN []) with 0 in S. rewrite <- app_assoc in S. cbn [app] in S |- *. rewrite S.
  2: { rewrite lenN_app, lenN_to_le, !lenN_cons, Hw. reflexivity. }
  cbn [bind]. rewrite le_app, lenN_to_le.
  rewrite le_to_le_id by (change (256 ^ N.of_nat 4) with (2 ^ 32); exact Hn). reflexivity.
Qed.

Lemma header_linux_short number r1 r2 body size : lenN body < 2 ->
  asf_header linux64 (header_data number r1 r2 body) size = Throw RangeError.
Proof.
  intros H. unfold asf_header, ReadULong. rewrite lenN_header_data. cbn [sizeof_long linux64].
  replace (_ <? 0 + 8) with true by lia. reflexivity.
Qed.

(** The loop up to the last whole object; what happens next depends on the bytes there. *)
Lemma detail_end F p number objs : forall cs k pre tail rest i base size,
  Forall2 (parsed F p) objs cs -> lenN (pre ++ stored_all objs ++ tail ++ rest) < 2 ^ 32 ->
  (List.length objs < k)%nat -> lenN objs < number - i -> lenN pre + lenN (stored_all objs) < size ->
  let next := Parse (S F) p (pre ++ stored_all objs ++ tail ++ rest) (lenN pre + lenN (stored_all objs)) in
  (next = Ok None ->
   detail_loop k (Parse (S F) p (pre ++ stored_all objs ++ tail ++ rest)) number size i (lenN pre) base =
   Ok (fold_left classify cs base, cs)) /\
  (fails next ->
   detail_loop k (Parse (S F) p (pre ++ stored_all objs ++ tail ++ rest)) number size i (lenN pre) base = failure next).
Proof.
  induction objs as [|[g d] objs IH]; intros cs k pre tail rest i base size H L Hk Hn Hsz next;
    (destruct k as [|k]; [cbn [List.length] in Hk; lia|]).
  - inversion H; subst. unfold next. rewrite stored_all_nil in *. cbn [app] in *.
    change (lenN (@nil byte)) with 0 in *. change (lenN (@nil (bytes * bytes))) with 0 in *.
    rewrite N.add_0_r in *. cbn [detail_loop]. replace ((i <? number) && (lenN pre <? size)) with true by lia.
    split; intros Hx.
    + rewrite Hx. reflexivity.
    + match type of Hx with fails ?m => destruct m as [x|e| |] end; [destruct Hx|reflexivity..].
  - inversion H as [|? c ? cs' (Hg & Hm & Hd) Hr]; subst. unfold next in *. clear next. cbn [fst snd] in *.
    rewrite stored_all_cons in *. pose proof (lenN_stored g d Hg) as Ls.
    rewrite (lenN_app (stored (g, d)) (stored_all objs)), Ls in *.
    rewrite <- (app_assoc (stored (g, d))) in *. cbn [detail_loop]. rewrite lenN_cons in Hn.
    replace ((i <? number) && (lenN pre <? size)) with true by lia.
    rewrite (Parse_stored F p pre g d (stored_all objs ++ tail ++ rest)) by assumption.
    unfold made in Hm. cbn [fst snd] in Hm. rewrite Hm. cbn [rmap bind].
    pose proof (lenN_app pre (stored (g, d) ++ stored_all objs ++ tail ++ rest)) as L1.
    pose proof (lenN_app (stored (g, d)) (stored_all objs ++ tail ++ rest)) as L2.
    rewrite u32_small by lia.
    specialize (IH cs' k (pre ++ stored (g, d)) tail rest (i + 1) (classify base c) size Hr).
    rewrite <- app_assoc in IH. rewrite (lenN_app pre (stored (g, d))), Ls in IH. cbv zeta in IH.
    replace (lenN pre + (24 + lenN d) + lenN (stored_all objs)) with (lenN pre + (24 + lenN d + lenN (stored_all objs))) in IH by lia.
    destruct IH as [IH1 IH2]; [assumption|cbn [List.length] in Hk; lia|lia|lia|].
    replace (lenN pre + 24 + lenN (obj_data c)) with (lenN pre + (24 + lenN d)) by lia.
    split; intros Hx.
    + rewrite IH1 by exact Hx. reflexivity.
    + rewrite IH2 by exact Hx. match type of Hx with fails ?m => destruct m as [x|e| |] end; [destruct Hx|reflexivity..].
Qed.

(** ** Whole files *)
Lemma length_objs (objs : list (bytes * bytes)) : Forall (fun o => lenN (fst o) = 16) objs ->
  lenN objs <= lenN (stored_all objs).
Proof.
  induction 1 as [|[g d] l H Hl IH]; [cbn; lia|]. rewrite stored_all_cons, lenN_app, lenN_cons.
  cbn [fst] in H. rewrite lenN_stored by exact H. lia.
Qed.

Lemma parsed_guid F p objs cs : Forall2 (parsed F p) objs cs -> Forall (fun o => lenN (fst o) = 16) objs.
Proof. induction 1 as [|o c l m [H _] Hl IH]; constructor; auto. Qed.

Section Whole.
  Context (p : platform) (number : N) (r1 r2 : byte) (objs : list (bytes * bytes)) (rest : bytes).
  Context (Hsize : header_size objs <= 65536).
  Let content := asf_file number r1 r2 objs rest.
  Let F := List.length (takeN 65536 content).

  Lemma answer_ok number' cs :
    asf_header p (header_data number r1 r2 (stored_all objs)) (header_size objs) =
      Ok (AHeader (header_size objs) number' (b2n r1) (b2n r2)) ->
    Forall2 (parsed F p) objs cs ->
    asf_answer p content =
    Ok [asf_result (fold_left classify (takeN number' cs) asf_base)
                   (AHeader (header_size objs) number' (b2n r1) (b2n r2) :: takeN number' cs)].
  Proof.
    intros Hh Hc. rewrite answer_data. cbv zeta. fold F. unfold F in *. unfold content in *.
    unfold asf_file in *. destruct (data_of_file number r1 r2 (stored_all objs) rest Hsize) as [rest' E].
    assert (L : lenN (takeN 65536 (asf_bytes number r1 r2 (stored_all objs) rest)) < 2 ^ 32) by (rewrite lenN_takeN; lia).
    set (k := List.length _) in *.
    assert (Hk : k = List.length (asf_bytes number r1 r2 (stored_all objs) rest')) by (unfold k; rewrite E; reflexivity).
    clearbody k. rewrite E in L |- *.
    rewrite Parse_file_header by exact L. fold (header_size objs). rewrite Hh. cbn [rmap bind].
    assert (Lo : (List.length objs < S k)%nat).
    { pose proof (length_objs _ (parsed_guid _ _ _ _ Hc)) as Lo. rewrite Hk, file_prelude, !app_length.
      unfold lenN in Lo. lia. }
    rewrite file_prelude in L |- *.
    pose proof (detail_ok k p number' objs cs (S k) (prelude number r1 r2 (stored_all objs)) rest' 0 asf_base Hc L Lo) as D.
    rewrite lenN_prelude in D. fold (header_size objs) in D. rewrite D. cbn [bind fst snd].
    rewrite N.sub_0_r. reflexivity.
  Qed.

  Lemma answer_fail number' good bad more cs :
    asf_header p (header_data number r1 r2 (stored_all objs)) (header_size objs) =
      Ok (AHeader (header_size objs) number' (b2n r1) (b2n r2)) ->
    objs = good ++ bad :: more -> Forall2 (parsed F p) good cs -> lenN (fst bad) = 16 ->
    fails (made F p bad) -> lenN good < number' ->
    asf_answer p content = failure (made F p bad).
  Proof.
    intros Hh Ho Hc Hb Hf Hn. rewrite answer_data. cbv zeta. unfold F in *. unfold content in *.
    unfold asf_file in *. destruct (data_of_file number r1 r2 (stored_all objs) rest Hsize) as [rest' E].
    assert (L : lenN (takeN 65536 (asf_bytes number r1 r2 (stored_all objs) rest)) < 2 ^ 32) by (rewrite lenN_takeN; lia).
    set (k := List.length _) in *.
    assert (Hk : k = List.length (asf_bytes number r1 r2 (stored_all objs) rest')) by (unfold k; rewrite E; reflexivity).
    clearbody k. rewrite E in L |- *.
    rewrite Parse_file_header by exact L. fold (header_size objs). rewrite Hh. cbn [rmap bind].
    assert (Lo : (List.length good < S k)%nat).
    { pose proof (length_objs _ (parsed_guid _ _ _ _ Hc)) as Lo. 
      rewrite Hk, file_prelude, Ho, stored_all_app, !app_length. unfold lenN in Lo. lia. }
    assert (Ls : 30 + lenN (stored_all good) < header_size objs).
    { unfold header_size. rewrite Ho, stored_all_app, stored_all_cons, !lenN_app. destruct bad as [bg bd].
      rewrite lenN_stored by exact Hb. lia. }
    rewrite file_prelude in L |- *.
    assert (X : stored_all objs ++ rest' = stored_all good ++ stored bad ++ stored_all more ++ rest').
    { rewrite Ho, stored_all_app, stored_all_cons, <- !app_assoc. reflexivity. }
    rewrite X in L |- *.
    pose proof (detail_fail k p number' good bad cs (S k) (prelude number r1 r2 (stored_all objs)) (stored_all more ++ rest') 0
                  asf_base (header_size objs) Hc Hb Hf L Lo) as D.
    rewrite lenN_prelude, N.sub_0_r in D. rewrite D by assumption.
    destruct (made k p bad); [destruct Hf|reflexivity..].
  Qed.
End Whole.

Lemma opaque_parsed F p objs : Forall opaque objs -> Forall2 (parsed F p) objs (map reported objs).
Proof.
  induction 1 as [|[g d] l H Hl IH]; constructor; [|exact IH].
  split; [exact (proj1 H)|]. split; [|reflexivity]. unfold made. cbn [fst snd]. apply make_opaque. exact H.
Qed.

Lemma classify_reported l base : fold_left classify (map reported l) base = base.
Proof. induction l as [|o l IH]; [reflexivity|]. cbn [map fold_left classify reported]. exact IH. Qed.
Lemma takeN_map {A C} (f : A -> C) n l : takeN n (map f l) = map f (takeN n l).
Proof. rewrite !takeN_firstn. apply firstn_map. Qed.

Lemma windows_objects number r1 r2 objs rest : header_size objs <= 65536 -> number < 2 ^ 32 ->
  Forall opaque objs ->
  asf_answer windows (asf_file number r1 r2 objs rest) =
  Ok [asf_result asf_base
        (AHeader (header_size objs) number (b2n r1) (b2n r2) :: map reported (takeN number objs))].
Proof.
  intros Hs Hn Ho.
  rewrite (answer_ok windows number r1 r2 objs rest Hs number (map reported objs)).
  - rewrite takeN_map, classify_reported. reflexivity.
  - apply header_windows. exact Hn.
  - apply opaque_parsed. exact Ho.
Qed.

Lemma stored_start g d : lenN g = 16 -> exists w r, stored (g, d) = w ++ r /\ lenN w = 2 /\ w = takeN 2 g.
Proof.
  intros H. exists (takeN 2 g), (dropN 2 g ++ to_le 8 (24 + lenN d) ++ d).
  split; [|split; [rewrite lenN_takeN; lia|reflexivity]].
  unfold stored. cbn [fst snd]. rewrite <- (takeN_dropN 2 g) at 1. rewrite <- !app_assoc. reflexivity.
Qed.

Lemma linux_number number r1 r2 o objs size : number < 2 ^ 32 -> lenN (fst o) = 16 ->
  asf_header linux64 (header_data number r1 r2 (stored_all (o :: objs))) size =
  Ok (AHeader size (number + 2 ^ 32 * le (r1 :: r2 :: takeN 2 (fst o))) (b2n r1) (b2n r2)).
Proof.
  intros Hn Hg. destruct o as [g d]. cbn [fst] in *.
  destruct (stored_start g d Hg) as (w & r & E & Lw & ->).
  apply (header_linux _ _ _ _ _ _ (r ++ stored_all objs)); auto.
  rewrite stored_all_cons, E, <- app_assoc. reflexivity.
Qed.

Lemma linux_objects number r1 r2 o objs rest : header_size (o :: objs) <= 65536 -> number < 2 ^ 32 ->
  Forall opaque (o :: objs) -> r1 <> x00 \/ r2 <> x00 ->
  asf_answer linux64 (asf_file number r1 r2 (o :: objs) rest) =
  Ok [asf_result asf_base
        (AHeader (header_size (o :: objs)) (number + 2 ^ 32 * le (r1 :: r2 :: takeN 2 (fst o))) (b2n r1) (b2n r2)
         :: map reported (o :: objs))].
Proof.
  intros Hs Hn Ho Hr.
  pose proof (linux_number number r1 r2 o objs (header_size (o :: objs)) Hn
                (proj1 (Forall_inv Ho))) as E.
  set (number' := number + _) in *.
  assert (Big : lenN (o :: objs) <= number').
  { assert (1 <= le (r1 :: r2 :: takeN 2 (fst o))).
    { cbn [le]. assert (0 < b2n r1 \/ 0 < b2n r2); [|lia].
      destruct Hr as [Hr|Hr]; [left|right]; apply N.neq_0_lt_0; intros Z; apply Hr; apply b2n_inj; rewrite Z; reflexivity. }
    pose proof (length_objs (o :: objs)) as Lo. unfold header_size in Hs.
    assert (lenN (o :: objs) <= lenN (stored_all (o :: objs))).
    { apply Lo. eapply Forall_impl; [|exact Ho]. intros x Hx. exact (proj1 Hx). }
    unfold number'. clear - H H0 Hs. set (x := le _) in *. clearbody x. set (a := lenN (stored_all _)) in *. clearbody a. change (2 ^ 32) with 4294967296. lia. }
  rewrite (answer_ok linux64 number r1 r2 (o :: objs) rest Hs number' (map reported (o :: objs)) E).
  - rewrite takeN_all by (rewrite lenN_map; exact Big). rewrite classify_reported. reflexivity.
  - apply opaque_parsed. exact Ho.
Qed.

Lemma linux_no_objects number r1 r2 rest :
  asf_answer linux64 (asf_file number r1 r2 [] rest) = Throw RangeError.
Proof.
  rewrite answer_data. cbv zeta. unfold asf_file.
  destruct (data_of_file number r1 r2 (stored_all []) rest) as [rest' E]; [rewrite stored_all_nil; cbn; lia|].
  assert (L : lenN (takeN 65536 (asf_bytes number r1 r2 (stored_all []) rest)) < 2 ^ 32) by (rewrite lenN_takeN; lia).
  set (k := List.length _) in *. clearbody k. rewrite E in L |- *.
  rewrite Parse_file_header by exact L. rewrite header_linux_short by (rewrite stored_all_nil; cbn; lia). reflexivity.
Qed.

(** A header whose objects are followed by bytes that are not a whole object *)
Lemma windows_tail number r1 r2 objs (tail rest : bytes) : 30 + lenN (stored_all objs ++ tail) <= 65536 -> number < 2 ^ 32 ->
  Forall opaque objs -> lenN objs < number -> 0 < lenN tail ->
  let content := asf_bytes number r1 r2 (stored_all objs ++ tail) rest in
  exists F rest', let data := asf_bytes number r1 r2 (stored_all objs ++ tail) rest' in
  takeN 65536 content = data /\
  let next := Parse (S F) windows data (30 + lenN (stored_all objs)) in
  (next = Ok None -> asf_answer windows content =
     Ok [asf_result asf_base (AHeader (30 + lenN (stored_all objs ++ tail)) number (b2n r1) (b2n r2) :: map reported objs)]) /\
  (fails next -> asf_answer windows content = failure next).
Proof.
  intros Hs Hn Ho Hl Ht content. unfold content. rewrite answer_data. cbv zeta.
  destruct (data_of_file number r1 r2 (stored_all objs ++ tail) rest Hs) as [rest' E].
  assert (L : lenN (takeN 65536 (asf_bytes number r1 r2 (stored_all objs ++ tail) rest)) < 2 ^ 32) by (rewrite lenN_takeN; lia).
  set (k := List.length _) in *.
  assert (Hk : k = List.length (asf_bytes number r1 r2 (stored_all objs ++ tail) rest')) by (unfold k; rewrite E; reflexivity).
  clearbody k. rewrite E in L |- *. exists k, rest'. split; [reflexivity|].
  rewrite Parse_file_header by exact L. rewrite header_windows by exact Hn. cbn [rmap bind].
  assert (Lo : (List.length objs < S k)%nat).
  { assert (G : Forall (fun o => lenN (fst o) = 16) objs).
    { eapply Forall_impl; [|exact Ho]. intros o H. exact (proj1 H). }
    pose proof (length_objs _ G) as Lo. rewrite Hk, file_prelude, !app_length. unfold lenN in Lo. lia. }
  rewrite file_prelude in L |- *. rewrite <- app_assoc in L |- *.
  set (pre := prelude _ _ _ _) in *. assert (Lp : lenN pre = 30) by apply lenN_prelude.
  pose proof (lenN_app (stored_all objs) tail) as Lt.
  pose proof (detail_end k windows number objs (map reported objs) (S k) pre tail rest' 0 asf_base
                (30 + lenN (stored_all objs ++ tail)) (opaque_parsed k windows objs Ho) L Lo) as D.
  rewrite Lp, N.sub_0_r in D. destruct D as [D1 D2]; [exact Hl|lia|].
  set (next := Parse (S k) windows _ _) in *. rewrite classify_reported in D1.
  split; intros Hx.
  - rewrite D1 by exact Hx. reflexivity.
  - rewrite D2 by exact Hx. destruct next; [destruct Hx|reflexivity..].
Qed.

Lemma tail_number number r1 r2 objs (g : bytes) v d rest : lenN g = 16 ->
  number_at (asf_bytes number r1 r2 (stored_all objs ++ g ++ to_le 8 v ++ d) rest) (30 + lenN (stored_all objs) + 16) 8 (v mod 2 ^ 64).
Proof.
  intros Hg. exists (to_le 8 v). split; [|apply le_to_le].
  split; [apply lenN_to_le|].
  exists (prelude number r1 r2 (stored_all objs ++ g ++ to_le 8 v ++ d) ++ stored_all objs ++ g), (d ++ rest).
  rewrite file_prelude. split; [rewrite <- !app_assoc; reflexivity|].
  rewrite !lenN_app, lenN_prelude, Hg. lia.
Qed.

(** An object whose size field is smaller than its own first 24 bytes *)
Lemma windows_small_size number r1 r2 objs (g d : bytes) v rest :
  let body := stored_all objs ++ g ++ to_le 8 v ++ d in
  30 + lenN body <= 65536 -> number < 2 ^ 32 -> Forall opaque objs -> lenN objs < number -> lenN g = 16 -> v < 24 ->
  asf_answer windows (asf_bytes number r1 r2 body rest) = Throw LengthError.
Proof.
  intros body Hs Hn Ho Hl Hg Hv.
  destruct (windows_tail number r1 r2 objs (g ++ to_le 8 v ++ d) rest Hs Hn Ho Hl) as (F & rest' & E & _ & H);
    [rewrite !lenN_app; lia|]. fold body in E, H.
  pose proof (tail_number number r1 r2 objs g v d rest' Hg) as T. fold body in T. rewrite N.mod_small in T by lia.
  assert (L : lenN (asf_bytes number r1 r2 body rest') < 2 ^ 32) by (rewrite <- E, lenN_takeN; lia).
  destruct (Parse_size F windows _ _ v L T) as [_ P]. rewrite (P (or_introl Hv)) in H.
  rewrite H by exact I. reflexivity.
Qed.

(** An object that reaches beyond the bytes at hand ends the list *)
Lemma windows_large_size number r1 r2 objs (g d : bytes) v rest :
  let body := stored_all objs ++ g ++ to_le 8 v ++ d in
  30 + lenN body <= 65536 -> number < 2 ^ 32 -> Forall opaque objs -> lenN objs < number -> lenN g = 16 ->
  lenN (takeN 65536 (asf_bytes number r1 r2 body rest)) < 30 + lenN (stored_all objs) + v < 2 ^ 64 ->
  asf_answer windows (asf_bytes number r1 r2 body rest) =
  Ok [asf_result asf_base (AHeader (30 + lenN body) number (b2n r1) (b2n r2) :: map reported objs)].
Proof.
  intros body Hs Hn Ho Hl Hg Hv.
  destruct (windows_tail number r1 r2 objs (g ++ to_le 8 v ++ d) rest Hs Hn Ho Hl) as (F & rest' & E & H & _);
    [rewrite !lenN_app; lia|]. fold body in E, H.
  pose proof (tail_number number r1 r2 objs g v d rest' Hg) as T. fold body in T. rewrite N.mod_small in T by lia.
  assert (L : lenN (asf_bytes number r1 r2 body rest') < 2 ^ 32) by (rewrite <- E, lenN_takeN; lia).
  destruct (Parse_size F windows _ _ v L T) as [P _]. apply H. apply P. rewrite <- E. exact Hv.
Qed.
