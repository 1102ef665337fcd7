(** The [dir] stream of a project. *)
From Coq Require Import List NArith ZArith Bool Lia.
From Coq Require Import ZifyBool ZifyNat ZifyN.
From Verif Require Import Lib.Res Lib.Bytes Lib.BytesFacts Lib.NumFacts Common.Model Common.Spec Common.ReadProofs Common.Utf8 Common.Utf8Proofs
     Vba.Model Vba.Analyze Vba.DirSpec Vba.Statements.
Import ListNotations.
Local Open Scope N_scope.
Ltac Zify.zify_post_hook ::= Z.div_mod_to_equations.
Arguments N.pow : simpl never.

Definition here (mem : bytes) (i : N) (w : bytes) : Prop := window mem i (lenN w) w.
Lemma here_app mem i w1 w2 : here mem i (w1 ++ w2) -> here mem i w1 /\ here mem (i + lenN w1) w2.
Proof.
  intros [_ (pre & post & E & L)]. split; (split; [reflexivity|]).
  - exists pre, (w2 ++ post). rewrite E, <- app_assoc. split; [reflexivity|exact L].
  - exists (pre ++ w1), post. rewrite E, lenN_app, <- !app_assoc. split; [reflexivity|lia].
Qed.
Lemma here_nth mem i w j b : here mem i w -> nthN w j = Some b -> nthN mem (i + j) = Some b.
Proof.
  intros [_ (pre & post & E & L)] H. rewrite E, <- L. rewrite nthN_app2 by lia. replace (lenN pre + j - lenN pre) with j by lia.
  rewrite nthN_app1; [exact H|]. apply nthN_Some_lt in H. exact H.
Qed.
Lemma here_len mem i w : here mem i w -> i + lenN w <= lenN mem.
Proof. intros [_ (pre & post & E & L)]. rewrite E, !lenN_app. lia. Qed.
Lemma len_to_le n v : lenN (to_le n v) = N.of_nat n.
Proof. apply lenN_to_le. Qed.
Lemma len_units w l : lenN (units w l) = N.of_nat w * lenN l.
Proof.
  unfold units. induction l as [|u l IH]; cbn [map List.concat]; [change (lenN (@nil byte)) with 0; change (lenN (@nil N)) with 0; lia|].
  rewrite lenN_app, lenN_to_le, IH, lenN_cons. lia.
Qed.

Section dir.
  Variables (mem : bytes) (len : N).
  Hypothesis Hl : len <= lenN mem.
  Hypothesis H32 : len < 2 ^ 32 - 64.
  Let b : buffer := (len, mem).
  Lemma P32 : 2 ^ 32 = 4294967296. Proof. reflexivity. Qed.

  Lemma uint_here i n : here mem i (to_le 4 n) -> n < 2 ^ 32 -> i + 4 <= len -> ReadUInt mem len i true = Ok n.
  Proof.
    intros A B C. pose proof P32 as E. assert (R : ReadUInt mem len i true = ReadUInt mem (lenN mem) i true).
    { unfold ReadUInt. rewrite u32_small by lia. replace (len <? i + 3) with false by lia. replace (lenN mem <? i + 3) with false by lia. reflexivity. }
    rewrite R. rewrite (ReadUInt_value mem i (to_le 4 n) true); [rewrite le_to_le_id by exact B; reflexivity|lia|].
    unfold here in A. rewrite lenN_to_le in A. exact A.
  Qed.
  Lemma ushort_here i n : here mem i (to_le 2 n) -> n < 65536 -> i + 2 <= len -> ReadUShort mem len i false = Ok n.
  Proof.
    intros A B C. pose proof P32 as E. assert (R : ReadUShort mem len i false = ReadUShort mem (lenN mem) i false).
    { unfold ReadUShort. rewrite u32_small by lia. replace (len <? i + 1) with false by lia. replace (lenN mem <? i + 1) with false by lia. reflexivity. }
    rewrite R. rewrite (ReadUShort_value mem i (to_le 2 n) false); [rewrite le_to_le_id by exact B; reflexivity|lia|].
    unfold here in A. rewrite lenN_to_le in A. exact A.
  Qed.
  Lemma str_here i s : here mem i (sized s) -> i + 4 + lenN s <= len -> ReadStr b i = Ok (i + 4 + lenN s, s).
  Proof.
    intros A C. pose proof P32 as E. unfold sized in A. apply here_app in A. destruct A as [A1 A2]. rewrite len_to_le in A2.
    unfold ReadStr, b. rewrite (uint_here i (lenN s) A1); [|lia|lia]. cbn [bind]. unfold Common.Model.ReadString.
    rewrite (u32_small (i + 4)) by lia. rewrite !u32_small by lia. replace (len <? i + 4 + lenN s) with false by lia.
    rewrite (proj2 (slice_window mem (i + 4) (lenN s) s) A2). cbn [bind]. f_equal. f_equal. lia.
  Qed.
  Lemma rec_here i id s : here mem i (text_record id s) -> i + 6 + lenN s <= len -> ReadStr b (skip i 2) = Ok (i + 6 + lenN s, s).
  Proof.
    intros A C. pose proof P32 as E. unfold skip. rewrite u32_small by lia. apply here_app in A. destruct A as [_ A]. rewrite len_to_le in A.
    rewrite (str_here (i + 2) s A) by lia. f_equal. f_equal. lia.
  Qed.
  Lemma second_units l : Forall (fun u => u < 65536) l -> every_second (units 2 l) = map n2b l.
  Proof.
    intros H. induction H as [|u l Hu _ IH]; [reflexivity|]. unfold units in *. cbn [map List.concat].
    change (to_le 2 u) with [n2b u; n2b (u / 256)]. cbn [app every_second]. rewrite IH. reflexivity.
  Qed.
  Lemma strw_here i w : here mem i (sized (utf16 w)) -> wide_text w -> i + 4 + 2 * lenN w <= len ->
    ReadStrW windows b i = Ok (i + 4 + 2 * lenN w, map n2b w, w).
  Proof.
    intros A W C. pose proof P32 as E. unfold sized, utf16 in A. apply here_app in A. destruct A as [A1 A2]. rewrite len_to_le in A2.
    rewrite len_units in A1. unfold here in A2. rewrite len_units in A2. change (N.of_nat 2) with 2 in *. change (N.of_nat 4) with 4 in *.
    unfold ReadStrW, b. rewrite (uint_here i (2 * lenN w) A1); [|lia|lia]. cbn [bind].
    rewrite !u32_small by lia. replace (len <? i + 4 + 2 * lenN w) with false by lia.
    replace (i + 4 + 2 * lenN w - (i + 4)) with (2 * lenN w) by lia.
    change (sizeof_wchar windows) with 2. replace (2 * lenN w / 2 * 2) with (2 * lenN w) by lia.
    rewrite (proj2 (slice_window mem (i + 4) (2 * lenN w) (units 2 w)) A2). cbn [bind].
    rewrite second_units by exact W. unfold to_wchars. change (N.to_nat (sizeof_wchar windows)) with 2%nat.
    rewrite wchars_units; [f_equal; f_equal; f_equal; lia|lia|exact W|].
    assert (Q : lenN (units 2 w) = 2 * lenN w) by (rewrite len_units; lia). unfold lenN in Q. lia.
  Qed.

  (** ** Records of a module *)
  Inductive mrec : N -> bytes -> (module -> module) -> Prop :=
  | r_name s : mrec 25 (sized s) (fun m => mkModule s (md_StreamName m) (md_StreamNamePole m) (md_StreamNameW m) (md_Offset m) (md_Code m) (md_isPrivate m) (md_isReadOnly m))
  | r_namew s : mrec 71 (sized s) (fun m => m)
  | r_stream s w : wide_text w -> mrec 26 (sized s ++ text_record 50 (utf16 w))
      (fun m => mkModule (md_Name m) s (map n2b w) w (md_Offset m) (md_Code m) (md_isPrivate m) (md_isReadOnly m))
  | r_doc s w : mrec 28 (sized s ++ text_record 72 w) (fun m => m)
  | r_offset o : o < 2 ^ 32 -> mrec 49 (to_le 4 4 ++ to_le 4 o)
      (fun m => mkModule (md_Name m) (md_StreamName m) (md_StreamNamePole m) (md_StreamNameW m) o (md_Code m) (md_isPrivate m) (md_isReadOnly m))
  | r_help v : mrec 30 (to_le 4 4 ++ to_le 4 v) (fun m => m)
  | r_cookie v : mrec 44 (to_le 4 2 ++ to_le 2 v) (fun m => m)
  | r_type (t : bool) : mrec (if t then 34 else 33) (to_le 4 0) (fun m => m)
  | r_ro : mrec 37 (to_le 4 0)
      (fun m => mkModule (md_Name m) (md_StreamName m) (md_StreamNamePole m) (md_StreamNameW m) (md_Offset m) (md_Code m) (md_isPrivate m) true)
  | r_priv : mrec 40 (to_le 4 0)
      (fun m => mkModule (md_Name m) (md_StreamName m) (md_StreamNamePole m) (md_StreamNameW m) (md_Offset m) (md_Code m) true (md_isReadOnly m))
  | r_end : mrec 43 [] (fun m => m).
  Ltac ids := repeat match goal with |- context [?a =? ?c] => change (a =? c) with false || change (a =? c) with true end; cbn iota.
  Lemma record_here id w f i m : mrec id w f -> here mem i w -> i + lenN w <= len ->
    module_record windows b id i m = Ok (i + lenN w, f m).
  Proof.
    intros R A C. pose proof P32 as E. destruct m as [n sn snp snw off code priv ro].
    destruct R as [s|s|s w W|s w|o Ho|v|v|t| | |]; unfold module_record; cbn [md_Name md_StreamName md_StreamNamePole md_StreamNameW md_Offset md_Code md_isPrivate md_isReadOnly].
    - ids. unfold sized in C. rewrite lenN_app, len_to_le in C. rewrite (str_here i s A) by lia. cbn [bind]. f_equal. f_equal.
      unfold sized. rewrite lenN_app, len_to_le. lia.
    - ids. unfold sized in C. rewrite lenN_app, len_to_le in C. rewrite (str_here i s A) by lia. cbn [bind]. f_equal. f_equal.
      unfold sized. rewrite lenN_app, len_to_le. lia.
    - ids. apply here_app in A. destruct A as [A1 A2]. unfold text_record in A2. apply here_app in A2. destruct A2 as [_ A2].
      unfold text_record, utf16 in *. unfold sized in C, A2. unfold sized at 2.
      rewrite ?lenN_app, ?len_to_le, ?len_units in *. unfold sized in *. rewrite ?lenN_app, ?len_to_le, ?len_units in *. change (N.of_nat 2) with 2 in *. change (N.of_nat 4) with 4 in *.
      rewrite (str_here i s A1) by lia. cbn [bind]. unfold skip. rewrite u32_small by lia.
      rewrite (strw_here (i + 4 + lenN s + 2) w); [|replace (i + 4 + lenN s + 2) with (i + (4 + lenN s) + 2) by lia; unfold sized, utf16; rewrite len_units; exact A2|exact W|lia].
      cbn [bind]. f_equal. f_equal. lia.
    - ids. apply here_app in A. destruct A as [A1 A2]. unfold text_record in *. rewrite !lenN_app in *. unfold sized in C at 1. rewrite lenN_app, len_to_le in C.
      rewrite len_to_le in C. unfold sized in C. rewrite lenN_app, len_to_le in C. change (N.of_nat 2) with 2 in *. change (N.of_nat 4) with 4 in *.
      rewrite (str_here i s A1) by lia. cbn [bind].
      assert (L1 : i + lenN (sized s) = i + 4 + lenN s) by (unfold sized; rewrite lenN_app, len_to_le; lia). rewrite L1 in A2.
      rewrite (rec_here (i + 4 + lenN s) 72 w A2) by lia. cbn [bind]. f_equal. f_equal. rewrite len_to_le. unfold sized. rewrite !lenN_app, !len_to_le. lia.
    - ids. apply here_app in A. destruct A as [A1 A2]. rewrite lenN_app, !len_to_le in *. change (N.of_nat 4) with 4 in *.
      unfold skip. rewrite !u32_small by lia. unfold b. cbn [fst snd]. rewrite (uint_here (i + 4) o A2 Ho) by lia. cbn [bind]. f_equal. f_equal. lia.
    - ids. rewrite lenN_app, !len_to_le in *. change (N.of_nat 4) with 4 in *. unfold skip. rewrite u32_small by lia. reflexivity.
    - ids. rewrite lenN_app, !len_to_le in *. change (N.of_nat 4) with 4 in *. change (N.of_nat 2) with 2 in *. unfold skip. rewrite u32_small by lia. reflexivity.
    - rewrite len_to_le in *. change (N.of_nat 4) with 4 in *. destruct t; ids; cbn [orb]; unfold skip; rewrite u32_small by lia; reflexivity.
    - rewrite len_to_le in *. change (N.of_nat 4) with 4 in *. ids; cbn [orb]; unfold skip; rewrite u32_small by lia; reflexivity.
    - rewrite len_to_le in *. change (N.of_nat 4) with 4 in *. ids; cbn [orb]; unfold skip; rewrite u32_small by lia; reflexivity.
    - ids. cbn [orb]. change (lenN (@nil byte)) with 0. rewrite N.add_0_r. reflexivity.
  Qed.
  Lemma record_step k id0 id w f i m : id0 <> 43 -> id < 65536 -> mrec id w f -> here mem i (to_le 2 id ++ w) -> i + 2 + lenN w <= len ->
    module_records (S k) windows b id0 i m = module_records k windows b id (i + 2 + lenN w) (f m).
  Proof.
    intros N0 B R A C. pose proof P32 as E. apply here_app in A. destruct A as [A1 A2]. rewrite len_to_le in A2. change (N.of_nat 2) with 2 in A2.
    cbn [module_records]. replace (id0 =? 43) with false by lia. unfold b at 1. cbn [fst negb andb]. replace (i <? len) with true by lia.
    unfold b at 1 2. cbn [fst snd]. rewrite (ushort_here i id A1 B) by lia. cbn [bind]. unfold skip. rewrite u32_small by lia.
    rewrite (record_here id w f (i + 2) m R A2) by lia. cbn [bind]. reflexivity.
  Qed.
  Lemma records_end k i m : module_records (S k) windows b 43 i m = Ok (i, m).
  Proof. reflexivity. Qed.

  (** The records of a stored module in order. *)
  Inductive mrecs : bytes -> (module -> module) -> nat -> Prop :=
  | m_end : mrecs (to_le 2 43) (fun m => m) 1
  | m_cons id w f ws g n : id < 65536 -> id <> 43 -> mrec id w f -> mrecs ws g n -> mrecs ((to_le 2 id ++ w) ++ ws) (fun m => g (f m)) (S n).
  Lemma mrecs_ok ws g n : mrecs ws g n -> forall k id0 i m, id0 <> 43 -> here mem i ws -> i + lenN ws <= len ->
    module_records (S n + k) windows b id0 i m = Ok (i + lenN ws, g m).
  Proof.
    intros H. induction H as [|id w f ws g n B N43 R Rs IH]; intros k id0 i m N0 A C.
    - rewrite len_to_le in C |- *. cbn [Nat.add]. rewrite (record_step _ id0 43 [] (fun m => m) i m); [|exact N0|lia|constructor|rewrite app_nil_r; exact A|change (lenN (@nil byte)) with 0; lia].
      rewrite records_end. change (lenN (@nil byte)) with 0. f_equal. f_equal. lia.
    - apply here_app in A. destruct A as [A1 A2]. rewrite lenN_app in C |- *. rewrite lenN_app, len_to_le in *. change (N.of_nat 2) with 2 in *.
      cbn [Nat.add]. rewrite (record_step _ id0 id w f i m N0 B R A1) by lia.
      replace (i + (2 + lenN w)) with (i + 2 + lenN w) in A2 by lia.
      change (S (n + k)) with (S n + k)%nat. rewrite (IH k id (i + 2 + lenN w) (f m) N43 A2) by lia. f_equal. f_equal. lia.
  Qed.
End dir.
Lemma mrecs_size ws g n : mrecs ws g n -> N.of_nat n <= lenN ws.
Proof. intros H. induction H as [|id w f ws g n B N43 R Rs IH]; [rewrite len_to_le; lia|]. rewrite !lenN_app, len_to_le. lia. Qed.

(** The object before its source text is fetched. *)
Definition parsed (m : vba_module) : module := module_of m [].
Lemma cons_rec id w f ws g g' n : id < 65536 -> id <> 43 -> mrec id w f -> mrecs ws g n -> (forall m, g' m = g (f m)) ->
  exists h k, mrecs (to_le 2 id ++ w ++ ws) h k /\ (forall m, h m = g' m).
Proof. intros A B C D E. exists (fun m => g (f m)), (S n). rewrite app_assoc. split; [constructor; assumption|]. intros m. symmetry. apply E. Qed.
Definition gives (ws : bytes) (g : module -> module) : Prop := exists h k, mrecs ws h k /\ forall m, h m = g m.
Lemma gives_end : gives (to_le 2 43) (fun m => m).
Proof. exists (fun m => m), 1%nat. split; [constructor|reflexivity]. Qed.
Lemma gives_cons id w f ws g : id < 65536 -> id <> 43 -> mrec id w f -> gives ws g -> gives (to_le 2 id ++ w ++ ws) (fun m => g (f m)).
Proof.
  intros A B C (h & k & D & E). exists (fun m => h (f m)), (S k). rewrite app_assoc. split; [constructor; assumption|]. intros m. apply E.
Qed.
Lemma gives_ext ws g g' : gives ws g -> (forall m, g m = g' m) -> gives ws g'.
Proof. intros (h & k & D & E) H. exists h, k. split; [exact D|]. intros m. rewrite E. apply H. Qed.

Lemma module_recs m : good_module m -> exists ws g n, module_stored m = ws ++ to_le 4 0 /\ mrecs ws g n /\ g new_module = parsed m.
Proof.
  intros (W & O & _). destruct m as [nm nw st sw dc dw off hp ck ty ro pv]. cbn [vm_stream_wide vm_offset] in *.
  assert (T1 : gives ((if pv then to_le 2 40 ++ to_le 4 0 else []) ++ to_le 2 43)
     (fun m => if pv then mkModule (md_Name m) (md_StreamName m) (md_StreamNamePole m) (md_StreamNameW m) (md_Offset m) (md_Code m) true (md_isReadOnly m) else m)).
  { destruct pv; [|exact gives_end]. rewrite <- app_assoc.
    exact (gives_cons 40 (to_le 4 0) _ (to_le 2 43) (fun m => m) ltac:(lia) ltac:(lia) r_priv gives_end). }
  assert (T2 : gives ((if ro then to_le 2 37 ++ to_le 4 0 else []) ++ (if pv then to_le 2 40 ++ to_le 4 0 else []) ++ to_le 2 43)
     (fun m => mkModule (md_Name m) (md_StreamName m) (md_StreamNamePole m) (md_StreamNameW m) (md_Offset m) (md_Code m)
                 (if pv then true else md_isPrivate m) (if ro then true else md_isReadOnly m))).
  { destruct ro.
    - rewrite <- app_assoc. eapply gives_ext; [exact (gives_cons 37 (to_le 4 0) _ _ _ ltac:(lia) ltac:(lia) r_ro T1)|].
      intros m. destruct pv; reflexivity.
    - eapply gives_ext; [exact T1|]. intros [? ? ? ? ? ? ? ?]. destruct pv; reflexivity. }
  pose proof (gives_cons (if ty then 34 else 33) (to_le 4 0) _ _ _ ltac:(destruct ty; lia) ltac:(destruct ty; lia) (r_type ty) T2) as T3. clear T1 T2.
  pose proof (gives_cons 44 (to_le 4 2 ++ to_le 2 ck) _ _ _ ltac:(lia) ltac:(lia) (r_cookie ck) T3) as T4. clear T3.
  pose proof (gives_cons 30 (to_le 4 4 ++ to_le 4 hp) _ _ _ ltac:(lia) ltac:(lia) (r_help hp) T4) as T5. clear T4.
  pose proof (gives_cons 49 (to_le 4 4 ++ to_le 4 off) _ _ _ ltac:(lia) ltac:(lia) (r_offset off O) T5) as T6. clear T5.
  pose proof (gives_cons 28 (sized dc ++ text_record 72 (utf16 dw)) _ _ _ ltac:(lia) ltac:(lia) (r_doc dc (utf16 dw)) T6) as T7. clear T6.
  pose proof (gives_cons 26 (sized st ++ text_record 50 (utf16 sw)) _ _ _ ltac:(lia) ltac:(lia) (r_stream st sw W) T7) as T8. clear T7.
  match type of T8 with gives ?ws ?g =>
    assert (T9 : gives ((match nw with Some w => text_record 71 (utf16 w) | None => [] end) ++ ws) g) end.
  { destruct nw as [w|]; [|exact T8]. unfold text_record at 1. rewrite <- app_assoc.
    exact (gives_cons 71 (sized (utf16 w)) _ _ _ ltac:(lia) ltac:(lia) (r_namew (utf16 w)) T8). }
  clear T8. pose proof (gives_cons 25 (sized nm) _ _ _ ltac:(lia) ltac:(lia) (r_name nm) T9) as (h & k & D & E). clear T9.
  eexists _, h, k. split; [|split; [exact D|]].
  - unfold module_stored. cbn [vm_name vm_name_wide vm_stream vm_stream_wide vm_doc vm_doc_wide vm_offset vm_help vm_cookie vm_document vm_read_only vm_private].
    unfold text_record. rewrite <- !app_assoc. reflexivity.
  - rewrite E. unfold parsed, module_of, new_module. cbn. destruct pv, ro; reflexivity.
Qed.

(** ** All modules *)
Lemma stored_first m : exists rest, module_stored m = to_le 2 25 ++ rest.
Proof. unfold module_stored, text_record. rewrite <- !app_assoc. eexists. reflexivity. Qed.

Section whole.
  Variables (mem : bytes) (len : N).
  Hypothesis Hl : len <= lenN mem.
  Hypothesis H32 : len < 2 ^ 32 - 64.
  Let b : buffer := (len, mem).

  Lemma one_module k code i m acc : good_module m -> here mem i (module_stored m) -> i + lenN (module_stored m) <= len ->
    modules (S k) windows code b i acc =
    (c <- code (vm_stream_wide m) (vm_offset m) ;; modules k windows code b (i + lenN (module_stored m)) (acc ++ [module_of m c])).
  Proof.
    intros G A C. subst b. pose proof P32 as E. destruct (module_recs m G) as (ws & g & n & Es & R & Eg). destruct (stored_first m) as (rest & Ef).
    assert (Lm : lenN (module_stored m) = lenN ws + 4) by (rewrite Es, lenN_app, len_to_le; lia).
    pose proof (mrecs_size ws g n R) as Sz.
    assert (A0 : here mem i (to_le 2 25)) by (rewrite Ef in A; apply here_app in A; destruct A as [A _]; exact A).
    assert (A1 : here mem i ws) by (rewrite Es in A; apply here_app in A; destruct A as [A _]; exact A).
    cbn [modules]. cbn [fst]. replace (i <? len) with true by lia.
    cbn [fst snd]. rewrite (ushort_here mem len Hl H32 i 25 A0) by lia. cbn [bind].
    cbn [fst].
    replace (S (N.to_nat len)) with (S n + (N.to_nat len - n))%nat by lia.
    rewrite (mrecs_ok mem len Hl H32 ws g n R (N.to_nat len - n) 25 i new_module); [|lia|exact A1|lia]. cbn [bind]. rewrite Eg.
    unfold skip. rewrite u32_small by lia. replace (i + lenN ws + 4) with (i + lenN (module_stored m)) by lia.
    unfold parsed, module_of. cbn [md_StreamName md_Name md_StreamNamePole md_StreamNameW md_Offset md_isPrivate md_isReadOnly].
    destruct G as (_ & _ & Ne). destruct (vm_stream m) as [|s0 s]; [contradiction|]. reflexivity.
  Qed.
  Lemma all_modules code ms : forall k i acc, Forall good_module ms -> here mem i (concat (map module_stored ms)) ->
    i + lenN (concat (map module_stored ms)) <= len -> 
    modules (List.length ms + k) windows code b i acc =
    (cs <- mapM (fun m => code (vm_stream_wide m) (vm_offset m)) ms ;;
     modules k windows code b (i + lenN (concat (map module_stored ms))) (acc ++ map (fun '(m, c) => module_of m c) (combine ms cs))).
  Proof.
    induction ms as [|m ms IH]; intros k i acc G A C.
    - subst b. cbn [List.length Nat.add mapM bind map concat combine]. change (lenN (@nil byte)) with 0. rewrite N.add_0_r, app_nil_r. reflexivity.
    - apply Forall_cons_iff in G. destruct G as [G Gs]. cbn [map concat] in *. rewrite lenN_app in *. apply here_app in A. destruct A as [A1 A2].
      cbn [List.length Nat.add]. rewrite (one_module _ code i m acc G A1) by lia. cbn [mapM].
      destruct (code (vm_stream_wide m) (vm_offset m)) as [c|e| |]; cbn [bind]; try reflexivity.
      rewrite (IH k _ _ Gs A2) by lia.
      destruct (mapM (fun m => code (vm_stream_wide m) (vm_offset m)) ms) as [cs|e| |]; cbn [bind]; try reflexivity.
      cbn [combine map]. rewrite <- app_assoc. cbn [app]. rewrite N.add_assoc. reflexivity.
  Qed.
  (** The two words after the modules. *)
  Lemma terminator k code i acc : here mem i (to_le 2 16 ++ to_le 4 0) -> i + 6 = len -> 
    modules (S (S k)) windows code b i acc = Ok acc.
  Proof.
    intros A C. subst b. pose proof P32 as E. cbn [modules]. cbn [fst]. replace (i <? len) with true by lia.
    apply here_app in A. destruct A as [A1 A2]. rewrite len_to_le in A2. change (N.of_nat 2) with 2 in A2.
    change (to_le 4 0) with (to_le 2 0 ++ to_le 2 0) in A2. apply here_app in A2. destruct A2 as [A2 A3]. rewrite len_to_le in A3. change (N.of_nat 2) with 2 in A3.
    cbn [fst snd]. rewrite (ushort_here mem len Hl H32 i 16 A1) by lia. cbn [bind].
    cbn [fst]. replace (S (N.to_nat len)) with (S (S (S (S (N.to_nat len - 3))))) by lia.
    cbn [module_records]. change (16 =? 43) with false. cbn [negb andb fst]. replace (i <? len) with true by lia.
    cbn [fst snd]. rewrite (ushort_here mem len Hl H32 i 16 A1) by lia. cbn [bind].
    unfold skip at 1. rewrite u32_small by lia.
    change (module_record windows (len, mem) 16 (i + 2) new_module) with (Ok (i + 2, new_module)). cbn [bind].
    change (16 =? 43) with false. cbn [negb andb fst]. replace (i + 2 <? len) with true by lia.
    cbn [fst snd]. rewrite (ushort_here mem len Hl H32 (i + 2) 0 A2) by lia. cbn [bind].
    unfold skip at 1. rewrite u32_small by lia.
    change (module_record windows (len, mem) 0 (i + 2 + 2) new_module) with (Ok (i + 2 + 2, new_module)). cbn [bind].
    change (0 =? 43) with false. cbn [negb andb fst]. replace (i + 2 + 2 <? len) with true by lia.
    cbn [fst snd]. rewrite (ushort_here mem len Hl H32 (i + 2 + 2) 0 A3) by lia. cbn [bind].
    unfold skip at 1. rewrite u32_small by lia.
    change (module_record windows (len, mem) 0 (i + 2 + 2 + 2) new_module) with (Ok (i + 2 + 2 + 2, new_module)). cbn [bind].
    change (0 =? 43) with false. cbn [negb andb fst]. replace (i + 2 + 2 + 2 <? len) with false by lia. cbn [bind].
    change (md_StreamName new_module) with (@nil byte). cbn iota. cbn [modules]. unfold skip. rewrite u32_small by lia.
    cbn [fst]. replace (i + 2 + 2 + 2 + 4 <? len) with false by lia. reflexivity.
  Qed.

  (** The records before the references. *)
  Lemma head_here p : lenN (vp_head p) = 38 -> here mem 0 (project_records p) -> lenN (project_records p) <= len ->
    exists v, here mem v ((to_le 2 9 ++ to_le 4 4 ++ to_le 4 (vp_major p) ++ to_le 2 (vp_minor p)) ++
                          text_record 12 (vp_constants p) ++ text_record 60 (utf16 (vp_constants_wide p))) /\
    forall pl code version,
    project_info pl code version b =
      (major <- slice mem (v + 8) 4 ;;
       minor <- slice mem (v + 12) 2 ;;
       '(index, refs) <- references (S (N.to_nat len)) b (lenN (project_records p)) [] ;;
       mods <- modules (S (N.to_nat len)) pl code b (skip index 16) [] ;;
       Ok (mkProject version (vp_name p) refs mods (le major) (le minor))).
  Proof.
    intros H38 A C. subst b. pose proof P32 as E.
    assert (Lr : forall id s, lenN (text_record id s) = 6 + lenN s) by (intros; unfold text_record, sized; rewrite !lenN_app, !len_to_le; lia).
    unfold project_records in *.
    repeat (rewrite lenN_app in C at 1). rewrite ?Lr, ?lenN_app, ?len_to_le, ?H38 in C. change (N.of_nat 2) with 2 in C. change (N.of_nat 4) with 4 in C.
    apply here_app in A. destruct A as [_ A]. rewrite H38 in A. change (0 + 38) with 38 in A.
    apply here_app in A. destruct A as [A1 A]. rewrite Lr in A.
    apply here_app in A. destruct A as [A2 A]. rewrite Lr in A.
    apply here_app in A. destruct A as [A3 A]. rewrite Lr in A.
    apply here_app in A. destruct A as [A4 A]. rewrite Lr in A.
    apply here_app in A. destruct A as [A5 A]. rewrite Lr in A.
    apply here_app in A. destruct A as [_ A]. rewrite !lenN_app, !len_to_le in A. change (N.of_nat 2 + (N.of_nat 4 + N.of_nat 4)) with 10 in A.
    apply here_app in A. destruct A as [_ A]. rewrite !lenN_app, !len_to_le in A. change (N.of_nat 2 + (N.of_nat 4 + N.of_nat 4)) with 10 in A.
    set (v5 := 38 + (6 + lenN (vp_name p)) + (6 + lenN (vp_doc p)) + (6 + lenN (utf16 (vp_doc_wide p))) + (6 + lenN (vp_help1 p)) + (6 + lenN (vp_help2 p))) in *.
    exists (v5 + 10 + 10). split; [exact A|]. intros pl code version.
    apply here_app in A. destruct A as [_ A]. rewrite !lenN_app, !len_to_le in A. change (N.of_nat 2 + (N.of_nat 4 + (N.of_nat 4 + N.of_nat 2))) with 12 in A.
    apply here_app in A. destruct A as [A6 A7]. rewrite Lr in A7.
    unfold project_info. change 40 with (38 + 2).
    assert (E0 : 38 + 2 = skip 38 2) by reflexivity. rewrite E0.
    rewrite (rec_here mem len Hl H32 38 4 (vp_name p) A1) by lia. cbn [bind].
    rewrite (rec_here mem len Hl H32 (38 + 6 + lenN (vp_name p)) 5 (vp_doc p)); [|rewrite N.add_assoc in A2; exact A2|lia]. cbn [bind].
    rewrite !N.add_assoc in *.
    rewrite (rec_here mem len Hl H32 _ 64 (utf16 (vp_doc_wide p)) A3) by lia. cbn [bind].
    rewrite (rec_here mem len Hl H32 _ 6 (vp_help1 p) A4) by lia. cbn [bind].
    rewrite (rec_here mem len Hl H32 _ 61 (vp_help2 p) A5) by lia. cbn [bind].
    match goal with |- context [skip (skip ?x 10) 10] => replace x with v5 by (unfold v5; lia) end.
    assert (Es1 : skip v5 10 = v5 + 10) by (apply u32_small; lia). assert (Es2 : skip (v5 + 10) 10 = v5 + 10 + 10) by (apply u32_small; lia).
    rewrite Es1, Es2.
    cbn [snd]. destruct (slice mem (v5 + 10 + 10 + 8) 4) as [major|e| |]; cbn [bind]; try reflexivity.
    cbn [snd]. destruct (slice mem (v5 + 10 + 10 + 12) 2) as [minor|e| |]; cbn [bind]; try reflexivity.
    assert (Es : skip (v5 + 10 + 10) 12 = v5 + 10 + 10 + 12) by (apply u32_small; lia). rewrite Es.
    rewrite (rec_here mem len Hl H32 _ 12 (vp_constants p) A6) by lia. cbn [bind].
    rewrite (rec_here mem len Hl H32 _ 60 (utf16 (vp_constants_wide p)) A7) by lia. cbn [bind].
    cbn [fst].
    rewrite !lenN_app, !Lr, !len_to_le, H38.
    match goal with |- (_ <- references _ _ ?x _ ;; _) = (_ <- references _ _ ?y _ ;; _) => replace y with x by (unfold v5; lia) end.
    reflexivity.
  Qed.
End whole.

Lemma version_values mem v major minor w : major < 2 ^ 32 -> minor < 65536 ->
  here mem v ((to_le 2 9 ++ to_le 4 4 ++ to_le 4 major ++ to_le 2 minor) ++ text_record 12 w) ->
  exists a c, slice mem (v + 8) 4 = Ok a /\ slice mem (v + 12) 2 = Ok c /\ le a = major / 65536 + 65536 * minor /\ le c = 12.
Proof.
  intros B1 B2 A. unfold text_record in A. change (2 ^ 32) with 4294967296 in B1.
  change (to_le 2 12) with [x0c; x00] in A. cbn [to_le app] in A.
  change (here mem v ([n2b 9; n2b (9 / 256); n2b 4; n2b (4 / 256); n2b (4 / 256 / 256); n2b (4 / 256 / 256 / 256); n2b major; n2b (major / 256)] ++
    [n2b (major / 256 / 256); n2b (major / 256 / 256 / 256); n2b minor; n2b (minor / 256)] ++ [x0c; x00] ++ sized w)) in A.
  apply here_app in A. destruct A as [_ A]. apply here_app in A. destruct A as [A1 A]. apply here_app in A. destruct A as [A2 _].
  eexists _, _. split; [apply slice_window; exact A1|]. split; [apply slice_window|split].
  - replace (v + 12) with (v + lenN [n2b 9; n2b (9 / 256); n2b 4; n2b (4 / 256); n2b (4 / 256 / 256); n2b (4 / 256 / 256 / 256); n2b major; n2b (major / 256)] +
      lenN [n2b (major / 256 / 256); n2b (major / 256 / 256 / 256); n2b minor; n2b (minor / 256)]) by (unfold lenN; cbn [List.length]; lia). exact A2.
  - cbn [le]. rewrite !b2n_n2b. lia.
  - reflexivity.
Qed.

Lemma in_memory_here d z i w : here d i w -> here (d ++ repeatN x00 z) i w.
Proof. intros [_ (pre & post & E & L)]. split; [reflexivity|]. exists pre, (post ++ repeatN x00 z). rewrite E, <- !app_assoc. split; [reflexivity|exact L]. Qed.
Lemma here_self d : here d 0 d.
Proof. split; [reflexivity|]. exists [], []. rewrite app_nil_r. split; reflexivity. Qed.
Lemma stored_count ms : N.of_nat (List.length ms) <= lenN (concat (map module_stored ms)).
Proof.
  induction ms as [|m ms IH]; [cbn; lia|]. cbn [map concat List.length]. rewrite lenN_app. destruct (stored_first m) as (rest & ->). rewrite lenN_app, len_to_le. lia.
Qed.

Section main.
  Variables (p : vba_project) (z : N) (version : N).
  Hypothesis G : good_project p.
  Let d := dir_stored p.
  Hypothesis L : lenN d < 2 ^ 32 - 64.
  Let mem := d ++ repeatN x00 z.

  Lemma Hl : lenN d <= lenN mem.
  Proof. unfold mem. rewrite lenN_app. lia. Qed.
  Lemma split_dir : here mem 0 (project_records p) /\
    here mem (lenN (project_records p)) (concat (map reference_stored (vp_references p)) ++ modules_head p ++
       concat (map module_stored (vp_modules p)) ++ to_le 2 16 ++ to_le 4 0).
  Proof.
    pose proof (here_self d) as A. apply (in_memory_here d z) in A. fold mem in A. unfold d, dir_stored in A.
    apply here_app in A. destruct A as [A1 A2]. split; [exact A1|]. rewrite N.add_0_l in A2. exact A2.
  Qed.
  Lemma len_dir : lenN d = lenN (project_records p) + (lenN (concat (map reference_stored (vp_references p))) + (16 + (lenN (concat (map module_stored (vp_modules p))) + 6))).
  Proof. unfold d, dir_stored, modules_head. rewrite !lenN_app, !len_to_le. lia. Qed.

  Theorem no_references code : vp_references p = [] ->
    project_info windows code version (in_memory d z) =
    (cs <- mapM (fun m => code (vm_stream_wide m) (vm_offset m)) (vp_modules p) ;;
     Ok (mkProject version (vp_name p) [] (map (fun '(m, c) => module_of m c) (combine (vp_modules p) cs))
                   (vp_major p / 65536 + 65536 * vp_minor p) 12)).
  Proof.
    intros R. destruct G as (H38 & Bm & Bn & Gm). destruct split_dir as [A1 A2]. rewrite R in A2. cbn [map concat app] in A2.
    pose proof len_dir as Ld. rewrite R in Ld. cbn [map concat] in Ld. change (lenN (@nil byte)) with 0 in Ld. pose proof P32 as E.
    destruct (head_here mem (lenN d) Hl L p H38 A1 ltac:(lia)) as (v & Av & Ep). unfold in_memory. fold mem. rewrite Ep. clear Ep.
    rewrite app_assoc in Av. apply here_app in Av. destruct Av as [Av _].
    destruct (version_values mem v (vp_major p) (vp_minor p) (vp_constants p) Bm Bn Av) as (a & c & S1 & S2 & E1 & E2). rewrite S1, S2. cbn [bind].
    rewrite E1, E2. set (o := lenN (project_records p)) in *.
    cbn [references fst snd].
    apply here_app in A2. destruct A2 as [Ah A3].
    assert (Lh : lenN (modules_head p) = 16) by (unfold modules_head; rewrite !lenN_app, !len_to_le; reflexivity). rewrite Lh in A3.
    unfold modules_head in Ah. rewrite <- !app_assoc in Ah. apply here_app in Ah. destruct Ah as [Ah _].
    rewrite (ushort_here mem (lenN d) Hl L o 15 Ah) by lia. cbn [bind]. change (15 =? 22) with false. cbn iota. cbn [bind].
    unfold skip. rewrite u32_small by lia. apply here_app in A3. destruct A3 as [A3 A4].
    pose proof (stored_count (vp_modules p)) as Sc. unfold d in *.
    replace (S (N.to_nat (lenN (dir_stored p)))) with (List.length (vp_modules p) + S (S (N.to_nat (lenN (dir_stored p)) - 1 - List.length (vp_modules p))))%nat by lia.
    rewrite (all_modules mem (lenN (dir_stored p)) Hl L code (vp_modules p) _ (o + 16) [] Gm A3) by lia.
    destruct (mapM (fun m => code (vm_stream_wide m) (vm_offset m)) (vp_modules p)) as [cs|e| |]; cbn [bind]; try reflexivity.
    rewrite (terminator mem (lenN (dir_stored p)) Hl L _ code _ _ A4) by lia. cbn [bind app]. reflexivity.
  Qed.

  Theorem first_reference pl code r rs q : vp_references p = r :: rs ->
    (let t := (lenN (rf_libid r) + 10) mod 65536 in t <> 13 /\ t <> 14 /\ t <> 22 /\ t <> 47 /\ t <> 51) ->
    project_info pl code version (in_memory d z) = Ok q -> pr_References q = [rf_name r].
  Proof.
    intros R T. cbv zeta in T. destruct G as (H38 & Bm & Bn & Gm). destruct split_dir as [A1 A2]. rewrite R in A2. cbn [map concat] in A2.
    pose proof len_dir as Ld. rewrite R in Ld. cbn [map concat] in Ld. rewrite lenN_app in Ld. pose proof P32 as E.
    destruct (head_here mem (lenN d) Hl L p H38 A1 ltac:(lia)) as (v & Av & Ep). unfold in_memory. fold mem. rewrite Ep. clear Ep.
    destruct (slice mem (v + 8) 4) as [a|e| |]; cbn [bind]; try discriminate.
    destruct (slice mem (v + 12) 2) as [c|e| |]; cbn [bind]; try discriminate.
    set (o := lenN (project_records p)) in *. rewrite <- app_assoc in A2. apply here_app in A2. destruct A2 as [A2 _].
    assert (Lr : forall id s, lenN (text_record id s) = 6 + lenN s) by (intros; unfold text_record, sized; rewrite !lenN_app, !len_to_le; lia).
    assert (Ls : lenN (reference_stored r) = (6 + lenN (rf_name r)) + (6 + lenN (utf16 (rf_name_wide r))) + (lenN (rf_libid r) + 16)).
    { unfold reference_stored. rewrite !lenN_app, !Lr, !len_to_le. unfold sized. rewrite lenN_app, len_to_le. lia. }
    unfold reference_stored in A2. apply here_app in A2. destruct A2 as [R1 A2]. rewrite Lr in A2. apply here_app in A2. destruct A2 as [R2 A2]. rewrite Lr in A2.
    apply here_app in A2. destruct A2 as [R3 A2]. rewrite len_to_le in A2. change (N.of_nat 2) with 2 in A2. apply here_app in A2. destruct A2 as [R4 _].
    set (o1 := o + (6 + lenN (rf_name r)) + (6 + lenN (utf16 (rf_name_wide r)))) in *.
    replace (to_le 4 (4 + lenN (rf_libid r) + 6)) with (to_le 2 ((lenN (rf_libid r) + 10) mod 65536) ++ to_le 2 ((lenN (rf_libid r) + 10) / 65536)) in R4.
    2:{ assert (Ev : 4 + lenN (rf_libid r) + 6 = lenN (rf_libid r) + 10) by lia. rewrite Ev. set (n := lenN (rf_libid r) + 10).
        cbn [to_le app]. repeat (apply (f_equal2 (@cons byte)); [apply b2n_inj; rewrite !b2n_n2b; lia|]). reflexivity. }
    apply here_app in R4. destruct R4 as [R4 _]. set (t := (lenN (rf_libid r) + 10) mod 65536) in *.
    assert (Bt : t < 65536) by (unfold t; lia). clearbody t.
    replace (S (N.to_nat (lenN d))) with (S (S (N.to_nat (lenN d) - 1))) by lia.
    assert (R1' : here mem o (to_le 2 22)) by (unfold text_record in R1; apply here_app in R1; destruct R1 as [R1 _]; exact R1).
    set (fm := S (S (N.to_nat (lenN d) - 1))) at 2.
    cbn [references fst snd]. rewrite (ushort_here mem (lenN d) Hl L o 22 R1') by lia. cbn [bind]. change (22 =? 22) with true. cbn iota.
    rewrite (rec_here mem (lenN d) Hl L o 22 (rf_name r) R1) by lia. cbn [bind].
    rewrite <- N.add_assoc. rewrite (rec_here mem (lenN d) Hl L _ 62 (utf16 (rf_name_wide r)) R2) by lia. cbn [bind].
    replace (o + (6 + lenN (rf_name r)) + 6 + lenN (utf16 (rf_name_wide r))) with o1 by (unfold o1; lia).
    assert (Es : skip o1 2 = o1 + 2) by (apply u32_small; lia). rewrite Es.
    rewrite (ushort_here mem (lenN d) Hl L (o1 + 2) t R4 Bt) by lia. cbn [bind]. unfold reference_tail.
    replace (t =? 51) with false by lia. replace (t =? 47) with false by lia. replace (t =? 13) with false by lia. replace (t =? 14) with false by lia. cbn [bind].
    rewrite (ushort_here mem (lenN d) Hl L (o1 + 2) t R4 Bt) by lia. cbn [bind]. replace (t =? 22) with false by lia. cbn [bind app].
    intros Q. apply bind_ok in Q. destruct Q as (ms & _ & Q). injection Q as <-. reflexivity.
  Qed.
  (** References with an identifier of three bytes, whose record has the size 13. *)
  Lemma short_reference fuel i acc r : lenN (rf_libid r) mod 65536 = 3 -> here mem i (reference_stored r) -> i + lenN (reference_stored r) + 8 < lenN d ->
    references (S fuel) (@pair N bytes (lenN d) mem) i acc = references fuel (@pair N bytes (lenN d) mem) (i + lenN (reference_stored r)) (acc ++ [rf_name r]).
  Proof.
    intros H3 A2 Bd. pose proof P32 as E.
    assert (Lr : forall id s, lenN (text_record id s) = 6 + lenN s) by (intros; unfold text_record, sized; rewrite !lenN_app, !len_to_le; lia).
    assert (Ls : lenN (reference_stored r) = (6 + lenN (rf_name r)) + (6 + lenN (utf16 (rf_name_wide r))) + (lenN (rf_libid r) + 16)).
    { unfold reference_stored. rewrite !lenN_app, !Lr, !len_to_le. unfold sized. rewrite lenN_app, len_to_le. lia. }
    rewrite Ls in *. unfold reference_stored in A2. apply here_app in A2. destruct A2 as [R1 A2]. rewrite Lr in A2. apply here_app in A2. destruct A2 as [R2 A2]. rewrite Lr in A2.
    apply here_app in A2. destruct A2 as [R3 A2]. rewrite len_to_le in A2. change (N.of_nat 2) with 2 in A2. apply here_app in A2. destruct A2 as [R4 A2].
    rewrite len_to_le in A2. change (N.of_nat 4) with 4 in A2. apply here_app in A2. destruct A2 as [R5 _].
    set (o1 := i + (6 + lenN (rf_name r)) + (6 + lenN (utf16 (rf_name_wide r)))) in *.
    replace (to_le 4 (4 + lenN (rf_libid r) + 6)) with (to_le 2 13 ++ to_le 2 ((lenN (rf_libid r) + 10) / 65536)) in R4.
    2:{ assert (Ev : 4 + lenN (rf_libid r) + 6 = lenN (rf_libid r) + 10) by lia. rewrite Ev. assert (E13 : (lenN (rf_libid r) + 10) mod 65536 = 13) by lia.
        set (n := lenN (rf_libid r) + 10) in *. clearbody n.
        cbn [to_le app]. repeat (apply (f_equal2 (@cons byte)); [apply b2n_inj; rewrite !b2n_n2b; lia|]). reflexivity. }
    apply here_app in R4. destruct R4 as [R4 _].
    assert (R1' : here mem i (to_le 2 22)) by (unfold text_record in R1; apply here_app in R1; destruct R1 as [R1 _]; exact R1).
    cbn [references fst snd]. rewrite (ushort_here mem (lenN d) Hl L i 22 R1') by lia. cbn [bind]. change (22 =? 22) with true. cbn iota.
    rewrite (rec_here mem (lenN d) Hl L i 22 (rf_name r) R1) by lia. cbn [bind].
    rewrite <- N.add_assoc. rewrite (rec_here mem (lenN d) Hl L _ 62 (utf16 (rf_name_wide r)) R2) by lia. cbn [bind].
    replace (i + (6 + lenN (rf_name r)) + 6 + lenN (utf16 (rf_name_wide r))) with o1 by (unfold o1; lia).
    assert (Es : skip o1 2 = o1 + 2) by (apply u32_small; lia). rewrite Es.
    rewrite (ushort_here mem (lenN d) Hl L (o1 + 2) 13 R4) by lia. cbn [bind]. unfold reference_tail.
    change (13 =? 51) with false. change (13 =? 47) with false. change (13 =? 13) with true. cbn iota.
    assert (Es4 : skip (o1 + 2) 4 = o1 + 2 + 4) by (apply u32_small; lia). rewrite Es4.
    rewrite (str_here mem (lenN d) Hl L (o1 + 2 + 4) (rf_libid r) R5) by lia. cbn [bind].
    unfold skip at 1. rewrite u32_small by lia.
    replace (o1 + 2 + 4 + 4 + lenN (rf_libid r) + 6) with (i + (6 + lenN (rf_name r) + (6 + lenN (utf16 (rf_name_wide r))) + (lenN (rf_libid r) + 16))) by (unfold o1; lia).
    reflexivity.
  Qed.
  Lemma short_references_all rs fuel i acc : Forall (fun r => lenN (rf_libid r) mod 65536 = 3) rs -> here mem i (concat (map reference_stored rs)) ->
    i + lenN (concat (map reference_stored rs)) + 8 < lenN d ->
    references (List.length rs + fuel) (@pair N bytes (lenN d) mem) i acc = references fuel (@pair N bytes (lenN d) mem) (i + lenN (concat (map reference_stored rs))) (acc ++ map rf_name rs).
  Proof.
    intros F. revert i acc. induction F as [|r rs Hr F IH]; intros i acc A Bd; cbn [map concat List.length Nat.add] in *.
    - change (lenN (@nil byte)) with 0. rewrite N.add_0_r, app_nil_r. reflexivity.
    - rewrite lenN_app in *. apply here_app in A. destruct A as [A1 A2]. rewrite (short_reference _ _ _ r Hr A1) by lia.
      rewrite (IH _ _ A2) by lia. rewrite <- N.add_assoc, <- app_assoc. reflexivity.
  Qed.
  Lemma reference_count rs : N.of_nat (List.length rs) <= lenN (concat (map reference_stored rs)).
  Proof.
    induction rs as [|r rs IH]; [cbn; lia|]. cbn [map concat List.length]. rewrite lenN_app. unfold reference_stored at 1, text_record at 1. rewrite !lenN_app, !len_to_le. lia.
  Qed.
  Theorem short_references code : Forall (fun r => lenN (rf_libid r) mod 65536 = 3) (vp_references p) ->
    project_info windows code version (in_memory d z) =
    (cs <- mapM (fun m => code (vm_stream_wide m) (vm_offset m)) (vp_modules p) ;;
     Ok (mkProject version (vp_name p) (map rf_name (vp_references p)) (map (fun '(m, c) => module_of m c) (combine (vp_modules p) cs))
                   (vp_major p / 65536 + 65536 * vp_minor p) 12)).
  Proof.
    intros F3. destruct G as (H38 & Bm & Bn & Gm). destruct split_dir as [A1 A2].
    pose proof len_dir as Ld. pose proof P32 as E.
    destruct (head_here mem (lenN d) Hl L p H38 A1 ltac:(lia)) as (v & Av & Ep). unfold in_memory. fold mem. rewrite Ep. clear Ep.
    rewrite app_assoc in Av. apply here_app in Av. destruct Av as [Av _].
    destruct (version_values mem v (vp_major p) (vp_minor p) (vp_constants p) Bm Bn Av) as (a & c & S1 & S2 & E1 & E2). rewrite S1, S2. cbn [bind].
    rewrite E1, E2. set (o := lenN (project_records p)) in *.
    apply here_app in A2. destruct A2 as [Ar A2]. set (rl := lenN (concat (map reference_stored (vp_references p)))) in *.
    pose proof (reference_count (vp_references p)) as Rc. fold rl in Rc.
    replace (S (N.to_nat (lenN d))) with (List.length (vp_references p) + S (N.to_nat (lenN d) - List.length (vp_references p)))%nat at 1 by lia.
    rewrite (short_references_all _ _ o [] F3 Ar) by (fold rl; lia). fold rl. cbn [app].
    set (fm := S (N.to_nat (lenN d))).
    cbn [references fst snd].
    apply here_app in A2. destruct A2 as [Ah A3].
    assert (Lh : lenN (modules_head p) = 16) by (unfold modules_head; rewrite !lenN_app, !len_to_le; reflexivity). rewrite Lh in A3.
    unfold modules_head in Ah. rewrite <- !app_assoc in Ah. apply here_app in Ah. destruct Ah as [Ah _].
    rewrite (ushort_here mem (lenN d) Hl L (o + rl) 15 Ah) by lia. cbn [bind]. change (15 =? 22) with false. cbn iota. cbn [bind].
    unfold skip. rewrite u32_small by lia. apply here_app in A3. destruct A3 as [A3 A4].
    pose proof (stored_count (vp_modules p)) as Sc. unfold fm, d in *.
    replace (S (N.to_nat (lenN (dir_stored p)))) with (List.length (vp_modules p) + S (S (N.to_nat (lenN (dir_stored p)) - 1 - List.length (vp_modules p))))%nat by lia.
    rewrite (all_modules mem (lenN (dir_stored p)) Hl L code (vp_modules p) _ (o + rl + 16) [] Gm A3) by lia.
    destruct (mapM (fun m => code (vm_stream_wide m) (vm_offset m)) (vp_modules p)) as [cs|e| |]; cbn [bind]; try reflexivity.
    rewrite (terminator mem (lenN (dir_stored p)) Hl L _ code _ _ A4) by lia. cbn [bind app]. reflexivity.
  Qed.
End main.
