(** Reading tokens of any kind. *)
From Coq Require Import List NArith ZArith Bool Lia Strings.String Strings.Byte.
From Coq Require Import ZifyBool ZifyNat ZifyN.
From Verif Require Import Lib.Res Lib.Bytes Lib.BytesFacts Lib.Text Common.Model Common.Spec Common.ReadProofs
     Excel.Number Excel.Tables Excel.Model Excel.Records Excel.Spec Excel.Statements Excel.EngineProofs Excel.CellProofs
     Excel.NumberSpec Excel.NumberProofs Excel.FunctionSpec Excel.FormulaSpec Excel.FormulaStatements Excel.FormulaSpec2
     Excel.FormulaStatements2 Excel.TokenProofs Excel.FormulaProofs.
Import ListNotations.
Local Open Scope N_scope.
Ltac Zify.zify_post_hook ::= Z.div_mod_to_equations.
Arguments N.pow : simpl never.
Arguments N.mul : simpl never.
Arguments N.add : simpl never.

(** ** Functions with any number *)
Lemma named_in t o k : named t o k = o \/ In (k, named t o k) t.
Proof.
  induction t as [|[n s] t IH]; [left; reflexivity|]. cbn [named]. destruct (N.eqb_spec n k) as [->|]; [right; left; reflexivity|].
  destruct IH as [->|IH]; [left; reflexivity|right; right; exact IH].
Qed.
Lemma named_out t o k : ~ In k (map fst t) -> named t o k = o.
Proof.
  induction t as [|[n s] t IH]; intros H; [reflexivity|]. cbn [named map fst In] in *. destruct (N.eqb_spec n k) as [->|]; [contradiction H; auto|].
  apply IH. intros H'. apply H. auto.
Qed.
Lemma ftab_known : forallb (fun x => existsb (fun y => (fst x =? fst y) && bytes_eqb (snd x) (snd y)) functions || ((fst x =? 255) && bytes_eqb (snd x) (B "User Defined Function"))) ftab_names = true.
Proof. vm_compute. reflexivity. Qed.
Lemma user_defined : GetFunctionName_FTab 255 = B "User Defined Function".
Proof. vm_compute. reflexivity. Qed.
Lemma no_255 : existsb (fun x => fst x =? 255) functions = false.
Proof. vm_compute. reflexivity. Qed.
Lemma functions_fun f w w' : In (f, w) functions -> In (f, w') functions -> w = w'.
Proof.
  intros H H'. pose proof (proj1 (forallb_forall _ _) functions_right _ H) as A. pose proof (proj1 (forallb_forall _ _) functions_right _ H') as A'.
  apply bytes_eqb_eq in A. apply bytes_eqb_eq in A'. cbn [fst snd] in *. congruence.
Qed.
Lemma function_text_name f w : function_text f w -> GetFunctionName_FTab f = w.
Proof.
  intros [H|[[-> ->]|(H & N5 & ->)]].
  - pose proof (proj1 (forallb_forall _ _) functions_right _ H) as A. apply bytes_eqb_eq in A. exact A.
  - apply user_defined.
  - unfold GetFunctionName_FTab. apply named_out. intros I. apply in_map_iff in I. destruct I as ((g & v) & <- & I).
    pose proof (proj1 (forallb_forall _ _) ftab_known _ I) as A. cbn [fst snd] in *. apply orb_prop in A. destruct A as [A|A].
    + apply existsb_exists in A. destruct A as ((h & u) & HI & A). cbn [fst snd] in A. apply andb_prop in A. destruct A as [A _].
      apply N.eqb_eq in A. subst h. apply H. apply in_map_iff. exists (g, u). auto.
    + apply andb_prop in A. destruct A as [A _]. apply N.eqb_eq in A. contradiction.
Qed.
Lemma cetab_below : forallb (fun x => fst x <? 2 ^ 14) cetab_names = true.
Proof. vm_compute. reflexivity. Qed.
Lemma cetab_above f : 2 ^ 14 <= f -> GetFunctionName_CeTab f = B "Unknown_CeTab_Function".
Proof.
  intros H. apply named_out. intros I. apply in_map_iff in I. destruct I as (x & <- & I).
  pose proof (proj1 (forallb_forall _ _) cetab_below _ I) as A. apply N.ltb_lt in A. lia.
Qed.
Lemma error_other e : ~ In e (map fst errors) -> ErrorValueString e = B "#UNKNOWN".
Proof.
  intros H. unfold errors in H. cbn [map fst In] in H. unfold ErrorValueString.
  repeat match goal with
  | |- (if ?x =? ?y then _ else _) = _ => destruct (N.eqb_spec x y) as [->|_]; [contradiction H; tauto|]
  end. reflexivity.
Qed.

Lemma three c : c < 3 -> c = 0 \/ c = 1 \/ c = 2.
Proof. lia. Qed.

Lemma item_length x : item_ok x -> 1 <= lenN (item_bytes x).
Proof.
  destruct x as [t|w s]; cbn [item_bytes item_ok]; [intros _; apply token_length|]. intros M. destruct M; rewrite lenN_cons; lia.
Qed.
Lemma items_length l : Forall item_ok l -> lenN l <= lenN (items_bytes l).
Proof.
  induction 1 as [|x l K _ IH]; [reflexivity|]. unfold items_bytes in *. cbn [map List.concat]. rewrite lenN_cons, lenN_app.
  pose proof (item_length x K). lia.
Qed.

Section At.
Variables (p : platform) (d : bytes) (max : N).
Hypotheses (HM : max <= lenN d) (HB : max < 2 ^ 31).
Ltac any_us o := let v := fresh "v" in let E := fresh "E" in destruct (us_any d max HM HB o) as [v E]; [lia|]; rewrite !E; cbn [bind]; clear E.
Ltac reading :=
  repeat match goal with
  | |- context [us d max ?o] => any_us o
  | |- context [ReadUInt d max (u32 ?o) ?b] => let v := fresh "v" in let E := fresh "E" in
      destruct (ui_any d max HM HB o b) as [v E]; [lia|]; rewrite !E; cbn [bind]; clear E
  | |- context [rd d (u32 ?o)] => let v := fresh "v" in let E := fresh "E" in
      destruct (rd_any d max HM HB o) as [v E]; [lia|]; rewrite !E; cbn [bind]; clear E
  end.
Definition taken (off : N) (w s : bytes) : Prop := token p d max off = Ok (Text s, lenN w).
Ltac classes K := apply three in K; destruct K as [-> | [-> | ->]].

Lemma take_range off c a b a' b' z w v : c < 3 -> cell_ok a' -> cell_ok b' -> class c 0x05 :: range_bytes a b = range_bytes a' b' ++ [z] ->
  a1 (c_row a') (c_col a') w -> a1 (c_row b') (c_col b') v -> here d off (class c 0x05 :: range_bytes a b) -> off + 9 <= max ->
  taken off (class c 0x05 :: range_bytes a b) (call "PtgArea" (w ++ B ":" ++ v)).
Proof.
  intros C Ka Kb E Ha Hb H L. unfold taken. rewrite lenN_cons, lenN_range. pose proof H as H'. rewrite E in H'.
  apply here_app in H'. destruct H' as [H' _]. apply here_cons in H. destruct H as [H0 _].
  assert (UA : w = cell_name (c_row a') (c_col a')).
  { destruct Ha as (s & Hs & ->). unfold cell_name. f_equal. eapply column_unique; [exact Hs|]. apply column_name.
    destruct Ka as (_ & K & _). change (2 ^ 14) with 16384 in K. change (2 ^ 16) with 65536. lia. }
  assert (UB : v = cell_name (c_row b') (c_col b')).
  { destruct Hb as (s & Hs & ->). unfold cell_name. f_equal. eapply column_unique; [exact Hs|]. apply column_name.
    destruct Kb as (_ & K & _). change (2 ^ 14) with 16384 in K. change (2 ^ 16) with 65536. lia. }
  subst w v. clear E Ha Hb.
  classes C; (start H0; choose; unfold first; rewrite (here_rd _ _ _ H0); cbn [bind];
    rewrite (area_here d max HM HB off a' b' H' Ka Kb) by lia; reflexivity).
Qed.
Lemma take_table off row col w : row < 2 ^ 16 -> col < 2 ^ 16 -> column col w -> here d off (n2b 0x02 :: to_le 2 row ++ to_le 2 col) -> off + 5 <= max ->
  taken off (n2b 0x02 :: to_le 2 row ++ to_le 2 col) (call "PtgTbl" (w ++ dec row)).
Proof.
  intros K1 K2 C H L. unfold taken. rewrite lenN_cons, lenN_app, !lenN_to_le. apply here_cons in H. destruct H as [H0 H]. apply here_app in H. destruct H as [H1 H2].
  rewrite lenN_to_le in H2. change (off + 1 + N.of_nat 2) with (off + 1 + 2) in H2. replace (off + 1 + 2) with (off + 3) in H2 by lia.
  start H0. choose. unfold first. rewrite (here_rd _ _ _ H0). cbn [bind]. rewrite (us_here d max HM HB _ _ H1 K1) by lia. cbn [bind].
  rewrite (us_here d max HM HB _ _ H2 K2) by lia. cbn [bind].
  rewrite (column_unique w (ColNumToName col) col C (column_name col K2)). reflexivity.
Qed.
Lemma take_mem_error off c data : c < 3 -> lenN data = 5 -> here d off (class c 0x07 :: data) -> off + 6 <= max ->
  taken off (class c 0x07 :: data) (B "PtgMemErr").
Proof.
  intros C Q H L. unfold taken. rewrite lenN_cons, Q. apply here_cons in H. destruct H as [H0 _].
  classes C; (start H0; choose; unfold mem_err, first; rewrite (here_rd _ _ _ H0); cbn [bind]; reading; reflexivity).
Qed.
Lemma take_area_error off c data : c < 3 -> lenN data = 13 -> here d off (class c 0x1D :: data) -> off + 14 <= max ->
  taken off (class c 0x1D :: data) (B "PtgAreaErr3d").
Proof.
  intros C Q H L. unfold taken. rewrite lenN_cons, Q. apply here_cons in H. destruct H as [H0 _].
  classes C; (start H0; choose; unfold area_err3d, ixti, first; rewrite (here_rd _ _ _ H0); cbn [bind]; reading; reflexivity).
Qed.
Lemma take_natural off k w data : In (k, w) naturals -> lenN data = 8 -> here d off (n2b 0x18 :: n2b k :: data) -> off + 10 <= max ->
  taken off (n2b 0x18 :: n2b k :: data) w.
Proof.
  intros K Q H L. unfold taken. rewrite !lenN_cons, Q. apply here_cons in H. destruct H as [H0 H]. apply here_cons in H. destruct H as [H1 _].
  cbn [naturals In] in K. repeat destruct K as [K|K]; try contradiction; injection K as <- <-;
    (start H0; choose; rewrite (u32_small (off + 1)) by lia; rewrite (here_rd _ _ _ H1); cbn [bind]; choose;
     unfold elf_lel, elf_more, elf_radical_s, sx_name, elf, elf_loc, first; rewrite (here_rd _ _ _ H0); cbn [bind];
     try change (ReadUInt d max off false) with (ReadUInt d max (id off) false); try (replace (id off) with (u32 off) by (unfold id; rewrite u32_small by lia; reflexivity));
     reading; reflexivity).
Qed.
Lemma take_error off e : e < 256 -> ~ In e (map fst errors) -> here d off [n2b 0x1C; n2b e] -> off + 2 <= max ->
  taken off [n2b 0x1C; n2b e] (call "PtgErr" (B "'#UNKNOWN'")).
Proof.
  intros Q N H L. unfold taken. apply here_cons in H. destruct H as [H0 H1].
  start H0. choose. unfold first. rewrite (here_rd _ _ _ H0). cbn [bind]. rewrite (u32_small (off + 1)) by lia. rewrite (here_rd _ _ _ H1). cbn [bind].
  rewrite b2n_n2b, N.mod_small by exact Q. rewrite (error_other e N). reflexivity.
Qed.
Lemma take_logical off b : b2n b <> 0 -> here d off [n2b 0x1D; b] -> off + 2 <= max -> taken off [n2b 0x1D; b] (call "PtgBool" (B "true")).
Proof.
  intros N H L. unfold taken. apply here_cons in H. destruct H as [H0 H1].
  start H0. choose. unfold first. rewrite (here_rd _ _ _ H0). cbn [bind]. rewrite (u32_small (off + 1)) by lia. rewrite (here_rd _ _ _ H1). cbn [bind].
  destruct (N.eqb_spec (b2n b) 0) as [E|_]; [contradiction|reflexivity].
Qed.
Lemma take_function off c f w : c < 3 -> f < 2 ^ 16 -> function_text f w -> here d off (class c 0x01 :: to_le 2 f) -> off + 3 <= max ->
  taken off (class c 0x01 :: to_le 2 f) (call "PtgFunc" w).
Proof.
  intros C K T H L. unfold taken. rewrite lenN_cons, lenN_to_le. apply here_cons in H. destruct H as [H0 H]. rewrite <- (function_text_name f w T).
  classes C; (start H0; choose; unfold first; rewrite (here_rd _ _ _ H0); cbn [bind]; rewrite (us_here d max HM HB _ _ H K) by lia; reflexivity).
Qed.
Lemma take_variadic off c args x : c < 3 -> x < 2 ^ 16 -> here d off (class c 0x02 :: args :: to_le 2 x) -> off + 4 <= max ->
  taken off (class c 0x02 :: args :: to_le 2 x)
    (call "PtgFuncVar" (if N.testbit x 14 then GetFunctionName_CeTab (x mod 2 ^ 15) else GetFunctionName_FTab (x mod 2 ^ 15))).
Proof.
  intros C K H L. unfold taken. rewrite !lenN_cons, lenN_to_le. apply here_cons in H. destruct H as [H0 H]. apply here_cons in H. destruct H as [H1 H].
  replace (off + 1 + 1) with (off + 2) in H by lia.
  assert (H3 : here d (off + 3) [n2b (x / 256)]).
  { cbn [to_le] in H. apply here_cons in H. destruct H as [_ H]. replace (off + 2 + 1) with (off + 3) in H by lia.
    apply here_cons in H. exact (proj1 H). }
  assert (E3 : (bits (b2n (n2b (x / 256))) 6 1 =? 1) = N.testbit x 14).
  { rewrite bit_of. rewrite b2n_n2b, N.mod_small by (change (2 ^ 16) with 65536 in K; lia).
    replace (N.testbit (x / 256) 6) with (N.testbit x 14).
    - destruct (N.testbit x 14); reflexivity.
    - change 256 with (2 ^ 8). rewrite <- N.shiftr_div_pow2, N.shiftr_spec by apply N.le_0_l. reflexivity. }
  classes C;
     (start H0; choose; unfold first; rewrite (here_rd _ _ _ H0); cbn [bind];
      rewrite (u32_small (off + 1)) by lia; rewrite (here_rd _ _ _ H1); cbn [bind]; rewrite (us_here d max HM HB _ _ H K) by lia; cbn [bind];
      rewrite (u32_small (off + 3)) by lia; rewrite (here_rd _ _ _ H3); cbn [bind]; rewrite E3; reflexivity).
Qed.
Lemma take_none off t : t < 256 -> no_token t = true -> here d off [n2b t] ->
  taken off [n2b t] (call "UnknownPTG" (B "type=" ++ dec t ++ B ",subType=0")).
Proof.
  intros K N H. unfold taken. start H. rewrite b2n_n2b, N.mod_small by exact K. change (lenN [n2b t]) with 1.
  assert (G : forallb (fun t => negb (no_token t) ||
     (negb (existsb (N.eqb t) [1;2;3;4;5;6;7;8;9;10;11;12;13;14;15;16;17;18;19;20;21;22;23;24;25;28;29;30;31]) &&
      (negb ((32 <=? t) && (t <? 128)) || negb (existsb (N.eqb (t mod 32)) [0;1;2;3;4;5;6;7;8;9;10;11;12;13;25;26;27;28;29]))))
     (map N.of_nat (seq 0 256)) = true) by (vm_compute; reflexivity).
  rewrite forallb_forall in G. specialize (G t). rewrite N in G. cbn [negb orb] in G.
  assert (I : In t (map N.of_nat (seq 0 256))) by (apply in_map_iff; exists (N.to_nat t); split; [lia|apply in_seq; lia]).
  specialize (G I). apply andb_prop in G. destruct G as [G1 G2]. clear I N.
  apply Bool.negb_true_iff in G1. cbn [existsb] in G1. rewrite !Bool.orb_false_iff in G1.
  repeat match type of G1 with _ /\ _ => let H := fresh "Q" in destruct G1 as [H G1]; rewrite H; clear H end.
  destruct ((32 <=? t) && (t <? 128)); [|reflexivity].
  cbn [negb orb] in G2. apply Bool.negb_true_iff in G2. cbn [existsb] in G2. rewrite !Bool.orb_false_iff in G2. cbv zeta.
  repeat match type of G2 with _ /\ _ => let H := fresh "Q" in destruct G2 as [H G2]; rewrite H; clear H end.
  reflexivity.
Qed.
Lemma take off w s : misread w s -> here d off w -> off + lenN w <= max -> taken off w s.
Proof.
  intros M H L. destruct M; rewrite !lenN_cons, ?lenN_range, ?lenN_app, ?lenN_to_le in L.
  - apply (take_range off c a b a' b' z w v); assumption || lia.
  - apply take_table; assumption || lia.
  - apply take_mem_error; assumption || lia.
  - apply take_area_error; assumption || lia.
  - apply take_natural; assumption || lia.
  - apply take_error; assumption || (change (lenN []) with 0 in L; lia).
  - apply take_logical; assumption || (change (lenN []) with 0 in L; lia).
  - apply take_function; assumption || lia.
  - assert (B16 : f < 2 ^ 16) by (apply (N.lt_trans _ (2 ^ 14)); [assumption|reflexivity]).
    assert (T : N.testbit f 14 = false) by (rewrite N.testbit_false, N.div_small by assumption; reflexivity).
    pose proof (take_variadic off c args f ltac:(assumption) B16 H ltac:(lia)) as E. rewrite T in E.
    rewrite N.mod_small in E by (apply (N.lt_trans _ (2 ^ 14)); [assumption|reflexivity]).
    rewrite (function_text_name f w) in E by assumption. exact E.
  - assert (B16 : 2 ^ 15 + f < 2 ^ 16) by (change (2 ^ 16) with (2 ^ 15 + 2 ^ 15); change (2 ^ 15) with 32768; change (2 ^ 14) with 16384 in *; lia).
    assert (T : N.testbit (2 ^ 15 + f) 14 = false).
    { rewrite N.testbit_false. change (2 ^ 15) with 32768. change (2 ^ 14) with 16384 in *. lia. }
    pose proof (take_variadic off c args (2 ^ 15 + f) ltac:(assumption) B16 H ltac:(lia)) as E. rewrite T in E.
    replace ((2 ^ 15 + f) mod 2 ^ 15) with f in E by (change (2 ^ 15) with 32768; change (2 ^ 14) with 16384 in *; lia).
    rewrite (function_text_name f w) in E by assumption. exact E.
  - pose proof (take_variadic off c args x ltac:(assumption) ltac:(assumption) H ltac:(lia)) as E.
    match goal with Q : N.testbit x 14 = true |- _ => rewrite Q in E; rewrite N.testbit_true in Q; rename Q into T end.
    rewrite cetab_above in E; [exact E|]. change (2 ^ 15) with 32768. change (2 ^ 14) with 16384 in *. lia.
  - apply take_none; assumption.
Qed.

(** ** Any mixture *)
Lemma items_read : forall l off fuel, here d off (items_bytes l) -> Forall item_ok l ->
  off + lenN (items_bytes l) <= max -> exists xs,
    rgce p d max (List.length l + fuel) off =
      (r <- rgce p d max fuel (off + lenN (items_bytes l)) ;; Ok (xs ++ fst r, snd r)) /\
    forall before, item_texts before l (map (ptg_text before) xs).
Proof.
  induction l as [|t l IH]; intros off fuel H K L.
  - exists []. split; [|intros before; constructor]. cbn [List.length Nat.add items_bytes map List.concat].
    change (lenN (@nil byte)) with 0. rewrite N.add_0_r. destruct (rgce p d max fuel off) as [[xs i]| | |]; reflexivity.
  - inversion K as [|? ? K1 K2]; subst. unfold items_bytes in H, L. cbn [map List.concat] in H, L. fold (items_bytes l) in H, L.
    apply here_app in H. destruct H as [H1 H2]. rewrite lenN_app in L. pose proof (item_length t K1) as T.
    assert (R : exists x, token p d max off = Ok (x, lenN (item_bytes t)) /\
      forall before, item_prints (name_of 0x18 before) (name_of 0x23 before) t (ptg_text before x)).
    { destruct t as [t|w s]; cbn [item_bytes item_ok item_prints] in *.
      - apply (read_token p d max HM HB off t). split; [exact H1|split; [exact K1|lia]].
      - exists (Text s). split; [|intros before; reflexivity]. apply take; [exact K1|exact H1|lia]. }
    destruct R as (x & E & P).
    destruct (IH (off + lenN (item_bytes t)) fuel H2 K2) as (xs & EX & PX); [lia|].
    exists (x :: xs). split; [|intros before; constructor; [apply P|apply PX]].
    cbn [List.length Nat.add rgce]. destruct (N.ltb_spec off max); [|lia]. rewrite E. cbn [bind fst snd].
    rewrite u32_small by lia. rewrite EX. unfold items_bytes at 2. cbn [map List.concat]. fold (items_bytes l). rewrite lenN_app, N.add_assoc.
    destruct (rgce p d max fuel (off + lenN (item_bytes t) + lenN (items_bytes l))) as [[ys i]| | |]; reflexivity.
Qed.
Lemma items_all l off fuel : here d off (items_bytes l) -> Forall item_ok l ->
  off + lenN (items_bytes l) = max -> (List.length l < fuel)%nat -> exists xs,
    rgce p d max fuel off = Ok (xs, max) /\ forall before, item_texts before l (map (ptg_text before) xs).
Proof.
  intros H K L F. destruct (items_read l off (fuel - List.length l) H K) as (xs & E & P); [lia|].
  exists xs. split; [|exact P]. replace fuel with (List.length l + (fuel - List.length l))%nat by lia. rewrite E, L.
  destruct (fuel - List.length l)%nat as [|k] eqn:F'; [lia|]. cbn [rgce]. rewrite N.ltb_irrefl. cbn [bind fst snd]. rewrite app_nil_r. reflexivity.
Qed.
End At.
