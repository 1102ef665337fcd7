(** Shared strings. *)
From Coq Require Import List NArith ZArith Bool Lia Strings.String.
From Coq Require Import ZifyBool ZifyNat ZifyN.
From Verif Require Import Lib.Res Lib.Bytes Lib.BytesFacts Lib.Text Common.Model Common.Spec Common.ReadProofs
     Common.Utf8 Common.Utf8Proofs Propset.ValueProofs
     Excel.Number Excel.Model Excel.Records Excel.Engine Excel.Spec Excel.StringSpec Excel.Statements Excel.EngineProofs
     Excel.CellProofs.
Import ListNotations.
Local Open Scope N_scope.
Ltac Zify.zify_post_hook ::= Z.div_mod_to_equations.
Arguments N.pow : simpl never.
Arguments N.mul : simpl never.
Arguments N.add : simpl never.

Lemma sint_ok d off be : off + 4 <= lenN d -> off + 3 < 2 ^ 32 -> exists z, ReadSInt d (lenN d) off be = Ok z.
Proof.
  intros H H2. rewrite ReadSInt_signed, (ReadUInt_value d off _ be H2 (occurs_window d off 4 H)). eexists. reflexivity.
Qed.
Lemma uint_at d off a x b : d = a ++ to_le 4 x ++ b -> lenN a = off -> x < 2 ^ 32 -> off + 3 < 2 ^ 32 ->
  ReadUInt d (lenN d) off true = Ok x.
Proof.
  intros E L H HO. rewrite (ReadUInt_value d off (to_le 4 x) true HO).
  - rewrite le_to_le_id by exact H. reflexivity.
  - split; [apply (lenN_to_le 4)|]. exists a, b. split; assumption.
Qed.

(** ** One string *)
Definition head (s : shared) : N := 3 + flag 2 (h_runs s) + flag 4 (h_phonetic s).
Definition tail (s : shared) : bytes :=
  match h_runs s with Some r => units 4 r | None => [] end ++
  match h_phonetic s with Some e => e | None => [] end.
Lemma flags_bits s : b2n (n2b (shared_flags s)) = shared_flags s /\
  bits (shared_flags s) 0 1 = (if h_wide s then 1 else 0) /\
  bits (shared_flags s) 2 1 = flag 1 (h_phonetic s) /\ bits (shared_flags s) 3 1 = flag 1 (h_runs s).
Proof.
  unfold shared_flags. destruct (h_wide s), (h_runs s), (h_phonetic s); repeat split; vm_compute; reflexivity.
Qed.

Lemma rich_head p d a s b : d = a ++ shared_bytes s ++ b -> shared_ok s -> lenN d < 2 ^ 31 ->
  exists h, lenN h = lenN a + head s /\ d = h ++ characters (h_wide s) (h_text s) ++ tail s ++ b /\
  RichString p d (lenN a) (lenN d) =
    if h_wide s then w <- wide p d (lenN h) (lenN (h_text s)) ;; t <- convert w ;; Ok (erasenulls t, head s + 2 * lenN (h_text s))
    else t <- slice d (lenN h) (lenN (h_text s)) ;; Ok (t, head s + lenN (h_text s)).
Proof.
  intros E (O1 & O2 & O3 & O4) HD.
  destruct (flags_bits s) as (FB & F0 & F2 & F3).
  set (R := match h_runs s with Some r => to_le 2 (lenN r) | None => [] end).
  set (P := match h_phonetic s with Some e => to_le 4 (lenN e) | None => [] end).
  set (C := characters (h_wide s) (h_text s)).
  assert (LR : lenN R = flag 2 (h_runs s)) by (unfold R; destruct (h_runs s); [apply (lenN_to_le 2)|reflexivity]).
  assert (LP : lenN P = flag 4 (h_phonetic s)) by (unfold P; destruct (h_phonetic s); [apply (lenN_to_le 4)|reflexivity]).
  assert (LC : lenN (h_text s) <= lenN C).
  { unfold C, characters. destruct (h_wide s); [rewrite lenN_units; lia|unfold lenN; rewrite map_length; lia]. }
  assert (ED : d = (a ++ to_le 2 (lenN (h_text s)) ++ [n2b (shared_flags s)]) ++ R ++ P ++ C ++ tail s ++ b).
  { rewrite E. unfold shared_bytes, tail, R, P, C. rewrite <- !app_assoc. reflexivity. }
  set (h0 := a ++ to_le 2 (lenN (h_text s)) ++ [n2b (shared_flags s)]) in *.
  assert (L0 : lenN h0 = lenN a + 3) by (unfold h0; rewrite !lenN_app, lenN_to_le; change (lenN [n2b (shared_flags s)]) with 1; lia).
  assert (LD : lenN d = lenN a + 3 + lenN R + lenN P + lenN C + lenN (tail s ++ b)).
  { rewrite ED, !lenN_app, L0. lia. }
  exists (h0 ++ R ++ P). rewrite !lenN_app, L0, LR, LP. unfold head.
  split; [lia|]. split; [rewrite ED, <- !app_assoc; reflexivity|].
  unfold RichString.
  rewrite (us_at d (lenN a) a (lenN (h_text s)) ([n2b (shared_flags s)] ++ R ++ P ++ C ++ tail s ++ b));
    [|rewrite ED; unfold h0; rewrite <- !app_assoc; reflexivity|reflexivity|exact O1|lia].
  cbn [bind]. rewrite (u32_small (lenN a + 2)) by lia.
  assert (RF : rd d (lenN a + 2) = Ok (shared_flags s)).
  { unfold rd. rewrite ED. unfold h0. rewrite <- !app_assoc.
    rewrite nthN_app2 by lia. rewrite nthN_app2 by (rewrite lenN_to_le; lia). rewrite lenN_to_le.
    replace (lenN a + 2 - lenN a - N.of_nat 2) with 0 by lia. cbn. rewrite FB. reflexivity. }
  rewrite RF. cbn [bind]. rewrite (u32_small (lenN a + 3)) by lia. rewrite F3, F2, F0.
  assert (E1 : (if flag 1 (h_runs s) =? 1 then _ <- ReadUShort d (lenN d) (lenN a + 3) false ;; Ok (u32 (lenN a + 3 + 2)) else Ok (lenN a + 3))
               = Ok (lenN a + 3 + flag 2 (h_runs s))).
  { unfold R in *. destruct (h_runs s) as [r|]; cbn [flag] in *.
    - change (1 =? 1) with true. cbv iota. rewrite (us_at d (lenN a + 3) h0 (lenN r) (P ++ C ++ tail s ++ b)); [|exact ED|lia|exact O3|lia].
      cbn [bind]. rewrite u32_small by lia. f_equal.
    - change (0 =? 1) with false. cbv iota. f_equal. lia. }
  rewrite E1. cbn [bind]. set (i1 := lenN a + 3 + flag 2 (h_runs s)) in *.
  assert (E2 : (if flag 1 (h_phonetic s) =? 1 then _ <- ReadSInt d (lenN d) i1 false ;; Ok (u32 (i1 + 4)) else Ok i1)
               = Ok (i1 + flag 4 (h_phonetic s))).
  { unfold P in *. destruct (h_phonetic s) as [e|]; cbn [flag] in *.
    - change (1 =? 1) with true. cbv iota. destruct (sint_ok d i1 false) as (z & ->); [lia|lia|]. cbn [bind]. rewrite u32_small by lia. reflexivity.
    - change (0 =? 1) with false. cbv iota. f_equal. lia. }
  rewrite E2. cbn [bind]. set (i2 := i1 + flag 4 (h_phonetic s)) in *.
  rewrite u32_small by lia. replace (lenN d <? lenN (h_text s) + i2) with false by lia.
  replace (Z.of_N (lenN (h_text s)) <? 0)%Z with false by lia. rewrite N2Z.id.
  replace (lenN a + 3 + (flag 2 (h_runs s) + flag 4 (h_phonetic s))) with i2 by lia.
  destruct (h_wide s).
  - change (1 =? 0) with false. cbv iota. destruct (wide _ _ _ _); [|reflexivity..]. cbn [bind]. destruct (convert _); [|reflexivity..].
    cbn [bind]. do 2 f_equal. lia.
  - change (0 =? 0) with true. cbv iota. destruct (slice _ _ _); [|reflexivity..]. cbn [bind]. do 2 f_equal. lia.
Qed.

(** The text that is reported *)
Definition text_at (p : platform) (s : shared) (t : bytes) : Prop :=
  (h_wide s = false /\ t = map n2b (h_text s)) \/
  (h_wide s = true /\ sizeof_wchar p = 2 /\ bmp_text (h_text s) /\ utf8 t (h_text s)).
Definition readable (p : platform) (s : shared) : Prop :=
  h_wide s = true -> sizeof_wchar p = 2 /\ bmp_text (h_text s).

Lemma filter_all {A} (f : A -> bool) l : Forall (fun x => f x = true) l -> filter f l = l.
Proof. induction 1 as [|x l H _ IH]; [reflexivity|]. cbn. rewrite H, IH. reflexivity. Qed.
Lemma bmp_convert l : bmp_text l -> exists t, convert l = Ok t /\ erasenulls t = t /\ utf8 t l.
Proof.
  intros H. assert (S : Forall scalar l) by (eapply Forall_impl; [|exact H]; cbn; tauto).
  destruct (convert_ok l (Forall_scalar_range l S)) as (t & E). exists t. split; [exact E|].
  pose proof (convert_nonzero l t E) as Z. rewrite filter_all in Z.
  2:{ eapply Forall_impl; [|exact H]. cbn. unfold nonzero. intros c [[Hc _] _]. lia. }
  split; [congruence|]. apply convert_utf8; assumption.
Qed.
Lemma rich_at p d a s b : d = a ++ shared_bytes s ++ b -> shared_ok s -> readable p s -> lenN d < 2 ^ 31 ->
  exists t n, RichString p d (lenN a) (lenN d) = Ok (t, n) /\ text_at p s t /\ 3 <= n /\ n + lenN (tail s) = lenN (shared_bytes s).
Proof.
  intros E O RD HD. destruct (rich_head p d a s b E O HD) as (h & LH & ED & ER). rewrite ER.
  assert (LB : lenN (shared_bytes s) = head s + lenN (characters (h_wide s) (h_text s)) + lenN (tail s)).
  { pose proof (f_equal lenN E) as E1. pose proof (f_equal lenN ED) as E2. rewrite !lenN_app in *. lia. }
  destruct O as (O1 & O2 & _). unfold head in *.
  destruct (h_wide s) eqn:EW; unfold text_at; rewrite EW.
  - destruct (RD EW) as (WP & BMP). unfold wide. rewrite WP.
    unfold characters in *. rewrite lenN_units in LB.
    rewrite slice_ok by (rewrite ED, !lenN_app, lenN_units; lia).
    cbn [bind]. replace (dropN (lenN h) d) with (characters (h_wide s) (h_text s) ++ tail s ++ b) by (rewrite ED, dropN_app_exact, EW; reflexivity). rewrite EW. unfold characters.
    replace (lenN (h_text s) * 2) with (lenN (units 2 (h_text s))) by (rewrite lenN_units; lia). rewrite takeN_app_exact.
    assert (TW : to_wchars p (units 2 (h_text s)) = h_text s).
    { replace 2%nat with (N.to_nat (sizeof_wchar p)) by (rewrite WP; reflexivity). apply to_wchars_units; [lia|].
      rewrite WP. change (256 ^ 2) with (2 ^ 16). exact O2. }
    rewrite TW.
    destruct (bmp_convert _ BMP) as (t & -> & EN & U). cbn [bind]. rewrite EN. exists t. eexists. split; [reflexivity|]. split; [tauto|]. lia.
  - unfold characters in *. 
    assert (LM : lenN (map n2b (h_text s)) = lenN (h_text s)) by (unfold lenN; rewrite map_length; reflexivity).
    rewrite slice_ok by (rewrite ED, !lenN_app, LM; lia).
    cbn [bind]. replace (dropN (lenN h) d) with (characters (h_wide s) (h_text s) ++ tail s ++ b) by (rewrite ED, dropN_app_exact, EW; reflexivity). rewrite EW. unfold characters.
    replace (takeN (lenN (h_text s)) _) with (map n2b (h_text s)) by (rewrite <- LM, takeN_app_exact; reflexivity).
    eexists. eexists. split; [reflexivity|]. split; [tauto|]. lia.
Qed.

(** ** All strings *)
Lemma strings_at p d : lenN d < 2 ^ 31 -> forall l a b i unique fuel, d = a ++ List.concat (map shared_bytes l) ++ b ->
  Forall shared_ok l -> Forall simple l -> Forall (readable p) l -> unique = i + lenN l -> unique < 2 ^ 32 ->
  (List.length l < fuel)%nat ->
  exists ts, sst_strings p d fuel i unique (lenN a) = Ok ts /\ Forall2 (text_at p) l ts.
Proof.
  intros HD. induction l as [|s l IH]; intros a b i unique fuel E O SI RD U HU HF; (destruct fuel as [|fuel]; [cbn in HF; lia|]); cbn [sst_strings].
  - exists []. change (lenN (@nil shared)) with 0 in U. replace (i <? unique) with false by lia. split; [reflexivity|constructor].
  - rewrite lenN_cons in U. replace (i <? unique) with true by lia. inversion O as [|? ? O1 O2]; subst. inversion SI as [|? ? S1 S2]; subst.
    inversion RD as [|? ? R1 R2]; subst. cbn [map List.concat] in *. rewrite <- app_assoc in *.
    set (d := a ++ shared_bytes s ++ List.concat (map shared_bytes l) ++ b) in *.
    destruct (rich_at p d a s (List.concat (map shared_bytes l) ++ b) eq_refl O1 R1 HD) as (t & n & ER & T & N3 & NL).
    assert (LT : lenN (tail s) = 0) by (unfold tail; destruct S1 as [-> ->]; reflexivity).
    assert (LD : lenN d = lenN a + lenN (shared_bytes s) + lenN (List.concat (map shared_bytes l) ++ b)) by (unfold d; rewrite !lenN_app; lia).
    replace (lenN a <? lenN d) with true by lia. cbn [andb]. rewrite ER. cbn [bind fst snd].
    rewrite !u32_small by lia.
    assert (ED : d = (a ++ shared_bytes s) ++ List.concat (map shared_bytes l) ++ b) by (unfold d; rewrite <- app_assoc; reflexivity).
    destruct (IH (a ++ shared_bytes s) b (i + 1) (i + (lenN l + 1)) fuel ED O2 S2 R2 ltac:(lia) HU ltac:(cbn in HF; lia)) as (ts & ES & F).
    rewrite lenN_app in ES. replace (lenN (shared_bytes s)) with n in ES by lia. rewrite ES. cbn [bind].
    exists (t :: ts). split; [reflexivity|]. constructor; assumption.
Qed.

Lemma signed_back x : x < 2 ^ 32 -> Z.to_N (signed 32 x mod 2 ^ 32) = x.
Proof. intros H. unfold signed. change (2 ^ (32 - 1)) with 2147483648. change (2 ^ 32) with 4294967296 in *. change (2 ^ 32)%Z with 4294967296%Z. destruct (_ <? _) eqn:E; lia. Qed.
Lemma lenN_shared s : 3 <= lenN (shared_bytes s).
Proof. unfold shared_bytes. rewrite !lenN_app, lenN_to_le. change (lenN [n2b (shared_flags s)]) with 1. lia. Qed.
Lemma lenN_shareds l : 3 * lenN l <= lenN (List.concat (map shared_bytes l)).
Proof.
  induction l as [|s l IH]; [cbn; lia|]. cbn [map List.concat]. rewrite lenN_cons, lenN_app. pose proof (lenN_shared s). lia.
Qed.
Lemma sst_read p before total l more : total < 2 ^ 32 -> Forall shared_ok l -> Forall simple l -> Forall (readable p) l ->
  lenN (sst_data total l ++ more) < 2 ^ 31 ->
  exists ts fs, built p before 0x600 0xFC (sst_data total l ++ more)
    (mkRec 0xFC (sst_data total l ++ more) false (SST ts fs)) /\ Forall2 (text_at p) l ts /\
    fs = [fld "cstTotal" (Int (signed 32 total)); fld "cstUnique" (Int (signed 32 (lenN l)))] ++
         match ts with
         | [] => []
         | _ => [fld "strings" (Raw (B "[" ++ join (B ",") (map (fun s => q ++ JsonEscape s ++ q) ts) ++ B "]")
                                    (List.concat (map (fun s => B "<string>" ++ XmlEscape s ++ B "</string>") ts)))]
         end.
Proof.
  intros HT O S R HD. set (d := sst_data total l ++ more) in *.
  assert (ED : d = (to_le 4 total ++ to_le 4 (lenN l)) ++ List.concat (map shared_bytes l) ++ more).
  { unfold d, sst_data. rewrite <- !app_assoc. reflexivity. }
  assert (L8 : lenN (to_le 4 total ++ to_le 4 (lenN l)) = 8) by (rewrite lenN_app, !lenN_to_le; reflexivity).
  pose proof (lenN_shareds l) as LL.
  assert (HL : lenN l < 2 ^ 31).
  { rewrite ED in HD. rewrite lenN_app, L8, lenN_app in HD. lia. }
  destruct (strings_at p d HD l (to_le 4 total ++ to_le 4 (lenN l)) more 0 (lenN l) (Datatypes.S (List.length d)) ED O S R) as (ts & ES & F).
  { lia. } { lia. } { apply (f_equal lenN) in ED. rewrite lenN_app, L8, lenN_app in ED. unfold lenN in *. lia. }
  rewrite L8 in ES. exists ts. eexists. split; [|split; [exact F|reflexivity]].
  unfold built, ParseRecord. change (record_body p before 1536 252 d) with (SSTRecord p d). unfold SSTRecord.
  rewrite !ReadSInt_signed.
  rewrite (uint_at d 0 [] total (to_le 4 (lenN l) ++ List.concat (map shared_bytes l) ++ more));
    [|rewrite ED, <- app_assoc; reflexivity|reflexivity|exact HT|lia].
  rewrite (uint_at d 4 (to_le 4 total) (lenN l) (List.concat (map shared_bytes l) ++ more));
    [|rewrite ED, <- app_assoc; reflexivity|apply (lenN_to_le 4)|lia|lia].
  unfold rmap. cbn [bind]. rewrite signed_back by lia. rewrite ES. cbn [bind]. reflexivity.
Qed.
