(** Decompression of arbitrary bytes stays inside its two buffers. *)
From Coq Require Import List NArith ZArith Bool Lia.
From Coq Require Import ZifyBool ZifyNat ZifyN.
From Verif Require Import Lib.Res Lib.Bytes Lib.BytesFacts Lib.NumFacts Common.Model Common.Spec Common.ReadProofs Vba.Model Vba.Spec Vba.Proofs.
Import ListNotations.
Local Open Scope N_scope.
Ltac Zify.zify_post_hook ::= Z.div_mod_to_equations.
Arguments N.pow : simpl never.

Lemma copy_safe k : forall size out n, lenN out + N.of_nat k <= size -> n + N.of_nat k <= size ->
  exists w, copy_loop k size out n = Ok (out ++ w) /\ lenN w = N.of_nat k.
Proof.
  induction k as [|k IH]; intros size out n A B; cbn [copy_loop].
  - exists []. rewrite app_nil_r. split; reflexivity.
  - unfold get. replace (n <? size) with true by lia. cbn [bind]. unfold put. replace (lenN out <? size) with true by lia. cbn [bind].
    set (b := match nthN out n with Some b => b | None => x00 end).
    destruct (IH size (out ++ [b]) (n + 1)) as (w & E & L); [rewrite lenN_app; change (lenN [b]) with 1; lia|lia|].
    exists (b :: w). rewrite E, <- app_assoc. split; [reflexivity|rewrite lenN_cons; lia].
Qed.

Lemma take_S {A} (l : list A) b k : takeN (N.of_nat (S k)) (b :: l) = b :: takeN (N.of_nat k) l.
Proof. rewrite !takeN_firstn, !Nat2N.id. reflexivity. Qed.

Lemma raw_safe buf size k : forall out cur, cur + N.of_nat k <= lenN buf -> cur + N.of_nat k < 2 ^ 32 -> lenN out + N.of_nat k <= size ->
  raw_loop k buf size out cur = Ok (out ++ takeN (N.of_nat k) (dropN cur buf), cur + N.of_nat k).
Proof.
  induction k as [|k IH]; intros out cur A A2 B; cbn [raw_loop].
  - change (N.of_nat 0) with 0. rewrite takeN_0, app_nil_r, N.add_0_r. reflexivity.
  - destruct (nthN_lt buf cur) as (b & Hb); [lia|]. unfold rdb. rewrite Hb. cbn [bind].
    unfold put. replace (lenN out <? size) with true by lia. cbn [bind]. rewrite u32_small by lia.
    rewrite IH; [|lia|lia|rewrite lenN_app; change (lenN [b]) with 1; lia].
    rewrite (dropN_cons_nth buf cur b Hb), take_S, <- app_assoc. f_equal. f_equal. lia.
Qed.

Section safe.
  Variables (len : N) (buf : bytes).
  Hypothesis H1 : 1 <= len.
  Hypothesis Hmax : len <= 4194272.
  Hypothesis Hbuf : 2 * len + 2 <= lenN buf.
  Let size := len * 1024.

  (** The state inside a chunk at [p] whose data begin at [start]: [dc] bytes are out, the next
      byte is at [cur].  Short data earn credit for one long copy. *)
  Definition budget (p start dc cur : N) : Prop :=
    start <= dc /\ 1 <= p /\ p + 3 <= cur /\ cur <= p + 4100 /\ dc - start <= 8194 + 5 * (cur - (p + 3)) /\
    dc <= 820 * cur /\ (dc - start <= 32 -> dc + 2458 <= 820 * cur).
  Lemma P32 : 2 ^ 32 = 4294967296. Proof. reflexivity. Qed.

  Lemma token_safe p start flag out cur : budget p start (lenN out) cur -> cur + 1 <= len -> cur <= p + 4098 ->
    exists out' cur', token len buf size start flag out cur = Ok (out', cur') /\ cur < cur' <= cur + 2 /\
      budget p start (lenN out') cur'.
  Proof.
    intros (B1 & B2 & B3 & B4 & B5 & B6 & B7) C1 C2. pose proof P32 as E32. unfold token. destruct flag.
    - assert (Esub : subw 32 (lenN out) start = lenN out - start) by (unfold subw; rewrite E32; lia). rewrite Esub.
      set (d := lenN out - start) in *.
      destruct (bit_count_spec d) as (K4 & Kd & Km).
      assert (K15 : bit_count d <= 15) by (apply bits_le; [lia|change (2 ^ 15) with 32768; lia]).
      assert (Big : 32 < d -> 2 ^ (16 - bit_count d) <= 1024).
      { intros G. assert (5 < bit_count d) by (apply bits_ge; change (2 ^ 5) with 32; exact G).
        change 1024 with (2 ^ 10). apply N.pow_le_mono_r; lia. }
      assert (Huge : 4096 < d -> 2 ^ (16 - bit_count d) <= 8).
      { intros G. assert (12 < bit_count d) by (apply bits_ge; change (2 ^ 12) with 4096; exact G).
        change 8 with (2 ^ 3). apply N.pow_le_mono_r; lia. }
      assert (Any : 2 ^ (16 - bit_count d) <= 4096) by (change 4096 with (2 ^ 12); apply N.pow_le_mono_r; lia).
      assert (Off : 65536 = 2 ^ bit_count d * 2 ^ (16 - bit_count d)).
      { rewrite <- N.pow_add_r. replace (bit_count d + (16 - bit_count d)) with 16 by lia. reflexivity. }
      assert (Kb : 2 ^ bit_count d <= 32768) by (change 32768 with (2 ^ 15); apply N.pow_le_mono_r; lia).
      assert (Pz : 2 ^ (16 - bit_count d) <> 0) by (apply N.pow_nonzero; lia).
      set (k := bit_count d) in *. clearbody k. replace (16 <? k) with false by lia.
      destruct (short_any buf len cur) as (t & Et & Bt); [lia|lia|lia|]. rewrite Et. cbn [bind].
      destruct (masks k t K4) as [M1 M2]; [lia|exact Bt|]. rewrite M1, M2.
      assert (Bl : t mod 2 ^ (16 - k) < 2 ^ (16 - k)) by (apply N.mod_upper_bound; exact Pz).
      assert (Bo : t / 2 ^ (16 - k) < 2 ^ k) by (apply N.div_lt_upper_bound; [exact Pz|lia]).
      set (n := t mod 2 ^ (16 - k)) in *. set (o := t / 2 ^ (16 - k)) in *. clearbody n o.
      assert (E16 : u16 (o + 1) = o + 1) by (apply N.mod_small; change (2 ^ 16) with 65536; lia). rewrite E16.
      set (q := 2 ^ (16 - k)) in *. clearbody q.
      set (src := subw 32 (lenN out) (o + 1)).
      assert (Rounds : N.of_nat (copy_rounds size src (n + 3)) <= n + 3 /\ src + N.of_nat (copy_rounds size src (n + 3)) <= size \/ copy_rounds size src (n + 3) = 0%nat).
      { unfold copy_rounds. destruct (N.leb_spec (o + 1) (lenN out)) as [G|G].
        - assert (Es : src = lenN out - (o + 1)) by (unfold src, subw; rewrite E32; lia). left.
          rewrite u32_small by lia. unfold size in *. lia.
        - assert (Es : src = 4294967296 - (o + 1 - lenN out)) by (unfold src, subw; rewrite E32; lia). right.
          unfold size in *. lia. }
      clearbody src.
      assert (Room : lenN out + N.of_nat (copy_rounds size src (n + 3)) <= size).
      { destruct Rounds as [[R _]| ->]; unfold size in *; lia. }
      destruct Rounds as [[R1 R2]|R0].
      + destruct (copy_safe (copy_rounds size src (n + 3)) size out src Room R2) as (w & E & Lw). rewrite E. cbn [bind].
        rewrite u32_small by lia. exists (out ++ w), (cur + 2). split; [reflexivity|]. split; [lia|].
        unfold budget. rewrite lenN_app. lia.
      + rewrite R0. cbn [copy_loop bind]. rewrite u32_small by lia. exists out, (cur + 2). split; [reflexivity|]. split; [lia|].
        unfold budget. lia.
    - destruct (nthN_lt buf cur) as (b & Hb); [lia|]. unfold rdb. rewrite Hb. cbn [bind].
      unfold put. replace (lenN out <? size) with true by (unfold size in *; lia). cbn [bind]. rewrite u32_small by lia.
      exists (out ++ [b]), (cur + 1). split; [reflexivity|]. split; [lia|]. unfold budget. rewrite lenN_app. change (lenN [b]) with 1. lia.
  Qed.

  Lemma token_loop_safe k : forall p start fin flags i out cur, budget p start (lenN out) cur -> fin <= len -> fin <= p + 4098 ->
    exists out' cur', token_loop k len buf size start fin flags i out cur = Ok (out', cur') /\ cur <= cur' <= N.max cur (fin + 1) /\
      budget p start (lenN out') cur'.
  Proof.
    induction k as [|k IH]; intros p start fin flags i out cur B F1 F2; cbn [token_loop].
    - exists out, cur. split; [reflexivity|]. split; [lia|exact B].
    - destruct (N.ltb_spec cur fin) as [G|G]; cbn [bind].
      + destruct (token_safe p start (N.testbit flags i) out cur B) as (o1 & c1 & E & L1 & B1'); [lia|lia|]. rewrite E. cbn [bind].
        destruct (IH p start fin flags (i + 1) o1 c1 B1' F1 F2) as (o2 & c2 & E2 & L2 & B2'). exists o2, c2.
        split; [exact E2|]. split; [lia|exact B2'].
      + apply IH; assumption.
  Qed.
  (** Between the groups of a chunk. *)
  Definition pause (p start dc cur : N) : Prop :=
    start <= dc /\ 1 <= p /\ p + 2 <= cur /\ cur <= p + 4100 /\ dc - start <= 8194 + 5 * (cur - (p + 2)) /\
    dc <= 820 * cur /\ (dc - start <= 32 -> dc + 2458 <= 820 * (cur + 1)).
  Lemma sequence_safe fuel : forall p start fin out cur, pause p start (lenN out) cur -> fin <= len -> fin <= p + 4098 ->
    fin - cur < N.of_nat fuel ->
    exists out' cur', sequence_loop fuel len buf size start fin out cur = Ok (out', cur') /\ cur <= cur' <= N.max cur (fin + 1) /\
      pause p start (lenN out') cur'.
  Proof.
    induction fuel as [|fuel IH]; intros p start fin out cur B F1 F2 Fu; [lia|]. cbn [sequence_loop].
    destruct (N.ltb_spec cur fin) as [G|G].
    - destruct (nthN_lt buf cur) as (b & Hb); [lia|]. unfold rd. rewrite Hb. cbn [bind]. pose proof P32 as E32. rewrite u32_small by lia.
      destruct (token_loop_safe 8 p start fin (b2n b) 0 out (cur + 1)) as (o1 & c1 & E & L1 & B1'); [|exact F1|exact F2|].
      { unfold pause in B. unfold budget. lia. }
      rewrite E. cbn [bind]. destruct (IH p start fin o1 c1) as (o2 & c2 & E2 & L2 & B2'); [|exact F1|exact F2|lia|].
      { unfold budget in B1'. unfold pause. lia. }
      exists o2, c2. split; [exact E2|]. split; [lia|exact B2'].
    - exists out, cur. split; [reflexivity|]. split; [lia|exact B].
  Qed.
  Lemma chunk_safe fuel : forall out cur, 1 <= cur -> cur <= 2 * len + 2 -> lenN out <= 820 * cur -> len - cur < N.of_nat fuel ->
    exists r, chunk_loop fuel len buf size out cur = Ok r.
  Proof.
    induction fuel as [|fuel IH]; intros out cur C1 C2 B Fu; [lia|]. cbn [chunk_loop].
    destruct (N.ltb_spec cur len) as [G|G]; [|eexists; reflexivity]. pose proof P32 as E32.
    destruct (short_any buf len cur) as (h & Eh & Bh); [lia|lia|lia|]. rewrite Eh. cbn [bind].
    destruct (negb _); [eexists; reflexivity|]. unfold Extract_CompressedChunkSize.
    assert (Bn : N.land h 4095 <= 4095).
    { pose proof (N.land_ones h 12) as L12. change (N.ones 12) with 4095 in L12. rewrite L12. change (2 ^ 12) with 4096. lia. }
    set (n := N.land h 4095) in *. clearbody n. rewrite !u32_small by lia.
    set (fin := N.min len (cur + (n + 3))).
    destruct (Extract_CompressedChunkFlag h =? 1).
    - destruct (sequence_safe (S (N.to_nat len)) cur (lenN out) fin out (cur + 2)) as (o & c & E & Lc & (P1 & P2 & P3 & P4 & P5 & P6 & P7)).
      { unfold pause. lia. } { lia. } { lia. } { lia. }
      rewrite E. cbn [bind].
      apply IH; lia.
    - rewrite (raw_safe buf size (N.to_nat fin) out (cur + 2)); [|lia|lia|unfold size; lia]. cbn [bind].
      apply IH; [lia|lia| |lia]. rewrite lenN_app, lenN_takeN, lenN_dropN. lia.
  Qed.
End safe.

Theorem decompress_safe len buf : 1 <= len -> len <= 4194272 -> 2 * len + 2 <= lenN buf ->
  exists r, Decompress len buf = Ok r.
Proof.
  intros A B C. unfold Decompress. destruct (nthN_lt buf 0) as (b & Hb); [lia|]. unfold rd. rewrite Hb. cbn [bind].
  destruct (negb _); [eexists; reflexivity|]. assert (P : 2 ^ 32 = 4294967296) by reflexivity. rewrite u32_small by lia.
  replace (len * 1024 =? 0) with false by lia. apply chunk_safe; [exact A|exact B|exact C|lia|lia|change (lenN (@nil byte)) with 0; lia|lia].
Qed.
