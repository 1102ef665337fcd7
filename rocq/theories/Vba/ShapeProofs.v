(** What follows a container: a stray byte, a foreign header, a chunk that is not compressed. *)
From Coq Require Import List NArith ZArith Bool Lia.
From Coq Require Import ZifyBool ZifyNat ZifyN.
From Verif Require Import Lib.Res Lib.Bytes Lib.BytesFacts Lib.NumFacts Common.Model Common.Spec Common.ReadProofs Vba.Model Vba.Spec Vba.Proofs Vba.SafetyProofs.
Import ListNotations.
Local Open Scope N_scope.
Ltac Zify.zify_post_hook ::= Z.div_mod_to_equations.
Arguments N.pow : simpl never.

Lemma prefix len buf size : len <= lenN buf -> len < 2 ^ 32 - 8192 -> size < 2 ^ 32 - 8192 ->
  forall w d, chunks w d -> forall fuel prev cur, lenN prev <= 1024 * (cur - 1) -> 1 <= cur ->
    1024 * (cur - 1 + lenN w) <= size -> at_ buf cur w -> cur + lenN w <= len -> len - cur < N.of_nat fuel ->
    exists fuel', len - (cur + lenN w) < N.of_nat fuel' /\
    chunk_loop fuel len buf size prev cur = chunk_loop fuel' len buf size (prev ++ d) (cur + lenN w) /\
    lenN (prev ++ d) <= 1024 * (cur + lenN w - 1).
Proof.
  intros Hl Hl32 Hs w d H. induction H as [|w d ws ds C Cs IH]; intros fuel prev cur Lp C1 Sz Aw Lc Lf.
  - change (lenN (@nil byte)) with 0 in *. exists fuel. rewrite app_nil_r, N.add_0_r. split; [exact Lf|]. split; [reflexivity|exact Lp].
  - destruct fuel as [|fuel]; [lia|]. rewrite lenN_app in *. destruct (at_app len buf size Hl Hl32 Hs _ _ _ Aw) as [A1 A2].
    assert (Ld : lenN d <= 4096 /\ 4 <= lenN w).
    { destruct C as (body & G & Lb & Ld & ->). apply groups_pos in G. rewrite lenN_app, lenN_to_le. lia. }
    destruct (chunk_step len buf size Hl Hl32 Hs w d fuel prev cur C) as [E Wp]; [lia|exact A1|lia|]. rewrite E.
    destruct (IH fuel (prev ++ d) (cur + lenN w)) as (f' & F1 & F2 & F3); [rewrite lenN_app; lia|lia|lia|exact A2|lia|lia|].
    exists f'. rewrite F2, app_assoc, N.add_assoc. split; [lia|]. split; [reflexivity|]. lia.
Qed.
Lemma container_prefix w d rest : container w d -> lenN (w ++ rest) <= 4194272 ->
  let len := lenN (w ++ rest) in
  exists fuel, lenN rest < N.of_nat fuel /\ lenN d <= 1024 * lenN w /\
  Decompress len (w ++ rest) = chunk_loop fuel len (w ++ rest) (len * 1024) d (lenN w).
Proof.
  intros (ws & -> & C) L len. unfold Decompress. change (rd ((x01 :: ws) ++ rest) 0) with (Ok (A := N) 1). cbn [bind].
  change (negb (1 =? 1)) with false. cbn iota. assert (P32 : 2 ^ 32 = 4294967296) by reflexivity.
  assert (El : len = lenN ws + 1 + lenN rest) by (unfold len; rewrite lenN_app, lenN_cons; lia).
  rewrite u32_small by (unfold len; lia). replace (len * 1024 =? 0) with false by lia.
  destruct (prefix len ((x01 :: ws) ++ rest) (len * 1024)) with (w := ws) (d := d) (fuel := S (N.to_nat len)) (prev := @nil byte) (cur := 1)
    as (f & F1 & F2 & F3); try lia; try exact C.
  - cbn. lia.
  - split; [reflexivity|]. exists [x01], rest. split; reflexivity.
  - exists f. rewrite F2. cbn [app] in F3 |- *. rewrite lenN_cons. replace (1 + lenN ws) with (lenN ws + 1) in * by lia.
    split; [lia|]. split; [lia|reflexivity].
Qed.
Lemma nth_after (w rest : bytes) i : nthN (w ++ rest) (lenN w + i) = nthN rest i.
Proof. apply nth_app_r. Qed.

Theorem stray_byte w d b : container w d -> lenN w < 4194272 -> Decompress (lenN (w ++ [b])) (w ++ [b]) = UB.
Proof.
  intros C L. assert (El : lenN (w ++ [b]) = lenN w + 1) by (rewrite lenN_app; reflexivity).
  destruct (container_prefix w d [b] C) as (f & F1 & _ & E); [lia|]. rewrite E. change (lenN [b]) with 1 in F1.
  destruct f as [|f]; [lia|]. cbn [chunk_loop]. rewrite El. replace (lenN w <? lenN w + 1) with true by lia.
  assert (P32 : 2 ^ 32 = 4294967296) by reflexivity.
  unfold ReadUShort. rewrite u32_small by lia. replace (lenN w + 1 <? lenN w + 1) with false by lia.
  unfold rd. pose proof (nth_after w [b] 0) as E0. rewrite N.add_0_r in E0. rewrite E0. rewrite nth_after. reflexivity.
Qed.
Theorem foreign_header w d lo hi rest : container w d -> lenN (w ++ lo :: hi :: rest) <= 4194272 -> (b2n hi / 16) mod 8 <> 3 ->
  Decompress (lenN (w ++ lo :: hi :: rest)) (w ++ lo :: hi :: rest) = Ok None.
Proof.
  intros C L H. destruct (container_prefix w d (lo :: hi :: rest) C L) as (f & F1 & _ & E). rewrite E.
  destruct f as [|f]; [lia|]. cbn [chunk_loop]. rewrite lenN_app, !lenN_cons in *.
  replace (lenN w <? lenN w + (lenN rest + 1 + 1)) with true by lia. assert (P32 : 2 ^ 32 = 4294967296) by reflexivity.
  rewrite (short_at _ _ (lenN w) lo hi); [|lia|lia| |].
  - cbn [bind]. pose proof (N.land_ones (N.shiftr (b2n lo + 256 * b2n hi) 12) 3) as L3. change (N.ones 3) with 7 in L3.
    rewrite L3, N.shiftr_div_pow2. change (2 ^ 3) with 8. change (2 ^ 12) with 4096.
    pose proof (b2n_lt lo). replace ((b2n lo + 256 * b2n hi) / 4096) with (b2n hi / 16) by lia.
    destruct (N.eqb_spec (b2n hi / 16 mod 8) 3) as [G|G]; [contradiction|]. reflexivity.
  - pose proof (nth_after w (lo :: hi :: rest) 0) as E0. rewrite N.add_0_r in E0. exact E0.
  - rewrite nth_after. reflexivity.
Qed.

Lemma raw_header n : n <= 4095 -> let h := n + 4096 * 3 in
  N.land (N.shiftr h 12) 7 = 3 /\ Extract_CompressedChunkSize h = n + 3 /\ Extract_CompressedChunkFlag h = 0 /\ h < 65536.
Proof.
  intros B h. unfold h, Extract_CompressedChunkSize, Extract_CompressedChunkFlag. rewrite !N.shiftr_div_pow2.
  pose proof (fun a => N.land_ones a 12) as L12. pose proof (fun a => N.land_ones a 3) as L3. pose proof (fun a => N.land_ones a 1) as L1.
  change (N.ones 12) with 4095 in L12. change (N.ones 3) with 7 in L3. change (N.ones 1) with 1 in L1. rewrite L12, L3, L1.
  change (2 ^ 12) with 4096. change (2 ^ 3) with 8. change (2 ^ 15) with 32768. change (2 ^ 1) with 2. clear - B. lia.
Qed.
Lemma raw_ub k : forall buf size out cur, cur <= lenN buf -> lenN buf < cur + N.of_nat k -> cur + N.of_nat k < 2 ^ 32 -> raw_loop k buf size out cur = UB.
Proof.
  induction k as [|k IH]; intros buf size out cur Z A B.
  - lia.
  - cbn [raw_loop]. unfold rdb. destruct (nthN buf cur) as [b|] eqn:E; cbn [bind]; [|reflexivity]. apply nthN_Some_lt in E. unfold put.
    destruct (lenN out <? size); cbn [bind]; [|reflexivity]. rewrite u32_small by lia. apply IH; lia.
Qed.
Lemma raw_start w d n data : container w d -> n <= 4095 -> let f := w ++ to_le 2 (n + 4096 * 3) ++ data in lenN f <= 4194272 ->
  exists fuel, lenN d <= 1024 * lenN w /\ lenN data < N.of_nat fuel /\
  Decompress (lenN f) f =
    ('(out, cur) <- raw_loop (N.to_nat (N.min (lenN f) (lenN w + (n + 3)))) f (lenN f * 1024) d (lenN w + 2) ;;
     chunk_loop fuel (lenN f) f (lenN f * 1024) out cur).
Proof.
  intros C Hn f L. destruct (container_prefix w d (to_le 2 (n + 4096 * 3) ++ data) C L) as (fu & F1 & F2 & E). fold f in E. rewrite E.
  assert (Elen : lenN f = lenN w + (2 + lenN data)) by (unfold f; rewrite !lenN_app, lenN_to_le; lia).
  rewrite lenN_app, lenN_to_le in F1. destruct fu as [|fu]; [lia|]. exists fu. split; [exact F2|]. split; [lia|].
  destruct (raw_header n Hn) as (H1 & H2 & H3 & H4). set (h := n + 4096 * 3) in *. destruct (two_bytes h) as (a & b & Eab).
  assert (Na : nthN f (lenN w) = Some a).
  { unfold f. rewrite <- (N.add_0_r (lenN w)). rewrite nth_after. rewrite Eab. reflexivity. }
  assert (Nb : nthN f (lenN w + 1) = Some b).
  { unfold f. rewrite nth_after. rewrite Eab. reflexivity. }
  cbn [chunk_loop]. assert (P32 : 2 ^ 32 = 4294967296) by reflexivity.
  clearbody f. replace (lenN w <? lenN f) with true by lia.
  rewrite (short_at _ _ (lenN w) a b); [|lia|lia|exact Na|exact Nb].
  cbn [bind]. rewrite (le2 _ _ _ Eab H4), H1, H2, H3. change (negb (3 =? 3)) with false. change (0 =? 1) with false. cbn iota.
  rewrite !u32_small by lia. reflexivity.
Qed.
(** A stored chunk whose data are the rest of the stream, or lack some of what the loop takes. *)
Theorem raw_over_read w d n data : container w d -> n <= 4095 -> lenN data <= n + 1 ->
  lenN (w ++ to_le 2 (n + 4096 * 3) ++ data) <= 4194272 ->
  Decompress (lenN (w ++ to_le 2 (n + 4096 * 3) ++ data)) (w ++ to_le 2 (n + 4096 * 3) ++ data) = UB.
Proof.
  intros C Hn Ld L. destruct (raw_start w d n data C Hn L) as (fu & _ & _ & E). rewrite E.
  assert (Elen : lenN (w ++ to_le 2 (n + 4096 * 3) ++ data) = lenN w + (2 + lenN data)) by (rewrite !lenN_app, lenN_to_le; lia).
  assert (P32 : 2 ^ 32 = 4294967296) by reflexivity.
  assert (1 <= lenN w) by (destruct C as (ws & -> & _); rewrite lenN_cons; lia).
  rewrite raw_ub; [reflexivity|lia|lia|lia].
Qed.
Theorem raw_takes_position w d n data : container w d -> n <= 4095 -> lenN data = lenN w + n + 3 ->
  lenN (w ++ to_le 2 (n + 4096 * 3) ++ data) <= 4194272 ->
  Decompress (lenN (w ++ to_le 2 (n + 4096 * 3) ++ data)) (w ++ to_le 2 (n + 4096 * 3) ++ data) = Ok (Some (d ++ data)).
Proof.
  intros C Hn Ld L. destruct (raw_start w d n data C Hn L) as (fu & Bd & Fu & E). rewrite E. clear E.
  assert (Elen : lenN (w ++ to_le 2 (n + 4096 * 3) ++ data) = lenN w + (2 + lenN data)) by (rewrite !lenN_app, lenN_to_le; lia).
  assert (P32 : 2 ^ 32 = 4294967296) by reflexivity.
  assert (W1 : 1 <= lenN w) by (destruct C as (ws & -> & _); rewrite lenN_cons; lia).
  assert (Ed : dropN (lenN w + 2) (w ++ to_le 2 (n + 4096 * 3) ++ data) = data).
  { rewrite app_assoc. replace (lenN w + 2) with (lenN (w ++ to_le 2 (n + 4096 * 3))) by (rewrite lenN_app, lenN_to_le; lia).
    apply dropN_app_exact. }
  set (f := w ++ to_le 2 (n + 4096 * 3) ++ data) in *. clearbody f.
  replace (N.min (lenN f) (lenN w + (n + 3))) with (lenN data) by lia.
  rewrite raw_safe; [|lia|lia|lia]. cbn [bind]. rewrite N2Nat.id, Ed, takeN_all by lia.
  destruct fu as [|fu]; [lia|]. cbn [chunk_loop]. replace (lenN w + 2 + lenN data <? lenN f) with false by lia. reflexivity.
Qed.

(** ** A buffer that is too small *)
Lemma copy_overflow k : forall size out n, n + N.of_nat k <= size -> lenN out <= size -> size < lenN out + N.of_nat k ->
  copy_loop k size out n = UB.
Proof.
  induction k as [|k IH]; intros size out n A B C; [lia|]. cbn [copy_loop]. unfold get. replace (n <? size) with true by lia. cbn [bind].
  unfold put. destruct (N.ltb_spec (lenN out) size) as [G|G]; cbn [bind]; [|reflexivity].
  apply IH; [lia|rewrite lenN_app; unfold lenN at 2; cbn; lia|rewrite lenN_app; unfold lenN at 2; cbn; lia].
Qed.
Definition overflow_start : bytes := [x01; xff; xbf; x02; x61; xff; x0f].
Theorem buffer_overflow len rest : len = 4194305 -> Decompress len (overflow_start ++ rest) = UB.
Proof.
  intros E. unfold Decompress. change (rd (overflow_start ++ rest) 0) with (Ok (A := N) 1). cbn [bind].
  change (negb (1 =? 1)) with false. cbn iota.
  assert (Es : u32 (len * 1024) = 1024) by (rewrite E; reflexivity). rewrite Es. change (1024 =? 0) with false. cbn iota.
  generalize (N.to_nat len) at 1. intros fuel. cbn [chunk_loop]. replace (1 <? len) with true by lia.
  rewrite (short_at _ _ 1 xff xbf); [|lia|change (2 ^ 32) with 4294967296; lia|reflexivity|reflexivity]. cbn [bind].
  change (b2n xff + 256 * b2n xbf) with 49151.
  change (negb (N.land (N.shiftr 49151 12) 7 =? 3)) with false. change (Extract_CompressedChunkFlag 49151 =? 1) with true.
  change (Extract_CompressedChunkSize 49151) with 4098. change (u32 (1 + 4098)) with 4099. change (u32 (1 + 2)) with 3.
  change (lenN (@nil byte)) with 0. cbn iota.
  replace (N.min len 4099) with 4099 by lia. generalize (N.to_nat len). intros g. cbn [sequence_loop].
  change (3 <? 4099) with true. change (rd (overflow_start ++ rest) 3) with (Ok (A := N) 2). cbn [bind].
  change (u32 (3 + 1)) with 4. cbn [token_loop]. change (4 <? 4099) with true. change (N.testbit 2 0) with false. unfold token.
  change (rdb (overflow_start ++ rest) 4) with (Ok x61). cbn [bind]. change (put 1024 [] x61) with (Ok [x61]). cbn [bind].
  change (u32 (4 + 1)) with 5. change (5 <? 4099) with true. change (N.testbit 2 (0 + 1)) with true. cbn iota.
  change (subw 32 (lenN [x61]) 0) with 1. change (bit_count 1) with 4. change (16 <? 4) with false. cbn iota.
  rewrite (short_at _ _ 5 xff x0f); [|lia|change (2 ^ 32) with 4294967296; lia|reflexivity|reflexivity]. cbn [bind].
  change (b2n xff + 256 * b2n x0f) with 4095.
  change (N.land 4095 (N.shiftr 65535 4) + 3) with 4098.
  change (subw 32 (lenN [x61]) (u16 (N.shiftr (N.land 4095 (N.lxor 65535 (N.shiftr 65535 4))) (16 - 4) + 1))) with 0.
  rewrite copy_overflow; [reflexivity| | |].
  - unfold copy_rounds. change (u32 (0 + 4098)) with 4098. lia.
  - change (lenN [x61]) with 1. lia.
  - unfold copy_rounds. change (u32 (0 + 4098)) with 4098. change (lenN [x61]) with 1. lia.
Qed.
Theorem empty_buffer k buf : rd buf 0 = Ok 1 -> Decompress (k * 4194304) buf = Throw BadAlloc.
Proof.
  intros H. unfold Decompress. rewrite H. cbn [bind]. change (negb (1 =? 1)) with false. cbn iota.
  assert (E : u32 (k * 4194304 * 1024) = 0).
  { unfold u32. replace (k * 4194304 * 1024) with (k * 2 ^ 32) by (change (2 ^ 32) with 4294967296; lia). apply N.mod_mul. apply N.pow_nonzero. lia. }
  rewrite E. reflexivity.
Qed.
Theorem not_compressed len b buf : b <> x01 -> Decompress len (b :: buf) = Ok None.
Proof.
  intros H. unfold Decompress. change (rd (b :: buf) 0) with (Ok (b2n b)). cbn [bind].
  destruct (N.eqb_spec (b2n b) 1) as [E|E]; [|reflexivity]. exfalso. apply H. apply b2n_inj. exact E.
Qed.
Theorem no_stream len : Decompress len [] = UB.
Proof. reflexivity. Qed.

(** ** The writer of literals *)
Lemma literal_tokens : forall g d, tokens d (map Literal g) g (d ++ g).
Proof.
  induction g as [|b g IH]; intros d; cbn [map].
  - rewrite app_nil_r. constructor.
  - replace (d ++ b :: g) with ((d ++ [b]) ++ g) by (rewrite <- app_assoc; reflexivity).
    exact (tokens_cons d (Literal b) [b] (d ++ [b]) (map Literal g) g ((d ++ [b]) ++ g) eq_refl eq_refl (IH (d ++ [b]))).
Qed.
Lemma literal_group g d : 0 < lenN g -> lenN g <= 8 -> group d (map Literal g) (x00 :: g) (d ++ g).
Proof.
  intros A B. assert (El : lenN (map Literal g) = lenN g) by (unfold lenN; rewrite map_length; reflexivity).
  exists x00, g. split; [reflexivity|]. split; [apply literal_tokens|]. split; [lia|].
  intros i t H. change (b2n x00) with 0. rewrite N.bits_0. rewrite nthN_nth_error in H.
  apply nth_error_In in H. apply in_map_iff in H. destruct H as (x & <- & _). reflexivity.
Qed.
Lemma literal_groups_ok fuel : forall d pre, 0 < lenN d -> lenN d <= N.of_nat fuel ->
  groups pre (literal_groups fuel d) (pre ++ d) /\ 8 * lenN (literal_groups fuel d) <= 9 * lenN d + 8.
Proof.
  induction fuel as [|fuel IH]; intros d pre A B; [lia|]. destruct d as [|b d0]; [cbn in A; lia|]. cbn [literal_groups].
  set (d := b :: d0) in *. clearbody d. clear b d0.
  destruct (N.leb_spec (lenN d) 8) as [G|G].
  - rewrite takeN_all, dropN_all by exact G. replace (literal_groups fuel []) with (@nil byte) by (destruct fuel; reflexivity).
    rewrite app_nil_r. split; [econstructor; apply literal_group; assumption|rewrite lenN_cons; lia].
  - destruct (IH (dropN 8 d) (pre ++ takeN 8 d)) as [I1 I2]; [rewrite lenN_dropN; lia|rewrite lenN_dropN; lia|].
    rewrite lenN_dropN in I2. split.
    + change (x00 :: takeN 8 d ++ literal_groups fuel (dropN 8 d)) with ((x00 :: takeN 8 d) ++ literal_groups fuel (dropN 8 d)).
      rewrite <- (takeN_dropN 8 d) at 3. rewrite app_assoc.
      assert (L8 : lenN (takeN 8 d) = 8) by (rewrite lenN_takeN; lia).
      econstructor; [apply literal_group; lia| |exact I1]. unfold lenN in *. rewrite map_length. exact L8.
    + rewrite lenN_cons, lenN_app, lenN_takeN. lia.
Qed.
Lemma literal_chunk_ok d : 0 < lenN d -> lenN d <= 2048 -> chunk (literal_chunk d) d /\ 8 * lenN (literal_chunk d) <= 9 * lenN d + 24.
Proof.
  intros A B. destruct (literal_groups_ok (N.to_nat (lenN d)) d [] A) as [G L]; [lia|]. unfold literal_chunk.
  split; [|rewrite lenN_app, lenN_to_le; lia]. exists (literal_groups (N.to_nat (lenN d)) d). split; [exact G|]. split; [lia|]. split; [lia|reflexivity].
Qed.
Lemma literal_chunks_ok fuel : forall d, lenN d <= N.of_nat fuel ->
  chunks (literal_chunks fuel d) d /\ 2048 * lenN (literal_chunks fuel d) <= 2307 * lenN d + 6144.
Proof.
  induction fuel as [|fuel IH]; intros d B.
  - destruct d; [|rewrite lenN_cons in B; lia]. split; [constructor|cbn; lia].
  - destruct d as [|b d0]; [split; [constructor|cbn; lia]|]. cbn [literal_chunks].
    assert (A : 0 < lenN (b :: d0)) by (rewrite lenN_cons; lia). set (d := b :: d0) in *. clearbody d. clear b d0.
    destruct (literal_chunk_ok (takeN 2048 d)) as [C1 C2]; [rewrite lenN_takeN; lia|rewrite lenN_takeN; lia|].
    destruct (IH (dropN 2048 d)) as [I1 I2]; [rewrite lenN_dropN; lia|]. split.
    + rewrite <- (takeN_dropN 2048 d) at 3. constructor; assumption.
    + rewrite lenN_app. rewrite lenN_takeN in C2. rewrite lenN_dropN in I2. destruct (N.leb_spec (lenN d) 2048) as [G|G].
      * rewrite (dropN_all 2048 d G). replace (literal_chunks fuel []) with (@nil byte) by (destruct fuel; reflexivity).
        change (lenN (@nil byte)) with 0. lia.
      * lia.
Qed.
Theorem literals_container d : container (stored_as_literals d) d.
Proof. eexists. split; [reflexivity|]. apply literal_chunks_ok. lia. Qed.
Theorem literals_round_trip d : lenN d <= 3700000 -> Decompress (lenN (stored_as_literals d)) (stored_as_literals d) = Ok (Some d).
Proof.
  intros L. apply decompress_ok; [apply literals_container|]. unfold stored_as_literals. rewrite lenN_cons.
  destruct (literal_chunks_ok (N.to_nat (lenN d)) d) as [_ B]; lia.
Qed.
