(** Decompression: tokens, chunks, containers; and that it stays inside its buffers. *)
From Coq Require Import List NArith ZArith Bool Lia.
From Coq Require Import ZifyBool ZifyNat ZifyN.
From Verif Require Import Lib.Res Lib.Bytes Lib.BytesFacts Lib.NumFacts Common.Model Common.Spec Common.ReadProofs Vba.Model Vba.Spec.
Import ListNotations.
Local Open Scope N_scope.
Ltac Zify.zify_post_hook ::= Z.div_mod_to_equations.
Arguments N.pow : simpl never.

(** ** Numbers *)
Lemma bit_count_spec d : 4 <= bit_count d /\ d <= 2 ^ bit_count d /\ (bit_count d = 4 \/ 2 ^ (bit_count d - 1) < d).
Proof.
  unfold bit_count. split; [lia|]. destruct (N.leb_spec d 16) as [S16|B].
  - assert (N.log2_up d <= 4) by (change 4 with (N.log2_up 16); apply N.log2_up_le_mono; exact S16).
    replace (N.max (N.log2_up d) 4) with 4 by lia. change (2 ^ 4) with 16. lia.
  - assert (4 <= N.log2_up d) by (change 4 with (N.log2_up 16); apply N.log2_up_le_mono; lia).
    replace (N.max (N.log2_up d) 4) with (N.log2_up d) by lia.
    destruct (N.log2_up_spec d) as [A C]; [lia|]. rewrite N.sub_1_r. split; [exact C|right; exact A].
Qed.
Lemma bits_unique d k : offset_bits d k -> bit_count d = k.
Proof.
  intros (K4 & K & L). destruct (bit_count_spec d) as (B4 & B & M). set (b := bit_count d) in *. clearbody b.
  destruct (N.lt_trichotomy b k) as [H|[H|H]]; [|exact H|].
  - destruct L as [->|L]; [lia|]. assert (2 ^ b <= 2 ^ (k - 1)) by (apply N.pow_le_mono_r; lia). lia.
  - destruct M as [->|M]; [lia|]. assert (2 ^ k <= 2 ^ (b - 1)) by (apply N.pow_le_mono_r; lia). lia.
Qed.
Lemma bits_le d n : 4 <= n -> d <= 2 ^ n -> bit_count d <= n.
Proof.
  intros N4 H. destruct (bit_count_spec d) as (B4 & B & M). set (b := bit_count d) in *. clearbody b.
  destruct M as [->|M]; [exact N4|]. destruct (N.leb_spec b n) as [K|K]; [exact K|].
  assert (2 ^ n <= 2 ^ (b - 1)) by (apply N.pow_le_mono_r; lia). lia.
Qed.
Lemma bits_ge d n : 2 ^ n < d -> n < bit_count d.
Proof.
  intros H. destruct (bit_count_spec d) as (B4 & B & _). apply (N.pow_lt_mono_r_iff 2); [lia|]. lia.
Qed.
Lemma masks k t : 4 <= k -> k <= 16 -> t < 65536 ->
  N.land t (N.shiftr 65535 k) = t mod 2 ^ (16 - k) /\
  N.shiftr (N.land t (N.lxor 65535 (N.shiftr 65535 k))) (16 - k) = t / 2 ^ (16 - k).
Proof.
  intros K1 K2 T.
  assert (E1 : N.shiftr 65535 k = N.ones (16 - k)).
  { assert (Hk : In k [4;5;6;7;8;9;10;11;12;13;14;15;16]) by (cbn; lia). repeat (destruct Hk as [<-|Hk]; [reflexivity|]). destruct Hk. }
  assert (E2 : N.shiftr (N.lxor 65535 (N.ones (16 - k))) (16 - k) = N.ones k).
  { assert (Hk : In k [4;5;6;7;8;9;10;11;12;13;14;15;16]) by (cbn; lia). repeat (destruct Hk as [<-|Hk]; [reflexivity|]). destruct Hk. }
  rewrite E1. split; [apply N.land_ones|]. rewrite N.shiftr_land, E2, N.land_ones, N.shiftr_div_pow2.
  apply N.mod_small. apply N.div_lt_upper_bound; [apply N.pow_nonzero; lia|]. rewrite <- N.pow_add_r.
  replace (16 - k + k) with 16 by lia. exact T.
Qed.

(** ** Reading *)
Lemma short_at buf len off a b : off + 1 <= len -> len < 2 ^ 32 -> nthN buf off = Some a -> nthN buf (off + 1) = Some b ->
  ReadUShort buf len off false = Ok (b2n a + 256 * b2n b).
Proof.
  intros L L2 Ha Hb. unfold ReadUShort. rewrite u32_small by lia. replace (len <? off + 1) with false by lia.
  unfold rd. rewrite Ha, Hb. cbn [bind]. rewrite or2. f_equal. lia.
Qed.
Lemma short_any buf len off : off + 1 <= len -> len < 2 ^ 32 -> off + 1 < lenN buf ->
  exists v, ReadUShort buf len off false = Ok v /\ v < 65536.
Proof.
  intros L L2 B. destruct (nthN_lt buf off) as (a & Ha); [lia|]. destruct (nthN_lt buf (off + 1)) as (b & Hb); [lia|].
  exists (b2n a + 256 * b2n b). split; [apply short_at; assumption|]. pose proof (b2n_lt a). pose proof (b2n_lt b). lia.
Qed.
Lemma le2 v a b : to_le 2 v = [a; b] -> v < 65536 -> b2n a + 256 * b2n b = v.
Proof.
  intros E B. assert (H : le (to_le 2 v) = v) by (apply le_to_le_id; exact B). rewrite E in H. cbn [le] in H. lia.
Qed.
Lemma two_bytes v : exists a b, to_le 2 v = [a; b].
Proof. cbn [to_le]. eexists _, _. reflexivity. Qed.

(** ** Copying *)
Lemma nth_app_r {A} (l m : list A) i : nthN (l ++ m) (lenN l + i) = nthN m i.
Proof. rewrite nthN_app2 by lia. f_equal. lia. Qed.
Lemma copy_ok k : forall size out off, 1 <= off -> off <= lenN out -> lenN out + N.of_nat k <= size ->
  exists w, copy_loop k size out (lenN out - off) = Ok (out ++ w) /\ lenN w = N.of_nat k /\
    forall i, i < N.of_nat k -> nthN (out ++ w) (lenN out + i) = nthN (out ++ w) (lenN out + i - off).
Proof.
  induction k as [|k IH]; intros size out off O1 O2 Sz.
  - exists []. cbn [copy_loop]. rewrite app_nil_r. split; [reflexivity|]. split; [reflexivity|]. intros i Hi. lia.
  - cbn [copy_loop]. unfold get. replace (lenN out - off <? size) with true by lia. cbn [bind].
    destruct (nthN_lt out (lenN out - off)) as (b & Hb); [lia|]. rewrite Hb.
    unfold put. replace (lenN out <? size) with true by lia. cbn [bind].
    destruct (IH size (out ++ [b]) off) as (w & E & Lw & P); [exact O1|rewrite lenN_app; lia|rewrite lenN_app; change (lenN [b]) with 1; lia|].
    rewrite lenN_app in E, P. change (lenN [b]) with 1 in E, P.
    replace (lenN out + 1 - off) with (lenN out - off + 1) in E by lia. rewrite E.
    exists (b :: w). rewrite <- app_assoc in *. split; [reflexivity|]. split; [rewrite lenN_cons; lia|].
    intros i Hi. destruct (N.eq_dec i 0) as [->|Ni].
    + rewrite N.add_0_r. rewrite nthN_app2 by lia. rewrite N.sub_diag. cbn [app nthN].
      rewrite nthN_app1 by lia. symmetry. exact Hb.
    + specialize (P (i - 1)). replace (lenN out + 1 + (i - 1)) with (lenN out + i) in P by lia. apply P. lia.
Qed.
Lemma copy_unique (d w1 w2 : bytes) off n : 1 <= off -> off <= lenN d -> lenN w1 = n -> lenN w2 = n ->
  (forall i, i < n -> nthN (d ++ w1) (lenN d + i) = nthN (d ++ w1) (lenN d + i - off)) ->
  (forall i, i < n -> nthN (d ++ w2) (lenN d + i) = nthN (d ++ w2) (lenN d + i - off)) -> w1 = w2.
Proof.
  intros O1 O2 L1 L2 P1 P2.
  assert (H : forall i, nthN (d ++ w1) i = nthN (d ++ w2) i).
  { intros i. induction i as [i IH] using (well_founded_induction N.lt_wf_0).
    destruct (N.ltb_spec i (lenN d)) as [K|K]; [rewrite !nthN_app1 by exact K; reflexivity|].
    destruct (N.ltb_spec i (lenN d + n)) as [G|G].
    - replace i with (lenN d + (i - lenN d)) by lia. rewrite P1, P2 by lia. apply IH. lia.
    - rewrite !(proj2 (nthN_None _ _)); [reflexivity|rewrite lenN_app; lia|rewrite lenN_app; lia]. }
  assert (H2 : forall i, nthN w1 i = nthN w2 i).
  { intros i. specialize (H (lenN d + i)). rewrite !nth_app_r in H. exact H. }
  clear - H2. revert w2 H2. induction w1 as [|a w1 IH]; intros [|b w2] H2; [reflexivity|discriminate (H2 0)|discriminate (H2 0)|].
  pose proof (H2 0) as E. cbn in E. injection E as ->. f_equal. apply IH. intros i. specialize (H2 (i + 1)). cbn [nthN] in H2.
  destruct (N.eqb_spec (i + 1) 0); [lia|]. rewrite N.add_1_r, N.pred_succ in H2. exact H2.
Qed.

(** ** Well-formed containers *)
Lemma stored_pos d t w : token_stored d t w -> 0 < lenN w.
Proof. destruct t as [b|off n]; cbn [token_stored]; [intros ->; change (lenN [b]) with 1; lia|]. intros (k & _ & _ & _ & ->). rewrite lenN_to_le. lia. Qed.
Lemma expands_grow d t e : expands d t e -> lenN d <= lenN e.
Proof. destruct t; cbn [expands]; [intros ->|intros (w & -> & _)]; rewrite lenN_app; lia. Qed.
Lemma tokens_grow d ts w e : tokens d ts w e -> lenN d <= lenN e.
Proof. intros H. induction H as [d|d t w d' ts ws e St Ex Tk IH]; [lia|]. apply expands_grow in Ex. lia. Qed.

(** A chunk has four bytes or more. *)
Lemma groups_pos d w e : groups d w e -> 2 <= lenN w.
Proof.
  assert (One : forall d ts w e, group d ts w e -> 2 <= lenN w).
  { clear d w e. intros d ts w e (f & ws & -> & Tk & B & _). rewrite lenN_cons. inversion Tk; subst; [change (lenN (@nil tok)) with 0 in B; lia|].
    match goal with H : token_stored _ _ _ |- _ => apply stored_pos in H end. rewrite lenN_app. lia. }
  intros H. destruct H as [d ts w e G|d ts w e ws e' G L Gs]; apply One in G; [exact G|rewrite lenN_app; lia].
Qed.
Lemma header_bits n : n <= 4095 -> let h := n + 4096 * 3 + 32768 in
  N.land (N.shiftr h 12) 7 = 3 /\ Extract_CompressedChunkSize h = n + 3 /\ Extract_CompressedChunkFlag h = 1 /\ h < 65536.
Proof.
  intros B h. unfold h, Extract_CompressedChunkSize, Extract_CompressedChunkFlag. rewrite !N.shiftr_div_pow2.
  pose proof (fun a => N.land_ones a 12) as L12. pose proof (fun a => N.land_ones a 3) as L3. pose proof (fun a => N.land_ones a 1) as L1.
  change (N.ones 12) with 4095 in L12. change (N.ones 3) with 7 in L3. change (N.ones 1) with 1 in L1. rewrite L12, L3, L1.
  change (2 ^ 12) with 4096. change (2 ^ 3) with 8. change (2 ^ 15) with 32768. change (2 ^ 1) with 2. clear - B. lia.
Qed.
Section wf.
  Variables (len : N) (buf : bytes) (size : N).
  Hypothesis Hlen : len <= lenN buf.
  Hypothesis Hl32 : len < 2 ^ 32 - 8192.
  Hypothesis Hs32 : size < 2 ^ 32 - 8192.

  Definition at_ (cur : N) (w : bytes) : Prop := window buf cur (lenN w) w.
  Lemma at_app cur w1 w2 : at_ cur (w1 ++ w2) -> at_ cur w1 /\ at_ (cur + lenN w1) w2.
  Proof.
    intros [_ (pre & post & E & L)]. split; (split; [reflexivity|]).
    - exists pre, (w2 ++ post). rewrite E, <- app_assoc. split; [reflexivity|exact L].
    - exists (pre ++ w1), post. rewrite E, lenN_app, <- !app_assoc. split; [reflexivity|lia].
  Qed.
  Lemma at_nth cur w i b : at_ cur w -> nthN w i = Some b -> nthN buf (cur + i) = Some b.
  Proof.
    intros [_ (pre & post & E & L)] H. rewrite E, <- L, nth_app_r, nthN_app1; [exact H|]. apply nthN_Some_lt in H. exact H.
  Qed.
  Lemma at_byte cur b w : at_ cur (b :: w) -> nthN buf cur = Some b.
  Proof. intros H. rewrite <- (N.add_0_r cur). eapply at_nth; [exact H|reflexivity]. Qed.

  Lemma token_ok t w prev d e cur : token_stored (lenN d) t w -> expands d t e -> lenN e <= 4096 ->
    lenN prev + lenN e <= size -> at_ cur w -> cur + lenN w <= len ->
    token len buf size (lenN prev) (is_copy t) (prev ++ d) cur = Ok (prev ++ e, cur + lenN w).
  Proof.
    intros St Ex Le Sz Aw Lc. assert (P32 : 2 ^ 32 = 4294967296) by reflexivity.
    destruct t as [b|off n]; cbn [token_stored expands is_copy] in *; unfold token.
    - subst w e. unfold rdb. rewrite (at_byte _ _ _ Aw). cbn [bind]. unfold put. rewrite !lenN_app in *. change (lenN [b]) with 1 in *.
      replace (lenN prev + lenN d <? size) with true by lia. cbn [bind]. rewrite u32_small by lia. rewrite <- app_assoc. reflexivity.
    - destruct St as (k & Hk & Ho & Hn & ->). destruct Ex as (w & -> & Lw & P).
      assert (Ed : lenN (prev ++ d) - lenN prev = lenN d) by (rewrite lenN_app; lia).
      assert (Esub : subw 32 (lenN (prev ++ d)) (lenN prev) = lenN d).
      { rewrite lenN_app in *. unfold subw. rewrite P32. lia. }
      rewrite Esub, (bits_unique _ _ Hk). rewrite lenN_app in Le.
      assert (K12 : k <= 12).
      { rewrite <- (bits_unique _ _ Hk). apply bits_le; [lia|]. change (2 ^ 12) with 4096. lia. }
      destruct Hk as (K4 & Kd & _). replace (16 <? k) with false by lia.
      assert (Eo : (off - 1) * 2 ^ (16 - k) + (n - 3) < 65536 /\ 0 < 2 ^ (16 - k) /\ off <= 4096).
      { assert (Hp : 2 ^ k * 2 ^ (16 - k) = 65536) by (rewrite <- N.pow_add_r; replace (k + (16 - k)) with 16 by lia; reflexivity).
        assert (0 < 2 ^ (16 - k)) by (apply N.neq_0_lt_0, N.pow_nonzero; lia). split; [|lia]. nia. }
      destruct Eo as (Bt & Bp & Bo).
      destruct (two_bytes ((off - 1) * 2 ^ (16 - k) + (n - 3))) as (a & b & Eab). rewrite Eab in *.
      change (lenN [a; b]) with 2 in *.
      rewrite (short_at buf len cur a b); [|lia|lia|eapply at_byte; exact Aw|eapply at_nth; [exact Aw|reflexivity]].
      cbn [bind]. rewrite (le2 _ _ _ Eab Bt).
      destruct (masks k ((off - 1) * 2 ^ (16 - k) + (n - 3)) K4) as [E1 E2]; [lia|exact Bt|]. rewrite E1, E2.
      assert (M1 : ((off - 1) * 2 ^ (16 - k) + (n - 3)) mod 2 ^ (16 - k) = n - 3).
      { rewrite N.add_comm, N.mod_add by lia. apply N.mod_small. lia. }
      assert (M2 : ((off - 1) * 2 ^ (16 - k) + (n - 3)) / 2 ^ (16 - k) = off - 1).
      { rewrite N.add_comm, N.div_add by lia. rewrite N.div_small by lia. lia. }
      rewrite M1, M2. replace (n - 3 + 3) with n by lia. replace (off - 1 + 1) with off by lia.
      assert (E16 : u16 off = off) by (apply N.mod_small; change (2 ^ 16) with 65536; lia). rewrite E16.
      assert (Esrc : subw 32 (lenN (prev ++ d)) off = lenN (prev ++ d) - off).
      { rewrite lenN_app in *. unfold subw. rewrite P32. lia. }
      rewrite Esrc. unfold copy_rounds. rewrite u32_small by (rewrite lenN_app in *; lia).
      rewrite lenN_app in Sz.
      replace (N.min (lenN (prev ++ d) - off + n) size - (lenN (prev ++ d) - off)) with n by (rewrite lenN_app in *; lia).
      destruct (copy_ok (N.to_nat n) size (prev ++ d) off) as (w' & E & Lw' & P'); [lia|rewrite lenN_app; lia|rewrite lenN_app; lia|].
      rewrite E. cbn [bind]. rewrite u32_small by lia.
      assert (Hw : w' = w).
      { apply (copy_unique d w' w off n); try lia.
        - intros i Hi. specialize (P' i). rewrite <- app_assoc, lenN_app in P'.
          replace (lenN prev + lenN d + i) with (lenN prev + (lenN d + i)) in P' by lia. rewrite (nth_app_r prev) in P'.
          replace (lenN prev + (lenN d + i) - off) with (lenN prev + (lenN d + i - off)) in P' by lia. rewrite (nth_app_r prev) in P'.
          apply P'. lia.
        - exact P. }
      subst w'. rewrite <- app_assoc. reflexivity.
  Qed.
  Lemma token_loop_ok d ts w e : tokens d ts w e -> forall k prev flags i cur fin,
    (List.length ts <= k)%nat -> (List.length ts = k \/ fin = cur + lenN w) -> lenN e <= 4096 -> lenN prev + lenN e <= size ->
    at_ cur w -> cur + lenN w <= fin -> fin <= len ->
    (forall j t, nthN ts j = Some t -> N.testbit flags (i + j) = is_copy t) ->
    token_loop k len buf size (lenN prev) fin flags i (prev ++ d) cur = Ok (prev ++ e, cur + lenN w).
  Proof.
    intros H. induction H as [d|d t w d' ts ws e St Ex Tk IH]; intros k prev flags i cur fin Lk Fin Le Sz Aw Lc Lf Hf.
    - change (lenN (@nil byte)) with 0 in *. rewrite N.add_0_r in *. destruct Fin as [<-| ->].
      + cbn [List.length token_loop]. reflexivity.
      + clear Lk Hf Lc. revert i. induction k as [|k IH]; intros i; cbn [token_loop]; [reflexivity|].
        rewrite N.ltb_irrefl. cbn [bind]. apply IH.
    - destruct k as [|k]; [cbn in Lk; lia|]. cbn [token_loop]. rewrite lenN_app in *.
      pose proof (stored_pos _ _ _ St) as Wp. replace (cur <? fin) with true by lia.
      pose proof (Hf 0 t eq_refl) as F0. rewrite N.add_0_r in F0. rewrite F0.
      apply at_app in Aw. destruct Aw as [A1 A2]. pose proof (tokens_grow _ _ _ _ Tk) as Gr.
      rewrite (token_ok t w prev d d' cur St Ex); [|lia|lia|exact A1|lia]. cbn [bind].
      rewrite IH; [f_equal; f_equal; lia|cbn in Lk; lia| |exact Le|exact Sz|exact A2|lia|exact Lf|].
      + destruct Fin as [Fin|Fin]; [left; cbn in Fin; lia|right; lia].
      + intros j u Hj. rewrite <- N.add_assoc. apply Hf. cbn [nthN]. destruct (N.eqb_spec (1 + j) 0); [lia|].
        rewrite N.add_1_l, N.pred_succ. exact Hj.
  Qed.

  Lemma groups_ok d w e : groups d w e -> forall fuel prev cur, lenN e <= 4096 -> lenN prev + lenN e <= size ->
    at_ cur w -> cur + lenN w <= len -> lenN w < N.of_nat fuel ->
    sequence_loop fuel len buf size (lenN prev) (cur + lenN w) (prev ++ d) cur = Ok (prev ++ e, cur + lenN w).
  Proof.
    assert (One : forall d ts w e fuel prev cur fin, group d ts w e -> lenN e <= 4096 -> lenN prev + lenN e <= size ->
      at_ cur w -> cur + lenN w <= fin -> fin <= len -> (lenN ts = 8 \/ fin = cur + lenN w) ->
      sequence_loop (S fuel) len buf size (lenN prev) fin (prev ++ d) cur =
      sequence_loop fuel len buf size (lenN prev) fin (prev ++ e) (cur + lenN w) /\ 0 < lenN w).
    { clear d w e. intros d ts w e fuel prev cur fin (flags & ws & -> & Tk & B & Hf) Le Sz Aw Lc Lf Fin.
      assert (P32 : 2 ^ 32 = 4294967296) by reflexivity.
      rewrite lenN_cons in *. split; [|lia]. cbn [sequence_loop]. replace (cur <? fin) with true by lia.
      unfold rd. rewrite (at_byte _ _ _ Aw). cbn [bind]. rewrite u32_small by lia.
      change (flags :: ws) with ([flags] ++ ws) in Aw. apply at_app in Aw. destruct Aw as [_ A2]. change (lenN [flags]) with 1 in A2.
      rewrite (token_loop_ok d ts ws e Tk 8 prev (b2n flags) 0 (cur + 1) fin); [|unfold lenN in B; lia| |exact Le|exact Sz|exact A2|lia|exact Lf|].
      - cbn [bind]. f_equal. lia.
      - destruct Fin as [Fin|Fin]; [left; unfold lenN in Fin; lia|right; lia].
      - intros j t Hj. rewrite N.add_0_l. apply Hf. exact Hj. }
    intros H. induction H as [d ts w e G|d ts w e ws e' G L8 Gs IH]; intros fuel prev cur Le Sz Aw Lc Lf.
    - destruct fuel as [|fuel]; [lia|]. destruct (One d ts w e fuel prev cur (cur + lenN w) G) as [E Wp]; try assumption; try lia.
      rewrite E. destruct fuel as [|fuel]; [lia|]. cbn [sequence_loop]. rewrite N.ltb_irrefl. reflexivity.
    - destruct fuel as [|fuel]; [lia|]. rewrite lenN_app in *. apply at_app in Aw. destruct Aw as [A1 A2].
      assert (Gr : lenN e <= lenN e').
      { clear - Gs. induction Gs as [d ts w e (f & ws & _ & Tk & _)|d ts w e ws e' (f & w' & _ & Tk & _) L Gs IH]; apply tokens_grow in Tk; lia. }
      destruct (One d ts w e fuel prev cur (cur + (lenN w + lenN ws)) G) as [E Wp]; try assumption; try lia.
      rewrite E. rewrite N.add_assoc. apply IH; [exact Le|exact Sz|exact A2|lia|lia].
  Qed.



  Lemma chunk_step w d fuel prev cur : chunk w d -> lenN prev + lenN d <= size -> at_ cur w -> cur + lenN w <= len ->
    chunk_loop (S fuel) len buf size prev cur = chunk_loop fuel len buf size (prev ++ d) (cur + lenN w) /\ 4 <= lenN w.
  Proof.
    intros (body & G & Lb & Ld & ->) Sz Aw Lc. pose proof (groups_pos _ _ _ G) as Bp.
    assert (P32 : 2 ^ 32 = 4294967296) by reflexivity.
    rewrite lenN_app, lenN_to_le in *. change (N.of_nat 2) with 2 in *. split; [|lia].
    destruct (header_bits (lenN body - 1)) as (H1 & H2 & H3 & H4); [lia|]. set (h := lenN body - 1 + 4096 * 3 + 32768) in *.
    destruct (two_bytes h) as (a & b & Eab). rewrite Eab in *. apply at_app in Aw. destruct Aw as [A1 A2]. change (lenN [a; b]) with 2 in A2.
    cbn [chunk_loop]. replace (cur <? len) with true by lia.
    rewrite (short_at buf len cur a b); [|lia|lia|eapply at_byte; exact A1|eapply at_nth; [exact A1|reflexivity]].
    rewrite (le2 _ _ _ Eab H4). cbn [bind]. rewrite H1, H2, H3. change (negb (3 =? 3)) with false. change (1 =? 1) with true. cbn iota.
    rewrite !u32_small by lia. replace (N.min len (cur + (lenN body - 1 + 3))) with (cur + 2 + lenN body) by lia.
    pose proof (groups_ok [] body d G (S (N.to_nat len)) prev (cur + 2) Ld Sz A2) as E. rewrite app_nil_r in E.
    rewrite E; [|lia|lia]. cbn [bind]. f_equal. lia.
  Qed.
  Lemma chunks_ok w d : chunks w d -> forall fuel prev cur, lenN prev <= 1024 * (cur - 1) -> 1 <= cur ->
    1024 * (cur - 1 + lenN w) <= size -> at_ cur w -> cur + lenN w = len -> lenN w < N.of_nat fuel ->
    chunk_loop fuel len buf size prev cur = Ok (Some (prev ++ d)).
  Proof.
    intros H. induction H as [|w d ws ds C Cs IH]; intros fuel prev cur Lp C1 Sz Aw Lc Lf.
    - change (lenN (@nil byte)) with 0 in *. destruct fuel as [|fuel]; [lia|]. cbn [chunk_loop].
      replace (cur <? len) with false by lia. rewrite app_nil_r. reflexivity.
    - destruct fuel as [|fuel]; [lia|]. rewrite lenN_app in *. apply at_app in Aw. destruct Aw as [A1 A2].
      assert (Ld : lenN d <= 4096 /\ 4 <= lenN w).
      { destruct C as (body & G & Lb & Ld & ->). apply groups_pos in G. rewrite lenN_app, lenN_to_le. lia. }
      destruct (chunk_step w d fuel prev cur C) as [E Wp]; [lia|exact A1|lia|]. rewrite E.
      rewrite IH; [rewrite app_assoc; reflexivity|rewrite lenN_app; lia|lia|lia|exact A2|lia|lia].
  Qed.
End wf.

Theorem decompress_ok w d : container w d -> lenN w <= 4194272 -> Decompress (lenN w) w = Ok (Some d).
Proof.
  intros (ws & -> & C) L. unfold Decompress. change (rd (x01 :: ws) 0) with (Ok (A := N) 1). cbn [bind]. change (negb (1 =? 1)) with false. cbn iota.
  assert (P32 : 2 ^ 32 = 4294967296) by reflexivity. rewrite lenN_cons in *. rewrite u32_small by lia.
  replace ((lenN ws + 1) * 1024 =? 0) with false by lia.
  rewrite (chunks_ok (lenN ws + 1) (x01 :: ws) ((lenN ws + 1) * 1024)) with (w := ws) (d := d); try reflexivity; try lia; try exact C.
  - rewrite lenN_cons. lia.
  - split; [reflexivity|]. exists [x01], []. rewrite app_nil_r. split; reflexivity.
Qed.
