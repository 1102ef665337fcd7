(** Decompression and the reading of a project end, whatever the bytes are. *)
From Coq Require Import List NArith ZArith Bool Lia ZifyBool ZifyNat ZifyN.
From Verif Require Import Lib.Res Lib.Bytes Lib.BytesFacts Common.Model Common.EndProofs Propset.MemoryProofs Ole.Model Ole.ChainProofs Ole.MemProofs Vba.Model Vba.Analyze.
Import ListNotations.
Local Open Scope N_scope.
Ltac Zify.zify_post_hook ::= Z.div_mod_to_equations.
Arguments N.pow : simpl never.
Arguments N.mul : simpl never.

(** ** Decompression *)
Section Decompression.
Variables (len size : N) (buf : bytes).
Hypothesis Lb : lenN buf < 2 ^ 32.

Lemma put_end out b : ends (fun o => lenN o <= size) (put size out b).
Proof. unfold put. destruct (N.ltb_spec (lenN out) size) as [A|A]; [|exact I]. cbn. rewrite lenN_app. change (lenN [b]) with 1. lia. Qed.
Lemma get_end out n : ends (fun _ => True) (get size out n).
Proof. unfold get. destruct (_ <? _); exact I. Qed.
Lemma copy_end k : forall out n, lenN out <= size -> ends (fun o => lenN o <= size) (copy_loop k size out n).
Proof.
  induction k as [|k IH]; intros out n H; cbn [copy_loop]; [exact H|].
  eapply ends_bind; [apply get_end|]. intros b _. eapply ends_bind; [apply put_end|]. intros o Ho. apply IH. exact Ho.
Qed.
Lemma token_end start flag out cur : lenN out <= size -> ends (fun r => lenN (fst r) <= size /\ cur < snd r) (token len buf size start flag out cur).
Proof.
  intros H. unfold token. destruct flag.
  - destruct (_ <? _); [exact I|]. eapply ends_bind; [apply (ushort_end2 buf len cur Lb)|]. cbn beta. intros t T.
    eapply ends_bind; [apply copy_end; exact H|]. cbn beta. intros o Ho. cbn [ends fst snd]. split; [exact Ho|].
    rewrite u32_id by lia. lia.
  - eapply ends_bind; [apply rdb_end|]. cbn beta. intros b Hb. eapply ends_bind; [apply put_end|]. cbn beta. intros o Ho. cbn [ends fst snd].
    split; [exact Ho|]. rewrite u32_id by lia. lia.
Qed.
Lemma tokens_end start fin flags k : forall i out cur, lenN out <= size ->
  ends (fun r => lenN (fst r) <= size /\ cur <= snd r) (token_loop k len buf size start fin flags i out cur).
Proof.
  induction k as [|k IH]; intros i out cur H; cbn [token_loop]; [cbn; lia|].
  eapply (ends_bind (fun r => lenN (fst r) <= size /\ cur <= snd r)).
  - destruct (cur <? fin); [|cbn; lia]. eapply ends_weak; [|apply token_end; exact H]. cbn beta. intros r [A B]. split; [exact A|lia].
  - intros [o c] [A B]. cbn [fst snd] in *. eapply ends_weak; [|apply IH; exact A]. cbn beta. intros r [C D]. split; [exact C|lia].
Qed.
Lemma sequence_end start fin fuel : forall out cur, lenN out <= size -> (1 <= fuel)%nat -> fin < cur + N.of_nat fuel ->
  ends (fun r => lenN (fst r) <= size /\ cur <= snd r) (sequence_loop fuel len buf size start fin out cur).
Proof.
  induction fuel as [|fuel IH]; intros out cur H F1 F2; [lia|]. cbn [sequence_loop]. destruct (N.ltb_spec cur fin) as [C|C]; [|cbn; lia].
  eapply ends_bind; [apply rd_end|]. cbn beta. intros x X. rewrite u32_id by lia.
  eapply ends_bind; [apply tokens_end; exact H|]. intros [o c] [A B]. cbn [fst snd] in *.
  eapply ends_weak; [|apply IH; [exact A|lia|lia]]. cbn beta. intros r [D E]. split; [exact D|lia].
Qed.
Lemma raw_end k : forall out cur, lenN out <= size -> ends (fun r => lenN (fst r) <= size /\ cur <= snd r) (raw_loop k buf size out cur).
Proof.
  induction k as [|k IH]; intros out cur H; cbn [raw_loop]; [cbn; lia|].
  eapply ends_bind; [apply rdb_end|]. cbn beta. intros x X. eapply ends_bind; [apply put_end|]. cbn beta. intros o Ho. rewrite u32_id by lia.
  eapply ends_weak; [|apply IH; exact Ho]. cbn beta. intros r [D E]. split; [exact D|lia].
Qed.
Lemma chunks_end fuel : forall out cur, lenN out <= size -> (1 <= fuel)%nat -> len < cur + N.of_nat fuel ->
  ends (fun r => match r with Some o => lenN o <= size | None => True end) (chunk_loop fuel len buf size out cur).
Proof.
  induction fuel as [|fuel IH]; intros out cur H F1 F2; [lia|]. cbn [chunk_loop]. destruct (N.ltb_spec cur len) as [C|C]; [|exact H].
  eapply ends_bind; [apply (ushort_end2 buf len cur Lb)|]. cbn beta. intros hd Hd. destruct (negb _); [exact I|].
  rewrite (u32_id (cur + 2)) by lia.
  eapply (ends_bind (fun r => lenN (fst r) <= size /\ cur + 2 <= snd r)).
  - destruct (_ =? 1); [apply sequence_end; [exact H|lia|lia]|apply raw_end; exact H].
  - intros [o c] [A B]. cbn [fst snd] in *. apply IH; [exact A|lia|lia].
Qed.
End Decompression.
Lemma decompress_ends len buf : lenN buf < 2 ^ 32 ->
  ends (fun r => match r with Some o => lenN o <= u32 (len * 1024) | None => True end) (Decompress len buf).
Proof.
  intros L. unfold Decompress. eapply ends_bind; [apply rd_end|]. cbn beta. intros b _. destruct (negb _); [exact I|].
  destruct (_ =? 0); [exact I|]. apply chunks_end; [exact L|change (lenN (@nil byte)) with 0; lia|lia|lia].
Qed.
(** the memory of a decompressed buffer *)
Lemma decompressed_ends len buf : lenN buf < 2 ^ 32 -> ends (fun b => lenN (snd b) <= 2 ^ 32 - 1024 /\ fst b < 2 ^ 32) (Decompressed len buf).
Proof.
  intros L. unfold Decompressed. eapply ends_bind; [apply decompress_ends; exact L|]. cbn beta. intros [d|] H.
  - cbn [ends fst snd]. rewrite lenN_app, lenN_repeatN. unfold u32 in *. rewrite P32 in *. lia.
  - cbn. rewrite P32. lia.
Qed.

(** ** The records of a project *)
Section Records.
Variables (pl : platform) (len : N) (mem : bytes).
Hypothesis Lm : lenN mem <= 2 ^ 32 - 1024.
Hypothesis W : 1 <= sizeof_wchar pl <= 4.
Let b : buffer := (len, mem).
Definition here (i : N) : Prop := i <= lenN mem + 200.
Lemma skip_here i n : i + n < 2 ^ 32 -> skip i n = i + n.
Proof. intros H. apply u32_id. exact H. Qed.

Lemma str_end i : ends (fun r => i + 4 <= fst r /\ fst r <= lenN mem) (ReadStr b i).
Proof.
  unfold ReadStr, b. rewrite P32 in *. eapply ends_bind; [apply uint_end|]. cbn beta. intros n [A B]. rewrite P32 in *. rewrite (u32_id (i + 4)) by (rewrite P32; lia).
  unfold ReadString. destruct (_ <? _); [exact I|]. eapply ends_bind; [apply slice_end|]. cbn beta. intros s S. cbn [ends fst].
  rewrite u32_id by (rewrite P32; lia). lia.
Qed.
Lemma strw_end i : ends (fun r => i + 4 <= fst (fst r) /\ fst (fst r) <= lenN mem + 4) (ReadStrW pl b i).
Proof.
  unfold ReadStrW, b. rewrite P32 in *. eapply ends_bind; [apply uint_end|]. cbn beta. intros n [A B]. rewrite P32 in *. destruct (_ <? _); [exact I|].
  rewrite (u32_id (i + 4)) by (rewrite P32; lia). eapply ends_bind; [apply slice_end|]. cbn beta. intros s S.
  eapply ends_bind; [apply slice_end|]. cbn beta. intros w Hw. cbn [ends fst].
  assert (Q : n < n / sizeof_wchar pl * sizeof_wchar pl + sizeof_wchar pl)
    by (pose proof (N.div_mod' n (sizeof_wchar pl)) as E; pose proof (N.mod_lt n (sizeof_wchar pl) ltac:(lia)); lia).
  generalize dependent (n / sizeof_wchar pl * sizeof_wchar pl). intros k Hk Q. rewrite u32_id by (rewrite P32; lia). lia.
Qed.
Ltac sk := repeat (match goal with |- context [skip ?i ?n] => rewrite (skip_here i n) by (rewrite P32 in *; lia) end).
Ltac str := eapply ends_bind; [apply str_end|cbn beta; let A := fresh "A" in intros [? ?] A; cbn [fst] in A; sk].
Lemma tail_end i t : i <= lenN mem + 100 -> ends (fun j => i <= j /\ j <= lenN mem + 100) (reference_tail b i t).
Proof.
  intros H. unfold reference_tail. sk. destruct (t =? 51); [str; cbn; lia|]. destruct (t =? 47).
  { str. str. str. str. cbn. lia. }
  destruct (t =? 13); [str; cbn; lia|]. destruct (t =? 14); [str; str; cbn; lia|]. cbn. lia.
Qed.
Lemma references_end fuel : forall i acc, (1 <= fuel)%nat -> i <= lenN mem + 200 -> len < i + N.of_nat fuel ->
  ends (fun r => i <= fst r /\ fst r <= lenN mem + 200) (references fuel b i acc).
Proof.
  induction fuel as [|fuel IH]; intros i acc F1 Hi F2; [lia|]. cbn [references]. unfold b at 1 2. cbn [fst snd].
  eapply ends_bind; [apply ushort_end; rewrite P32 in *; lia|]. cbn beta. intros x [X1 X2]. rewrite u32_id in X2 by (rewrite P32 in *; lia).
  destruct (x =? 22); [|cbn; lia]. sk. str. str. eapply ends_bind; [apply not_ends; apply ReadUShort_nofuel|]. intros t _.
  eapply ends_bind; [apply tail_end; lia|]. cbn beta. intros k K.
  eapply ends_weak; [|apply IH; lia]. cbn beta. intros r R. lia.
Qed.
Lemma record_end t i m : i <= lenN mem + 100 -> ends (fun r => i <= fst r /\ fst r <= lenN mem + 200) (module_record pl b t i m).
Proof.
  intros H. unfold module_record. destruct m as [a1 a2 a3 a4 a5 a6 a7 a8].
  destruct (t =? 25); [str; cbn; lia|]. destruct (t =? 71); [str; cbn; lia|].
  destruct (t =? 26). { str. eapply ends_bind; [apply strw_end|]. cbn beta. intros [[k u] w] K. cbn in *. lia. }
  destruct (t =? 28); [str; str; cbn; lia|].
  destruct (t =? 49). { eapply ends_bind; [apply not_ends; apply ReadUInt_nofuel|]. intros o _. sk. cbn. lia. }
  sk. repeat (destruct (t =? _) || destruct (_ || _)); cbn; lia.
Qed.
Lemma records_end fuel : forall id i m, (1 <= fuel)%nat -> i <= lenN mem + 200 -> len < i + N.of_nat fuel ->
  ends (fun r => i <= fst r /\ fst r <= lenN mem + 200) (module_records fuel pl b id i m).
Proof.
  induction fuel as [|fuel IH]; intros id i m F1 Hi F2; [lia|]. cbn [module_records]. unfold b at 1 2. cbn [fst snd].
  destruct (negb (id =? 43) && (i <? len)) eqn:C; [|cbn; lia]. unfold b at 1. cbn [fst].
  eapply ends_bind; [apply ushort_end; rewrite P32 in *; lia|]. cbn beta. intros x [X1 X2]. sk.
  eapply ends_bind; [apply record_end; lia|]. intros [j m'] J. cbn [fst] in J.
  eapply ends_weak; [|apply IH; lia]. cbn beta. intros r R. lia.
Qed.
Lemma modules_end code fuel : (forall w o, code w o <> Fuel) -> forall i acc, (1 <= fuel)%nat -> i <= lenN mem + 300 -> len < i + N.of_nat fuel ->
  ends (fun _ => True) (modules fuel pl code b i acc).
Proof.
  intros Cs. induction fuel as [|fuel IH]; intros i acc F1 Hi F2; [lia|]. cbn [modules]. unfold b at 1 2 3 4. cbn [fst snd].
  destruct (N.ltb_spec i len) as [C|C]; [|exact I].
  eapply ends_bind; [apply ushort_end; rewrite P32 in *; lia|]. cbn beta. intros x [X1 X2].
  eapply ends_bind; [apply records_end; lia|]. intros [j m] J. cbn [fst] in J. sk.
  destruct (md_StreamName m); [apply IH; lia|]. eapply ends_bind; [apply not_ends; apply Cs|]. intros c _. apply IH; lia.
Qed.
Lemma project_ends code version : (forall w o, code w o <> Fuel) -> ends (fun _ => True) (project_info pl code version b).
Proof.
  intros Cs. unfold project_info. do 5 str.
  eapply ends_bind; [apply not_ends; apply slice_nofuel|]. intros a _. eapply ends_bind; [apply not_ends; apply slice_nofuel|]. intros c _.
  do 2 str. eapply ends_bind; [apply references_end; cbn [fst b]; lia|]. intros [k refs] K. cbn [fst] in K. sk.
  eapply ends_bind; [apply modules_end; [exact Cs| | |]; cbn [fst b]; lia|]. intros ms _. exact I.
Qed.
End Records.

(** ** Streams *)
Lemma mslice_end m o n : ends (fun c => lenN c = n) (mslice m o n).
Proof. unfold mslice. destruct (N.leb_spec (o + n) (lenN m)); [|exact I]. cbn. rewrite lenN_takeN, lenN_dropN. lia. Qed.
Lemma mstore_end m o s : ends (fun c => lenN c = lenN m) (mstore m o s).
Proof. unfold mstore. destruct (N.leb_spec (o + lenN s) (lenN m)); [|exact I]. cbn. rewrite !lenN_app, lenN_takeN, lenN_dropN. lia. Qed.
Lemma load_blocks_end f bs blocks : forall data count maxlen, ends (fun r => lenN (fst r) = lenN data) (load_blocks f bs blocks data count maxlen).
Proof.
  induction blocks as [|x r IH]; intros data count maxlen; cbn [load_blocks]; [reflexivity|]. destruct (count <? maxlen); [|reflexivity]. cbv zeta.
  eapply ends_bind; [apply mstore_end|]. cbn beta. intros m M. eapply ends_weak; [|apply IH]. cbn beta. intros p P. congruence.
Qed.
Lemma loadBigBlocks_end f bs blocks data maxlen : ends (fun m => lenN m = lenN data) (loadBigBlocks f bs blocks data maxlen).
Proof. unfold loadBigBlocks, rmap. eapply ends_bind; [apply load_blocks_end|]. intros [m c] H. exact H. Qed.
Lemma load_small_end s blocks : forall buf data count maxlen, ends (fun _ => True) (load_small s blocks buf data count maxlen).
Proof.
  induction blocks as [|x r IH]; intros buf data count maxlen; cbn [load_small]; [exact I|]. cbv zeta. destruct (count <? maxlen); [|exact I].
  destruct (nthN _ _); [|exact I]. eapply ends_bind; [apply loadBigBlocks_end|]. intros b1 _. eapply ends_bind; [apply mslice_end|]. intros c _.
  eapply ends_bind; [apply mstore_end|]. intros d _. apply IH.
Qed.
Lemma read_loop_end load bs blocks : (forall b buf, load b buf <> Fuel) -> forall buf data total maxlen offset,
  ends (fun r => lenN (fst r) = lenN data) (read_loop load bs blocks buf data total maxlen offset).
Proof.
  intros L. induction blocks as [|x r IH]; intros buf data total maxlen offset; cbn [read_loop]; [reflexivity|]. destruct (total <? maxlen); [|reflexivity].
  eapply ends_bind; [apply not_ends; apply L|]. intros b1 _. cbv zeta. eapply ends_bind; [apply mslice_end|]. intros c _.
  eapply ends_bind; [apply mstore_end|]. cbn beta. intros d D. eapply ends_weak; [|apply IH]. cbn beta. intros p P. congruence.
Qed.
Lemma stream_read_end s e blocks pos data maxlen : ends (fun r => lenN (fst r) = lenN data) (stream_read s e blocks pos data maxlen).
Proof.
  unfold stream_read. destruct (maxlen =? 0); [reflexivity|]. cbv zeta. destruct (_ <=? _); [reflexivity|]. apply read_loop_end. intros b buf.
  destruct (d_size e <? threshold (st_header s)); [|eapply ends_not; apply loadBigBlocks_end]. eapply ends_not. apply load_small_end.
Qed.
Lemma written_short m : lenN (written m) <= lenN m.
Proof. induction m as [|[x|] m IH]; cbn [written]; rewrite ?lenN_cons; [reflexivity|lia|change (lenN (@nil byte)) with 0; lia]. Qed.
Lemma known_length m b : known m = Some b -> lenN b = lenN m.
Proof.
  revert b. induction m as [|[x|] m IH]; intros b H; cbn [known] in H; [injection H as <-; reflexivity| |discriminate H].
  destruct (known m) as [l|]; [|discriminate H]. injection H as <-. rewrite !lenN_cons, (IH l eq_refl). reflexivity.
Qed.
Lemma mbytes_nofuel m o n : mbytes m o n <> Fuel.
Proof. unfold mbytes. apply bind_nofuel; [eapply ends_not; apply mslice_end|]. intros a _. destruct (known a); discriminate. Qed.

(** ** Projects *)
Section Streams.
Variables (pl : platform) (s : storage).
Hypothesis Pl : supported pl.
Hypothesis Open : forall name, ends (fun o => forall e, o = Some e -> stream_blocks s e <> Fuel) (open_stream pl s name).

Lemma fetch_end name offset : ends (fun b => lenN (snd b) < 2 ^ 32) (FetchStream pl s name offset).
Proof.
  unfold FetchStream. eapply ends_bind; [apply Open|]. cbn beta. intros [e|] H; [|reflexivity].
  eapply ends_bind; [apply not_ends; apply H; reflexivity|]. intros l _. eapply ends_bind; [apply stream_read_end|]. intros [data n] D. cbn [fst] in D. cbn [ends snd].
  pose proof (written_short data) as Ws. rewrite D, lenN_blank in Ws. unfold u32 in Ws. rewrite P32 in *. lia.
Qed.
Lemma fetched_end name offset : ends (fun b => lenN (snd b) <= 2 ^ 32 - 1024 /\ fst b < 2 ^ 32) (FetchAndDecompress pl s name offset).
Proof. unfold FetchAndDecompress. eapply ends_bind; [apply fetch_end|]. intros [len buf] H. apply decompressed_ends. exact H. Qed.
Lemma code_end name offset : GetCode pl s name offset <> Fuel.
Proof.
  unfold GetCode. apply bind_nofuel; [eapply ends_not; apply fetched_end|]. intros [len mem] _. apply ReadString_nofuel.
Qed.
Theorem analyze_ends fullname : Analyze pl fullname s <> Fuel.
Proof.
  unfold Analyze. apply bind_nofuel.
  { unfold header_version. eapply ends_not. eapply ends_bind; [apply Open|]. cbn beta. intros [e|] H; [|exact I].
    eapply ends_bind; [apply not_ends; apply H; reflexivity|]. intros l _. eapply ends_bind; [apply stream_read_end|]. intros [data n] _.
    apply not_ends. unfold readU16. apply bind_nofuel; [apply mbytes_nofuel|discriminate]. }
  intros version _. eapply (ends_not (fun _ => True)). eapply ends_bind; [apply fetched_end|]. intros [len mem] [A1 A2]. apply project_ends; [exact A1| |].
  - destruct Pl as [-> | ->]; cbn; lia.
  - intros w o. apply code_end.
Qed.
End Streams.
