(** Property streams for the examples, with a checker that proves what they hold. *)
From Coq Require Import List NArith ZArith Lia Bool Strings.String ZifyBool ZifyNat ZifyN.
From Verif Require Import Lib.Res Lib.Bytes Lib.BytesFacts Common.Model Common.Spec Common.Fields Common.Utf8
  Common.ReadProofs Ole.Samples Propset.Model Propset.Spec Propset.Statements.
Import ListNotations.
Local Open Scope N_scope.
Ltac Zify.zify_post_hook ::= Z.div_mod_to_equations.

(** ** Writing *)
Definition put_value (v : stored) : bytes :=
  to_le 4 (type_of v) ++
  match v with
  | SI2 z => to_le 2 (Z.to_N (z mod 65536)) ++ [x00; x00]
  | SI4 z => to_le 4 (Z.to_N (z mod 4294967296))
  | SR4 n => to_le 4 n
  | SR8 n => to_le 8 n
  | SBool b => to_le 2 (if b then 65535 else 0) ++ [x00; x00]
  | STime n => to_le 8 n
  | SText _ s | SName _ s => to_le 4 (lenN s) ++ s
  | SWide u => to_le 4 (lenN u + 1) ++ units 2 u ++ [x00; x00]
  | SOther _ => []
  end.
Fixpoint place (off : N) (l : list (N * stored)) : list entry :=
  match l with
  | [] => []
  | (i, v) :: r => mkEntry i off v :: place (off + lenN (put_value v)) r
  end.
Definition put_entries (es : list entry) : bytes :=
  let body := List.concat (map (fun e => to_le 4 (e_id e) ++ to_le 4 (e_offset e)) es) ++
              List.concat (map (fun e => put_value (e_value e)) es) in
  to_le 4 (8 + lenN body) ++ to_le 4 (lenN es) ++ body.
(** A stream with one set, at 48. *)
Definition one_set (g : bytes) (l : list (N * stored)) : pset := mkPset g 48 (place (8 + 8 * lenN l) l).
Definition put_stream (s : pset) : bytes :=
  [xfe; xff; x00; x00] ++ repeatN x00 20 ++ to_le 4 1 ++ s_format s ++ to_le 4 48 ++ put_entries (s_entries s).

(** ** Checking *)
Definition data_b (buf : bytes) (off : N) (v : stored) : bool :=
  match v with
  | SI2 z => num buf off 2 (Z.to_N (z mod 65536)) && (-32768 <=? z)%Z && (z <? 32768)%Z
  | SI4 z => num buf off 4 (Z.to_N (z mod 4294967296)) && (-2147483648 <=? z)%Z && (z <? 2147483648)%Z
  | SR4 n => num buf off 4 n
  | SR8 n => num buf off 8 n
  | SBool b => num buf off 2 (if b then 65535 else 0)
  | STime n => num buf off 8 n
  | SText t s => ((t =? 8) || (t =? 30)) && num buf off 4 (lenN s) && win buf (off + 4) (lenN s) s
  | SName t s => ((t =? 66) || (t =? 67) || (t =? 68) || (t =? 69)) && num buf off 4 (lenN s) && win buf (off + 4) (lenN s) s
  | SWide u => forallb (fun c => c <? 65536) u && num buf off 4 (lenN u + 1) && win buf (off + 4) (2 * lenN u) (units 2 u)
  | SOther t => negb (existsb (N.eqb t) [2; 3; 4; 5; 8; 11; 30; 31; 64; 66; 67; 68; 69])
  end.
Lemma data_b_ok buf off v : data_b buf off v = true -> data_at buf off v.
Proof.
  destruct v; cbn [data_b]; intros H.
  - rewrite !andb_true_iff in H. destruct H as [[H H1] H2]. apply at_i2 with (1 := num_ok _ _ _ _ H).
    split; [change (2 ^ (Z.of_N 16 - 1))%Z with 32768%Z; lia|]. exists (z / 65536)%Z. change (2 ^ Z.of_N 16)%Z with 65536%Z. lia.
  - rewrite !andb_true_iff in H. destruct H as [[H H1] H2]. apply at_i4 with (1 := num_ok _ _ _ _ H).
    split; [change (2 ^ (Z.of_N 32 - 1))%Z with 2147483648%Z; lia|]. exists (z / 4294967296)%Z. change (2 ^ Z.of_N 32)%Z with 4294967296%Z. lia.
  - apply at_r4, num_ok, H.
  - apply at_r8, num_ok, H.
  - destruct b; [apply at_true|apply at_false]; apply num_ok, H.
  - apply at_time, num_ok, H.
  - rewrite !andb_true_iff in H. destruct H as [[H H1] H2]. apply at_text; [cbn [In]; lia|apply num_ok, H1|apply win_ok, H2].
  - rewrite !andb_true_iff in H. destruct H as [[H H1] H2]. apply at_wide; [|apply num_ok, H1|apply win_ok, H2].
    apply Forall_forall. intros c Hc. rewrite forallb_forall in H. specialize (H c Hc). lia.
  - rewrite !andb_true_iff in H. destruct H as [[H H1] H2]. apply at_name; [cbn [In]; lia|apply num_ok, H1|apply win_ok, H2].
  - apply at_other. intros K. rewrite negb_true_iff in H. cbn [existsb In] in *. lia.
Qed.
Definition entry_b (buf : bytes) (start j : N) (e : entry) : bool :=
  num buf (start + 8 + 8 * j) 4 (e_id e) && num buf (start + 12 + 8 * j) 4 (e_offset e) &&
  num buf (start + e_offset e) 2 (type_of (e_value e)) && data_b buf (start + e_offset e + 4) (e_value e).
Fixpoint entries_b (buf : bytes) (start j : N) (l : list entry) : bool :=
  match l with [] => true | e :: r => entry_b buf start j e && entries_b buf start (j + 1) r end.
Lemma entries_b_ok buf start l : forall j, entries_b buf start j l = true -> forall i e, nthN l i = Some e -> entry_in buf start (j + i) e.
Proof.
  induction l as [|e l IH]; intros j H i x Hx; cbn [nthN] in Hx; [discriminate|]. cbn [entries_b] in H. apply andb_true_iff in H. destruct H as [H1 H2].
  destruct (N.eqb_spec i 0) as [->|Ni].
  - injection Hx as <-. rewrite N.add_0_r. unfold entry_b in H1. rewrite !andb_true_iff in H1. destruct H1 as [[[A1 A2] A3] A4].
    split; [apply num_ok, A1|]. split; [apply num_ok, A2|]. split; [apply num_ok, A3|apply data_b_ok, A4].
  - replace (j + i) with (j + 1 + N.pred i) by lia. exact (IH _ H2 _ _ Hx).
Qed.
Definition stream_b (buf : bytes) (s : pset) : bool :=
  num buf 24 4 1 && win buf 28 16 (s_format s) && num buf 44 4 (s_start s) && num buf (s_start s + 4) 4 (lenN (s_entries s)) &&
  entries_b buf (s_start s) 0 (s_entries s).
Lemma stream_b_ok buf s : stream_b buf s = true -> property_sets buf [s].
Proof.
  unfold stream_b. rewrite !andb_true_iff. intros [[[[A1 A2] A3] A4] A5]. split; [apply num_ok, A1|].
  intros i x Hx. destruct (N.eq_dec i 0) as [->|Ni].
  - injection Hx as <-. split; [apply win_ok, A2|]. split; [apply num_ok, A3|]. split; [apply num_ok, A4|].
    intros j e He. exact (entries_b_ok _ _ _ 0 A5 j e He).
  - cbn [nthN] in Hx. rewrite (proj2 (N.eqb_neq i 0) Ni) in Hx. discriminate Hx.
Qed.

(** ** Streams *)
(** A summary as word processors write it. *)
Definition summary : pset := one_set fmtid_summary
  [(1, SI2 1252); (2, SText 30 (B "A ""title""" ++ [x00])); (10, STime 1657127941371); (12, STime 132223284000000000);
   (11, STime 0); (100, SR8 4609434218613702656); (101, SR4 0xC2C80000); (102, SBool true); (103, SOther 71)].
Definition summary_bytes : bytes := put_stream summary.
(** A count in a document summary. *)
Definition count : pset := one_set fmtid_document [(5, SI4 1)].
Definition count_bytes : bytes := put_stream count.
(** A wide string. *)
Definition wide : pset := one_set fmtid_user [(2, SWide [72; 233; 8364])].
Definition wide_bytes : bytes := put_stream wide.
(** The name of a stream; more data follows. *)
Definition named : pset := one_set fmtid_user [(2, SName 66 (B "prop4" ++ [x00])); (3, SI2 7); (4, SI2 7)].
Definition named_bytes : bytes := put_stream named.
(** Numbers without a value. *)
Definition special : pset := one_set fmtid_user [(2, SR8 0x7FF0000000000000)].
Definition special_bytes : bytes := put_stream special.
(** A negative number. *)
Definition negative : pset := one_set fmtid_user [(2, SI2 (-1))].
Definition negative_bytes : bytes := put_stream negative.

Lemma summary_ok : property_sets summary_bytes [summary].
Proof. apply stream_b_ok. vm_compute. reflexivity. Qed.
Lemma count_ok : property_sets count_bytes [count].
Proof. apply stream_b_ok. vm_compute. reflexivity. Qed.
Lemma wide_ok : property_sets wide_bytes [wide].
Proof. apply stream_b_ok. vm_compute. reflexivity. Qed.
Lemma named_ok : property_sets named_bytes [named].
Proof. apply stream_b_ok. vm_compute. reflexivity. Qed.
Lemma special_ok : property_sets special_bytes [special].
Proof. apply stream_b_ok. vm_compute. reflexivity. Qed.
Lemma negative_ok : property_sets negative_bytes [negative].
Proof. apply stream_b_ok. vm_compute. reflexivity. Qed.
(** The table of the set continues past the end. *)
Definition long_table : bytes := repeatN x00 24 ++ to_le 4 1 ++ fmtid_user ++ to_le 4 48 ++ to_le 4 8 ++ to_le 4 1.
(** A wide string of size zero. *)
Definition empty_wide : bytes :=
  repeatN x00 24 ++ to_le 4 1 ++ fmtid_user ++ to_le 4 48 ++ to_le 4 24 ++ to_le 4 1 ++ to_le 4 2 ++ to_le 4 16 ++ to_le 4 31 ++ to_le 4 0.
