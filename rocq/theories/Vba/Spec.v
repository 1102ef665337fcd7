(** Vocabulary for the compression of [MS-OVBA] 2.4.1.  Independent of [Vba/Model.v]. *)
From Coq Require Import List NArith Bool.
From Verif Require Import Lib.Bytes.
Import ListNotations.
Local Open Scope N_scope.

(** A token is a byte, or stands for [len] bytes that repeat what is [off] bytes before. *)
Inductive tok := Literal (b : byte) | Copy (off len : N).
Definition is_copy (t : tok) : bool := match t with Copy _ _ => true | Literal _ => false end.

(** [MS-OVBA] 2.4.1.3.19.1: the bits of an offset when [done] bytes of the chunk are there *)
Definition offset_bits (done k : N) : Prop := 4 <= k /\ done <= 2 ^ k /\ (k = 4 \/ 2 ^ (k - 1) < done).

(** The stored form of a token. *)
Definition token_stored (done : N) (t : tok) (w : bytes) : Prop :=
  match t with
  | Literal b => w = [b]
  | Copy off len =>
      exists k, offset_bits done k /\ 1 <= off <= done /\ 3 <= len <= 2 ^ (16 - k) + 2 /\
                w = to_le 2 ((off - 1) * 2 ^ (16 - k) + (len - 3))
  end.
(** What a token adds to the data [d] of its chunk. *)
Definition expands (d : bytes) (t : tok) (e : bytes) : Prop :=
  match t with
  | Literal b => e = d ++ [b]
  | Copy off len =>
      exists w, e = d ++ w /\ lenN w = len /\
                forall i, i < len -> nthN e (lenN d + i) = nthN e (lenN d + i - off)
  end.

(** Tokens one after the other, from the data [d] to the data [e]. *)
Inductive tokens : bytes -> list tok -> bytes -> bytes -> Prop :=
| tokens_nil d : tokens d [] [] d
| tokens_cons d t w d' ts ws e : token_stored (lenN d) t w -> expands d t d' -> tokens d' ts ws e ->
    tokens d (t :: ts) (w ++ ws) e.
(** Up to eight tokens after a byte whose bits tell the copies. *)
Definition group (d : bytes) (ts : list tok) (w e : bytes) : Prop :=
  exists flags ws, w = flags :: ws /\ tokens d ts ws e /\ 0 < lenN ts <= 8 /\
    forall i t, nthN ts i = Some t -> N.testbit (b2n flags) i = is_copy t.
(** The groups of a chunk: eight tokens in each but the last. *)
Inductive groups : bytes -> bytes -> bytes -> Prop :=
| groups_last d ts w e : group d ts w e -> groups d w e
| groups_more d ts w e ws e' : group d ts w e -> lenN ts = 8 -> groups e ws e' -> groups d (w ++ ws) e'.
(** A compressed chunk with its data: at most 4096 bytes of each. *)
Definition chunk (w d : bytes) : Prop :=
  exists body, groups [] body d /\ lenN body <= 4096 /\ lenN d <= 4096 /\
    w = to_le 2 (lenN body - 1 + 4096 * 3 + 32768) ++ body.
Inductive chunks : bytes -> bytes -> Prop :=
| chunks_nil : chunks [] []
| chunks_cons w d ws ds : chunk w d -> chunks ws ds -> chunks (w ++ ws) (d ++ ds).
(** A compressed container. *)
Definition container (w d : bytes) : Prop := exists ws, w = x01 :: ws /\ chunks ws d.

(** A chunk that is not compressed: 4096 bytes as they are, padded with zeros. *)
Definition raw_chunk (w d : bytes) : Prop :=
  lenN d <= 4096 /\ w = to_le 2 (4095 + 4096 * 3) ++ d ++ repeatN x00 (4096 - lenN d).

(** A writer that never compresses: groups of eight bytes, chunks of 2048. *)
Fixpoint literal_groups (fuel : nat) (d : bytes) : bytes :=
  match fuel, d with
  | S k, _ :: _ => x00 :: takeN 8 d ++ literal_groups k (dropN 8 d)
  | _, _ => []
  end.
Definition literal_chunk (d : bytes) : bytes :=
  let body := literal_groups (N.to_nat (lenN d)) d in to_le 2 (lenN body - 1 + 4096 * 3 + 32768) ++ body.
Fixpoint literal_chunks (fuel : nat) (d : bytes) : bytes :=
  match fuel, d with
  | S k, _ :: _ => literal_chunk (takeN 2048 d) ++ literal_chunks k (dropN 2048 d)
  | _, _ => []
  end.
Definition stored_as_literals (d : bytes) : bytes := x01 :: literal_chunks (N.to_nat (lenN d)) d.
