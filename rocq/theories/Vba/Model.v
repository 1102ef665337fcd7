(** Decompression of VBA streams: fileid/oless/vbahelper.hpp:478-565. *)
From Coq Require Import List NArith ZArith Bool.
From Verif Require Import Lib.Res Lib.Bytes Common.Model.
Import ListNotations.
Local Open Scope N_scope.

(** vbahelper.hpp:262-267 *)
Definition Extract_CompressedChunkSize (header : N) : N := N.land header 4095 + 3.
Definition Extract_CompressedChunkFlag (header : N) : N := N.land (N.shiftr header 15) 1.

(** The buffer for the result has [size] bytes, all zero at first (vbahelper.hpp:492); [out] is
    the part before [decompressedCurrent].  Bytes are only ever written at its end. *)
Definition get (size : N) (out : bytes) (n : N) : res byte :=
  if n <? size then Ok (match nthN out n with Some b => b | None => x00 end) else UB.
Definition put (size : N) (out : bytes) (b : byte) : res bytes :=
  if lenN out <? size then Ok (out ++ [b]) else UB.

(** vbahelper.hpp:529.  [ceil(log2(d))] of a double is taken to be exact; for [d = 0] it is
    minus infinity, and [__max] gives 4. *)
Definition bit_count (diff : N) : N := N.max (N.log2_up diff) 4.

(** vbahelper.hpp:541-544, [k] rounds from [n] *)
Fixpoint copy_loop (k : nat) (size : N) (out : bytes) (n : N) : res bytes :=
  match k with
  | O => Ok out
  | S k' => b <- get size out n ;; out <- put size out b ;; copy_loop k' size out (n + 1)
  end.
(** The number of rounds: [n] runs from [src] while it is below both limits. *)
Definition copy_rounds (size src len : N) : nat := N.to_nat (N.min (u32 (src + len)) size - src).

(** vbahelper.hpp:518-547: one token.  The state is the output and [compressedCurrent]. *)
Definition token (len : N) (buf : bytes) (size start : N) (flag : bool) (out : bytes) (cur : N) : res (bytes * N) :=
  if flag then
    let bits := bit_count (subw 32 (lenN out) start) in
    if 16 <? bits then UB
    else
      let lengthMask := N.shiftr 65535 bits in
      let offsetMask := N.lxor 65535 lengthMask in
      token <- ReadUShort buf len cur false ;;
      let length := N.land token lengthMask + 3 in
      let offset := u16 (N.shiftr (N.land token offsetMask) (16 - bits) + 1) in
      let src := subw 32 (lenN out) offset in
      out <- copy_loop (copy_rounds size src length) size out src ;;
      Ok (out, u32 (cur + 2))
  else
    b <- rdb buf cur ;;
    out <- put size out b ;;
    Ok (out, u32 (cur + 1)).

(** vbahelper.hpp:516-550: the tokens of one flag byte, [k] of them left *)
Fixpoint token_loop (k : nat) (len : N) (buf : bytes) (size start fin flags : N) (i : N) (out : bytes) (cur : N)
  : res (bytes * N) :=
  match k with
  | O => Ok (out, cur)
  | S k' =>
      '(out, cur) <- (if cur <? fin then token len buf size start (N.testbit flags i) out cur else Ok (out, cur)) ;;
      token_loop k' len buf size start fin flags (i + 1) out cur
  end.

(** vbahelper.hpp:509-552: a compressed chunk *)
Fixpoint sequence_loop (fuel : nat) (len : N) (buf : bytes) (size start fin : N) (out : bytes) (cur : N) : res (bytes * N) :=
  match fuel with
  | O => Fuel
  | S k =>
      if cur <? fin then
        flags <- rd buf cur ;;
        let cur := u32 (cur + 1) in
        '(out, cur) <- token_loop 8 len buf size start fin flags 0 out cur ;;
        sequence_loop k len buf size start fin out cur
      else Ok (out, cur)
  end.

(** vbahelper.hpp:553-560: a chunk that is not compressed; [k] rounds *)
Fixpoint raw_loop (k : nat) (buf : bytes) (size : N) (out : bytes) (cur : N) : res (bytes * N) :=
  match k with
  | O => Ok (out, cur)
  | S k' => b <- rdb buf cur ;; out <- put size out b ;; raw_loop k' buf size out (u32 (cur + 1))
  end.

(** vbahelper.hpp:495-561; [None] is the null result *)
Fixpoint chunk_loop (fuel : nat) (len : N) (buf : bytes) (size : N) (out : bytes) (cur : N) : res (option bytes) :=
  match fuel with
  | O => Fuel
  | S k =>
      if cur <? len then
        header <- ReadUShort buf len cur false ;;
        if negb (N.land (N.shiftr header 12) 7 =? 3) then Ok None
        else
          let fin := N.min len (u32 (cur + Extract_CompressedChunkSize header)) in
          let start := lenN out in
          '(out, cur) <- (if Extract_CompressedChunkFlag header =? 1
                          then sequence_loop (S (N.to_nat len)) len buf size start fin out (u32 (cur + 2))
                          else raw_loop (N.to_nat fin) buf size out (u32 (cur + 2))) ;;
          chunk_loop k len buf size out cur
      else Ok (Some out)
  end.

(** vbahelper.hpp:478-565: [buf] is the memory at [compressedBuffer], of which [len] bytes are
    the stream.  [new unsigned char[0]{0}] has more initialisers than elements and throws. *)
Definition Decompress (len : N) (buf : bytes) : res (option bytes) :=
  b <- rd buf 0 ;;
  if negb (b =? 1) then Ok None
  else
    let size := u32 (len * 1024) in
    if size =? 0 then Throw BadAlloc
    else chunk_loop (S (N.to_nat len)) len buf size [] 1.
