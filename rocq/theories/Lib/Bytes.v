(** Bytes, byte lists indexed by [N], and the two byte orders. *)
From Coq Require Export List NArith ZArith Bool.
From Coq Require Export Init.Byte.
From Coq Require Import Strings.Byte Strings.String.
From Verif Require Import Lib.Res.
Export ListNotations.
Local Open Scope N_scope.

Definition bytes := list byte.

(** The numeric value of a byte, and the byte holding [n mod 256]. *)
Definition b2n (b : byte) : N := Byte.to_N b.
Definition n2b (n : N) : byte :=
  match Byte.of_N (n mod 256) with Some b => b | None => x00 end.

(** Text literals: [B "abc"] is the byte string of the literal. *)
Definition B (s : string) : bytes := list_byte_of_string s.

Definition byte_eqb (a b : byte) : bool := Byte.eqb a b.

Fixpoint bytes_eqb (a b : bytes) : bool :=
  match a, b with
  | [], [] => true
  | x :: a', y :: b' => byte_eqb x y && bytes_eqb a' b'
  | _, _ => false
  end.

Definition lenN {A} (l : list A) : N := N.of_nat (List.length l).

(** [nthN l i]: the element of index [i], by recursion on the list. *)
Fixpoint nthN {A} (l : list A) (i : N) : option A :=
  match l with
  | [] => None
  | x :: t => if i =? 0 then Some x else nthN t (N.pred i)
  end.

Fixpoint takeN {A} (n : N) (l : list A) : list A :=
  match l with
  | [] => []
  | x :: t => if n =? 0 then [] else x :: takeN (N.pred n) t
  end.

Fixpoint dropN {A} (n : N) (l : list A) : list A :=
  match l with
  | [] => []
  | x :: t => if n =? 0 then l else dropN (N.pred n) t
  end.

(** [n] copies of [x] (only used with small [n]). *)
Definition repeatN {A} (x : A) (n : N) : list A := List.repeat x (N.to_nat n).

(** A read through a pointer to the first element: undefined outside the object. *)
Definition rd (buf : bytes) (i : N) : res N :=
  match nthN buf i with Some b => Ok (b2n b) | None => UB end.

Definition rdb (buf : bytes) (i : N) : res byte :=
  match nthN buf i with Some b => Ok b | None => UB end.

(** A contiguous read of [n] bytes starting at [off]. *)
Definition slice (buf : bytes) (off n : N) : res bytes :=
  if off + n <=? lenN buf then Ok (takeN n (dropN off buf)) else UB.

(** Little- and big-endian value of a byte list. *)
Fixpoint le (l : bytes) : N :=
  match l with [] => 0 | b :: t => b2n b + 256 * le t end.

Fixpoint be_acc (acc : N) (l : bytes) : N :=
  match l with [] => acc | b :: t => be_acc (256 * acc + b2n b) t end.
Definition be (l : bytes) : N := be_acc 0 l.

(** The [k] little-endian bytes of [n]. *)
Fixpoint to_le (k : nat) (n : N) : bytes :=
  match k with O => [] | S k' => n2b n :: to_le k' (n / 256) end.

(** C++ unsigned wrap-around and the two's-complement reading. *)
Definition u8 (n : N) : N := n mod 2 ^ 8.
Definition u16 (n : N) : N := n mod 2 ^ 16.
Definition u32 (n : N) : N := n mod 2 ^ 32.
Definition u64 (n : N) : N := n mod 2 ^ 64.
Definition signed (w : N) (n : N) : Z :=
  if n <? 2 ^ (w - 1) then Z.of_N n else (Z.of_N n - Z.of_N (2 ^ w))%Z.

(** [a - b] in a [w]-bit unsigned type. *)
Definition subw (w a b : N) : N := (a + 2 ^ w - b mod 2 ^ w) mod 2 ^ w.

(** Data models of the two supported platforms: makefile (g++, LP64) and
    fileid.vcxproj (MSVC). *)
Record platform := { sizeof_long : N; sizeof_wchar : N }.
Definition linux64 : platform := {| sizeof_long := 8; sizeof_wchar := 4 |}.
Definition windows : platform := {| sizeof_long := 4; sizeof_wchar := 2 |}.
Definition supported (p : platform) : Prop := p = linux64 \/ p = windows.
