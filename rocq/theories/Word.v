(** Machine words, bytes and flat byte memory used by all models.

    Unsigned C integers of [n] bits are [Z] reduced modulo [2^n]; a signed
    reading of the same bits is [sgn n].  This is the LP64 little-endian data
    model of the two architectures supported by ulpatch. *)
From Coq Require Import ZArith List Bool.
Import ListNotations.
Open Scope Z_scope.

(** Conversion to an unsigned C integer of [n] bits. *)
Definition wrap (n : Z) (x : Z) : Z := x mod 2 ^ n.

(** Conversion to a two's complement signed C integer of [n] bits. *)
Definition sgn (n : Z) (x : Z) : Z :=
  let u := x mod 2 ^ n in if u <? 2 ^ (n - 1) then u else u - 2 ^ n.

Definition u64 (x : Z) : Z := wrap 64 x.
Definition u32 (x : Z) : Z := wrap 32 x.
Definition u16 (x : Z) : Z := wrap 16 x.
Definition u8 (x : Z) : Z := wrap 8 x.
Definition s64 (x : Z) : Z := sgn 64 x.
Definition s32 (x : Z) : Z := sgn 32 x.

(** Flat byte memory of the patching tool (host): every address has a byte. *)
Definition mem := Z -> Z.

(** Little-endian load of [n] bytes at [a]. *)
Fixpoint ld (n : nat) (m : mem) (a : Z) : Z :=
  match n with
  | O => 0
  | S n' => m a + 256 * ld n' m (a + 1)
  end.

(** Little-endian store of the low [n] bytes of [v] at [a]. *)
Definition st (n : nat) (m : mem) (a v : Z) : mem :=
  fun x => if (a <=? x) && (x <? a + Z.of_nat n)
           then (v / 2 ^ (8 * (x - a))) mod 256 else m x.

(** Bytes of a memory between [a] (inclusive) and [a + n] (exclusive). *)
Fixpoint bytes_at (m : mem) (a : Z) (n : nat) : list Z :=
  match n with
  | O => []
  | S n' => m a :: bytes_at m (a + 1) n'
  end.

(** Little-endian byte list of a word, and back. *)
Fixpoint le_bytes (n : nat) (v : Z) : list Z :=
  match n with
  | O => []
  | S n' => v mod 256 :: le_bytes n' (v / 256)
  end.

Fixpoint le_word (l : list Z) : Z :=
  match l with
  | [] => 0
  | b :: l' => b + 256 * le_word l'
  end.

(** Error numbers (asm-generic/errno-base.h, errno.h). *)
Definition EPERM := 1.
Definition ENOENT := 2.
Definition E2BIG := 7.
Definition ENOEXEC := 8.
Definition EAGAIN := 11.
Definition ENOMEM := 12.
Definition EFAULT := 14.
Definition EEXIST := 17.
Definition EINVAL := 22.
Definition ERANGE := 34.
Definition EALREADY := 114.
