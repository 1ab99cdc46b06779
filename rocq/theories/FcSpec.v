(** Code as a sequence of instructions; independent of FcModel. *)
From Coq Require Import ZArith List Bool.
From Verif Require Import InsnSpec.
Import ListNotations.
Open Scope Z_scope.

(** A near call of x86-64 with a displacement (Intel SDM vol. 2): opcode e8 and four bytes. *)
Definition x86_call (insn : list Z) : Prop := exists b0 b1 b2 b3, insn = [0xe8; b0; b1; b2; b3].

(** A branch with link of AArch64. *)
Definition a64_call (w : Z) : Prop := bits w 26 6 = 0x25.

(** Memory after the bytes were written at [a]. *)
Definition put (m : Z -> Z) (a : Z) (bytes : list Z) : Z -> Z :=
  fun x => if (a <=? x) && (x <? a + Z.of_nat (length bytes)) then nth (Z.to_nat (x - a)) bytes 0 else m x.

(** The recommended instruction without effect of five bytes (Intel SDM vol. 2, NOP). *)
Definition nop5 : list Z := [0x0f; 0x1f; 0x44; 0x00; 0x00].
