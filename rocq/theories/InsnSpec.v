(** Two small instruction-set machines, from the processor manuals, used to say
    what generated code does.  Independent of the code model. *)
From Coq Require Import ZArith List Bool.
Import ListNotations.
Open Scope Z_scope.

Definition addr64 (a : Z) : Z := a mod 2 ^ 64.

(** Little-endian value of [n] bytes at [a]; addresses wrap modulo 2^64. *)
Fixpoint rd (n : nat) (m : Z -> Z) (a : Z) : Z :=
  match n with O => 0 | S k => m (addr64 a) + 256 * rd k m (a + 1) end.

(** Two's complement reading of the low [n] bits. *)
Definition sx (n v : Z) : Z :=
  if Z.testbit v (n - 1) then v mod 2 ^ n - 2 ^ n else v mod 2 ^ n.

(** Byte [i] of [bytes] is at [a + i]. *)
Definition code_at (m : Z -> Z) (a : Z) (bytes : list Z) : Prop :=
  forall i b, nth_error bytes i = Some b -> m (addr64 (a + Z.of_nat i)) = b.

(** ** x86-64 *)

Record xcpu := XCpu { x_reg : Z -> Z; x_rip : Z; x_mem : Z -> Z }.

(** Register number of rsp. *)
Definition rsp := 4.

Definition set_reg (f : Z -> Z) (r v : Z) : Z -> Z := fun x => if x =? r then v else f x.
Definition wr64 (m : Z -> Z) (a v : Z) : Z -> Z :=
  fun x => let o := (x - a) mod 2 ^ 64 in if o <? 8 then v / 2 ^ (8 * o) mod 256 else m x.

(** One instruction (Intel SDM vol. 2): JMP rel32, CALL rel32, JMP rel8, RET,
    JMP r/m64 with RIP-relative operand.  Everything else: [None]. *)
Definition x86_step (s : xcpu) : option xcpu :=
  let m := x_mem s in
  let ip := x_rip s in
  let jump t := Some (XCpu (x_reg s) (addr64 t) m) in
  match rd 1 m ip with
  | 0xe9 => jump (ip + 5 + sx 32 (rd 4 m (ip + 1)))
  | 0xe8 => let sp := addr64 (x_reg s rsp - 8) in
            Some (XCpu (set_reg (x_reg s) rsp sp)
                       (addr64 (ip + 5 + sx 32 (rd 4 m (ip + 1))))
                       (wr64 m sp (addr64 (ip + 5))))
  | 0xeb => jump (ip + 2 + sx 8 (rd 1 m (ip + 1)))
  | 0xc3 => Some (XCpu (set_reg (x_reg s) rsp (addr64 (x_reg s rsp + 8)))
                       (rd 8 m (x_reg s rsp)) m)
  | 0xff => if rd 1 m (ip + 1) =? 0x25
            then jump (rd 8 m (ip + 6 + sx 32 (rd 4 m (ip + 2))))
            else None
  | _ => None
  end.

(** ** AArch64 *)

Record acpu := ACpu { a_reg : Z -> Z; a_pc : Z; a_mem : Z -> Z }.

Definition bits (v lo n : Z) : Z := v / 2 ^ lo mod 2 ^ n.

(** One instruction (Arm ARM): LDR Xt, label; BR Xn; B label; BL label.
    Everything else: [None].  Register 31 is not used as a destination. *)
Definition a64_step (s : acpu) : option acpu :=
  let m := a_mem s in
  let pc := a_pc s in
  let w := rd 4 m pc in
  if bits w 24 8 =? 0x58 then
    let t := bits w 0 5 in
    if t =? 31 then None else
    Some (ACpu (set_reg (a_reg s) t (rd 8 m (pc + 4 * sx 19 (bits w 5 19)))) (addr64 (pc + 4)) m)
  else if (bits w 10 22 =? 0x3587c0) && (bits w 0 5 =? 0) then
    let n := bits w 5 5 in
    if n =? 31 then None else Some (ACpu (a_reg s) (addr64 (a_reg s n)) m)
  else if bits w 26 6 =? 5 then
    Some (ACpu (a_reg s) (addr64 (pc + 4 * sx 26 (bits w 0 26))) m)
  else if bits w 26 6 =? 0x25 then
    Some (ACpu (set_reg (a_reg s) 30 (addr64 (pc + 4))) (addr64 (pc + 4 * sx 26 (bits w 0 26))) m)
  else None.

Fixpoint a64_steps (n : nat) (s : acpu) : option acpu :=
  match n with
  | O => Some s
  | S k => match a64_step s with Some s' => a64_steps k s' | None => None end
  end.
