(** The system calls built into patches: C191 to C194. *)
From Coq Require Import ZArith List Bool Lia.
From Verif Require Import Word WordLemmas InsnModel AsModel AsSpec AsProofs.
Import ListNotations.
Open Scope Z_scope.

(** ** A small machine for the examples *)

(** Registers 0 to 31 with given contents, the rest 0; the kernel answers 6 and changes
    nothing. *)
Definition regs (l : list (Z * Z)) (r : Z) : Z :=
  match find (fun p => fst p =? r) l with Some p => snd p | None => 0 end.
Definition at_ (l : list (Z * Z)) : state := St (regs l) (fun _ => 0) [] true.
Definition six : kernel := fun c => Some (6, c_mem c).
Definition choice3 (o a b c : Z) : choice :=
  Ch false true (Lreg o) (fun n => match n with O => Sreg a | S O => Sreg b | _ => Sreg c end).

(** A message at 0x5000 of 6 bytes to descriptor 1. *)
Definition ex_rq := Write 1 0x5000 6.
(** The operands in rbx, r12, r13, the result in rax; the message in rdi. *)
Definition ex_ok := choice3 RAX 3 12 13.
Definition ex_bad := choice3 RAX 3 RDI 13.
Definition ex_s := at_ [(4, 0x7000); (3, 1); (12, 0x5000); (7, 0x5000); (13, 6)].

Lemma regs_ok l : forallb (fun p => (0 <=? snd p) && (snd p <? 2 ^ 64)) l = true -> forall r, 0 <= regs l r < 2 ^ 64.
Proof.
  intros H r. unfold regs. destruct (find _ l) as [p|] eqn:E; [|lia].
  apply find_some in E. destruct E as [E _]. rewrite forallb_forall in H. specialize (H p E).
  apply andb_true_iff in H. destruct H as [H1 H2]. apply Z.leb_le in H1. apply Z.ltb_lt in H2. lia.
Qed.

(** ** C191: the call asked for is the call made *)

(** False: the message may be in a register that is overwritten before it is read. *)
Theorem C191_operands_refuted : exists k rip fl rq ch s,
  good_state X86_64 rq s /\ compiled X86_64 rq true ch s /\ ch_drop ch = false /\
  exists c, calls (builtin X86_64 k rip fl rq ch s) = [c] /\ ~ asks X86_64 rq c.
Proof.
  exists six, 0, 0, ex_rq, ex_bad, ex_s. split.
  { split; [reflexivity|]. split; [apply regs_ok; reflexivity|]. split; [vm_compute; discriminate|exact I]. }
  split.
  { split; [|split].
    - cbn [inputs ex_rq ex_bad choice3 ch_in in_reg general]. unfold holds32, holds64. repeat split; try (vm_compute; congruence); lia.
    - cbn [output ex_bad choice3 ch_out general]. unfold RAX, RSP. lia.
    - discriminate. }
  split; [reflexivity|]. eexists. split; [reflexivity|].
  intros (_ & _ & H & _). vm_compute in H. discriminate.
Qed.
Print Assumptions C191_operands_refuted.

(** False: a call whose result is not used may be left out, even the one that ends the
    process. *)
Theorem C191_left_out_refuted : exists k rip fl v ch s,
  good_state X86_64 (Exit v) s /\ compiled X86_64 (Exit v) false ch s /\
  calls (builtin X86_64 k rip fl (Exit v) ch s) = [] /\ live (builtin X86_64 k rip fl (Exit v) ch s) = true.
Proof.
  exists (fun _ => None), 0, 0, 2, (Ch true true (Lreg RAX) (fun _ => Sreg 3)), (at_ [(4, 0x7000); (3, 2)]). split.
  { split; [reflexivity|]. split; [apply regs_ok; reflexivity|]. split; [vm_compute; discriminate|exact I]. }
  split.
  { split; [|split].
    - split; [split; vm_compute; [split; congruence|discriminate]|reflexivity].
    - cbn [output ch_out general]. unfold RAX, RSP. lia.
    - intros _. split; [exact I|reflexivity]. }
  split; reflexivity.
Qed.
Print Assumptions C191_left_out_refuted.

(** False: the time to sleep may not have been stored when the kernel reads it. *)
Theorem C191_stored_refuted : exists k rip fl rq ch s,
  good_state X86_64 rq s /\ compiled X86_64 rq true ch s /\ ch_drop ch = false /\
  exists c, calls (builtin X86_64 k rip fl rq ch s) = [c] /\ ~ asks X86_64 rq c.
Proof.
  exists six, 0, 0, (Sleep 1 0x7008), (Ch false false (Lreg RAX) (fun _ => Sreg 3)), (at_ [(4, 0x7000); (3, 0x7008)]). split.
  { split; [reflexivity|]. split; [apply regs_ok; reflexivity|]. split; [vm_compute; discriminate|].
    split; [lia|discriminate]. }
  split.
  { split; [|split].
    - split; [split; vm_compute; [split; congruence|discriminate]|]. split; [reflexivity|discriminate].
    - cbn [output ch_out general]. unfold RAX, RSP. lia.
    - discriminate. }
  split; [reflexivity|]. eexists. split; [reflexivity|].
  intros (_ & _ & _ & H & _). vm_compute in H. discriminate.
Qed.
Print Assumptions C191_stored_refuted.

(** Otherwise exactly the call asked for is made, on both architectures, with the memory of
    the program. *)
Theorem C191_call_partial a k rip fl rq used ch s :
  good_state a rq s -> compiled a rq used ch s -> apart a rq ch -> ch_drop ch = false -> ch_stored ch = true ->
  exists c, calls (builtin a k rip fl rq ch s) = calls s ++ [c] /\ asks a rq c /\
            forall x, ~ scratch a s x -> c_mem c x = me (prepared rq ch s) x.
Proof. intros Hg (Hi & _) Ha Hd Hs. now apply builtin_call. Qed.
Print Assumptions C191_call_partial.

(** The exit of aarch64 is never left out. *)
Theorem C191_a64_exit k rip fl v used ch s :
  good_state AARCH64 (Exit v) s -> compiled AARCH64 (Exit v) used ch s ->
  exists c, calls (builtin AARCH64 k rip fl (Exit v) ch s) = calls s ++ [c] /\ asks AARCH64 (Exit v) c.
Proof.
  intros Hg (Hi & _ & Hd).
  assert (E : ch_drop ch = false) by (destruct (ch_drop ch); [destruct (Hd eq_refl) as [[] _]|reflexivity]).
  set (ch' := Ch false true (ch_out ch) (ch_in ch)).
  destruct (builtin_call AARCH64 k rip fl (Exit v) ch' s Hg Hi I eq_refl eq_refl) as (c & Hc & Ha & _).
  exists c. split; [|exact Ha]. rewrite <- Hc. unfold builtin. rewrite E. reflexivity.
Qed.
Print Assumptions C191_a64_exit.

(** False: the process ends.  The call ends one thread. *)
Theorem C191_process_refuted : exists a k rip fl v ch s,
  good_state a (Exit v) s /\ compiled a (Exit v) true ch s /\ ch_drop ch = false /\
  exists c, calls (builtin a k rip fl (Exit v) ch s) = [c] /\ after_exit a 2 c = Some 1%nat.
Proof.
  exists AARCH64, (fun _ => None), 0, 0, 2, (Ch false true (Lreg 0) (fun _ => Sreg 3)), (at_ [(31, 0x7000); (3, 2)]). split.
  { split; [reflexivity|]. split; [apply regs_ok; reflexivity|]. split; [vm_compute; discriminate|exact I]. }
  split.
  { split; [|split].
    - split; [cbn [ch_in in_reg general]; lia|reflexivity].
    - cbn [output ch_out general]. lia.
    - discriminate. }
  split; [reflexivity|]. eexists. split; reflexivity.
Qed.
Print Assumptions C191_process_refuted.

Example C191_ex : exists c, calls (builtin X86_64 six 0x401000 0x246 ex_rq ex_ok ex_s) = [c] /\ asks X86_64 ex_rq c.
Proof.
  destruct (C191_call_partial X86_64 six 0x401000 0x246 ex_rq true ex_ok ex_s) as (c & Hc & Ha & _).
  - split; [reflexivity|]. split; [apply regs_ok; reflexivity|]. split; [vm_compute; discriminate|exact I].
  - split; [|split].
    + cbn [inputs ex_rq ex_ok choice3 ch_in in_reg general]. unfold holds32, holds64. repeat split; try (vm_compute; congruence); lia.
    + cbn [output ex_ok choice3 ch_out general]. unfold RAX, RSP. lia.
    + discriminate.
  - repeat split; discriminate.
  - reflexivity.
  - reflexivity.
  - exists c. split; [exact Hc|exact Ha].
Qed.

(** ** C192: the value is the kernel's result *)

(** False: the output may be in any register. *)
Theorem C192_result_refuted : exists k rip fl rq ch s,
  good_state X86_64 rq s /\ compiled X86_64 rq true ch s /\ apart X86_64 rq ch /\ ch_drop ch = false /\
  exists c r, calls (builtin X86_64 k rip fl rq ch s) = [c] /\ asks X86_64 rq c /\ k c = Some (r, c_mem c) /\
    out_val (ch_out ch) (builtin X86_64 k rip fl rq ch s) <> s32 r.
Proof.
  exists six, 0, 0, ex_rq, (choice3 5 3 12 13), ex_s. split.
  { split; [reflexivity|]. split; [apply regs_ok; reflexivity|]. split; [vm_compute; discriminate|exact I]. }
  split.
  { split; [|split].
    - cbn [inputs ex_rq choice3 ch_in in_reg general]. unfold holds32, holds64. repeat split; try (vm_compute; congruence); lia.
    - cbn [output choice3 ch_out general]. unfold RSP. lia.
    - discriminate. }
  split; [repeat split; discriminate|]. split; [reflexivity|]. eexists _, 6. split; [reflexivity|].
  split; [repeat split; reflexivity|]. split; [reflexivity|]. vm_compute. discriminate.
Qed.
Print Assumptions C192_result_refuted.

(** On aarch64 the result of sleeping and writing is lost wherever the output is: it is the
    same whatever the kernel answers. *)
Theorem C192_lost k1 k2 rip fl rq ch s :
  (forall v, rq <> Exit v) -> live s = true ->
  (forall c, option_map snd (k1 c) = option_map snd (k2 c)) ->
  out_val (ch_out ch) (builtin AARCH64 k1 rip fl rq ch s) = out_val (ch_out ch) (builtin AARCH64 k2 rip fl rq ch s).
Proof. intros Hx Hl Hk. apply (a64_lost k1 k2 rip fl rq ch s 0); auto. Qed.
Print Assumptions C192_lost.

(** If the compiler happens to choose rax. *)
Theorem C192_result_partial k rip fl rq ch s : live s = true -> ch_drop ch = false -> ch_out ch = Lreg RAX ->
  exists c, calls (builtin X86_64 k rip fl rq ch s) = calls s ++ [c] /\
            forall r m, k c = Some (r, m) -> out_val (ch_out ch) (builtin X86_64 k rip fl rq ch s) = s32 r.
Proof. apply x86_result. Qed.
Print Assumptions C192_result_partial.

Example C192_ex : out_val (ch_out ex_ok) (builtin X86_64 six 0x401000 0x246 ex_rq ex_ok ex_s) = 6 /\
  out_val (Lreg 5) (builtin AARCH64 six 0 0 ex_rq (choice3 5 3 12 13) ex_s) = 0 /\
  out_val (Lreg 5) (builtin AARCH64 (fun c => Some (- 9, c_mem c)) 0 0 ex_rq (choice3 5 3 12 13) ex_s) = 0.
Proof. repeat split; reflexivity. Qed.

(** ** C193: nothing else changes *)

(** False: registers that the statement does not name change; here rsi, which may hold
    another variable. *)
Theorem C193_registers_refuted : exists k rip fl rq ch s,
  good_state X86_64 rq s /\ compiled X86_64 rq true ch s /\ apart X86_64 rq ch /\
  exists r, ch_out ch <> Lreg r /\ general X86_64 r /\ gp (builtin X86_64 k rip fl rq ch s) r <> gp s r.
Proof.
  exists six, 0, 0, ex_rq, ex_ok, ex_s. split.
  { split; [reflexivity|]. split; [apply regs_ok; reflexivity|]. split; [vm_compute; discriminate|exact I]. }
  split.
  { split; [|split].
    - cbn [inputs ex_rq ex_ok choice3 ch_in in_reg general]. unfold holds32, holds64. repeat split; try (vm_compute; congruence); lia.
    - cbn [output ex_ok choice3 ch_out general]. unfold RAX, RSP. lia.
    - discriminate. }
  split; [repeat split; discriminate|].
  exists RSI. split; [discriminate|]. split; [unfold general, RSI, RSP; lia|]. vm_compute. discriminate.
Qed.
Print Assumptions C193_registers_refuted.

(** False: on x86-64 the greeting overwrites the 128 bytes below the stack pointer that a
    function may use without moving it. *)
Theorem C193_red_zone_refuted : exists k rip fl s x,
  live s = true /\ (forall r, 0 <= gp s r < 2 ^ 64) /\ 64 <= gp s RSP /\
  (forall c r m, k c = Some (r, m) -> m = c_mem c) /\
  gp s RSP - 128 <= x < gp s RSP /\ me (hello X86_64 k rip fl s) x <> me s x.
Proof.
  exists six, 0, 0, (at_ [(4, 0x7000)]), 0x6ff0. split; [reflexivity|]. split; [apply regs_ok; reflexivity|].
  split; [vm_compute; discriminate|]. split; [intros c r m [= _ <-]; reflexivity|].
  split; [split; vm_compute; congruence|]. vm_compute. discriminate.
Qed.
Print Assumptions C193_red_zone_refuted.

(** Exactly these registers and this part of the stack change; the rest of the memory is
    what the kernel makes of it. *)
Theorem C193_frame_partial a k rip fl rq ch s :
  good_state a rq s -> ch_drop ch = false ->
  (a = AARCH64 -> spares k (gp s ASP - 32) (gp s ASP)) ->
  live (builtin a k rip fl rq ch s) = true ->
  (forall r, ~ In r (changed a rq) -> gp (builtin a k rip fl rq ch s) r = gp s r) /\
  exists c res m, calls (builtin a k rip fl rq ch s) = calls s ++ [c] /\ k c = Some (res, m) /\
    me (builtin a k rip fl rq ch s) = m /\ (forall x, ~ scratch a s x -> c_mem c x = me (prepared rq ch s) x).
Proof. apply builtin_frame. Qed.
Print Assumptions C193_frame_partial.

Theorem C193_hello_partial a k rip fl s : live s = true -> (forall r, 0 <= gp s r < 2 ^ 64) -> 64 <= gp s (sp_of a) ->
  (a = AARCH64 -> spares k (gp s ASP - 32) (gp s ASP)) ->
  live (hello a k rip fl s) = true ->
  (forall r, ~ In r (hello_changed a) -> gp (hello a k rip fl s) r = gp s r) /\
  exists c res m, calls (hello a k rip fl s) = calls s ++ [c] /\ k c = Some (res, m) /\ me (hello a k rip fl s) = m /\
    (forall x, x < gp s (sp_of a) - hello_depth a \/ gp s (sp_of a) <= x -> c_mem c x = me s x).
Proof. apply hello_frame. Qed.
Print Assumptions C193_hello_partial.

Example C193_ex : gp (builtin AARCH64 six 0 0 ex_rq (choice3 5 3 12 13) (at_ [(31, 0x7000); (0, 77); (1, 78); (3, 1); (12, 0x5000); (13, 6)])) 0 = 77 /\
  gp (builtin AARCH64 six 0 0 ex_rq (choice3 5 3 12 13) (at_ [(31, 0x7000); (0, 77); (1, 78); (3, 1); (12, 0x5000); (13, 6)])) 1 = 78 /\
  gp (hello X86_64 six 0 0 ex_s) RSP = 0x7000.
Proof. repeat split; reflexivity. Qed.

(** ** C194: the greeting *)

(** False: the line is written.  NUL bytes are written with it. *)
Theorem C194_bytes_refuted : forall a, exists k rip fl s c,
  live s = true /\ (forall r, 0 <= gp s r < 2 ^ 64) /\ 64 <= gp s (sp_of a) /\
  calls (hello a k rip fl s) = [c] /\ ~ writes_bytes a c text_hello.
Proof.
  intros [].
  - set (s := at_ [(4, 0x7000)]). assert (Hr : forall r, 0 <= gp s r < 2 ^ 64) by (apply regs_ok; reflexivity).
    destruct (x86_hello_call six 0 0 s eq_refl Hr ltac:(vm_compute; discriminate) eq_refl eq_refl eq_refl) as (c & Hc & (_ & _ & Hn & _) & _).
    exists six, 0, 0, s, c. split; [reflexivity|]. split; [exact Hr|]. split; [vm_compute; discriminate|]. split; [exact Hc|].
    intros (_ & _ & H & _). rewrite Hn in H. discriminate.
  - set (s := at_ [(31, 0x7000)]). assert (Hr : forall r, 0 <= gp s r < 2 ^ 64) by (apply regs_ok; reflexivity).
    destruct (a64_hello_call six 0 0 s eq_refl Hr ltac:(vm_compute; discriminate)) as (c & Hc & (_ & _ & Hn & _) & _).
    exists six, 0, 0, s, c. split; [reflexivity|]. split; [exact Hr|]. split; [vm_compute; discriminate|]. split; [exact Hc|].
    intros (_ & _ & H & _). rewrite Hn in H. discriminate.
Qed.
Print Assumptions C194_bytes_refuted.

(** False: it is a call of write.  On x86-64 only the lowest byte of the number is set. *)
Theorem C194_number_refuted : exists k rip fl s c,
  live s = true /\ (forall r, 0 <= gp s r < 2 ^ 64) /\ 64 <= gp s RSP /\
  calls (hello X86_64 k rip fl s) = [c] /\ c_nr c <> nr_write X86_64.
Proof.
  set (s := at_ [(4, 0x7000); (0, 0x100)]). assert (Hr : forall r, 0 <= gp s r < 2 ^ 64) by (apply regs_ok; reflexivity).
  destruct (hello_frame_x86 six 0 0 s eq_refl Hr ltac:(vm_compute; discriminate)) as (_ & c & res & m & Hc & _); [vm_compute; reflexivity|].
  exists six, 0, 0, s, c. split; [reflexivity|]. split; [exact Hr|]. split; [vm_compute; discriminate|]. split; [exact Hc|].
  assert (E : map c_nr (calls (hello X86_64 six 0 0 s)) = [257]) by (vm_compute; reflexivity).
  rewrite Hc in E. cbn [app map] in E. injection E as E. rewrite E. vm_compute. discriminate.
Qed.
Print Assumptions C194_number_refuted.

(** One call is made, which writes bytes that look like the line, if on x86-64 the three
    registers set by their lowest byte were small. *)
Theorem C194_hello_partial a k rip fl s :
  live s = true -> (forall r, 0 <= gp s r < 2 ^ 64) -> 64 <= gp s (sp_of a) ->
  (a = X86_64 -> gp s RAX < 256 /\ gp s RDI < 256 /\ gp s RDX < 256) ->
  exists c l, calls (hello a k rip fl s) = calls s ++ [c] /\ writes_bytes a c l /\ shown l = text_hello.
Proof.
  intros Hl Hr Hsp Hx. destruct a.
  - destruct (Hx eq_refl) as (A & B & C). destruct (x86_hello_call k rip fl s Hl Hr Hsp A B C) as (c & Hc & Hw & _).
    exists c, x86_said. repeat split; try assumption; apply Hw.
  - destruct (a64_hello_call k rip fl s Hl Hr Hsp) as (c & Hc & Hw & _).
    exists c, a64_said. repeat split; try assumption; apply Hw.
Qed.
Print Assumptions C194_hello_partial.

Example C194_ex : exists c, calls (hello AARCH64 six 0 0 (at_ [(31, 0x7000); (0, 2 ^ 63)])) = [c] /\
  bytes_at (c_mem c) (arg c 1) 8 = [72; 101; 108; 108; 111; 10; 0; 0].
Proof.
  set (s := at_ [(31, 0x7000); (0, 2 ^ 63)]).
  destruct (a64_hello_call six 0 0 s eq_refl ltac:(apply regs_ok; reflexivity) ltac:(vm_compute; discriminate)) as (c & Hc & (_ & _ & _ & Hb) & _).
  exists c. split; [exact Hc|exact Hb].
Qed.
