(** Properties of remote system calls: C41-C45, C77, C78. *)
From Coq Require Import ZArith String List Bool Lia.
From Verif Require Import Word WordLemmas Str ScModel ScSpec ScProofs.
Import ListNotations.
Open Scope Z_scope.

(** A target for the examples: x86_64, stopped at 0x1000, with the C library's code
    at 0x7000, whose kernel answers 4096 to every call. *)
Definition ex_kernel (v : Z) : kernel := fun nr args m => (v, m).
Definition ex_env (v : Z) : env :=
  Env (fun _ => None) (fun _ => None) (fun _ _ s => Some s) (fun _ _ s => Some s) (fun _ => None)
      (fun n r m sig => match x86_exec (ex_kernel v) r m with
                        | Some (r', m') => WStopped SIGTRAP r' m'
                        | None => WStopped SIGSEGV r m
                        end)
      (fun _ => None) (fun _ r m => WStopped SIGSTOP r m) (fun _ => None) (fun _ => 0xa5).
Definition ex_w : world :=
  W (Tg (fun i => if i =? RIP then 0x1000 else 100 + i) (fun x => x mod 256) true) 0 [].

Lemma ex_runs v : runs (x86_exec (ex_kernel v)) (ex_env v).
Proof.
  repeat split; auto. intros n r m r' m' H. cbn. rewrite H. reflexivity.
Qed.

(** An environment in which waiting for the target fails. *)
Definition fail_env : env :=
  Env (fun _ => None) (fun _ => None) (fun _ _ s => Some s) (fun _ _ s => Some s) (fun _ => None)
      (fun _ _ _ _ => WFail)
      (fun _ => None) (fun _ r m => WStopped SIGSTOP r m) (fun _ => None) (fun _ => 0xa5).

Lemma result_with {A} (o : option A) (P : A -> bool) :
  match o with Some a => P a | None => false end = true -> exists a, o = Some a /\ P a = true.
Proof. destruct o as [a|]; [eauto|discriminate]. Qed.

(** ** C41 *)
Theorem C41_code_restored : forall fuel a e base w nr args res ret out w',
  task_syscall fuel a e base w nr args res = Some (ret, out, w') ->
  accessible e base (Z.of_nat (List.length (a_code a))) ->
  forall x, within base (Z.of_nat (List.length (a_code a))) x -> t_mem (w_t w') x = t_mem (w_t w) x.
Proof. intros fuel a e base w nr args res ret out w' H A x Hx. apply (proj2 (syscall_mem _ _ _ _ _ _ _ _ _ _ _ H)); auto. Qed.
Print Assumptions C41_code_restored.

(** No other byte of the target is written by the tool. *)
Theorem C41_elsewhere_unchanged : forall fuel a e base w nr args res ret out w',
  task_syscall fuel a e base w nr args res = Some (ret, out, w') -> sane e ->
  forall x, ~ within base (Z.of_nat (List.length (a_code a))) x -> untouched e x -> t_mem (w_t w') x = t_mem (w_t w) x.
Proof. intros fuel a e base w nr args res ret out w' H A x Hx U. apply (proj1 (syscall_mem _ _ _ _ _ _ _ _ _ _ _ H)); auto. Qed.
Print Assumptions C41_elsewhere_unchanged.

Example C41_ex :
  accessible (ex_env 4096) 0x7000 3 /\ accessible fail_env 0x7000 3 /\ sane fail_env /\ untouched fail_env 0x8000 /\
  (match task_syscall 2 x86_arch (ex_env 4096) 0x7000 ex_w 9 [1; 2; 3; 4; 5; 6] 0 with
   | Some (ret, out, w) => ret = 0 /\ out = 4096 /\ bytes_at (t_mem (w_t w)) 0x7000 4 = [0; 1; 2; 3]
   | None => False end) /\
  (match task_syscall 2 x86_arch fail_env 0x7000 ex_w 9 [1; 2; 3; 4; 5; 6] 0 with
   | Some (ret, out, w) => ret = -1 /\ bytes_at (t_mem (w_t w)) 0x7000 4 = [0; 1; 2; 3]
   | None => False end).
Proof.
  split; [intros n; split; reflexivity|]. split; [intros n; split; reflexivity|].
  split; [intros n a s k [H|H]; cbn in H; injection H; lia|]. split; [intros n r m sig; exact I|].
  split; vm_compute; auto.
Qed.

(** ** C42 *)

(** The target cannot be waited for: it is left at the start of the C library with the
    registers of the system call. *)
Theorem C42_registers_restored_refuted : exists e w ret out w',
  errnos e /\ accessible e 0x7000 3 /\
  task_syscall 2 x86_arch e 0x7000 w 9 [1; 2; 3; 4; 5; 6] 0 = Some (ret, out, w') /\
  t_regs (w_t w') RIP <> t_regs (w_t w) RIP /\ t_regs (w_t w') RAX <> t_regs (w_t w) RAX.
Proof.
  exists fail_env, ex_w. eexists. eexists. eexists. split; [intros n x [H|H]; discriminate|].
  split; [intros n; split; reflexivity|]. split; [reflexivity|]. split; vm_compute; discriminate.
Qed.
Print Assumptions C42_registers_restored_refuted.

(** What does hold: a call that reports success, and one that could not be started,
    leaves the registers unchanged.  Missing (false): failures after the registers were set. *)
Theorem C42_registers_restored_partial : forall fuel a e base w nr args res ret out w',
  task_syscall fuel a e base w nr args res = Some (ret, out, w') -> errnos e ->
  0 <= ret \/ (forall n, e_getregs e n <> None) \/ (forall n, e_setregs e n <> None) ->
  t_regs (w_t w') = t_regs (w_t w).
Proof.
  intros fuel a e base w nr args res ret out w' H Er [G|G].
  - eapply syscall_regs; eauto.
  - eapply syscall_not_started; eauto.
Qed.
Print Assumptions C42_registers_restored_partial.

Example C42_registers_restored_partial_ex :
  errnos (ex_env 4096) /\
  match task_syscall 2 x86_arch (ex_env 4096) 0x7000 ex_w 9 [1; 2; 3; 4; 5; 6] 0 with
  | Some (ret, out, w) => 0 <= ret /\ t_regs (w_t w) RIP = 0x1000 /\ t_regs (w_t w) RAX = 110 /\ t_regs (w_t w) R11 = 106
  | None => False end.
Proof. split; [intros n x [H|H]; discriminate|]. vm_compute. repeat split; congruence. Qed.

(** ** C43 *)

(** The kernel is entered once, with the requested number and arguments, on the target's
    memory with the code in place; its result is returned, its effect on memory outside
    the borrowed code is kept, everything else is as before. *)
Definition call_done (a : arch) (k : kernel) (e : env) (base : Z) (w : world) (nr : Z) (args : list Z) : Prop :=
  forall fuel res, exists m0 w',
    (forall x, ~ within base (Z.of_nat (List.length (a_code a))) x -> m0 x = t_mem (w_t w) x) /\
    task_syscall (S fuel) a e base w nr args res = Some (0, fst (k (u64 nr) args m0), w') /\
    t_regs (w_t w') = t_regs (w_t w) /\ t_attached (w_t w') = t_attached (w_t w) /\
    (forall x, within base (Z.of_nat (List.length (a_code a))) x -> t_mem (w_t w') x = t_mem (w_t w) x) /\
    (forall x, ~ within base (Z.of_nat (List.length (a_code a))) x -> t_mem (w_t w') x = snd (k (u64 nr) args m0) x) /\
    List.length (w_conts w') = S (List.length (w_conts w)).

(** The system call does not overwrite the breakpoint. *)
Definition keeps (k : kernel) (base size : Z) : Prop := forall nr args m x, within base size x -> snd (k nr args m) x = m x.

Lemma run_done exec a k e base w nr args :
  runs exec e ->
  (let rg := copy_regs a (setr (t_regs (w_t w)) (a_ip a) base) (prepare a nr args) in
   let m0 := with_code (t_mem (w_t w)) base (a_code a) in
   exists r', exec rg m0 = Some (r', snd (k (u64 nr) args m0)) /\ r' (a_ret a) = fst (k (u64 nr) args m0)) ->
  call_done a k e base w nr args.
Proof.
  intros R (r' & Hx & Hr) fuel res.
  destruct (syscall_run exec fuel a e base w nr args res r' _ R Hx) as (w' & A & B & B' & C & D).
  exists (with_code (t_mem (w_t w)) base (a_code a)), w'. rewrite Hr in A.
  split.
  { intros x Hx'. unfold with_code, within in *.
    destruct (Z.leb_spec base x), (Z.ltb_spec x (base + Z.of_nat (List.length (a_code a)))); cbn; auto; lia. }
  split; auto. split; auto. split; auto. split.
  { intros x Hx'. rewrite C. unfold within in Hx'.
    destruct (Z.leb_spec base x), (Z.ltb_spec x (base + Z.of_nat (List.length (a_code a)))); cbn; auto; lia. }
  split.
  { intros x Hx'. rewrite C. unfold within in Hx'.
    destruct (Z.leb_spec base x), (Z.ltb_spec x (base + Z.of_nat (List.length (a_code a)))); cbn; auto; lia. }
  rewrite D, app_length. cbn. lia.
Qed.

Theorem C43_arguments_x86 : forall k e base w nr a1 a2 a3 a4 a5 a6,
  runs (x86_exec k) e -> keeps k base 3 ->
  call_done x86_arch k e base w nr [a1; a2; a3; a4; a5; a6].
Proof.
  intros k e base w nr a1 a2 a3 a4 a5 a6 R K. apply (run_done (x86_exec k)); auto.
  intros rg m0. unfold x86_exec.
  assert (E0 : rg RIP = base) by reflexivity.
  rewrite E0.
  assert (M : forall i, (i < 3)%nat -> m0 (base + Z.of_nat i) = nth i [0x0f; 0x05; 0xcc] 0).
  { intros i Hi. apply with_code_at. exact Hi. }
  pose proof (M 0%nat ltac:(lia)) as M0. pose proof (M 1%nat ltac:(lia)) as M1. pose proof (M 2%nat ltac:(lia)) as M2.
  change (Z.of_nat 0) with 0 in M0. change (Z.of_nat 1) with 1 in M1. change (Z.of_nat 2) with 2 in M2.
  rewrite Z.add_0_r in M0. cbn [nth] in M0, M1, M2. rewrite M0, M1. cbn [Z.eqb Pos.eqb andb].
  change (rg RAX) with (u64 nr). change [rg RDI; rg RSI; rg RDX; rg R10; rg R8; rg R9] with [a1; a2; a3; a4; a5; a6].
  pose proof (K (u64 nr) [a1; a2; a3; a4; a5; a6] m0 (base + 2) ltac:(unfold within; lia)) as Kx. rewrite M2 in Kx.
  destruct (k (u64 nr) [a1; a2; a3; a4; a5; a6] m0) as [v m']. cbn [fst snd] in *.
  rewrite Kx. cbn [Z.eqb Pos.eqb]. eexists. split; [reflexivity|]. reflexivity.
Qed.
Print Assumptions C43_arguments_x86.

Theorem C43_arguments_a64 : forall k e base w nr a1 a2 a3 a4 a5 a6,
  runs (a64_exec k) e -> keeps k base 8 ->
  call_done a64_arch k e base w nr [a1; a2; a3; a4; a5; a6].
Proof.
  intros k e base w nr a1 a2 a3 a4 a5 a6 R K. apply (run_done (a64_exec k)); auto.
  intros rg m0. unfold a64_exec.
  assert (E0 : rg PC = base) by reflexivity.
  rewrite E0.
  assert (M : forall i, (i < 8)%nat -> m0 (base + Z.of_nat i) = nth i [0x01; 0x00; 0x00; 0xd4; 0xa0; 0x00; 0x20; 0xd4] 0).
  { intros i Hi. apply with_code_at. exact Hi. }
  assert (L1 : ld 4 m0 base = 0xd4000001).
  { cbn [ld]. rewrite <- !Z.add_assoc. cbn [Z.add Pos.add Pos.succ].
    pose proof (M 0%nat ltac:(lia)) as M0. pose proof (M 1%nat ltac:(lia)) as M1.
    pose proof (M 2%nat ltac:(lia)) as M2. pose proof (M 3%nat ltac:(lia)) as M3. cbn in M0, M1, M2, M3.
    rewrite Z.add_0_r in M0. rewrite M0, M1, M2, M3. reflexivity. }
  rewrite L1. rewrite Z.eqb_refl.
  change (rg 8) with (u64 nr). change [rg 0; rg 1; rg 2; rg 3; rg 4; rg 5] with [a1; a2; a3; a4; a5; a6].
  assert (Kx : forall i, (i < 8)%nat -> snd (k (u64 nr) [a1; a2; a3; a4; a5; a6] m0) (base + Z.of_nat i) =
                nth i [0x01; 0x00; 0x00; 0xd4; 0xa0; 0x00; 0x20; 0xd4] 0).
  { intros i Hi. rewrite K by (unfold within; lia). auto. }
  destruct (k (u64 nr) [a1; a2; a3; a4; a5; a6] m0) as [v m']. cbn [fst snd] in *.
  assert (L2 : ld 4 m' (base + 4) = 0xd42000a0).
  { cbn [ld]. rewrite <- !Z.add_assoc. cbn [Z.add Pos.add Pos.succ].
    pose proof (Kx 4%nat ltac:(lia)) as M0. pose proof (Kx 5%nat ltac:(lia)) as M1.
    pose proof (Kx 6%nat ltac:(lia)) as M2. pose proof (Kx 7%nat ltac:(lia)) as M3. cbn in M0, M1, M2, M3.
    rewrite M0, M1, M2, M3. reflexivity. }
  rewrite L2, Z.eqb_refl. eexists. split; [reflexivity|]. reflexivity.
Qed.
Print Assumptions C43_arguments_a64.

(** A kernel whose answer shows number and arguments, and which writes to memory. *)
Definition show_kernel : kernel := fun nr args m =>
  (nr + 1000 * fold_left (fun acc x => 10 * acc + x) args 0, fun x => if x =? 0x9000 then 77 else m x).
Definition show_env (exec : kernel -> regs -> mem -> option (regs * mem)) : env :=
  Env (fun _ => None) (fun _ => None) (fun _ _ s => Some s) (fun _ _ s => Some s) (fun _ => None)
      (fun n r m sig => match exec show_kernel r m with
                        | Some (r', m') => WStopped SIGTRAP r' m'
                        | None => WStopped SIGSEGV r m
                        end)
      (fun _ => None) (fun _ _ _ => WFail) (fun _ => None) (fun _ => 0xa5).

Example C43_arguments_ex :
  runs (x86_exec show_kernel) (show_env x86_exec) /\ keeps show_kernel 0x7000 3 /\
  runs (a64_exec show_kernel) (show_env a64_exec) /\ keeps show_kernel 0x7000 8 /\
  (match task_syscall 2 x86_arch (show_env x86_exec) 0x7000 ex_w 9 [1; 2; 3; 4; 5; 6] 0 with
   | Some (ret, out, w) => ret = 0 /\ out = 123456009 /\ t_mem (w_t w) 0x9000 = 77 /\ t_mem (w_t w) 0x7001 = 1
   | None => False end) /\
  (match task_syscall 2 a64_arch (show_env a64_exec) 0x7000 ex_w 222 [1; 2; 3; 4; 5; 6] 0 with
   | Some (ret, out, w) => ret = 0 /\ out = 123456222 /\ t_mem (w_t w) 0x9000 = 77 /\ t_mem (w_t w) 0x7007 = 7
   | None => False end).
Proof.
  assert (K : forall size, size <= 8 -> keeps show_kernel 0x7000 size).
  { intros size Hs nr args m x Hx. unfold within in Hx. cbn. destruct (Z.eqb_spec x 0x9000); [lia|reflexivity]. }
  split; [repeat split; auto; intros n r m r' m' H; cbn; rewrite H; reflexivity|]. split; [apply K; lia|].
  split; [repeat split; auto; intros n r m r' m' H; cbn; rewrite H; reflexivity|]. split; [apply K; lia|].
  split; vm_compute; auto.
Qed.

(** ** C44 *)
Theorem C44_standard_descriptors : forall fuel a nn e libc garbage w fd,
  (fd = 0 \/ fd = 1 \/ fd = 2 ->
     task_close fuel a nn e libc garbage w fd = Some (- EINVAL, w) /\
     forall length, task_ftruncate fuel a nn e libc garbage w fd length = Some (- EINVAL, w)) /\
  (forall v w', task_close fuel a nn e libc garbage w fd = Some (v, w') ->
     w_conts w' <> w_conts w -> fd <> 0 /\ fd <> 1 /\ fd <> 2) /\
  (forall length v w', task_ftruncate fuel a nn e libc garbage w fd length = Some (v, w') ->
     w_conts w' <> w_conts w -> fd <> 0 /\ fd <> 1 /\ fd <> 2).
Proof.
  intros fuel a nn e libc garbage w fd. unfold task_close, task_ftruncate, should_skip_remote_fd.
  split; [|split].
  - intros [->|[->| ->]]; cbn; auto.
  - intros v w' H N. destruct (Z.eqb_spec fd 0), (Z.eqb_spec fd 1), (Z.eqb_spec fd 2); cbn [orb] in H; auto; injection H as <- <-; congruence.
  - intros len v w' H N. destruct (Z.eqb_spec fd 0), (Z.eqb_spec fd 1), (Z.eqb_spec fd 2); cbn [orb] in H; auto; injection H as <- <-; congruence.
Qed.
Print Assumptions C44_standard_descriptors.

Example C44_standard_descriptors_ex :
  match task_close 2 x86_arch x86_nrs (ex_env 0) 0x7000 0 ex_w 3 with
  | Some (v, w) => v = 0 /\ List.length (w_conts w) = 1%nat
  | None => False end /\
  task_close 2 x86_arch x86_nrs (ex_env 0) 0x7000 0 ex_w 2 = Some (-22, ex_w).
Proof. split; vm_compute; auto. Qed.

(** ** C45 *)

(** The kernel refuses the allocation (-ENOMEM); the caller gets a non-null address. *)
Theorem C45_failure_reported_malloc_refuted : exists v w',
  err_code (2 ^ 64 - ENOMEM) /\
  task_malloc 2 x86_arch x86_nrs (ex_env (2 ^ 64 - ENOMEM)) 0x7000 0 ex_w 4096 = Some (v, w') /\ v <> 0.
Proof.
  destruct (result_with (task_malloc 2 x86_arch x86_nrs (ex_env (2 ^ 64 - ENOMEM)) 0x7000 0 ex_w 4096) (fun x => negb (fst x =? 0)))
    as ([v w'] & E & P); [vm_compute; reflexivity|].
  exists v, w'. split; [vm_compute; split; reflexivity|]. split; [exact E|]. cbn [fst] in P.
  apply negb_true_iff, Z.eqb_neq in P. exact P.
Qed.
Print Assumptions C45_failure_reported_malloc_refuted.

(** The kernel refuses to map the patch; the mapping step reports success and stores the
    error code as the address of the patch.  The truncation succeeded since mmap is the
    only call refused. *)
Definition nomap_kernel : kernel := fun nr args m =>
  (if nr =? 9 then (if nth 4 args 0 =? 3 then 2 ^ 64 - ENOMEM else 0x5000) else if nr =? 2 then 3 else 0, m).
Definition nomap_env : env :=
  Env (fun _ => None) (fun _ => None) (fun _ _ s => Some s) (fun _ _ s => Some s) (fun _ => None)
      (fun n r m sig => match x86_exec nomap_kernel r m with
                        | Some (r', m') => WStopped SIGTRAP r' m'
                        | None => WStopped SIGSEGV r m
                        end)
      (fun _ => None) (fun _ r m => WStopped SIGSTOP r m) (fun _ => None) (fun _ => 0xa5).

Theorem C45_failure_reported_map_refuted : exists hdr w',
  create_mmap_vma_file 3 x86_arch x86_nrs true nomap_env 0x7000 0 ex_w (str "/tmp/ulp-1-x") 8192 0x400000
    = Some (0, Some hdr, w') /\ err_code hdr.
Proof.
  destruct (result_with (create_mmap_vma_file 3 x86_arch x86_nrs true nomap_env 0x7000 0 ex_w (str "/tmp/ulp-1-x") 8192 0x400000)
     (fun x => match x with (r, Some h, _) => (r =? 0) && (2 ^ 64 - 4096 <? h) && (h <? 2 ^ 64) | _ => false end))
    as ([[r [h|]] w'] & E & P); [vm_compute; reflexivity| |discriminate].
  rewrite !andb_true_iff in P. destruct P as [[P1 P2] P3]. apply Z.eqb_eq in P1. apply Z.ltb_lt in P2, P3. subst r.
  exists h, w'. split; [exact E|]. split; auto.
Qed.
Print Assumptions C45_failure_reported_map_refuted.

(** Truncation cannot be performed; the caller gets 0, its value for success. *)
Theorem C45_failure_reported_truncate_refuted : exists ret out w1 w',
  task_syscall 2 x86_arch fail_env 0x7000 ex_w (nr_ftruncate x86_nrs) [3; 4096; 0; 0; 0; 0] 0 = Some (ret, out, w1) /\ ret < 0 /\
  task_ftruncate 2 x86_arch x86_nrs fail_env 0x7000 0 ex_w 3 4096 = Some (0, w').
Proof.
  destruct (result_with (task_syscall 2 x86_arch fail_env 0x7000 ex_w (nr_ftruncate x86_nrs) [3; 4096; 0; 0; 0; 0] 0)
     (fun x => fst (fst x) <? 0)) as ([[r o] w1] & E & P); [vm_compute; reflexivity|].
  destruct (result_with (task_ftruncate 2 x86_arch x86_nrs fail_env 0x7000 0 ex_w 3 4096) (fun x => fst x =? 0))
    as ([v w'] & E' & P'); [vm_compute; reflexivity|].
  cbn [fst] in P, P'. apply Z.ltb_lt in P. apply Z.eqb_eq in P'. subst v. exists r, o, w1, w'. auto.
Qed.
Print Assumptions C45_failure_reported_truncate_refuted.

Lemma s32_err r : err_code r -> s32 r < 0.
Proof.
  unfold err_code. intros H. unfold s32, sgn.
  assert (E : r mod 2 ^ 32 = r - (2 ^ 32 - 1) * 2 ^ 32).
  { symmetry. apply Z.mod_unique with (2 ^ 32 - 1); [left|]; lia. }
  rewrite E. destruct (Z.ltb_spec (r - (2 ^ 32 - 1) * 2 ^ 32) (2 ^ (32 - 1))) as [L|L]; lia.
Qed.

Lemma s32_bit31 x : Z.testbit x 31 = true -> s32 x < 0.
Proof.
  intros H. unfold s32, sgn.
  assert (B : Z.testbit (x mod 2 ^ 32) 31 = true) by (rewrite Z.mod_pow2_bits_low by lia; auto).
  pose proof (Z.mod_pos_bound x (2 ^ 32) ltac:(lia)) as P.
  destruct (Z.ltb_spec (x mod 2 ^ 32) (2 ^ (32 - 1))) as [L|L]; [|lia].
  exfalso. rewrite <- (Z.mod_small (x mod 2 ^ 32) (2 ^ 31)) in B by lia.
  rewrite Z.mod_pow2_bits_high in B by lia. discriminate.
Qed.

Lemma err_bit31 r : err_code r -> Z.testbit r 31 = true.
Proof.
  unfold err_code. intros H. rewrite Z.testbit_true by lia.
  assert (E : r / 2 ^ 31 = 2 ^ 33 - 1).
  { symmetry. apply Z.div_unique with (r - (2 ^ 33 - 1) * 2 ^ 31); lia. }
  rewrite E. reflexivity.
Qed.

(** What does hold: unmapping, protecting, synchronising and closing report every failure,
    truncation those of the system call, mapping those of the tracing requests.
    Missing (false): the three statements above. *)
Theorem C45_failure_reported_partial : forall fuel a nn e libc garbage w,
  errnos e ->
  (forall addr size ret out w', task_syscall fuel a e libc w (nr_munmap nn) [addr; size; 0; 0; 0; 0] garbage = Some (ret, out, w') ->
     ret < 0 \/ err_code out -> exists v, task_munmap fuel a nn e libc garbage w addr size = Some (v, w') /\ v < 0) /\
  (forall addr len prot ret out w', task_syscall fuel a e libc w (nr_mprotect nn) [addr; len; u64 prot; 0; 0; 0] garbage = Some (ret, out, w') ->
     ret < 0 \/ err_code out -> exists v, task_mprotect fuel a nn e libc garbage w addr len prot = Some (v, w') /\ v < 0) /\
  (forall addr len flags ret out w', task_syscall fuel a e libc w (nr_msync nn) [addr; len; u64 flags; 0; 0; 0] garbage = Some (ret, out, w') ->
     ret < 0 \/ err_code out -> exists v, task_msync fuel a nn e libc garbage w addr len flags = Some (v, w') /\ v < 0) /\
  (forall fd ret out w', should_skip_remote_fd fd = false ->
     task_syscall fuel a e libc w (nr_close nn) [u64 fd; 0; 0; 0; 0; 0] garbage = Some (ret, out, w') ->
     -4096 < ret < 0 \/ err_code out -> exists v, task_close fuel a nn e libc garbage w fd = Some (v, w') /\ v < 0) /\
  (forall fd len ret out w', should_skip_remote_fd fd = false ->
     task_syscall fuel a e libc w (nr_ftruncate nn) [u64 fd; u64 len; 0; 0; 0; 0] garbage = Some (ret, out, w') ->
     0 <= ret -> err_code out -> exists v, task_ftruncate fuel a nn e libc garbage w fd len = Some (v, w') /\ v < 0) /\
  (forall addr len prot flags fd off ret out w',
     task_syscall fuel a e libc w (nr_mmap nn) [addr; len; u64 prot; u64 flags; u64 fd; u64 off] garbage = Some (ret, out, w') ->
     ret < 0 -> task_mmap fuel a nn e libc garbage w addr len prot flags fd off = Some (0, w')).
Proof.
  intros fuel a nn e libc garbage w Er.
  assert (G : forall ret out (w' : world), ret < 0 \/ err_code out ->
     exists v, (if ret <? 0 then Some (-1, w') else Some (s32 out, w')) = Some (v, w') /\ v < 0).
  { intros ret out w' H. destruct (Z.ltb_spec ret 0) as [L|L]; [exists (-1); split; auto; lia|].
    exists (s32 out). split; auto. apply s32_err. destruct H; [lia|auto]. }
  split; [|split; [|split; [|split; [|split]]]].
  - intros addr size ret out w' H F. unfold task_munmap. rewrite H. apply G; auto.
  - intros addr size prot ret out w' H F. unfold task_mprotect. rewrite H. apply G; auto.
  - intros addr size prot ret out w' H F. unfold task_msync. rewrite H. apply G; auto.
  - intros fd ret out w' S H F. unfold task_close. rewrite S, H. eexists. split; [reflexivity|].
    apply s32_bit31. rewrite Z.lor_spec. apply orb_true_iff. destruct F as [F|F].
    + right. apply err_bit31. unfold err_code, u64, wrap.
      replace (ret mod 2 ^ 64) with (ret + 2 ^ 64); [lia|]. apply Z.mod_unique with (-1); [left|]; lia.
    + left. apply err_bit31. auto.
  - intros fd len ret out w' S H R F. unfold task_ftruncate. rewrite S, H.
    destruct (Z.ltb_spec ret 0); [lia|]. eexists. split; [reflexivity|]. apply s32_err. auto.
  - intros addr len prot flags fd off ret out w' H L. unfold task_mmap. rewrite H.
    destruct (Z.ltb_spec ret 0); [reflexivity|lia].
Qed.
Print Assumptions C45_failure_reported_partial.

Example C45_failure_reported_partial_ex :
  errnos (ex_env (2 ^ 64 - EINVAL)) /\ err_code (2 ^ 64 - EINVAL) /\
  (match task_munmap 2 x86_arch x86_nrs (ex_env (2 ^ 64 - EINVAL)) 0x7000 0 ex_w 0x5001 4096 with
   | Some (v, _) => v = -22 | None => False end) /\
  (match task_close 2 x86_arch x86_nrs (ex_env (2 ^ 64 - 9)) 0x7000 0 ex_w 7 with
   | Some (v, _) => v = -9 | None => False end).
Proof.
  split; [intros n x [H|H]; discriminate|]. split; [vm_compute; split; reflexivity|]. split; vm_compute; reflexivity.
Qed.

(** ** C77 *)

(** The remote open fails: the target stays attached, hence stopped, after the tool gave up. *)
Theorem C77_detached_refuted : exists e w ret hdr w',
  (forall n, e_detach e n = None) /\
  create_mmap_vma_file 3 x86_arch x86_nrs true e 0x7000 0 w (str "/tmp/ulp-1-x") 8192 0x400000 = Some (ret, hdr, w') /\
  t_attached (w_t w) = false /\ t_attached (w_t w') = true.
Proof.
  exists (ex_env (2 ^ 64 - ENOENT)), (W (Tg (t_regs (w_t ex_w)) (t_mem (w_t ex_w)) false) 0 []).
  match goal with |- exists ret hdr w', _ /\ ?c = _ /\ _ => set (o := c) end.
  destruct (result_with o (fun x => t_attached (w_t (snd x)))) as ([[r h] w'] & E & P); [vm_compute; reflexivity|].
  exists r, h, w'. split; [intros; reflexivity|]. split; [exact E|]. split; [reflexivity|exact P].
Qed.
Print Assumptions C77_detached_refuted.

Lemma detach_ok e w : (forall n, e_detach e n = None) -> t_attached (w_t (snd (task_detach e w))) = false.
Proof. intros H. unfold task_detach. rewrite H. reflexivity. Qed.

(** Missing (false): the descriptor could not be opened, or attaching failed half way. *)
Theorem C77_detached_partial : forall fuel a nn x86 e libc garbage w path len span ret hdr w',
  (forall n, e_detach e n = None) ->
  create_mmap_vma_file fuel a nn x86 e libc garbage w path len span = Some (ret, hdr, w') ->
  ret = 0 \/ ret = - EFAULT -> (forall w1 r, task_attach fuel e w = Some (r, w1) -> r = 0) ->
  t_attached (w_t w') = false.
Proof.
  intros fuel a nn x86 e libc garbage w path len span ret hdr w' D H R A. unfold create_mmap_vma_file in H.
  destruct (task_attach fuel e w) as [[r w1]|]; [|discriminate]. rewrite (A w1 r eq_refl) in H. cbn [Z.eqb negb] in H.
  destruct (task_open _ _ _ _ _ _ _ _ _ _) as [[fd w2]|]; [|discriminate].
  destruct (fd <=? 0). { injection H as <- <- <-. unfold EFAULT in R. lia. }
  destruct (task_ftruncate _ _ _ _ _ _ _ _ _) as [[r3 w3]|]; [|discriminate].
  destruct (negb (r3 =? 0)).
  - destruct (task_close _ _ _ _ _ _ _ _) as [[r4 w4]|]; [|discriminate]. injection H as <- <- <-. apply detach_ok. auto.
  - destruct (task_mmap _ _ _ _ _ _ _ _ _ _ _ _) as [[v w5]|]; [|discriminate]. destruct (v =? 0);
      (destruct (task_close _ _ _ _ _ _ _ _) as [[r4 w4]|]; [|discriminate]; injection H as <- <- <-; apply detach_ok; auto).
Qed.
Print Assumptions C77_detached_partial.

(** Removing the mapping always detaches. *)
Theorem C77_detached_after_delete : forall fuel a nn e libc garbage w hdr len w',
  (forall n, e_detach e n = None) -> (forall w1 r, task_attach fuel e w = Some (r, w1) -> r = 0) ->
  delete_mmap_vma_file fuel a nn e libc garbage w hdr len = Some w' -> t_attached (w_t w') = false.
Proof.
  intros fuel a nn e libc garbage w hdr len w' D A H. unfold delete_mmap_vma_file in H.
  destruct (task_attach fuel e w) as [[r w1]|]; [|discriminate]. rewrite (A w1 r eq_refl) in H. cbn [Z.eqb negb] in H.
  destruct (task_munmap _ _ _ _ _ _ _ _ _) as [[v w2]|]; [|discriminate]. injection H as <-. apply detach_ok. auto.
Qed.
Print Assumptions C77_detached_after_delete.

Example C77_detached_ex :
  (forall n, e_detach nomap_env n = None) /\
  (forall w1 r, task_attach 3 nomap_env ex_w = Some (r, w1) -> r = 0) /\
  match create_mmap_vma_file 3 x86_arch x86_nrs true nomap_env 0x7000 0 ex_w (str "/tmp/ulp-1-x") 8192 0x400000 with
  | Some (ret, _, w) => ret = 0 /\ t_attached (w_t w) = false | None => False end /\
  match delete_mmap_vma_file 3 x86_arch x86_nrs nomap_env 0x7000 0 ex_w 0x400000 8192 with
  | Some w => t_attached (w_t w) = false | None => False end.
Proof.
  split; [reflexivity|]. split; [intros w1 r H; injection H as <- _; reflexivity|].
  split; vm_compute; auto.
Qed.

(** ** C78 *)

(** The read of the original code fails; garbage is written over the code afterwards. *)
Definition noread_env : env :=
  Env (fun _ => None) (fun _ => None) (fun _ _ _ => None) (fun _ _ s => Some s) (fun _ => None)
      (fun n r m sig => match x86_exec (ex_kernel 0) r m with
                        | Some (r', m') => WStopped SIGTRAP r' m'
                        | None => WStopped SIGSEGV r m
                        end)
      (fun _ => None) (fun _ _ _ => WFail) (fun _ => None) (fun _ => 0xa5).

Theorem C78_no_write_after_failed_read_refuted : exists e w ret out w' x,
  (forall n a s, e_read e n a s = None) /\ untouched e x /\
  task_syscall 2 x86_arch e 0x7000 w 9 [1; 2; 3; 4; 5; 6] 0 = Some (ret, out, w') /\ ret = 0 /\
  t_mem (w_t w') x <> t_mem (w_t w) x.
Proof.
  exists noread_env, ex_w. eexists. eexists. eexists. exists 0x7000. split; [reflexivity|]. split.
  - intros n r m sig. cbn. unfold x86_exec. destruct ((m (r RIP) =? 15) && (m (r RIP + 1) =? 5)); [|reflexivity].
    cbn. destruct (m (r RIP + 2) =? 204); reflexivity.
  - split; [reflexivity|]. split; [reflexivity|]. vm_compute. discriminate.
Qed.
Print Assumptions C78_no_write_after_failed_read_refuted.

(** ** C98 *)
Definition model_ops (fuel : nat) (a : arch) (nn : nrs) (x86 : bool) (e : env) (libc garbage : Z) : ops :=
  Ops (task_malloc fuel a nn e libc garbage) (task_mmap fuel a nn e libc garbage) (task_munmap fuel a nn e libc garbage)
      (task_mprotect fuel a nn e libc garbage) (task_msync fuel a nn e libc garbage)
      (task_open fuel a nn e libc garbage x86) (task_close fuel a nn e libc garbage) (task_ftruncate fuel a nn e libc garbage).

Lemma u64_small x : 0 <= x < 2 ^ 64 -> u64 x = x.
Proof. intros H. unfold u64, wrap. apply Z.mod_small. exact H. Qed.

Lemma s32_as_int v : s32 v = as_int v.
Proof. reflexivity. Qed.

Lemma done_answered (a : arch) (k : kernel) (e : env) (base : Z) (w : world) (nr : Z) (args : list Z) (fuel : nat) (res : Z) :
  0 <= nr < 2 ^ 31 -> call_done a k e base w nr args ->
  exists v w', task_syscall (S fuel) a e base w nr args res = Some (0, v, w') /\
    answered k base (Z.of_nat (List.length (a_code a))) w nr args v w'.
Proof.
  intros Hn H. destruct (H fuel res) as (m0 & w' & M & S & R & A & I & O & _).
  rewrite (u64_small nr) in * by lia. exists (fst (k nr args m0)), w'. split; [exact S|].
  exists m0. repeat split; auto.
Qed.

Lemma model_asks (fuel : nat) (a : arch) (nn : nrs) (x86 : bool) (e : env) (libc garbage : Z) (k : kernel) :
  (forall n x s, e_write e n x s = Some s) ->
  (forall w nr a1 a2 a3 a4 a5 a6, call_done a k e libc w nr [a1; a2; a3; a4; a5; a6]) ->
  0 <= nr_mmap nn < 2 ^ 31 -> 0 <= nr_munmap nn < 2 ^ 31 -> 0 <= nr_mprotect nn < 2 ^ 31 -> 0 <= nr_msync nn < 2 ^ 31 ->
  0 <= nr_open nn < 2 ^ 31 -> 0 <= nr_close nn < 2 ^ 31 -> 0 <= nr_ftruncate nn < 2 ^ 31 ->
  asks k libc (Z.of_nat (List.length (a_code a))) (nr_mmap nn) (nr_munmap nn) (nr_mprotect nn) (nr_msync nn)
       (nr_open nn) (nr_close nn) (nr_ftruncate nn)
       (if x86 then [] else [2 ^ 64 - 100]) (if x86 then [0; 0; 0] else [0; 0])
       (model_ops (S fuel) a nn x86 e libc garbage).
Proof.
  intros Wr CD N1 N2 N3 N4 N5 N6 N7.
  assert (MM : forall w len, exists v w', answered k libc (Z.of_nat (List.length (a_code a))) w (nr_mmap nn) [0; len; 3; 34; 2 ^ 64 - 1; 0] v w' /\
     task_malloc (S fuel) a nn e libc garbage w len = Some (if v =? 2 ^ 64 - 1 then 0 else v, w')).
  { intros w len. destruct (done_answered a k e libc w (nr_mmap nn) [0; len; 3; 34; 2 ^ 64 - 1; 0] fuel garbage N1 (CD _ _ _ _ _ _ _ _)) as (v & w' & S & A).
    exists v, w'. split; [exact A|]. unfold task_malloc, task_mmap.
    change [0; len; u64 3; u64 34; u64 (-1); u64 0] with [0; len; 3; 34; 2 ^ 64 - 1; 0].
    rewrite S. cbn [Z.ltb Z.compare]. change (u64 (-1)) with (2 ^ 64 - 1). destruct (v =? 2 ^ 64 - 1); reflexivity. }
  assert (MU : forall w addr len, exists v w', answered k libc (Z.of_nat (List.length (a_code a))) w (nr_munmap nn) [addr; len; 0; 0; 0; 0] v w' /\
     task_munmap (S fuel) a nn e libc garbage w addr len = Some (as_int v, w')).
  { intros w addr len. destruct (done_answered a k e libc w (nr_munmap nn) [addr; len; 0; 0; 0; 0] fuel garbage N2 (CD _ _ _ _ _ _ _ _)) as (v & w' & S & A).
    exists v, w'. split; [exact A|]. unfold task_munmap. rewrite S. reflexivity. }
  unfold asks. cbn [op_malloc op_mmap op_munmap op_mprotect op_msync op_open op_close op_ftruncate model_ops].
  split; [exact MM|]. split; [|split; [exact MU|]].
  { intros w addr len prot flags fd off H1 H2 H3 H4.
    destruct (done_answered a k e libc w (nr_mmap nn) [addr; len; prot; flags; fd; off] fuel garbage N1 (CD _ _ _ _ _ _ _ _)) as (v & w' & S & A).
    exists v, w'. split; [exact A|]. unfold task_mmap. rewrite !u64_small by lia. rewrite S. reflexivity. }
  split; [|split; [|split; [|split]]].
  - intros w addr len prot H1.
    destruct (done_answered a k e libc w (nr_mprotect nn) [addr; len; prot; 0; 0; 0] fuel garbage N3 (CD _ _ _ _ _ _ _ _)) as (v & w' & S & A).
    exists v, w'. split; [exact A|]. unfold task_mprotect. rewrite !u64_small by lia. rewrite S. reflexivity.
  - intros w addr len flags H1.
    destruct (done_answered a k e libc w (nr_msync nn) [addr; len; flags; 0; 0; 0] fuel garbage N4 (CD _ _ _ _ _ _ _ _)) as (v & w' & S & A).
    exists v, w'. split; [exact A|]. unfold task_msync. rewrite !u64_small by lia. rewrite S. reflexivity.
  - intros w fd H1.
    destruct (done_answered a k e libc w (nr_close nn) [fd; 0; 0; 0; 0; 0] fuel garbage N6 (CD _ _ _ _ _ _ _ _)) as (v & w' & S & A).
    exists v, w'. split; [exact A|]. unfold task_close, should_skip_remote_fd.
    destruct (Z.eqb_spec fd 0), (Z.eqb_spec fd 1), (Z.eqb_spec fd 2); try lia. cbn [orb].
    rewrite (u64_small fd) by lia. rewrite S. change (u64 0) with 0. rewrite Z.lor_0_r. reflexivity.
  - intros w fd len H1 H2.
    destruct (done_answered a k e libc w (nr_ftruncate nn) [fd; len; 0; 0; 0; 0] fuel garbage N7 (CD _ _ _ _ _ _ _ _)) as (v & w' & S & A).
    exists v, w'. split; [exact A|]. unfold task_ftruncate, should_skip_remote_fd.
    destruct (Z.eqb_spec fd 0), (Z.eqb_spec fd 1), (Z.eqb_spec fd 2); try lia. cbn [orb].
    rewrite !u64_small by lia. rewrite S. reflexivity.
  - intros w path flags mode H1 H2. set (n := Z.of_nat (List.length path) + 1).
    destruct (MM w n) as (buf & w1 & A1 & E1). set (b := if buf =? 2 ^ 64 - 1 then 0 else buf) in *.
    unfold task_open. fold n. rewrite E1. unfold memcpy_to_task. rewrite Wr.
    set (w2 := tick _).
    set (args := if x86 then [b; u64 flags; u64 mode; 0; 0; 0] else [u64 (-100); b; u64 flags; u64 mode; 0; 0]).
    assert (AR : args = (if x86 then [] else [2 ^ 64 - 100]) ++ [b; flags; mode] ++ (if x86 then [0; 0; 0] else [0; 0])).
    { unfold args. rewrite !u64_small by lia. destruct x86; reflexivity. }
    assert (CA : call_done a k e libc w2 (nr_open nn) args) by (unfold args; destruct x86; apply CD).
    destruct (done_answered a k e libc w2 (nr_open nn) args fuel garbage N5 CA) as (v & w3 & S3 & A3).
    destruct (MU w3 b n) as (r & w4 & A4 & E4).
    exists buf, w1, w2, v, w3, r, w4. split; [exact A1|]. split.
    + fold b. split; [|split; [reflexivity|split; [rewrite <- AR; exact A3|exact A4]]].
      intros x. unfold w2. cbn [w_t tick set_t t_mem].
      destruct (Z.leb_spec b x); [|reflexivity]. destruct (Z.ltb_spec x (b + n)); [|reflexivity]. cbn [andb].
      unfold of_list. rewrite app_length. cbn [List.length].
      destruct (Z.leb_spec 0 (x - b)); [|lia].
      destruct (Z.ltb_spec (x - b) (Z.of_nat (List.length path + 1))); [|lia]. cbn [andb].
      destruct (Nat.lt_ge_cases (Z.to_nat (x - b)) (List.length path)) as [L|L].
      * apply app_nth1. exact L.
      * rewrite app_nth2 by exact L. rewrite (nth_overflow path) by exact L.
        destruct (Z.to_nat (x - b) - List.length path)%nat as [|[|]]; reflexivity.
    + rewrite S3. unfold task_free. rewrite E4. reflexivity.
Qed.

Theorem C98_requests_x86 : forall fuel k e base garbage, runs (x86_exec k) e -> keeps k base 3 ->
  asks k base 3 9 11 10 26 2 3 77 [] [0; 0; 0] (model_ops (S fuel) x86_arch x86_nrs true e base garbage).
Proof.
  intros fuel k e base garbage R K. apply (model_asks fuel x86_arch x86_nrs true e base garbage k); try (cbn; lia).
  - intros n x s. apply R.
  - intros. apply C43_arguments_x86; auto.
Qed.
Print Assumptions C98_requests_x86.

Theorem C98_requests_a64 : forall fuel k e base garbage, runs (a64_exec k) e -> keeps k base 8 ->
  asks k base 8 222 215 226 227 56 57 46 [2 ^ 64 - 100] [0; 0] (model_ops (S fuel) a64_arch a64_nrs false e base garbage).
Proof.
  intros fuel k e base garbage R K. apply (model_asks fuel a64_arch a64_nrs false e base garbage k); try (cbn; lia).
  - intros n x s. apply R.
  - intros. apply C43_arguments_a64; auto.
Qed.
Print Assumptions C98_requests_a64.

Example C98_requests_ex :
  runs (x86_exec show_kernel) (show_env x86_exec) /\ keeps show_kernel 0x7000 3 /\
  runs (a64_exec show_kernel) (show_env a64_exec) /\ keeps show_kernel 0x7000 8 /\
  (match op_mprotect (model_ops 2 x86_arch x86_nrs true (show_env x86_exec) 0x7000 0) ex_w 1 2 3 with
   | Some (v, _) => v = 123000010 | None => False end).
Proof.
  destruct C43_arguments_ex as (A & B & C & D & _). repeat (split; [assumption|]). vm_compute. reflexivity.
Qed.

(** ** C45, mapping the patch: success is reported only with an address. *)
Theorem C45_map_success : forall fuel a nn x86 e libc garbage w path len span hdr w',
  create_mmap_vma_file fuel a nn x86 e libc garbage w path len span = Some (0, hdr, w') ->
  exists v, hdr = Some v /\ v <> 0.
Proof.
  intros fuel a nn x86 e libc garbage w path len span hdr w' H. unfold create_mmap_vma_file in H.
  destruct (task_attach fuel e w) as [[r w1]|]; [|discriminate].
  destruct (Z.eqb_spec r 0) as [R|R]; cbn [negb] in H; [|injection H as -> _ _; contradiction].
  destruct (task_open _ _ _ _ _ _ _ _ _ _ _) as [[fd w2]|]; [|discriminate].
  destruct (fd <=? 0); [discriminate|].
  destruct (task_ftruncate _ _ _ _ _ _ _ _ _) as [[r3 w3]|]; [|discriminate].
  destruct (Z.eqb_spec r3 0) as [R3|R3]; cbn [negb] in H.
  - destruct (task_mmap _ _ _ _ _ _ _ _ _ _ _ _ _) as [[v w4]|]; [|discriminate].
    destruct (Z.eqb_spec v 0) as [V|V].
    + destruct (task_close _ _ _ _ _ _ _ _) as [[c w5]|]; discriminate.
    + destruct (task_close _ _ _ _ _ _ _ _) as [[c w5]|]; [|discriminate]. injection H as _ <- _. eauto.
  - destruct (task_close _ _ _ _ _ _ _ _) as [[c w5]|]; discriminate.
Qed.
Print Assumptions C45_map_success.

Example C45_map_success_ex :
  match create_mmap_vma_file 3 x86_arch x86_nrs true nomap_env 0x7000 0 ex_w (str "/tmp/ulp-1-x") 8192 0x400000 with
  | Some (r, Some v, _) => r = 0 /\ v <> 0 | _ => False end.
Proof. vm_compute. split; [reflexivity|discriminate]. Qed.
