(** Properties of signals: C186, C187. *)
From Coq Require Import ZArith String List Bool Lia.
From Verif Require Import Word WordLemmas Str ScModel ScSpec ScProofs ScProps SgModel SgSpec SgProofs.
Import ListNotations.
Open Scope Z_scope.

(** A target for the examples that gets signals. *)
Definition sig_env (exec : regs -> mem -> option (regs * mem)) (arrive : nat -> option Z) (h : Z -> mem -> mem) : env :=
  Env (fun _ => None) (fun _ => None) (fun _ _ s => Some s) (fun _ _ s => Some s) (fun _ => None)
      (fun n r m sig => let m1 := if sig =? 0 then m else h sig m in
                        match arrive n with
                        | Some s => WStopped s r m1
                        | None => match exec r m1 with
                                  | Some (r', m') => WStopped SIGTRAP r' m'
                                  | None => WStopped SIGSEGV r m1
                                  end
                        end)
      (fun _ => None) (fun _ r m => WStopped SIGSTOP r m) (fun _ => None) (fun _ => 0xa5).

Lemma sig_runs exec arrive h : runs_signals exec arrive h (sig_env exec arrive h).
Proof.
  repeat split; auto. intros n r m sig. cbn. destruct (arrive n); [reflexivity|]. intros r' m' ->. reflexivity.
Qed.

(** Handlers that count in one byte. *)
Definition count_h : Z -> mem -> mem := fun s m x => if x =? 0x8000 then m x + s else m x.

(** ** C186 *)

(** A SIGSTOP that somebody sends (a shell's job control, [kill -STOP]) before the
    system call instruction has run is taken for the end of the call: success is
    reported, the result is the system call's number, and the kernel was never asked. *)
Definition stop_at (n : nat) : nat -> option Z := fun i => if Nat.eqb i n then Some SIGSTOP else None.

Theorem C186_undisturbed_refuted : exists k h arrive e base w nr args l,
  runs_signals (x86_exec k) arrive h e /\ keeps k base 3 /\ handlers_keep h base 3 /\
  arrivals arrive (5 + w_n w) l /\ List.length args = 6%nat /\ ~ undisturbed x86_arch k e h base w nr args l.
Proof.
  exists show_kernel, count_h, (stop_at 5), (sig_env (x86_exec show_kernel) (stop_at 5) count_h), 0x7000, ex_w, 9, [1; 2; 3; 4; 5; 6], [SIGSTOP].
  split; [apply sig_runs|]. split.
  { intros nr args m x Hx. unfold within in Hx. cbn. destruct (Z.eqb_spec x 0x9000); [lia|reflexivity]. }
  split. { intros s m x Hx. unfold within in Hx. unfold count_h. destruct (Z.eqb_spec x 0x8000); [lia|reflexivity]. }
  split; [constructor; [reflexivity|constructor; reflexivity]|]. split; [reflexivity|].
  intros U. destruct (U 3%nat 0 ltac:(cbn; lia)) as (m1 & w' & _ & (E & _) & _).
  assert (C : match task_syscall 3 x86_arch (sig_env (x86_exec show_kernel) (stop_at 5) count_h) 0x7000 ex_w 9 [1; 2; 3; 4; 5; 6] 0 with
              | Some (_, v, _) => v = 9 | None => False end) by (vm_compute; reflexivity).
  rewrite E in C. change (123456009 = 9) in C. discriminate.
Qed.
Print Assumptions C186_undisturbed_refuted.

(** A kernel that maps files: descriptor 3 is opened, memory is at 0x300000, and mapping
    the file marks the byte at 0x9000. *)
Definition map_kernel : kernel := fun nr args m =>
  if nr =? 2 then (3, m)
  else if nr =? 9 then
    if nth 4 args 0 =? 3 then (nth 0 args 0, fun x => if x =? 0x9000 then 77 else m x) else (0x300000, m)
  else (0, m).

Notation map_run arrive :=
  (create_mmap_vma_file 3 x86_arch x86_nrs true (sig_env (x86_exec map_kernel) arrive count_h) 0x7000 0 ex_w (str "/tmp/ulp-1-x") 8192 0x400000)
  (only parsing).
Definition map_check (ret hdr mark : Z) (x : Z * option Z * world) : bool :=
  (fst (fst x) =? ret) && (match snd (fst x) with Some h => h =? hdr | None => false end) &&
  (t_mem (w_t (snd x)) 0x9000 =? mark).

Lemma map_stopped : match map_run (stop_at 44) with Some x => map_check 0 9 0 x | None => false end = true.
Proof. vm_compute. reflexivity. Qed.

Lemma map_free : match map_run (fun _ => None) with Some x => map_check 0 0x400000 77 x | None => false end = true.
Proof. vm_compute. reflexivity. Qed.

Lemma map_check_iff ret hdr mark x : map_check ret hdr mark x = true ->
  exists w', x = (ret, Some hdr, w') /\ t_mem (w_t w') 0x9000 = mark.
Proof.
  destruct x as [[r [h|]] w']; unfold map_check; cbn [fst snd]; rewrite ?andb_true_iff, ?Z.eqb_eq.
  - intros ((-> & ->) & E). exists w'. auto.
  - intros ((_ & C) & _). discriminate.
Qed.

(** The same when the patch's file is to be mapped: the tool believes it is mapped at address 9. *)
Theorem C186_mapping_refuted : exists e arrive h w w' e0 w0,
  runs_signals (x86_exec map_kernel) arrive h e /\
  create_mmap_vma_file 3 x86_arch x86_nrs true e 0x7000 0 w (str "/tmp/ulp-1-x") 8192 0x400000 = Some (0, Some 9, w') /\
  t_mem (w_t w') 0x9000 = 0 /\
  (* without the signal *)
  runs_signals (x86_exec map_kernel) (fun _ => None) h e0 /\
  create_mmap_vma_file 3 x86_arch x86_nrs true e0 0x7000 0 w (str "/tmp/ulp-1-x") 8192 0x400000 = Some (0, Some 0x400000, w0) /\
  t_mem (w_t w0) 0x9000 = 77.
Proof.
  destruct (result_with (map_run (stop_at 44)) (map_check 0 9 0) map_stopped) as (x & E & C). apply map_check_iff in C. destruct C as (w' & -> & M).
  destruct (result_with (map_run (fun _ => None)) (map_check 0 0x400000 77) map_free) as (x & E0 & C). apply map_check_iff in C. destruct C as (w0 & -> & M0).
  exists (sig_env (x86_exec map_kernel) (stop_at 44) count_h), (stop_at 44), count_h, ex_w, w',
    (sig_env (x86_exec map_kernel) (fun _ => None) count_h), w0.
  split; [apply sig_runs|]. split; [exact E|]. split; [exact M|]. split; [apply sig_runs|]. split; [exact E0|exact M0].
Qed.
Print Assumptions C186_mapping_refuted.

(** Any number of other signals does no harm.  Missing (false): SIGSTOP, SIGTRAP, SIGSEGV. *)
Theorem C186_undisturbed_x86_partial : forall k h arrive e base w nr a1 a2 a3 a4 a5 a6 l,
  runs_signals (x86_exec k) arrive h e -> keeps k base 3 -> handlers_keep h base 3 ->
  arrivals arrive (5 + w_n w) l -> Forall harmless l ->
  undisturbed x86_arch k e h base w nr [a1; a2; a3; a4; a5; a6] l.
Proof.
  intros k h arrive e base w nr a1 a2 a3 a4 a5 a6 l R K Kh A F. apply (signals_done (x86_exec k) arrive); auto.
  intros rg m0. unfold x86_exec.
  assert (E0 : rg RIP = base) by reflexivity.
  rewrite E0.
  assert (M : forall i, (i < 3)%nat -> m0 (base + Z.of_nat i) = nth i [0x0f; 0x05; 0xcc] 0).
  { intros i Hi. unfold m0. rewrite (handlers_at h base 3) by (auto; unfold within; lia). apply with_code_at. exact Hi. }
  pose proof (M 0%nat ltac:(lia)) as M0. pose proof (M 1%nat ltac:(lia)) as M1. pose proof (M 2%nat ltac:(lia)) as M2.
  change (Z.of_nat 0) with 0 in M0. change (Z.of_nat 1) with 1 in M1. change (Z.of_nat 2) with 2 in M2.
  rewrite Z.add_0_r in M0. cbn [nth] in M0, M1, M2. rewrite M0, M1. cbn [Z.eqb Pos.eqb andb].
  change (rg RAX) with (u64 nr). change [rg RDI; rg RSI; rg RDX; rg R10; rg R8; rg R9] with [a1; a2; a3; a4; a5; a6].
  pose proof (K (u64 nr) [a1; a2; a3; a4; a5; a6] m0 (base + 2) ltac:(unfold within; lia)) as Kx. rewrite M2 in Kx.
  destruct (k (u64 nr) [a1; a2; a3; a4; a5; a6] m0) as [v m']. cbn [fst snd] in *.
  rewrite Kx. cbn [Z.eqb Pos.eqb]. eexists. split; [reflexivity|]. reflexivity.
Qed.
Print Assumptions C186_undisturbed_x86_partial.

Theorem C186_undisturbed_a64_partial : forall k h arrive e base w nr a1 a2 a3 a4 a5 a6 l,
  runs_signals (a64_exec k) arrive h e -> keeps k base 8 -> handlers_keep h base 8 ->
  arrivals arrive (5 + w_n w) l -> Forall harmless l ->
  undisturbed a64_arch k e h base w nr [a1; a2; a3; a4; a5; a6] l.
Proof.
  intros k h arrive e base w nr a1 a2 a3 a4 a5 a6 l R K Kh A F. apply (signals_done (a64_exec k) arrive); auto.
  intros rg m0. unfold a64_exec.
  assert (E0 : rg PC = base) by reflexivity.
  rewrite E0.
  assert (M : forall i, (i < 8)%nat -> m0 (base + Z.of_nat i) = nth i [0x01; 0x00; 0x00; 0xd4; 0xa0; 0x00; 0x20; 0xd4] 0).
  { intros i Hi. unfold m0. rewrite (handlers_at h base 8) by (auto; unfold within; lia). apply with_code_at. exact Hi. }
  assert (L1 : ld 4 m0 base = 0xd4000001).
  { cbn [ld]. rewrite <- !Z.add_assoc. cbn [Z.add Pos.add Pos.succ].
    pose proof (M 0%nat ltac:(lia)) as M0. pose proof (M 1%nat ltac:(lia)) as M1.
    pose proof (M 2%nat ltac:(lia)) as M2. pose proof (M 3%nat ltac:(lia)) as M3. cbn [Z.of_nat nth Pos.of_succ_nat Pos.succ] in M0, M1, M2, M3.
    rewrite Z.add_0_r in M0. rewrite M0, M1, M2, M3. reflexivity. }
  rewrite L1. rewrite Z.eqb_refl.
  change (rg 8) with (u64 nr). change [rg 0; rg 1; rg 2; rg 3; rg 4; rg 5] with [a1; a2; a3; a4; a5; a6].
  assert (Kx : forall i, (i < 8)%nat -> snd (k (u64 nr) [a1; a2; a3; a4; a5; a6] m0) (base + Z.of_nat i) =
                nth i [0x01; 0x00; 0x00; 0xd4; 0xa0; 0x00; 0x20; 0xd4] 0).
  { intros i Hi. rewrite K by (unfold within; lia). auto. }
  destruct (k (u64 nr) [a1; a2; a3; a4; a5; a6] m0) as [v m']. cbn [fst snd] in *.
  assert (L2 : ld 4 m' (base + 4) = 0xd42000a0).
  { cbn [ld]. rewrite <- !Z.add_assoc. cbn [Z.add Pos.add Pos.succ].
    pose proof (Kx 4%nat ltac:(lia)) as M0. pose proof (Kx 5%nat ltac:(lia)) as M1.
    pose proof (Kx 6%nat ltac:(lia)) as M2. pose proof (Kx 7%nat ltac:(lia)) as M3. cbn [Z.of_nat nth Pos.of_succ_nat Pos.succ] in M0, M1, M2, M3.
    rewrite M0, M1, M2, M3. reflexivity. }
  rewrite L2, Z.eqb_refl. eexists. split; [reflexivity|]. reflexivity.
Qed.
Print Assumptions C186_undisturbed_a64_partial.

(** Signals 10 (SIGUSR1) and 15 (SIGTERM, caught) arrive before the system call. *)
Definition two_signals : nat -> option Z := fun i => if Nat.eqb i 5 then Some 10 else if Nat.eqb i 7 then Some 15 else None.

Example C186_undisturbed_ex :
  runs_signals (x86_exec show_kernel) two_signals count_h (sig_env (x86_exec show_kernel) two_signals count_h) /\
  runs_signals (a64_exec show_kernel) two_signals count_h (sig_env (a64_exec show_kernel) two_signals count_h) /\
  keeps show_kernel 0x7000 8 /\ handlers_keep count_h 0x7000 8 /\ keeps show_kernel 0x7000 3 /\ handlers_keep count_h 0x7000 3 /\
  arrivals two_signals (5 + w_n ex_w) [10; 15] /\ Forall harmless [10; 15] /\
  (match task_syscall 3 x86_arch (sig_env (x86_exec show_kernel) two_signals count_h) 0x7000 ex_w 9 [1; 2; 3; 4; 5; 6] 0 with
   | Some (ret, out, w) => ret = 0 /\ out = 123456009 /\ t_mem (w_t w) 0x9000 = 77 /\ t_mem (w_t w) 0x8000 = 25 /\ map snd (w_conts w) = [0; 10; 15]
   | None => False end).
Proof.
  assert (K : forall size, size <= 8 -> keeps show_kernel 0x7000 size).
  { intros size Hs nr args m x Hx. unfold within in Hx. cbn. destruct (Z.eqb_spec x 0x9000); [lia|reflexivity]. }
  assert (Kh : forall size, size <= 8 -> handlers_keep count_h 0x7000 size).
  { intros size Hs s m x Hx. unfold within in Hx. unfold count_h. destruct (Z.eqb_spec x 0x8000); [lia|reflexivity]. }
  split; [apply sig_runs|]. split; [apply sig_runs|]. split; [apply K; lia|]. split; [apply Kh; lia|]. split; [apply K; lia|]. split; [apply Kh; lia|].
  split; [repeat (constructor; try reflexivity)|].
  split; [repeat constructor; discriminate|]. vm_compute; auto.
Qed.

(** ** C187 *)

(** A SIGTRAP reported while attaching, and a SIGSTOP that arrives during a remote call,
    are never given to the process, though the tool reports success. *)
Definition trap_env : env :=
  Env (fun _ => None) (fun _ => None) (fun _ _ s => Some s) (fun _ _ s => Some s) (fun _ => None)
      (fun n r m sig => WStopped SIGSTOP r m)
      (fun _ => None) (fun n r m => if Nat.eqb n 1 then WStopped SIGTRAP r m else WStopped SIGSTOP r m) (fun _ => None) (fun _ => 0xa5).

Theorem C187_delivered_refuted : exists e w w' log w2 log2,
  attach_log 3 e w = Some (0, w', log) /\ lost log SIGTRAP /\
  wait_log 3 e w' 0 = Some (0, w2, log2) /\ lost log2 SIGSTOP.
Proof.
  exists trap_env, ex_w. eexists. eexists. eexists. eexists.
  split; [reflexivity|]. split; [exists [], [Resumed (Some 0); Stopped SIGSTOP]; split; [reflexivity|intros l3 H; discriminate]|].
  split; [reflexivity|]. exists [Resumed (Some 0)], []. split; [reflexivity|]. discriminate.
Qed.
Print Assumptions C187_delivered_refuted.

(** Whatever the process and the system calls do: when attaching succeeds only SIGTRAP,
    and the SIGSTOP that ends the wait, are kept back; when a remote call succeeds only
    the SIGSTOP or SIGTRAP that ended it is; when it fails, at most the last signal
    reported is; and no signal is given to the process that was not reported.
    Missing (false): SIGTRAP, and SIGSTOP and SIGTRAP from elsewhere. *)
Theorem C187_delivered_partial :
  (forall fuel e w ret w' log, (forall n x, e_cont e n = Some x -> 0 < x) -> attach_log fuel e w = Some (ret, w', log) ->
     task_attach fuel e w = Some (ret, w') /\
     (forall s, lost log s -> s = SIGTRAP \/ (exists l, log = l ++ [Stopped s]) /\ (ret = 0 -> s = SIGSTOP)) /\
     (forall s, s <> 0 -> ~ invented log s)) /\
  (forall fuel e w ret w' log, wait_log fuel e w 0 = Some (ret, w', log) ->
     wait_for_stop fuel e w 0 = Some (ret, w') /\
     (forall s, lost log s -> (exists l, log = l ++ [Stopped s]) /\ ((ret = 0 /\ (s = SIGSTOP \/ s = SIGTRAP)) \/ ret = -1)) /\
     (forall s, s <> 0 -> ~ invented log s)).
Proof.
  split.
  - intros fuel e w ret w' log Er H. split; [rewrite attach_log_result, H; reflexivity|].
    unfold attach_log in H. destruct (e_attach e (w_n w)).
    + injection H as <- <- <-. split; [intros s L; destruct (lost_nil _ L)|]. intros s N I. apply (invented_nil _ _ I).
    + split; [eapply attach_log_lost; eauto|]. intros s N I. apply (attach_log_invented _ _ _ _ _ _ H _ _ N I).
  - intros fuel e w ret w' log H. split; [rewrite wait_log_result, H; reflexivity|].
    split; [apply (wait_log_lost _ _ _ _ _ _ _ H)|]. intros s N I.
    apply (wait_log_invented _ _ _ _ _ _ _ H) in I; auto. destruct I as (C & _). auto.
Qed.
Print Assumptions C187_delivered_partial.

Example C187_delivered_ex :
  (forall n x, e_cont trap_env n = Some x -> 0 < x) /\
  (match attach_log 3 trap_env ex_w with Some (ret, _, log) => ret = 0 /\ log = [Stopped 5; Resumed (Some 0); Stopped 19] | None => False end) /\
  (match wait_log 4 (sig_env (x86_exec show_kernel) two_signals count_h)
           (W (Tg (setr (t_regs (w_t ex_w)) RIP 0x7000) (with_code (t_mem (w_t ex_w)) 0x7000 (a_code x86_arch)) true) 4 []) 0 with
   | Some (ret, _, log) => ret = 0 /\ log = [Resumed (Some 0); Stopped 10; Resumed (Some 10); Stopped 15; Resumed (Some 15); Stopped 5]
   | None => False end).
Proof. split; [discriminate|]. split; vm_compute; auto. Qed.
