(** Remote fstat and prctl: C206, C207. *)
From Coq Require Import ZArith String List Bool Lia.
From Verif Require Import Word WordLemmas Str ScModel ScSpec ScProofs ScProps FxModel.
Import ListNotations.
Open Scope Z_scope.

(** The state of a file of the target is asked for and delivered: memory for it is
    allocated in the target, the kernel is asked to store the state there, what it stored
    is what the caller gets, and the memory is given back; [v] is the kernel's answer. *)
Definition state_fetched (k : kernel) (base size nmmap nmunmap nfstat stat_size : Z)
    (w : world) (fd : Z) (v : Z) (buf : arr) (w' : world) : Prop :=
  exists p w1 w2 w3 r,
    answered k base size w nmmap [0; stat_size; 3; 34; 2 ^ 64 - 1; 0] p w1 /\
    (let b := if p =? 2 ^ 64 - 1 then 0 else p in
     answered k base size w1 nfstat [fd; b; 0; 0; 0; 0] v w2 /\
     (forall i, 0 <= i < stat_size -> buf i = t_mem (w_t w2) (b + i)) /\ w_t w3 = w_t w2 /\
     answered k base size w3 nmunmap [b; stat_size; 0; 0; 0; 0] r w').

(** ** C206 *)

(** The descriptor is not open in the target. *)
Definition badf_kernel : kernel := fun nr args m => (if nr =? 9 then 0x5000 else if nr =? 5 then 2 ^ 64 - 9 else 0, m).
Definition badf_env : env :=
  Env (fun _ => None) (fun _ => None) (fun _ _ s => Some s) (fun _ _ s => Some s) (fun _ => None)
      (fun n r m sig => match x86_exec badf_kernel r m with
                        | Some (r', m') => WStopped SIGTRAP r' m'
                        | None => WStopped SIGSEGV r m
                        end)
      (fun _ => None) (fun _ r m => WStopped SIGSTOP r m) (fun _ => None) (fun _ => 0xa5).

Lemma fstat_fetched (fuel : nat) (a : arch) (nn : nrs) (nf sz : Z) (e : env) (libc garbage : Z) (k : kernel) :
  (forall n x s, e_read e n x s = Some s) ->
  (forall w nr a1 a2 a3 a4 a5 a6, call_done a k e libc w nr [a1; a2; a3; a4; a5; a6]) ->
  0 <= nr_mmap nn < 2 ^ 31 -> 0 <= nr_munmap nn < 2 ^ 31 -> 0 <= nf < 2 ^ 31 ->
  forall w fd buf, 0 <= fd < 2 ^ 31 ->
  exists v buf' w', task_fstat (S fuel) a nn nf sz e libc garbage w fd buf = Some (0, buf', w') /\
    state_fetched k libc (Z.of_nat (List.length (a_code a))) (nr_mmap nn) (nr_munmap nn) nf sz w fd v buf' w'.
Proof.
  intros Rd CD N1 N2 N3 w fd buf Hfd. unfold task_fstat, task_malloc, task_mmap.
  change [0; sz; u64 3; u64 34; u64 (-1); u64 0] with [0; sz; 3; 34; 2 ^ 64 - 1; 0].
  destruct (done_answered a k e libc w (nr_mmap nn) [0; sz; 3; 34; 2 ^ 64 - 1; 0] fuel garbage N1 (CD _ _ _ _ _ _ _ _)) as (p & w1 & S1 & A1).
  rewrite S1. cbn [Z.ltb Z.compare]. change (u64 (-1)) with (2 ^ 64 - 1).
  set (b := if p =? 2 ^ 64 - 1 then 0 else p).
  replace (if p =? 2 ^ 64 - 1 then Some (0, w1) else Some (p, w1)) with (Some (b, w1)) by (unfold b; destruct (p =? 2 ^ 64 - 1); reflexivity).
  rewrite (u64_small fd) by lia.
  destruct (done_answered a k e libc w1 nf [fd; b; 0; 0; 0; 0] fuel garbage N3 (CD _ _ _ _ _ _ _ _)) as (v & w2 & S2 & A2).
  rewrite S2. unfold memcpy_from_task. rewrite Rd. unfold task_free, task_munmap.
  destruct (done_answered a k e libc (tick w2) (nr_munmap nn) [b; sz; 0; 0; 0; 0] fuel garbage N2 (CD _ _ _ _ _ _ _ _)) as (r & w4 & S4 & A4).
  rewrite S4. cbn [Z.ltb Z.compare snd].
  eexists v, _, w4. split; [reflexivity|].
  exists p, w1, w2, (tick w2), r. split; [exact A1|]. fold b. split; [exact A2|]. split; [|split; [reflexivity|exact A4]].
  intros i Hi. destruct (Z.leb_spec 0 i), (Z.ltb_spec i sz); try lia. reflexivity.
Qed.

Theorem C206_state_refuted : exists k e w fd buf buf' w' v,
  runs (x86_exec k) e /\ keeps k 0x7000 3 /\ 2 < fd < 2 ^ 31 /\
  x86_fstat 2 e 0x7000 0 w fd buf = Some (0, buf', w') /\
  state_fetched k 0x7000 3 9 11 5 144 w fd v buf' w' /\ err_code v.
Proof.
  assert (R : runs (x86_exec badf_kernel) badf_env).
  { repeat split; auto. intros n r m r' m' H. cbn. rewrite H. reflexivity. }
  assert (K : keeps badf_kernel 0x7000 3) by (intros nr args m x Hx; reflexivity).
  destruct (fstat_fetched 1 x86_arch x86_nrs 5 144 badf_env 0x7000 0 badf_kernel ltac:(intros; apply R)
              ltac:(intros; apply C43_arguments_x86; auto) ltac:(cbn; lia) ltac:(cbn; lia) ltac:(lia) ex_w 3 (fun _ => 0) ltac:(lia))
    as (v & buf' & w' & E & F).
  exists badf_kernel, badf_env, ex_w, 3, (fun _ => 0), buf', w', v.
  split; [exact R|]. split; [exact K|]. split; [lia|]. split; [exact E|]. split; [exact F|].
  destruct F as (p & w1 & w2 & w3 & r & _ & (m0 & _ & -> & _) & _). vm_compute. split; reflexivity.
Qed.
Print Assumptions C206_state_refuted.

Theorem C206_state_x86_partial : forall fuel k e base garbage, runs (x86_exec k) e -> keeps k base 3 ->
  forall w fd buf, 0 <= fd < 2 ^ 31 ->
  exists v buf' w', x86_fstat (S fuel) e base garbage w fd buf = Some (0, buf', w') /\
    state_fetched k base 3 9 11 5 144 w fd v buf' w'.
Proof.
  intros fuel k e base garbage R K w fd buf H.
  apply (fstat_fetched fuel x86_arch x86_nrs 5 144 e base garbage k); auto; try (cbn; lia).
  - intros; apply R.
  - intros; apply C43_arguments_x86; auto.
Qed.
Print Assumptions C206_state_x86_partial.

Theorem C206_state_a64_partial : forall fuel k e base garbage, runs (a64_exec k) e -> keeps k base 8 ->
  forall w fd buf, 0 <= fd < 2 ^ 31 ->
  exists v buf' w', a64_fstat (S fuel) e base garbage w fd buf = Some (0, buf', w') /\
    state_fetched k base 8 222 215 80 128 w fd v buf' w'.
Proof.
  intros fuel k e base garbage R K w fd buf H.
  apply (fstat_fetched fuel a64_arch a64_nrs 80 128 e base garbage k); auto; try (cbn; lia).
  - intros; apply R.
  - intros; apply C43_arguments_a64; auto.
Qed.
Print Assumptions C206_state_a64_partial.

(** A kernel that stores the number of the descriptor as the state of the file. *)
Definition stat_kernel : kernel := fun nr args m =>
  if nr =? 9 then (0x5000, m)
  else if nr =? 5 then (0, fun x => if x =? nth 1 args 0 then nth 0 args 0 else m x) else (0, m).
Definition stat_env : env :=
  Env (fun _ => None) (fun _ => None) (fun _ _ s => Some s) (fun _ _ s => Some s) (fun _ => None)
      (fun n r m sig => match x86_exec stat_kernel r m with
                        | Some (r', m') => WStopped SIGTRAP r' m'
                        | None => WStopped SIGSEGV r m
                        end)
      (fun _ => None) (fun _ r m => WStopped SIGSTOP r m) (fun _ => None) (fun _ => 0xa5).

Example C206_state_ex :
  runs (x86_exec stat_kernel) stat_env /\
  match x86_fstat 2 stat_env 0x7000 0 ex_w 7 (fun _ => 1) with
  | Some (ret, buf, w) => ret = 0 /\ buf 0 = 7 /\ buf 143 = (0x5000 + 143) mod 256 /\ buf 144 = 1 | None => False end.
Proof.
  split; [repeat split; auto; intros n r m r' m' H; cbn; rewrite H; reflexivity|]. vm_compute. auto.
Qed.

(** ** C207 *)

(** Waiting for the target fails; the caller gets 0, the value for success. *)
Theorem C207_prctl_refuted : exists e w ret out w1 w',
  task_syscall 2 x86_arch e 0x7000 w 157 [15; 0x5000; 0; 0; 0; 0] 0 = Some (ret, out, w1) /\ ret < 0 /\
  x86_prctl 2 e 0x7000 0 w 15 0x5000 0 0 0 = Some (0, w').
Proof.
  exists fail_env, ex_w.
  destruct (result_with (task_syscall 2 x86_arch fail_env 0x7000 ex_w 157 [15; 0x5000; 0; 0; 0; 0] 0)
     (fun x => fst (fst x) <? 0)) as ([[r o] w1] & E & P); [vm_compute; reflexivity|].
  destruct (result_with (x86_prctl 2 fail_env 0x7000 0 ex_w 15 0x5000 0 0 0) (fun x => fst x =? 0))
    as ([v w'] & E' & P'); [vm_compute; reflexivity|].
  cbn [fst] in P, P'. apply Z.ltb_lt in P. apply Z.eqb_eq in P'. subst v. exists r, o, w1, w'. auto.
Qed.
Print Assumptions C207_prctl_refuted.

Theorem C207_prctl_x86_partial : forall fuel k e base garbage, runs (x86_exec k) e -> keeps k base 3 ->
  forall w op a2 a3 a4 a5, 0 <= op < 2 ^ 31 -> exists v w',
    answered k base 3 w 157 [op; a2; a3; a4; a5; 0] v w' /\
    x86_prctl (S fuel) e base garbage w op a2 a3 a4 a5 = Some (as_int v, w').
Proof.
  intros fuel k e base garbage R K w op a2 a3 a4 a5 H. unfold x86_prctl, task_prctl. rewrite (u64_small op) by lia.
  destruct (done_answered x86_arch k e base w 157 [op; a2; a3; a4; a5; 0] fuel garbage ltac:(lia) ltac:(apply C43_arguments_x86; auto))
    as (v & w' & S & A).
  exists v, w'. split; [exact A|]. rewrite S. reflexivity.
Qed.
Print Assumptions C207_prctl_x86_partial.

Theorem C207_prctl_a64_partial : forall fuel k e base garbage, runs (a64_exec k) e -> keeps k base 8 ->
  forall w op a2 a3 a4 a5, 0 <= op < 2 ^ 31 -> exists v w',
    answered k base 8 w 167 [op; a2; a3; a4; a5; 0] v w' /\
    a64_prctl (S fuel) e base garbage w op a2 a3 a4 a5 = Some (as_int v, w').
Proof.
  intros fuel k e base garbage R K w op a2 a3 a4 a5 H. unfold a64_prctl, task_prctl. rewrite (u64_small op) by lia.
  destruct (done_answered a64_arch k e base w 167 [op; a2; a3; a4; a5; 0] fuel garbage ltac:(lia) ltac:(apply C43_arguments_a64; auto))
    as (v & w' & S & A).
  exists v, w'. split; [exact A|]. rewrite S. reflexivity.
Qed.
Print Assumptions C207_prctl_a64_partial.

Example C207_prctl_ex :
  runs (x86_exec show_kernel) (show_env x86_exec) /\ keeps show_kernel 0x7000 3 /\
  match x86_prctl 2 (show_env x86_exec) 0x7000 0 ex_w 1 2 3 4 5 with Some (v, _) => v = 123450157 | None => False end.
Proof.
  destruct C43_arguments_ex as (A & B & C & D & _). repeat (split; [assumption|]). vm_compute. reflexivity.
Qed.
