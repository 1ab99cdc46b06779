(** Proofs about remote system calls. *)
From Coq Require Import ZArith String List Bool Lia.
From Verif Require Import Word WordLemmas Str ScModel ScSpec.
Import ListNotations.
Open Scope Z_scope.

Lemma wait_mem fuel : forall e w st ret w', wait_for_stop fuel e w st = Some (ret, w') ->
  forall x, untouched e x -> t_mem (w_t w') x = t_mem (w_t w) x.
Proof.
  induction fuel as [|fuel IH]; intros e w st ret w' H x Hx; [discriminate|]. cbn [wait_for_stop] in H.
  destruct (e_cont e (w_n w)); [injection H as <- <-; reflexivity|].
  cbn [w_n w_t] in H.
  pose proof (Hx (S (w_n w)) (t_regs (w_t w)) (t_mem (w_t w)) st) as U.
  destruct (e_wait e (S (w_n w)) (t_regs (w_t w)) (t_mem (w_t w)) st) as [|sig r m|s r m].
  - injection H as <- <-. reflexivity.
  - destruct ((sig =? SIGSTOP) || (sig =? SIGTRAP)); [injection H as <- <-; exact U|].
    destruct (sig =? SIGSEGV); [injection H as <- <-; exact U|].
    apply IH with (x := x) in H; auto. rewrite H. exact U.
  - apply IH with (x := x) in H; auto. rewrite H. exact U.
Qed.

(** The result of writing [src]. *)
Lemma write_mem e w dst src size r w' : memcpy_to_task e w dst src size = (r, w') ->
  (forall x, ~ within dst size x -> (forall k, e_write e (w_n w) dst size = Some k -> k <= size) -> t_mem (w_t w') x = t_mem (w_t w) x) /\
  (forall x, within dst size x -> e_write e (w_n w) dst size = Some size -> t_mem (w_t w') x = src (x - dst)) /\
  t_regs (w_t w') = t_regs (w_t w) /\ t_attached (w_t w') = t_attached (w_t w) /\ w_conts w' = w_conts w.
Proof.
  unfold memcpy_to_task, within. destruct (e_write e (w_n w) dst size) as [k|]; intros E; injection E as <- <-; cbn.
  - split; [|split; auto].
    + intros x Hx Hk. specialize (Hk k eq_refl).
      destruct (Z.leb_spec dst x), (Z.ltb_spec x (dst + k)); cbn; auto; lia.
    + intros x Hx Hk. injection Hk as ->. destruct (Z.leb_spec dst x), (Z.ltb_spec x (dst + size)); cbn; auto; lia.
  - split; auto. split; auto. intros; discriminate.
Qed.

Lemma read_mem e w dst src size r b w' : memcpy_from_task e w dst src size = (r, b, w') ->
  w_t w' = w_t w /\ w_conts w' = w_conts w /\ w_n w' = S (w_n w) /\
  (e_read e (w_n w) src size = Some size -> forall x, within src size x -> b (x - src) = t_mem (w_t w) x).
Proof.
  unfold memcpy_from_task, within. destruct (e_read e (w_n w) src size) as [k|]; intros E; injection E as <- <- <-; cbn; auto.
  - split; auto. split; auto. split; auto. intros Hk x Hx. injection Hk as ->.
    destruct (Z.leb_spec 0 (x - src)), (Z.ltb_spec (x - src) size); cbn; try lia. f_equal. lia.
  - split; auto. split; auto. split; auto. discriminate.
Qed.

Lemma setregs_t e w r err w' : setregs e w r = (err, w') ->
  t_mem (w_t w') = t_mem (w_t w) /\ t_attached (w_t w') = t_attached (w_t w) /\ w_conts w' = w_conts w /\
  (err = None -> t_regs (w_t w') = r) /\ (err <> None -> t_regs (w_t w') = t_regs (w_t w)).
Proof.
  unfold setregs. destruct (e_setregs e (w_n w)); intros E; injection E as <- <-; cbn; repeat split; auto; congruence.
Qed.

(** Everything the properties need to know about one call: the state [w1] before the
    code is put back, and how the call went. *)
Lemma syscall_cases fuel a e base w nr args res ret out w' :
  task_syscall fuel a e base w nr args res = Some (ret, out, w') ->
  let size := Z.of_nat (List.length (a_code a)) in
  (exists x, e_getregs e (w_n w) = Some x /\ ret = - x /\ out = res /\ w' = tick w) \/
  (e_getregs e (w_n w) = None /\
   exists r0 orig wa r1 wb err wc w1 r2,
     memcpy_from_task e (tick w) (e_junk e) base size = (r0, orig, wa) /\
     memcpy_to_task e wa base (of_list (a_code a)) size = (r1, wb) /\
     setregs e wb (copy_regs a (setr (t_regs (w_t w)) (a_ip a) base) (prepare a nr args)) = (err, wc) /\
     memcpy_to_task e w1 base orig size = (r2, w') /\
     ((exists x, err = Some x /\ e_setregs e (w_n wb) = Some x /\ w1 = wc /\ ret = - x /\ out = res) \/
      (err = None /\ exists rw wd, wait_for_stop fuel e wc 0 = Some (rw, wd) /\
        ((rw < 0 /\ w1 = wd /\ ret = rw /\ out = res) \/
         (0 <= rw /\ exists x, e_getregs e (w_n wd) = Some x /\ w1 = tick wd /\ ret = - x /\ out = res) \/
         (0 <= rw /\ e_getregs e (w_n wd) = None /\ exists x, e_setregs e (w_n (tick wd)) = Some x /\
            w1 = tick (tick wd) /\ ret = - x /\ out = res) \/
         (0 <= rw /\ e_getregs e (w_n wd) = None /\ e_setregs e (w_n (tick wd)) = None /\
            setregs e (tick wd) (t_regs (w_t w)) = (None, w1) /\ ret = 0 /\ out = t_regs (w_t wd) (a_ret a)))))).
Proof.
  intros H size. unfold task_syscall, getregs in H. fold size in H.
  destruct (e_getregs e (w_n w)) as [x|] eqn:E0.
  { injection H as <- <- <-. left. eauto. }
  right. split; auto.
  destruct (memcpy_from_task e (tick w) (e_junk e) base size) as [[r0 orig] wa] eqn:Ea.
  destruct (memcpy_to_task e wa base (of_list (a_code a)) size) as [r1 wb] eqn:Eb.
  set (rg := copy_regs a (setr (t_regs (w_t w)) (a_ip a) base) (prepare a nr args)) in *.
  destruct (setregs e wb rg) as [err wc] eqn:Ec.
  destruct err as [x|].
  { destruct (memcpy_to_task e wc base orig size) as [r2 w2] eqn:Ed. injection H as <- <- <-.
    exists r0, orig, wa, r1, wb, (Some x), wc, wc, r2. split; auto. split; auto. split; auto. split; auto. left.
    exists x. split; auto. split; auto. unfold setregs in Ec. destruct (e_setregs e (w_n wb)); [congruence|discriminate]. }
  destruct (wait_for_stop fuel e wc 0) as [[rw wd]|] eqn:Ew; [|discriminate].
  destruct (Z.ltb_spec rw 0) as [L|L].
  { destruct (memcpy_to_task e wd base orig size) as [r2 w2] eqn:Ed. injection H as <- <- <-.
    exists r0, orig, wa, r1, wb, None, wc, wd, r2. split; auto. split; auto. split; auto. split; auto. right. split; auto.
    exists rw, wd. split; auto. }
  destruct (e_getregs e (w_n wd)) as [x|] eqn:Eg.
  { destruct (memcpy_to_task e (tick wd) base orig size) as [r2 w2] eqn:Ed. injection H as <- <- <-.
    exists r0, orig, wa, r1, wb, None, wc, (tick wd), r2. split; auto. split; auto. split; auto. split; auto. right. split; auto.
    exists rw, wd. split; auto. right. left. split; auto. exists x. auto. }
  unfold setregs in H at 1. destruct (e_setregs e (w_n (tick wd))) as [x|] eqn:Es.
  { destruct (memcpy_to_task e (tick (tick wd)) base orig size) as [r2 w2] eqn:Ed. injection H as <- <- <-.
    exists r0, orig, wa, r1, wb, None, wc, (tick (tick wd)), r2. split; auto. split; auto. split; auto. split; auto. right. split; auto.
    exists rw, wd. split; auto. right. right. left. split; auto. split; auto. exists x. auto. }
  match type of H with (let '(_, _) := memcpy_to_task e ?x _ _ _ in _) = _ => set (w1 := x) in * end.
  destruct (memcpy_to_task e w1 base orig size) as [r2 w2] eqn:Ed. injection H as <- <- <-.
  exists r0, orig, wa, r1, wb, None, wc, w1, r2. split; auto. split; auto. split; auto. split; auto. right. split; auto.
  exists rw, wd. split; auto. right. right. right. split; auto. split; auto. split; auto. split; auto.
  unfold setregs. rewrite Es. reflexivity.
Qed.

(** [w1], the state before the code is put back, has the memory of the state in which
    the target was last seen, which only the target itself changed after [wb]. *)
Lemma syscall_mem fuel a e base w nr args res ret out w' :
  task_syscall fuel a e base w nr args res = Some (ret, out, w') ->
  let size := Z.of_nat (List.length (a_code a)) in
  (forall x, ~ within base size x -> sane e -> untouched e x -> t_mem (w_t w') x = t_mem (w_t w) x) /\
  (forall x, within base size x -> accessible e base size -> t_mem (w_t w') x = t_mem (w_t w) x).
Proof.
  intros H size. apply syscall_cases in H. fold size in H.
  destruct H as [(x & _ & _ & _ & ->)|(E0 & r0 & orig & wa & r1 & wb & err & wc & w1 & r2 & A & B & C & D & F)]; [split; auto|].
  apply read_mem in A. destruct A as (A1 & A2 & A3 & A4). cbn [tick w_t] in A1.
  pose proof (write_mem _ _ _ _ _ _ _ B) as (B1 & B2 & B3 & B4 & B5).
  pose proof (write_mem _ _ _ _ _ _ _ D) as (D1 & D2 & D3 & D4 & D5).
  apply setregs_t in C. destruct C as (C1 & C2 & C3 & C4 & C5).
  assert (W1 : forall x, untouched e x -> t_mem (w_t w1) x = t_mem (w_t wb) x).
  { intros x Hx. rewrite <- C1.
    destruct F as [(z & _ & _ & -> & _)|(_ & rw & wd & Ew & F)]; [reflexivity|].
    rewrite <- (wait_mem _ _ _ _ _ _ Ew x Hx).
    destruct F as [(_ & -> & _)|[(_ & z & _ & -> & _)|[(_ & _ & z & _ & -> & _)|(_ & _ & _ & Es & _)]]]; try reflexivity.
    apply setregs_t in Es. destruct Es as (Es & _). rewrite Es. reflexivity. }
  split.
  - intros x Hx Sa Ux. rewrite D1; auto; [|intros k Hk; apply (Sa _ _ _ _ (or_intror Hk))].
    rewrite W1 by auto. rewrite B1; auto; [|intros k Hk; apply (Sa _ _ _ _ (or_intror Hk))]. rewrite A1. reflexivity.
  - intros x Hx Ac. rewrite D2; auto; [|apply Ac]. rewrite A4; auto. apply Ac.
Qed.

Lemma syscall_regs fuel a e base w nr args res out w' ret :
  task_syscall fuel a e base w nr args res = Some (ret, out, w') -> errnos e -> 0 <= ret ->
  t_regs (w_t w') = t_regs (w_t w).
Proof.
  intros H Er Hr. apply syscall_cases in H.
  destruct H as [(x & G & -> & _ & ->)|(E0 & r0 & orig & wa & r1 & wb & err & wc & w1 & r2 & A & B & C & D & F)]; [reflexivity|].
  pose proof (write_mem _ _ _ _ _ _ _ D) as (_ & _ & D3 & _). rewrite D3.
  destruct F as [(z & -> & Es & -> & -> & _)|(-> & rw & wd & Ew & F)].
  - pose proof (Er _ _ (or_intror Es)). lia.
  - destruct F as [(L & -> & -> & _)|[(_ & z & Eg & -> & -> & _)|[(_ & _ & z & Es & -> & -> & _)|(_ & _ & _ & Es & -> & _)]]].
    + lia.
    + pose proof (Er _ _ (or_introl Eg)). lia.
    + pose proof (Er _ _ (or_intror Es)). lia.
    + apply setregs_t in Es. destruct Es as (_ & _ & _ & Es & _). auto.
Qed.

(** The call cannot be started: nothing has changed. *)
Lemma syscall_not_started fuel a e base w nr args res out w' ret :
  task_syscall fuel a e base w nr args res = Some (ret, out, w') ->
  (forall n, e_getregs e n <> None) \/ (forall n, e_setregs e n <> None) ->
  t_regs (w_t w') = t_regs (w_t w).
Proof.
  intros H Hf. apply syscall_cases in H.
  destruct H as [(x & G & -> & _ & ->)|(E0 & r0 & orig & wa & r1 & wb & err & wc & w1 & r2 & A & B & C & D & F)]; [reflexivity|].
  destruct Hf as [Hf|Hf]; [destruct (Hf (w_n w)); auto|].
  pose proof (write_mem _ _ _ _ _ _ _ D) as (_ & _ & D3 & _). rewrite D3.
  pose proof (write_mem _ _ _ _ _ _ _ B) as (_ & _ & B3 & _).
  apply read_mem in A. destruct A as (A1 & _).
  pose proof C as C'. apply setregs_t in C. destruct C as (_ & _ & _ & _ & C5).
  destruct F as [(z & -> & Es & -> & -> & _)|(-> & _)].
  - rewrite C5 by discriminate. rewrite B3, A1. reflexivity.
  - exfalso. unfold setregs in C'. destruct (e_setregs e (w_n wb)) eqn:E; [discriminate|]. apply (Hf (w_n wb)). auto.
Qed.

Lemma syscall_attached fuel a e base w nr args res out w' ret :
  task_syscall fuel a e base w nr args res = Some (ret, out, w') -> t_attached (w_t w') = t_attached (w_t w).
Proof.
  assert (Wa : forall fuel e w st ret w', wait_for_stop fuel e w st = Some (ret, w') -> t_attached (w_t w') = t_attached (w_t w)).
  { clear. induction fuel as [|fuel IH]; intros e w st ret w' H; [discriminate|]. cbn [wait_for_stop] in H.
    destruct (e_cont e (w_n w)); [injection H as <- <-; reflexivity|]. cbn [w_n w_t] in H.
    destruct (e_wait _ _ _ _ _) as [|sig r m|s r m].
    - injection H as <- <-. reflexivity.
    - destruct ((sig =? SIGSTOP) || (sig =? SIGTRAP)); [injection H as <- <-; reflexivity|].
      destruct (sig =? SIGSEGV); [injection H as <- <-; reflexivity|]. apply IH in H. exact H.
    - apply IH in H. exact H. }
  intros H. apply syscall_cases in H.
  destruct H as [(x & G & -> & _ & ->)|(E0 & r0 & orig & wa & r1 & wb & err & wc & w1 & r2 & A & B & C & D & F)]; [reflexivity|].
  apply read_mem in A. destruct A as (A1 & _).
  pose proof (write_mem _ _ _ _ _ _ _ B) as (_ & _ & _ & B4 & _).
  pose proof (write_mem _ _ _ _ _ _ _ D) as (_ & _ & _ & D4 & _).
  apply setregs_t in C. destruct C as (_ & C2 & _). rewrite D4. rewrite A1 in B4. cbn in B4. rewrite B4 in C2. rewrite <- C2.
  destruct F as [(z & _ & _ & -> & _)|(_ & rw & wd & Ew & F)]; [reflexivity|].
  rewrite <- (Wa _ _ _ _ _ _ Ew).
  destruct F as [(_ & -> & _)|[(_ & z & _ & -> & _)|[(_ & _ & z & _ & -> & _)|(_ & _ & _ & Es & _)]]]; try reflexivity.
  apply setregs_t in Es. apply Es.
Qed.

(** ** A whole call on a faithful target *)

Lemma of_list_nth l i : (i < List.length l)%nat -> of_list l (Z.of_nat i) = nth i l 0.
Proof.
  intros H. unfold of_list. destruct (Z.leb_spec 0 (Z.of_nat i)), (Z.ltb_spec (Z.of_nat i) (Z.of_nat (List.length l))); cbn; try lia.
  rewrite Nat2Z.id. reflexivity.
Qed.

(** The memory of the target while the system call is made. *)
Definition with_code (m : mem) (base : Z) (code : list Z) : mem :=
  fun x => if (base <=? x) && (x <? base + Z.of_nat (List.length code)) then of_list code (x - base) else m x.

Lemma with_code_at m base code i : (i < List.length code)%nat -> with_code m base code (base + Z.of_nat i) = nth i code 0.
Proof.
  intros H. unfold with_code.
  destruct (Z.leb_spec base (base + Z.of_nat i)), (Z.ltb_spec (base + Z.of_nat i) (base + Z.of_nat (List.length code))); cbn; try lia.
  replace (base + Z.of_nat i - base) with (Z.of_nat i) by lia. apply of_list_nth. auto.
Qed.

Lemma syscall_run exec fuel a e base w nr args res r' m' :
  runs exec e ->
  let rg := copy_regs a (setr (t_regs (w_t w)) (a_ip a) base) (prepare a nr args) in
  let m0 := with_code (t_mem (w_t w)) base (a_code a) in
  exec rg m0 = Some (r', m') ->
  exists w', task_syscall (S fuel) a e base w nr args res = Some (0, r' (a_ret a), w') /\
    t_regs (w_t w') = t_regs (w_t w) /\ t_attached (w_t w') = t_attached (w_t w) /\
    (forall x, t_mem (w_t w') x = if (base <=? x) && (x <? base + Z.of_nat (List.length (a_code a))) then t_mem (w_t w) x else m' x) /\
    w_conts w' = w_conts w ++ [(rg, m0, 0)].
Proof.
  intros (R1 & R2 & R3 & R4 & R5) rg m0 Hx.
  unfold task_syscall, getregs. rewrite R1. unfold memcpy_from_task. cbn [tick w_n w_t].
  rewrite (proj1 (R4 _ _ _)). unfold memcpy_to_task at 1. cbn [tick w_n w_t]. rewrite (proj2 (R4 _ _ _)).
  unfold setregs at 1. cbn [tick set_t w_n w_t t_regs t_mem t_attached w_conts]. rewrite R2.
  cbn [wait_for_stop]. cbn [tick set_t w_n w_t t_regs t_mem t_attached w_conts]. rewrite R3.
  cbn [tick set_t w_n w_t t_regs t_mem t_attached w_conts]. fold rg.
  change (fun a0 : Z => if (base <=? a0) && (a0 <? base + Z.of_nat (List.length (a_code a))) then of_list (a_code a) (a0 - base)
                        else t_mem (w_t w) a0) with m0.
  rewrite (R5 _ _ _ _ _ Hx). change ((SIGTRAP =? SIGSTOP) || (SIGTRAP =? SIGTRAP)) with true. cbn iota.
  change (0 <? 0) with false. cbn iota.
  cbn [tick set_t w_n w_t t_regs t_mem t_attached w_conts]. rewrite R1.
  unfold setregs. cbn [tick set_t w_n w_t t_regs t_mem t_attached w_conts]. rewrite R2.
  unfold memcpy_to_task. cbn [tick set_t w_n w_t t_regs t_mem t_attached w_conts]. rewrite (proj2 (R4 _ _ _)).
  eexists. split; [reflexivity|]. cbn [tick set_t w_n w_t t_regs t_mem t_attached w_conts].
  split; auto. split; auto. split; [|reflexivity].
  intros x. destruct (Z.leb_spec base x); [|reflexivity].
  destruct (Z.ltb_spec x (base + Z.of_nat (List.length (a_code a)))); [|reflexivity]. cbn [andb].
  destruct (Z.leb_spec 0 (x - base)); [|lia].
  destruct (Z.ltb_spec (x - base) (Z.of_nat (List.length (a_code a)))); [|lia]. cbn [andb]. f_equal. lia.
Qed.
