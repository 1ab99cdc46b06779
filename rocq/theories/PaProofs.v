(** Applying and removing patches: what changes in the target's memory. *)
From Coq Require Import ZArith String List Bool Lia ZifyBool ZifyNat.
From Verif Require Import Word WordLemmas Str ElfDefs TextModel LdModel LdSpec LdProofs LdSyms LdMore ScModel ScSpec ScProofs PaModel PaSpec PaRead.
Import ListNotations.
Open Scope Z_scope.

Lemma some_pair2 {A B} (a a' : A) (b b' : B) : Some (a, b) = Some (a', b') -> a = a' /\ b = b'.
Proof. intros H. injection H. auto. Qed.
Lemma some_quad {A B C D} (a a' : A) (b b' : B) (c c' : C) (d d' : D) : Some (a, b, c, d) = Some (a', b', c', d') -> a = a' /\ b = b' /\ c = c' /\ d = d'.
Proof. intros H. injection H. auto. Qed.
Lemma some_quint {A B C D E} (a a' : A) (b b' : B) (c c' : C) (d d' : D) (e e' : E) :
  Some (a, b, c, d, e) = Some (a', b', c', d', e') -> a = a' /\ b = b' /\ c = c' /\ d = d' /\ e = e'.
Proof. intros H. injection H. auto. Qed.

Lemma inside_true b s x : inside b s x = true <-> within b s x.
Proof. unfold inside, within. lia. Qed.
Lemma inside_false b s x : inside b s x = false <-> ~ within b s x.
Proof. unfold inside, within. lia. Qed.
Lemma within_dec b s x : within b s x \/ ~ within b s x.
Proof. unfold within. lia. Qed.

(** ** Attaching, detaching, remote calls *)
Lemma attach_loop_mem fuel e x : kept e x -> forall w r w', attach_loop fuel e w = Some (r, w') -> t_mem (w_t w') x = t_mem (w_t w) x.
Proof.
  intros [_ K]. induction fuel as [|fuel IH]; intros w r w' H; [discriminate|]. cbn [attach_loop] in H.
  specialize (K (w_n w) (t_regs (w_t w)) (t_mem (w_t w))).
  destruct (e_attach_wait e (w_n w) (t_regs (w_t w)) (t_mem (w_t w))) as [|sig rg m|s rg m].
  - apply some_pair2 in H. destruct H as [_ <-]. reflexivity.
  - destruct (sig =? SIGSTOP). { apply some_pair2 in H. destruct H as [_ <-]. exact K. }
    destruct (e_cont e _). { apply some_pair2 in H. destruct H as [_ <-]. exact K. }
    apply IH in H. cbn in H. congruence.
  - destruct (e_cont e _). { apply some_pair2 in H. destruct H as [_ <-]. exact K. }
    apply IH in H. cbn in H. congruence.
Qed.

Lemma attach_mem fuel e w r w' x : kept e x -> task_attach fuel e w = Some (r, w') -> t_mem (w_t w') x = t_mem (w_t w) x.
Proof.
  intros K H. unfold task_attach in H. destruct (e_attach e (w_n w)).
  - apply some_pair2 in H. destruct H as [_ <-]. reflexivity.
  - apply (attach_loop_mem _ _ _ K) in H. exact H.
Qed.

Lemma detach_mem e w : t_mem (w_t (snd (task_detach e w))) = t_mem (w_t w).
Proof. unfold task_detach. destruct (e_detach e (w_n w)); reflexivity. Qed.

(** Transfers never exceed the size, those of the borrowed code are complete. *)
Definition calm (e : env) (a : arch) (libc : Z) : Prop := sane e /\ accessible e libc (Z.of_nat (List.length (a_code a))).

Section Frame.
Variable fuel : nat.
Variable a : arch.
Variable nn : nrs.
Variable x86 : bool.
Variable e : env.
Variables libc garbage : Z.
Hypothesis C : calm e a libc.

Lemma syscall_kept w nr args res ret out w' x : kept e x ->
  task_syscall fuel a e libc w nr args res = Some (ret, out, w') -> t_mem (w_t w') x = t_mem (w_t w) x.
Proof.
  intros [K _] H. destruct C as [S A]. destruct (syscall_mem _ _ _ _ _ _ _ _ _ _ _ H) as [F G].
  destruct (within_dec libc (Z.of_nat (List.length (a_code a))) x); auto.
Qed.

Ltac call H E := ob H; match type of E with _ = Some ?p => destruct p as [[? ?] ?] end; cbv beta iota in H.

Lemma mmap_kept w ad ln pr fl fd of v w' x : kept e x -> task_mmap fuel a nn e libc garbage w ad ln pr fl fd of = Some (v, w') -> t_mem (w_t w') x = t_mem (w_t w) x.
Proof.
  intros K H. unfold task_mmap in H. call H E. apply (syscall_kept _ _ _ _ _ _ _ _ K) in E.
  destruct (_ <? _); apply some_pair2 in H; destruct H as [_ <-]; exact E.
Qed.
Lemma munmap_kept w ad ln v w' x : kept e x -> task_munmap fuel a nn e libc garbage w ad ln = Some (v, w') -> t_mem (w_t w') x = t_mem (w_t w) x.
Proof.
  intros K H. unfold task_munmap in H. call H E. apply (syscall_kept _ _ _ _ _ _ _ _ K) in E.
  destruct (_ <? _); apply some_pair2 in H; destruct H as [_ <-]; exact E.
Qed.
Lemma close_kept w fd v w' x : kept e x -> task_close fuel a nn e libc garbage w fd = Some (v, w') -> t_mem (w_t w') x = t_mem (w_t w) x.
Proof.
  intros K H. unfold task_close in H. destruct (should_skip_remote_fd fd). { apply some_pair2 in H. destruct H as [_ <-]. reflexivity. }
  call H E. apply (syscall_kept _ _ _ _ _ _ _ _ K) in E. apply some_pair2 in H; destruct H as [_ <-]; exact E.
Qed.
Lemma ftruncate_kept w fd ln v w' x : kept e x -> task_ftruncate fuel a nn e libc garbage w fd ln = Some (v, w') -> t_mem (w_t w') x = t_mem (w_t w) x.
Proof.
  intros K H. unfold task_ftruncate in H. destruct (should_skip_remote_fd fd). { apply some_pair2 in H. destruct H as [_ <-]. reflexivity. }
  call H E. apply (syscall_kept _ _ _ _ _ _ _ _ K) in E. destruct (_ <? _); apply some_pair2 in H; destruct H as [_ <-]; exact E.
Qed.
Lemma malloc_kept w ln v w' x : kept e x -> task_malloc fuel a nn e libc garbage w ln = Some (v, w') -> t_mem (w_t w') x = t_mem (w_t w) x.
Proof.
  intros K H. unfold task_malloc in H. ob H. destruct p as [r w1]. apply (mmap_kept _ _ _ _ _ _ _ _ _ _ K) in E.
  destruct (_ =? _); apply some_pair2 in H; destruct H as [_ <-]; exact E.
Qed.

Lemma write_kept w dst src size r w' x : sane e -> ~ within dst size x -> memcpy_to_task e w dst src size = (r, w') -> t_mem (w_t w') x = t_mem (w_t w) x.
Proof.
  intros S N H. apply write_mem in H. destruct H as (A & _). apply A; auto. intros k Hk. eapply S. right. exact Hk.
Qed.

(** The buffer for the file name that the target allocates contains [x]. *)
Definition name_buffer (w : world) (path : list Z) (x : Z) : Prop :=
  let len := Z.of_nat (List.length path) + 1 in
  exists w1 n w2, task_attach fuel e w = Some (0, w1) /\ task_malloc fuel a nn e libc garbage w1 len = Some (n, w2) /\ within n len x.

Lemma open_kept w path fl mo v w' x : kept e x ->
  (forall n w2, task_malloc fuel a nn e libc garbage w (Z.of_nat (List.length path) + 1) = Some (n, w2) -> ~ within n (Z.of_nat (List.length path) + 1) x) ->
  task_open fuel a nn e libc garbage x86 w path fl mo = Some (v, w') -> t_mem (w_t w') x = t_mem (w_t w) x.
Proof.
  intros K N H. unfold task_open in H. ob H. destruct p as [n w1]. cbv beta iota in H.
  pose proof (N _ _ eq_refl) as N1. apply (malloc_kept _ _ _ _ _ K) in E.
  destruct (memcpy_to_task e w1 n (of_list (path ++ [0])) (Z.of_nat (List.length path) + 1)) as [r2 w2] eqn:E2.
  apply (write_kept _ _ _ _ _ _ x) in E2; [|apply C|auto].
  call H E0. apply (syscall_kept _ _ _ _ _ _ _ _ K) in E0.
  ob H. destruct p as [q wq]. apply some_pair2 in H. destruct H as [_ <-]. cbn [snd]. unfold task_free in E1.
  apply (munmap_kept _ _ _ _ _ _ K) in E1. congruence.
Qed.

Lemma create_kept w path ln span ret hdr w' x : kept e x -> ~ name_buffer w path x ->
  create_mmap_vma_file fuel a nn x86 e libc garbage w path ln span = Some (ret, hdr, w') -> t_mem (w_t w') x = t_mem (w_t w) x.
Proof.
  intros K N H. unfold create_mmap_vma_file in H.
  destruct (task_attach fuel e w) as [[r w1]|] eqn:E1; [|discriminate].
  pose proof (attach_mem _ _ _ _ _ _ K E1) as M1.
  destruct (negb (r =? 0)) eqn:Er. { apply some_triple in H. destruct H as (_ & _ & <-). exact M1. }
  assert (r = 0) by lia. subst r.
  destruct (task_open fuel a nn e libc garbage x86 w1 path 2 420) as [[fd w2]|] eqn:E2; [|discriminate].
  apply (open_kept _ _ _ _ _ _ x K) in E2.
  2:{ intros n w3 Em Hx. apply N. exists w1, n, w3. auto. }
  destruct (fd <=? 0). { apply some_triple in H. destruct H as (_ & _ & <-). congruence. }
  destruct (task_ftruncate fuel a nn e libc garbage w2 fd ln) as [[r3 w3]|] eqn:E3; [|discriminate].
  apply (ftruncate_kept _ _ _ _ _ x K) in E3.
  destruct (negb (r3 =? 0)).
  - destruct (task_close fuel a nn e libc garbage w3 fd) as [[r4 w4]|] eqn:E4; [|discriminate]. apply (close_kept _ _ _ _ x K) in E4.
    apply some_triple in H. destruct H as (_ & _ & <-). rewrite detach_mem. congruence.
  - destruct (task_mmap fuel a nn e libc garbage w3 span ln 7 1 fd 0) as [[v w5]|] eqn:E5; [|discriminate]. apply (mmap_kept _ _ _ _ _ _ _ _ _ x K) in E5.
    destruct (v =? 0);
      (destruct (task_close fuel a nn e libc garbage w5 fd) as [[r4 w4]|] eqn:E4; [|discriminate]; apply (close_kept _ _ _ _ x K) in E4;
       apply some_triple in H; destruct H as (_ & _ & <-); rewrite detach_mem; congruence).
Qed.

Lemma delete_kept w hdr ln w' x : kept e x -> delete_mmap_vma_file fuel a nn e libc garbage w hdr ln = Some w' -> t_mem (w_t w') x = t_mem (w_t w) x.
Proof.
  intros K H. unfold delete_mmap_vma_file in H. destruct (task_attach fuel e w) as [[r w1]|] eqn:E1; [|discriminate].
  pose proof (attach_mem _ _ _ _ _ _ K E1) as M1. destruct (negb (r =? 0)). { apply some_inj in H. subst. exact M1. }
  destruct (task_munmap fuel a nn e libc garbage w1 hdr ln) as [[v w2]|] eqn:E2; [|discriminate]. apply (munmap_kept _ _ _ _ _ x K) in E2.
  apply some_inj in H. subst. rewrite detach_mem. congruence.
Qed.
End Frame.

(** ** The shared image *)
Lemma sync_out hdr len img w x : ~ within hdr len x -> t_mem (w_t (sync hdr len img w)) x = t_mem (w_t w) x.
Proof. intros H. cbn. apply inside_false in H. rewrite H, andb_false_r. reflexivity. Qed.
Lemma sync_in hdr len img w i : shared hdr = true -> 0 <= i < len -> t_mem (w_t (sync hdr len img w)) (hdr + i) = img i.
Proof.
  intros S H. cbn. rewrite S. assert (E : inside hdr len (hdr + i) = true) by (apply inside_true; unfold within; lia). rewrite E. cbn. f_equal. lia.
Qed.

(** ** kick_target_process *)
Section Kick.
Variable fuel : nat.
Variable e : env.
Variable jmp : Z.
Hypothesis S : sane e.

(** Only the mapping and 16 bytes at one address change; none of the latter if the result
    is an error and writes are not cut short. *)
Definition whole_writes (e : env) : Prop := forall n d s k, e_write e n d s = Some k -> k = s.

Lemma read_t w dst src size n b w' : memcpy_from_task e w dst src size = (n, b, w') -> w_t w' = w_t w.
Proof. intros H. apply read_mem in H. tauto. Qed.

Lemma kick_frame hdr len img li w err w' log :
  kick_target_process fuel e jmp hdr len img li w = Some (err, w', log) ->
  exists f, forall u, In u (w' :: log) -> forall x, kept e x -> ~ within hdr len x ->
    (~ within f 16 x -> t_mem (w_t u) x = t_mem (w_t w) x) /\
    (err <> 0 -> whole_writes e -> t_mem (w_t u) x = t_mem (w_t w) x).
Proof.
  intros H. unfold kick_target_process in H. ob H. ob H. destruct (negb (inb len (li_info li + ui_orig) 16)); [discriminate|].
  destruct (memcpy_from_task e w _ z0 16) as [[n buf] w0] eqn:Er. apply read_t in Er. cbv zeta in H.
  set (img1 := fun x => if inside (li_info li + ui_orig) 16 x then buf (x - (li_info li + ui_orig)) else img x) in *.
  set (w1 := sync hdr len img1 w0) in *.
  assert (M1 : forall x, ~ within hdr len x -> t_mem (w_t w1) x = t_mem (w_t w) x).
  { intros x Hx. unfold w1. rewrite sync_out by auto. rewrite Er. reflexivity. }
  destruct ((n =? -1) || (n <? 16)).
  { apply some_triple in H. destruct H as (<- & <- & <-). exists 0. intros u Hu x K Nh. assert (u = w1) by (cbn in Hu; intuition). subst u. split; auto. }
  destruct (memcpy_to_task e w1 hdr img1 len) as [n2 w2] eqn:E2.
  assert (M2 : forall x, ~ within hdr len x -> t_mem (w_t w2) x = t_mem (w_t w) x).
  { intros x Hx. rewrite (write_kept _ _ _ _ _ _ _ x S Hx E2). auto. }
  destruct ((n2 =? -1) || (n2 <? len)).
  { apply some_triple in H. destruct H as (<- & <- & <-). exists 0. intros u Hu x K Nh. assert (D : u = w1 \/ u = w2) by (cbn in Hu; intuition). destruct D; subst u; split; auto. }
  destruct (task_attach fuel e w2) as [[r3 w3]|] eqn:E3; [|discriminate].
  assert (M3 : forall x, kept e x -> ~ within hdr len x -> t_mem (w_t w3) x = t_mem (w_t w) x).
  { intros x K Hx. rewrite (attach_mem _ _ _ _ _ _ K E3). auto. }
  destruct (negb (r3 =? 0)) eqn:Er3.
  { apply some_triple in H. destruct H as (<- & <- & <-). exists 0. intros u Hu x K Nh.
    assert (D : u = w1 \/ u = w2 \/ u = w3) by (cbn in Hu; intuition). destruct D as [D|[D|D]]; subst u; split; auto. }
  ob H. destruct (memcpy_to_task e w3 z1 (of_list (jmp_bytes jmp z)) 16) as [n4 w4] eqn:E4.
  apply some_triple in H. destruct H as (He & <- & <-). exists z1.
  intros u Hu x K Nh.
  assert (M4 : ~ within z1 16 x -> t_mem (w_t w4) x = t_mem (w_t w) x).
  { intros Hx. rewrite (write_kept _ _ _ _ _ _ _ x S Hx E4). auto. }
  assert (M4' : err <> 0 -> whole_writes e -> t_mem (w_t w4) x = t_mem (w_t w) x).
  { intros Ne Wh. unfold memcpy_to_task in E4. destruct (e_write e (w_n w3) z1 16) as [k|] eqn:Ew.
    - apply Wh in Ew. subst k. injection E4 as <- _. exfalso. apply Ne. rewrite <- He. reflexivity.
    - injection E4 as _ <-. cbn. auto. }
  assert (D : u = w1 \/ u = w2 \/ u = w3 \/ u = w4 \/ u = snd (task_detach e w4)) by (clear - Hu; cbn [In] in Hu; destruct Hu as [<-|[<-|[<-|[<-|[<-|[<-|[]]]]]]]; tauto).
  destruct D as [D|[D|[D|[D|D]]]]; subst u; try (split; auto; fail). rewrite detach_mem. split; auto.
Qed.
End Kick.
