(** Consequences about histories, duplicates and removal. *)
From Coq Require Import ZArith String List Bool Lia ZifyBool ZifyNat Permutation Sorted.
From Verif Require Import Word WordLemmas Str ElfDefs TextModel LdModel LdSpec LdProofs LdSyms LdMore ScModel ScSpec ScProofs PaModel PaSpec PaRead PaProofs PaMore PaKick PaLoad PaSess PaHist.
Import ListNotations.
Open Scope Z_scope.

(** ** Histories on top of other patches *)

Lemma steps_suffix K m0 st es st' : steps K st es st' -> forall a b s, Z.of_nat (List.length (a ++ b)) + Z.of_nat (List.length es) < 2 ^ 32 - 1 ->
  inv K m0 st (a ++ b) -> stack_after es (map triple a) = Some s ->
  exists a', inv K m0 st' (a' ++ b) /\ map triple a' = s.
Proof.
  intros H. induction H as [s0|s1 e s2 es s3 H1 H2 IH]; intros a b s Bd I E.
  - cbn in E. exists a. split; [auto|congruence].
  - cbn [List.length] in Bd. destruct (step_inv K m0 s1 e s2 (a ++ b) ltac:(lia) I H1) as (ps1 & I1 & L1 & X & Sh).
    assert (G : exists a1, ps1 = a1 ++ b /\ stack_after es (map triple a1) = Some s).
    { destruct e as [|h v j| |h].
      - subst ps1. exists a. auto.
      - destruct Sh as (q & ->). exists (q :: a). split; [auto|]. cbn [stack_after] in E. specialize (X []). cbn [stack_after map] in X. 
        assert (Y : (h, v, j) = triple q) by congruence. cbn [map]. rewrite <- Y. exact E.
      - subst ps1. exists a. auto.
      - destruct Sh as (q & Sh). cbn [stack_after] in E. destruct a as [|q' a]; [discriminate|]. cbn [app] in Sh. 
        assert (q' = q /\ a ++ b = ps1) as [-> <-] by (split; congruence). exists a. split; [auto|]. cbn [map] in E. destruct (triple q) as [[h' v'] j']. destruct (h =? h'); [exact E|discriminate]. }
    destruct G as (a1 & -> & E1). apply (IH a1 b s); auto. lia.
Qed.

(** ** The remote munmap *)

Lemma wait_conts e : forall fuel w st r w', wait_for_stop fuel e w st = Some (r, w') -> 0 <= r ->
  exists l, w_conts w' = w_conts w ++ (t_regs (w_t w), t_mem (w_t w), st) :: l.
Proof.
  induction fuel as [|fuel IH]; intros w st r w' H R; [discriminate|]. cbn [wait_for_stop] in H. destruct (e_cont e (w_n w)).
  { assert (r = -1) by congruence. lia. }
  match type of H with context [match ?x with _ => _ end] => destruct x as [|sig r1 m1|sg r1 m1] end.
  - assert (r = -1) by congruence. lia.
  - destruct (_ || _). { apply some_pair2 in H. destruct H as [_ <-]. exists []. reflexivity. }
    destruct (_ =? _). { assert (r = -1) by congruence. lia. }
    destruct (IH _ _ _ _ H R) as (l & ->). cbn [tick set_t w_conts w_t]. rewrite <- app_assoc. cbn [app]. eauto.
  - destruct (IH _ _ _ _ H R) as (l & ->). cbn [tick set_t w_conts w_t]. rewrite <- app_assoc. cbn [app]. eauto.
Qed.

Lemma syscall_conts fuel a e base w nr args res ret out w' : errnos e -> 
  task_syscall fuel a e base w nr args res = Some (ret, out, w') -> 0 <= ret ->
  exists m l, w_conts w' = w_conts w ++ (copy_regs a (setr (t_regs (w_t w)) (a_ip a) base) (prepare a nr args), m, 0) :: l /\
    (accessible e base (Z.of_nat (List.length (a_code a))) -> forall i, (i < List.length (a_code a))%nat -> m (base + Z.of_nat i) = nth i (a_code a) 0).
Proof.
  intros En H R. unfold task_syscall in H. unfold getregs at 1 in H. cbv zeta beta iota in H.
  destruct (e_getregs e (w_n w)) as [x|] eqn:E1. { assert (ret = - x) by congruence. pose proof (En _ _ (or_introl E1)). lia. }
  destruct (memcpy_from_task e (tick w) (e_junk e) base (Z.of_nat (List.length (a_code a)))) as [[n1 b1] w1] eqn:E2.
  destruct (memcpy_to_task e w1 base (of_list (a_code a)) (Z.of_nat (List.length (a_code a)))) as [n2 w2] eqn:E3.
  assert (C1 : w_t w1 = w_t w /\ w_conts w1 = w_conts w).
  { unfold memcpy_from_task in E2. destruct (e_read _ _ _ _) in E2; assert (w1 = tick (tick w)) by congruence; subst; auto. }
  assert (C2 : w_conts w2 = w_conts w /\ t_regs (w_t w2) = t_regs (w_t w) /\
    (accessible e base (Z.of_nat (List.length (a_code a))) -> forall i, (i < List.length (a_code a))%nat -> t_mem (w_t w2) (base + Z.of_nat i) = nth i (a_code a) 0)).
  { destruct C1 as [C1 C1']. unfold memcpy_to_task in E3. destruct (e_write _ _ _ _) as [k|] eqn:Ek in E3.
    - apply pair_equal_spec in E3. destruct E3 as [_ <-]. cbn [tick set_t w_conts w_t t_regs t_mem]. rewrite C1, C1'. split; auto. split; auto.
      intros A i Hi. destruct (A (w_n w1)) as [_ A2]. rewrite A2 in Ek. assert (k = Z.of_nat (List.length (a_code a))) by congruence. subst k.
      replace ((base <=? base + Z.of_nat i) && (base + Z.of_nat i <? base + Z.of_nat (List.length (a_code a)))) with true by lia.
      unfold of_list. replace (base + Z.of_nat i - base) with (Z.of_nat i) by lia.
      replace ((0 <=? Z.of_nat i) && (Z.of_nat i <? Z.of_nat (List.length (a_code a)))) with true by lia. rewrite Nat2Z.id. reflexivity.
    - apply pair_equal_spec in E3. destruct E3 as [_ <-]. cbn [tick w_conts w_t]. rewrite C1, C1'. split; auto. split; auto.
      intros A. destruct (A (w_n w1)) as [_ A2]. congruence. }
  clear E3 C1. destruct C2 as (C2 & C3 & C4).
  assert (PB : forall (r o : Z) (u : world) (x : Z * Z * world), (let '(_, w) := memcpy_to_task e u base b1 (Z.of_nat (List.length (a_code a))) in Some (r, o, w)) = Some x -> fst (fst x) = r /\ w_conts (snd x) = w_conts u).
  { intros r o u x. unfold memcpy_to_task. destruct (e_write _ _ _ _); intros X; apply some_inj in X; subst x; auto. }
  unfold setregs at 1 in H. destruct (e_setregs e (w_n w2)) as [x|] eqn:E4.
  { apply PB in H. destruct H as [H _]. cbn [fst] in H. pose proof (En _ _ (or_intror E4)). lia. }
  destruct (wait_for_stop fuel e _ 0) as [[rr w4]|] eqn:E5; [|discriminate].
  destruct (rr <? 0) eqn:E6. { apply PB in H. destruct H as [H _]. cbn [fst] in H. lia. }
  destruct (wait_conts _ _ _ _ _ _ E5 ltac:(lia)) as (l & Ec). cbn [tick set_t w_conts w_t t_regs t_mem] in Ec. rewrite C2 in Ec.
  exists (t_mem (w_t w2)), l. split; [|exact C4]. unfold getregs in H. cbv zeta beta iota in H.
  destruct (e_getregs e (w_n w4)). { apply PB in H. destruct H as [_ H]. cbn [snd] in H. rewrite H. exact Ec. }
  unfold setregs in H. destruct (e_setregs e (w_n (tick w4))); cbv beta iota in H; apply PB in H; destruct H as [_ H]; cbn [snd] in H; rewrite H; exact Ec.
Qed.

Lemma unpatch_unmaps fuel a nn e libc garbage s w w' log u : errnos e -> accessible e libc (Z.of_nat (List.length (a_code a))) ->
  delete_patch fuel a nn e libc garbage s w = Some (0, w', log, Some u) ->
  exists rg m old, In (rg, m, 0) (w_conts w') /\ rg = copy_regs a (setr old (a_ip a) libc) (prepare a (nr_munmap nn) [u_start u; u_end u - u_start u; 0; 0; 0; 0]) /\
    forall i, (i < List.length (a_code a))%nat -> m (libc + Z.of_nat i) = nth i (a_code a) 0.
Proof.
  intros En Ac H. unfold delete_patch in H. destruct (find_last (s_ulps s) (s_max s)) as [u0|]; [|apply some_quad in H; destruct H as (_ & _ & _ & X); discriminate].
  destruct (task_attach fuel e w) as [[r1 w1]|]; [|discriminate]. cbv beta iota in H.
  destruct (negb (r1 =? 0)) eqn:Er1. { apply some_quad in H. destruct H as (E & _). lia. }
  destruct (memcpy_to_task e w1 _ _ 16) as [n w2]. destruct (_ || _). { apply some_quad in H. destruct H as (E & _). discriminate. }
  destruct (task_munmap fuel a nn e libc garbage w2 (u_start u0) (u_end u0 - u_start u0)) as [[er w3]|] eqn:Em; [|discriminate]. cbv beta iota in H.
  cbv zeta in H. apply some_quad in H. destruct H as (E & <- & _ & E'). assert (u0 = u) by congruence. subst u0.
  destruct (negb (er =? 0)) eqn:Er; [discriminate|]. unfold task_munmap in Em.
  destruct (task_syscall _ _ _ _ _ _ _ _) as [[[rt out] w3']|] eqn:Es; [|discriminate]. cbv beta iota in Em.
  destruct (rt <? 0) eqn:Ert. { apply some_pair2 in Em. destruct Em as [Em _]. lia. }
  apply some_pair2 in Em. destruct Em as [_ ->].
  destruct (syscall_conts _ _ _ _ _ _ _ _ _ _ _ En Es ltac:(lia)) as (m & l & Ec & Cd).
  eexists. exists m. eexists. split; [|split; [reflexivity|exact (Cd Ac)]].
  assert (X : w_conts (snd (task_detach e w3)) = w_conts w3) by (unfold task_detach; destruct (e_detach _ _); reflexivity).
  rewrite X, Ec. apply in_or_app. right. left. reflexivity.
Qed.

(** ** Patches that are already there *)

Lemma already fuel a nn x86 e libc garbage lookup reloc jmp now s ae chown path span w err s' h w' log f len li bid : calm e a libc ->
  init_patch fuel a nn x86 e libc garbage lookup reloc jmp now s ae chown path span w = Some (err, s', h, w', log) ->
  alloc_patch_file ae = Some (0, Some (f, len)) -> setup_load_info f len = Some (inr li) -> li_bid li = Some bid -> known (s_ulps s) (Some bid) = Some true ->
  err <> 0 /\ forall u, In u (w' :: log) -> forall x, kept e x -> ~ name_buffer fuel a nn e libc garbage w path x ->
    (forall hdr, h = Some hdr -> ~ within hdr len x) -> t_mem (w_t u) x = t_mem (w_t w) x.
Proof.
  intros C H AL SU Eb KN. unfold init_patch in H. rewrite AL in H. cbn [Z.eqb negb] in H.
  destruct (negb (chown =? 0)) eqn:Ec. { apply some_quint in H. destruct H as (<- & _ & _ & <- & <-). split; [lia|]. intros u [<-|[]]. auto. }
  ob H. destruct p as [[rt hd] w1]. cbv beta iota in H.
  assert (B : forall x, kept e x -> ~ name_buffer fuel a nn e libc garbage w path x -> t_mem (w_t w1) x = t_mem (w_t w) x).
  { intros x Kx Nx. apply (create_kept _ _ _ _ _ _ _ C _ _ _ _ _ _ _ x Kx Nx E). }
  destruct (negb (rt =? 0)) eqn:Er. { apply some_quint in H. destruct H as (<- & _ & _ & <- & <-). split; [lia|]. intros u [<-|[<-|[]]]; auto. }
  ob H. unfold load_patch in H. rewrite SU, Eb, KN in H. cbn [Z.eqb negb EALREADY Z.opp] in H. cbn [app] in H. ob H. rename w0 into w2.
  apply some_quint in H. destruct H as (<- & _ & <- & <- & <-). split; [discriminate|].
  assert (S0 : forall x, kept e x -> ~ name_buffer fuel a nn e libc garbage w path x -> ~ within z len x -> t_mem (w_t (sync z len f w1)) x = t_mem (w_t w) x).
  { intros x Kx Nx Nh. rewrite sync_out by auto. auto. }
  intros u Hu x Kx Nx Nh. specialize (Nh z eq_refl).
  assert (D : t_mem (w_t w2) x = t_mem (w_t (sync z len f w1)) x) by (eapply (delete_kept); eauto).
  destruct Hu as [<-|[<-|[<-|[]]]]; try (rewrite D); apply S0; auto.
Qed.

(** ** A session after patching *)

Lemma find_none us id : Forall (fun u => ld 4 (u_info u) ui_id <> id) us -> find_last us id = None.
Proof. induction 1 as [|u us H _ IH]; [reflexivity|]. cbn [find_last]. destruct (Z.eqb_spec (ld 4 (u_info u) ui_id) id); [contradiction|exact IH]. Qed.
