(** Applying and removing patches: the properties. *)
From Coq Require Import ZArith String List Bool Lia ZifyBool ZifyNat Permutation Sorted.
From Verif Require Import Word WordLemmas Str ElfDefs TextModel LdModel LdSpec LdProofs LdSyms LdMore LdEx LdProps X86RelocModel ScModel ScSpec ScProofs ScProps PaModel PaSpec PaRead PaProofs PaMore PaKick PaLoad PaSess PaHist PaX86 PaEx PaFin PaThm PaCase.
Import ListNotations.
Open Scope Z_scope.

(** ** C28: patch then unpatch *)

(** After any history a patch is applied; then come any runs of the target, failed attempts
    and further patches that are removed again; then a patch is removed.  It is this one,
    and the bytes in question are as before the patch was applied, the mappings are those
    of before. *)
Theorem C28_patch_unpatch : forall K m0 es1 ma vs1 h v j mb vs2 es2 mc vs3 u md vs4,
  steps K (m0, []) es1 (ma, vs1) -> step K (ma, vs1) (EPatch h v j) (mb, vs2) -> steps K (mb, vs2) es2 (mc, vs3) ->
  stack_after es2 [] = Some [] -> step K (mc, vs3) (EUnpatch u) (md, vs4) ->
  Z.of_nat (List.length es1) + Z.of_nat (List.length es2) + 2 < 2 ^ 32 - 1 ->
  u = h /\ (forall x, K x -> md x = ma x) /\ Permutation vs4 vs1.
Proof.
  intros K m0 es1 ma vs1 h v j mb vs2 es2 mc vs3 u md vs4 H1 H2 H3 Bal H4 Bd.
  assert (Len : forall st es st', steps K st es st' -> forall ps, Z.of_nat (List.length ps) + Z.of_nat (List.length es) < 2 ^ 32 - 1 -> inv K m0 st ps ->
    exists ps', inv K m0 st' ps' /\ (List.length ps' <= List.length ps + List.length es)%nat).
  { clear. intros st es st' H. induction H as [s|s1 e s2 es s3 H1 H2 IH]; intros ps Bd I.
    - exists ps. split; auto. lia.
    - cbn [List.length] in *. destruct (step_inv K m0 s1 e s2 ps ltac:(lia) I H1) as (ps1 & I1 & L1 & _). destruct (IH ps1 ltac:(lia) I1) as (ps2 & I2 & L2). exists ps2. split; auto. lia. }
  destruct (Len _ _ _ H1 [] ltac:(cbn [List.length]; lia) (inv_start K m0)) as (ps1 & I1 & L1). cbn [List.length] in L1.
  destruct (step_inv K m0 _ _ _ ps1 ltac:(lia) I1 H2) as (ps2 & I2 & _ & X2 & q & ->).
  destruct (steps_suffix K m0 _ _ _ H3 [] (q :: ps1) [] ltac:(cbn [app List.length]; lia) I2 Bal) as (a' & I3 & Ea).
  destruct a' as [|z a']; [|discriminate]. cbn [app] in I3.
  destruct (step_inv K m0 _ _ _ (q :: ps1) ltac:(cbn [List.length]; lia) I3 H4) as (ps4 & I4 & _ & X4 & q' & E4).
  assert (q = q' /\ ps1 = ps4) as [<- <-] by (split; congruence). split; [|split].
  - specialize (X2 []). specialize (X4 []). cbn [stack_after map] in X2, X4. assert (Et : (h, v, j) = triple q) by congruence. rewrite <- Et in X4.
    destruct (Z.eqb_spec u h); [auto|discriminate].
  - intros x Kx. destruct I1 as (_ & _ & C1 & _), I4 as (_ & _ & C4 & _). cbn [fst] in *. rewrite C1, C4 by auto. reflexivity.
  - destruct I1 as (P1 & _), I4 as (P4 & _). cbn [snd] in *. eapply Permutation_trans; [exact P4|apply Permutation_sym; exact P1].
Qed.
Print Assumptions C28_patch_unpatch.

(** Removal reported as successful: the target executed the system call instruction with
    the number and arguments of munmap of exactly the mapping of the patch. *)
Theorem C28_mapping_gone : forall c s w w' log u, errnos (c_e c) -> calm (c_e c) (c_a c) (c_libc c) ->
  do_unpatch c s w = Some (0, w', log, Some u) ->
  exists r m, In (r, m, 0) (w_conts w') /\
    (forall i, (i < List.length (a_code (c_a c)))%nat -> m (c_libc c + Z.of_nat i) = nth i (a_code (c_a c)) 0) /\
    (c_a c = x86_arch -> c_nn c = x86_nrs -> r RIP = c_libc c /\ r RAX = 11 /\ r RDI = u_start u /\ r RSI = u_end u - u_start u) /\
    (c_a c = a64_arch -> c_nn c = a64_nrs -> r PC = c_libc c /\ r 8 = 215 /\ r 0 = u_start u /\ r 1 = u_end u - u_start u).
Proof.
  intros c s w w' log u En (_ & Ac) H. destruct (unpatch_unmaps _ _ _ _ _ _ _ _ _ _ _ En Ac H) as (r & m & old & I & -> & Cd).
  eexists. exists m. split; [exact I|]. split; [exact Cd|]. split; intros -> ->; split; [reflexivity|split; [reflexivity|split; reflexivity]|reflexivity|split; [reflexivity|split; reflexivity]].
Qed.
Print Assumptions C28_mapping_gone.

Example C28_ex : steps K0 (t_mem (w_t pa_w), []) [EPatch 0x7000000 0x402000 pa_jmp] (m1, [v1]) /\
  step K0 (m1, [v1]) (EPatch 0x7100000 0x402000 pa_jmp) (m2, [v2; v1]) /\ steps K0 (m2, [v2; v1]) [EFail; ERun] (m4, [v2; v1]) /\
  step K0 (m4, [v2; v1]) (EUnpatch 0x7100000) (m5, [v1]) /\
  bytes_at m1 0x402000 16 = [255; 37; 2; 0; 0; 0; 144; 144; 64; 0; 0; 7; 0; 0; 0; 0] /\
  bytes_at m2 0x402000 16 = [255; 37; 2; 0; 0; 0; 144; 144; 64; 0; 16; 7; 0; 0; 0; 0] /\
  bytes_at m5 0x402000 16 = [255; 37; 2; 0; 0; 0; 144; 144; 64; 0; 0; 7; 0; 0; 0; 0] /\
  errnos (c_e run3) /\ out5 = do_unpatch run3 (p_sess open5) (p_world open5) /\ out5 = Some (0, q_world out5, q_log out5, Some (q_ulp out5)).
Proof.
  split; [exact (steps_cons K0 _ _ _ _ _ ex_step1 (steps_nil K0 _))|]. split; [apply ex_step2|].
  split; [exact (steps_cons K0 _ _ _ _ _ ex_step3 (steps_cons K0 _ _ _ _ _ ex_step4 (steps_nil K0 _)))|]. split; [apply ex_step5|].
  split; [vm_compute; reflexivity|]. split; [vm_compute; reflexivity|]. split; [vm_compute; reflexivity|].
  split; [intros n x [X|X]; discriminate X|]. split; [unfold out5; reflexivity|]. apply q_get. vm_compute. reflexivity.
Qed.

(** ** C29: histories *)

(** After any history: each removal took the newest patch that was left ([stack_after] is
    defined), the mappings are those of the patches left, the bytes in question are the
    original ones except in the first 16 bytes of the functions replaced by these patches,
    and the function of the newest starts with its jump.  With no patch left all bytes are
    the original ones. *)
Theorem C29_lifo : forall K m0 es m vs, steps K (m0, []) es (m, vs) -> Z.of_nat (List.length es) < 2 ^ 32 - 1 ->
  exists stk, stack_after es [] = Some stk /\
    Permutation (map fst vs) (map (fun t => fst (fst t)) stk) /\
    (forall x, K x -> (forall h v j, In (h, v, j) stk -> ~ within v 16 x) -> m x = m0 x) /\
    (match stk with
     | [] => vs = [] /\ forall x, K x -> m x = m0 x
     | (h, v, j) :: _ => exists tgt, forall i, 0 <= i < 16 -> m (v + i) = nth (Z.to_nat i) (le_bytes 8 j ++ le_bytes 8 tgt) 0
     end).
Proof.
  intros K m0 es m vs H Bd. destruct (steps_inv K m0 _ _ _ [] H ltac:(cbn [List.length]; lia) (inv_start K m0)) as (ps & (P & F & C & S) & E).
  cbn [fst snd map] in *. exists (map triple ps). split; [exact E|]. split; [|split].
  - eapply Permutation_trans; [apply Permutation_map; exact P|]. rewrite !map_map. unfold p_range, triple. cbn [fst]. apply Permutation_refl.
  - intros x Kx N. rewrite C by auto. clear - N. induction ps as [|[[p j] t] ps IH]; [reflexivity|]. cbn [over]. 
    destruct (inside (p_fun p) 16 x) eqn:I.
    + exfalso. apply (N (p_start p) (p_fun p) j); [left; reflexivity|]. unfold inside in I. unfold within. lia.
    + apply IH. intros h v j' Hi. apply (N h v j'). right. exact Hi.
  - destruct ps as [|[[p j] t] ps].
    + cbn [map]. split; [|exact C]. cbn [map] in P. apply Permutation_sym, Permutation_nil in P. exact P.
    + cbn [map triple]. exists t. intros i Hi. destruct S as (_ & Fk & _). unfold pa in Fk. cbn [fst] in Fk. unfold pa. cbn [fst]. rewrite C by (apply Fk; unfold within; lia). cbn [over].
      replace (inside (p_fun p) 16 (p_fun p + i)) with true by (unfold inside; lia). replace (p_fun p + i - p_fun p) with i by lia. reflexivity.
Qed.
Print Assumptions C29_lifo.

Example C29_ex : steps K0 (t_mem (w_t pa_w), []) ex_events (m6, []) /\ stack_after ex_events [] = Some [] /\
  stack_after (firstn 4 ex_events) [] = Some [(0x7100000, 0x402000, pa_jmp); (0x7000000, 0x402000, pa_jmp)] /\
  bytes_at m6 0x402000 16 = bytes_at (t_mem (w_t pa_w)) 0x402000 16 /\ K0 0x402000.
Proof.
  split; [apply ex_steps|]. split; [reflexivity|]. split; [reflexivity|]. split; [vm_compute; reflexivity|]. unfold K0. lia.
Qed.

(** ** C30: what applying a patch touches *)

(** False: if the code borrowed for a remote call cannot be put back (here the write
    fails), the target's library code stays overwritten, and the failure is not noticed. *)
Definition nth_fails (k : nat) : nat -> Z -> Z -> option Z := fun n _ s => if Nat.eqb n k then None else Some s.
Definition bad_back := pa_run (pa_env_w 0x7000000 (nth_fails 56)) ex_file.
Theorem C30_touches_refuted : exists c s w s' hdr w' log x,
  do_patch c s w = Some (0, s', Some hdr, w', log) /\ (forall x, kept (c_e c) x) /\
  (forall src dst taddr, redirects ex_img src dst -> c_lookup c dst = Some taddr -> ~ within (taddr mod 2 ^ 64) 16 x) /\
  ~ within hdr ex_len x /\ ~ buffer c w x /\ t_mem (w_t w') x <> t_mem (w_t w) x.
Proof.
  set (o := do_patch bad_back (Sess [] 0) pa_w).
  assert (G : o = Some (0, o_sess o, Some 0x7000000, o_world o, o_log o)) by (apply o_get; vm_compute; reflexivity).
  exists bad_back, (Sess [] 0), pa_w, (o_sess o), 0x7000000, (o_world o), (o_log o), 0x7000.
  split; [exact G|]. split; [intros; apply pa_kept|]. split.
  - intros src dst taddr R L. assert (dst = str "old_fn") by (apply (redirects_fun _ _ _ _ _ R ex_redirects)). subst dst.
    assert (taddr = 0x402000) by (vm_compute in L; congruence). subst taddr. vm_compute. intros [X _]. apply X. reflexivity.
  - split; [unfold within, ex_len; lia|]. split; [|vm_compute; discriminate].
    intros B. apply (pa_buffer _ _ 0x5000000) in B; [|vm_compute; reflexivity]. unfold within in B. lia.
Qed.
Print Assumptions C30_touches_refuted.

(** What does hold, for any file and any failures of system calls (except reading and
    writing the borrowed code): at every moment the bytes outside the mapping of the patch,
    the buffer for its name and 16 bytes are unchanged; if an error is reported and no
    write was cut short, these 16 as well.  Missing (false): failing to put code back (above),
    short writes (C88). *)
Theorem C30_touches_partial : forall c s w err s' h w' log, calm (c_e c) (c_a c) (c_libc c) ->
  do_patch c s w = Some (err, s', h, w', log) ->
  exists fn, forall u, In u (w' :: log) -> forall x, kept (c_e c) x -> ~ buffer c w x ->
    (forall hdr m l, h = Some hdr -> alloc_patch_file (c_ae c) = Some (0, Some (m, l)) -> ~ within hdr l x) ->
    (~ within fn 16 x -> t_mem (w_t u) x = t_mem (w_t w) x) /\
    (err <> 0 -> whole_writes (c_e c) -> t_mem (w_t u) x = t_mem (w_t w) x).
Proof. intros c s w err s' h w' log C H. exact (init_frame _ _ _ _ _ _ _ _ _ _ _ _ _ _ _ _ _ _ _ _ _ _ C H). Qed.
Print Assumptions C30_touches_partial.

(** For a patch file as the compiler makes it the 16 bytes are those of the function that
    the file replaces. *)
Theorem C30_function_partial : forall c w ps s w1 f len hdr stop err s' w2 log src dst taddr u x,
  opened (c_e c) w ps s w1 -> run_ok c w1 ps f len hdr stop -> do_patch c s w1 = Some (err, s', Some hdr, w2, log) ->
  redirects f src dst -> c_lookup c dst = Some taddr -> In u (w2 :: log) ->
  kept (c_e c) x -> ~ within hdr len x -> ~ within (taddr mod 2 ^ 64) 16 x -> ~ buffer c w1 x -> t_mem (w_t u) x = t_mem (w_t w) x.
Proof.
  intros c w ps s w1 f len hdr stop err s' w2 log src dst taddr u x O R H Rd L Hu. destruct (run_detail _ _ _ _ _ _ _ _ _ _ _ _ _ O R H) as [A _]. apply (A src dst taddr Rd L u Hu).
Qed.
Print Assumptions C30_function_partial.

(** The conditions are met by both patches of the history above. *)
Example C30_ex : opened (c_e run2) (restart m1) [ap1] (p_sess open2) (p_world open2) /\ run_ok run2 (p_world open2) [ap1] ex_img2 ex_len 0x7100000 0x7101000 /\
  do_patch run2 (p_sess open2) (p_world open2) = Some (0, o_sess out2, Some 0x7100000, o_world out2, o_log out2) /\
  redirects ex_img2 (str "new_fn") (str "old_fn") /\ c_lookup run2 (str "old_fn") = Some 0x402000 /\ calm (c_e run2) (c_a run2) (c_libc run2) /\
  kept (c_e run2) 0x402010 /\ List.length (o_log out2) = 10%nat.
Proof.
  split; [exact opened2|]. split; [exact ok2|]. split; [exact out2_is|]. split; [exact ex_redirects2|]. split; [exact lookup2|]. split; [apply pa_calm|]. split; [apply pa_kept|]. vm_compute. reflexivity.
Qed.

(** ** C31: the original code is saved first *)

(** False: the jump is written only in part (here 8 of 16 bytes); the attempt fails, and
    the patch's mapping, with the only copy of the original code, is removed: the last
    thing executed in the target is munmap of the mapping. *)
Definition short_jump := pa_run (pa_env_w 0x7000000 (fun _ d s => if d =? 0x402000 then Some 8 else Some s)) ex_file.
Definition short_out := do_patch short_jump (Sess [] 0) pa_w.
Strategy expand [short_out].
Lemma short_is : do_patch short_jump (Sess [] 0) pa_w = Some (- 8, o_sess short_out, Some 0x7000000, o_world short_out, o_log short_out).
Proof.
  assert (G : short_out = Some (- 8, o_sess short_out, Some 0x7000000, o_world short_out, o_log short_out)) by (apply o_get; vm_compute; reflexivity).
  unfold short_out at 1 in G. exact G.
Qed.
Lemma split_last {A} (l : list A) n d : List.length l = S n -> l = firstn n l ++ [nth n l d].
Proof.
  revert l. induction n as [|n IH]; intros [|x l] H; try discriminate; cbn in H.
  - destruct l; [reflexivity|discriminate].
  - cbn [firstn nth app]. f_equal. apply IH. congruence.
Qed.
Definition short_last := nth 6 (w_conts (o_world short_out)) (fun _ => 0, fun _ => 0, 0).
Lemma short_len : List.length (w_conts (o_world short_out)) = 7%nat.
Proof. vm_compute. reflexivity. Qed.
Lemma short_call : fst (fst short_last) RAX = 11 /\ fst (fst short_last) RDI = 0x7000000 /\ fst (fst short_last) RSI = ex_len /\ snd short_last = 0 /\ bytes_at (snd (fst short_last)) (fst (fst short_last) RIP) 3 = [15; 5; 204].
Proof. split; [|split; [|split; [|split]]]; vm_compute; reflexivity. Qed.
Lemma short_differs : t_mem (w_t (o_world short_out)) 0x402000 <> t_mem (w_t pa_w) 0x402000.
Proof. vm_compute. discriminate. Qed.
Lemma short_lookup : c_lookup short_jump (str "old_fn") = Some 0x402000.
Proof. vm_compute. reflexivity. Qed.
Theorem C31_backup_refuted : exists c s w err s' hdr w' log z taddr x,
  do_patch c s w = Some (err, s', Some hdr, w', log) /\ err <> 0 /\ redirects ex_img (str "new_fn") (str "old_fn") /\ c_lookup c (str "old_fn") = Some taddr /\
  within taddr 16 x /\ t_mem (w_t w') x <> t_mem (w_t w) x /\
  (exists l, w_conts w' = l ++ [z]) /\
  let '(r, m, sig) := z in r RAX = 11 /\ r RDI = hdr /\ r RSI = ex_len /\ sig = 0 /\ bytes_at m (r RIP) 3 = [15; 5; 204].
Proof.
  exists short_jump, (Sess [] 0), pa_w, (- 8), (o_sess short_out), 0x7000000, (o_world short_out), (o_log short_out), short_last, 0x402000, 0x402000.
  split; [exact short_is|]. split; [lia|]. split; [exact ex_redirects|]. split; [exact short_lookup|]. split; [unfold within; lia|].
  split; [exact short_differs|]. split; [eexists; exact (split_last _ 6 _ short_len)|].
  pose proof short_call as C. revert C. generalize short_last. intros [[r m] sg] C. exact C.
Qed.
Print Assumptions C31_backup_refuted.

(** If no write is cut short: at every moment the function's code is as before, or the
    attempt will be successful and the mapping holds its number, the function's address and
    the original code.  Missing (false): writes cut short. *)
Theorem C31_backup_partial : forall c w ps s w1 f len hdr stop err s' w2 log src dst taddr u,
  opened (c_e c) w ps s w1 -> run_ok c w1 ps f len hdr stop -> whole_writes (c_e c) ->
  do_patch c s w1 = Some (err, s', Some hdr, w2, log) -> redirects f src dst -> c_lookup c dst = Some taddr -> In u (w2 :: log) ->
  (forall x, within (taddr mod 2 ^ 64) 16 x -> t_mem (w_t u) x = t_mem (w_t w) x) \/
  (err = 0 /\ stored (t_mem (w_t u)) hdr f ((max_of ps 0 + 1) mod 2 ^ 32) (taddr mod 2 ^ 64) (t_mem (w_t w))).
Proof.
  intros c w ps s w1 f len hdr stop err s' w2 log src dst taddr u O R WW H Rd L Hu.
  destruct (run_detail _ _ _ _ _ _ _ _ _ _ _ _ _ O R H) as [A _]. destruct (A src dst taddr Rd L u Hu) as [_ [B|B]]; [left; exact B|].
  destruct (Z.eq_dec err 0) as [E|E]; [right; split; assumption|]. left. intros x Hx.
  destruct (init_frame _ _ _ _ _ _ _ _ _ _ _ _ _ _ _ _ _ _ _ _ _ _ (r_calm _ _ _ _ _ _ _ R) H) as (fn & F).
  destruct (opened_is _ _ _ _ _ O) as (us & _ & _ & Ew). destruct (r_fun _ _ _ _ _ _ _ R src dst taddr Rd L x Hx) as (K1 & K2 & _ & K4).
  rewrite <- Ew. apply (F u Hu x K1 K4); auto. intros h m l Eh AL. assert (h = hdr) by congruence. subst h.
  destruct (r_file _ _ _ _ _ _ _ R) as (AL' & _). rewrite AL' in AL. assert (l = len) by congruence. subst l. exact K2.
Qed.
Print Assumptions C31_backup_partial.

Example C31_ex : opened (c_e run2) (restart m1) [ap1] (p_sess open2) (p_world open2) /\ run_ok run2 (p_world open2) [ap1] ex_img2 ex_len 0x7100000 0x7101000 /\
  whole_writes (c_e run2) /\ do_patch run2 (p_sess open2) (p_world open2) = Some (0, o_sess out2, Some 0x7100000, o_world out2, o_log out2) /\
  bytes_at m2 0x402000 16 <> bytes_at m1 0x402000 16 /\ bytes_at m2 (0x7100000 + 80 + 28) 16 = bytes_at m1 0x402000 16.
Proof.
  split; [exact opened2|]. split; [exact ok2|]. split; [apply pa_whole|]. split; [exact out2_is|]. split; [vm_compute; discriminate|]. vm_compute. reflexivity.
Qed.

(** ** C32: identifiers *)

(** After any history: the patches present, newest first, have strictly decreasing numbers,
    and these are the numbers stored in their mappings. *)
Theorem C32_ordered : forall K m0 es m vs, steps K (m0, []) es (m, vs) -> Z.of_nat (List.length es) < 2 ^ 32 - 1 ->
  exists stk ps, stack_after es [] = Some stk /\ map p_start ps = map (fun t => fst (fst t)) stk /\ Permutation vs (map p_range ps) /\
    StronglySorted (fun p q => p_id q < p_id p) ps /\
    forall p info, In p ps -> info_at (p_file p) info -> ld 4 m (p_start p + info) = p_id p.
Proof.
  intros K m0 es m vs H Bd. destruct (steps_inv K m0 _ _ _ [] H ltac:(cbn [List.length]; lia) (inv_start K m0)) as (ps & (P & F & C & S) & E).
  cbn [fst snd map] in *. exists (map triple ps), (map pa ps). split; [exact E|]. rewrite !map_map. split; [reflexivity|]. split; [exact P|]. split.
  - clear - S. induction ps as [|q ps IH]; cbn [map]; [constructor|]. destruct S as (I & _ & _ & _ & S). constructor; [auto|]. rewrite I. clear - S.
    assert (G : forall n, Z.of_nat (List.length ps) <= n -> Forall (fun p => p_id p < n + 1) (map pa ps)).
    { induction ps as [|q' ps IH]; intros n Hn; cbn [map]; [constructor|]. destruct S as (I & _ & _ & _ & S). cbn [List.length] in Hn. constructor; [lia|]. apply IH; [auto|lia]. }
    apply G. lia.
  - intros p info Hp Hi. rewrite Forall_forall in F. destruct (F p Hp) as (_ & _ & St). apply (St info Hi).
Qed.
Print Assumptions C32_ordered.

(** One session, whatever patches are present and whatever their numbers: the number
    stored for the new patch is larger. *)
Theorem C32_larger : forall c w ps s w1 f len hdr stop s' w2 log info,
  opened (c_e c) w ps s w1 -> run_ok c w1 ps f len hdr stop -> do_patch c s w1 = Some (0, s', Some hdr, w2, log) ->
  Forall (fun p => p_id p < 2 ^ 32 - 1) ps -> info_at f info ->
  Forall (fun p => p_id p < ld 4 (t_mem (w_t w2)) (hdr + info)) ps.
Proof.
  intros c w ps s w1 f len hdr stop s' w2 log info O R H Bd Hi. destruct (run_detail _ _ _ _ _ _ _ _ _ _ _ _ _ O R H) as [_ A].
  destruct (A eq_refl) as (li & src & dst & taddr & _ & _ & _ & _ & _ & _ & St). destruct (St info Hi) as (-> & _). destruct (max_of_ge ps 0) as [G0 G].
  rewrite Z.mod_small. { rewrite Forall_forall in *. intros p Hp. specialize (G p Hp). lia. }
  split; [lia|]. destruct (max_of_in ps 0) as [->|(p & Hp & ->)]; [lia|]. rewrite Forall_forall in Bd. specialize (Bd p Hp). lia.
Qed.
Print Assumptions C32_larger.

Example C32_ex : steps K0 (t_mem (w_t pa_w), []) (firstn 4 ex_events) (m4, [v2; v1]) /\
  opened (c_e run2) (restart m1) [ap1] (p_sess open2) (p_world open2) /\ run_ok run2 (p_world open2) [ap1] ex_img2 ex_len 0x7100000 0x7101000 /\
  do_patch run2 (p_sess open2) (p_world open2) = Some (0, o_sess out2, Some 0x7100000, o_world out2, o_log out2) /\
  ld 4 m2 (0x7000000 + 80) = 1 /\ ld 4 m2 (0x7100000 + 80) = 2.
Proof.
  split; [exact (steps_cons K0 _ _ _ _ _ ex_step1 (steps_cons K0 _ _ _ _ _ ex_step2 (steps_cons K0 _ _ _ _ _ ex_step3 (steps_cons K0 _ _ _ _ _ ex_step4 (steps_nil K0 _)))))|].
  split; [exact opened2|]. split; [exact ok2|]. split; [exact out2_is|]. split; vm_compute; reflexivity.
Qed.

(** ** C33: the same patch twice *)

(** False: if the patch's mapping cannot be read when the session is opened, the patch is
    not noticed, and it is applied a second time. *)
Definition blind_env : env :=
  Env (fun _ => None) (fun _ => None) (fun _ a s => if a =? 0x7000000 then None else Some s) (fun _ _ s => Some s) (fun _ => None) (pa_wait 0x7200000)
      (fun _ => None) (fun _ r m => WStopped SIGSTOP r m) (fun _ => None) (fun _ => 0xa5).
Definition blind := pa_run blind_env ex_file.
Definition blind_open := open_session (c_e blind) (restart m1) [v1].
Definition blind_out := do_patch blind (p_sess blind_open) (p_world blind_open).
Strategy expand [blind_open blind_out].
Lemma blind_open_is : open_session (c_e blind) (restart m1) [v1] = Some (p_sess blind_open, p_world blind_open).
Proof.
  assert (G : blind_open = Some (p_sess blind_open, p_world blind_open)) by (apply p_get; vm_compute; reflexivity).
  unfold blind_open at 1 in G. exact G.
Qed.
Lemma blind_is : do_patch blind (p_sess blind_open) (p_world blind_open) = Some (0, o_sess blind_out, Some 0x7200000, o_world blind_out, o_log blind_out).
Proof.
  assert (G : blind_out = Some (0, o_sess blind_out, Some 0x7200000, o_world blind_out, o_log blind_out)) by (apply o_get; vm_compute; reflexivity).
  unfold blind_out at 1 in G. exact G.
Qed.
Lemma ex_alloc : alloc_patch_file (c_ae blind) = Some (0, Some (ex_img, ex_len)).
Proof. destruct (pa_good 0) as (A & _). exact A. Qed.
Theorem C33_twice_refuted : exists c w p s w1 f len li s' hdr w2 log,
  present (t_mem (w_t w)) p /\ open_session (c_e c) w [p_range p] = Some (s, w1) /\
  alloc_patch_file (c_ae c) = Some (0, Some (f, len)) /\ setup_load_info f len = Some (inr li) /\ li_bid li = Some (p_bid p) /\
  do_patch c s w1 = Some (0, s', Some hdr, w2, log).
Proof.
  exists blind, (restart m1), ap1, (p_sess blind_open), (p_world blind_open), ex_img, ex_len, ex_li, (o_sess blind_out), 0x7200000, (o_world blind_out), (o_log blind_out).
  split; [rewrite restart_mem; exact ap1_present|]. split; [exact blind_open_is|]. split; [exact ex_alloc|]. split; [apply C82_ex|]. split; [reflexivity|]. exact blind_is.
Qed.
Print Assumptions C33_twice_refuted.

(** If the mappings of the patches can be read: any file with the build id of a present
    patch is refused, whatever else fails, and at no moment are bytes changed outside the
    mapping (made for the file, then removed) and the buffer for its name.  Missing (false):
    unreadable mappings. *)
Theorem C33_twice_partial : forall c w ps s w1 f len li p err s' h w2 log,
  opened (c_e c) w ps s w1 -> calm (c_e c) (c_a c) (c_libc c) ->
  alloc_patch_file (c_ae c) = Some (0, Some (f, len)) -> setup_load_info f len = Some (inr li) -> li_bid li = Some (p_bid p) -> In p ps ->
  do_patch c s w1 = Some (err, s', h, w2, log) ->
  err <> 0 /\ forall u, In u (w2 :: log) -> forall x, kept (c_e c) x -> ~ buffer c w1 x -> (forall hdr, h = Some hdr -> ~ within hdr len x) ->
    t_mem (w_t u) x = t_mem (w_t w) x.
Proof.
  intros c w ps s w1 f len li p err s' h w2 log O CM AL SU Eb Hp H. destruct (opened_is _ _ _ _ _ O) as (us & -> & F & Ew).
  assert (KN : known (rev us ++ []) (Some (p_bid p)) = Some true).
  { rewrite (known_ok ps us _ F). f_equal. apply existsb_exists. exists p. split; [exact Hp|]. unfold list_eqb. destruct (list_eq_dec Z.eq_dec (p_bid p) (p_bid p)); [reflexivity|contradiction]. }
  rewrite <- Ew. exact (already _ _ _ _ _ _ _ _ _ _ _ _ _ _ _ _ _ _ _ _ _ _ _ _ _ _ CM H AL SU Eb KN).
Qed.
Print Assumptions C33_twice_partial.

Lemma out3_is : match do_patch run3 (p_sess open3) (p_world open3) with Some (e, _, Some h, _, _) => (e =? - EALREADY) && (h =? 0x7200000) | _ => false end = true.
Proof. vm_compute. reflexivity. Qed.
Example C33_ex : opened (c_e run3) (restart m2) [ap1; ap2] (p_sess open3) (p_world open3) /\ calm (c_e run3) (c_a run3) (c_libc run3) /\
  alloc_patch_file (c_ae run3) = Some (0, Some (ex_img, ex_len)) /\ setup_load_info ex_img ex_len = Some (inr ex_li) /\ li_bid ex_li = Some (p_bid ap1) /\
  match do_patch run3 (p_sess open3) (p_world open3) with Some (e, _, Some h, _, _) => (e =? - EALREADY) && (h =? 0x7200000) | _ => false end = true.
Proof.
  split; [exact opened3|]. split; [apply pa_calm|]. split; [exact ex_alloc|]. split; [apply C82_ex|]. split; [reflexivity|]. exact out3_is.
Qed.

(** ** C34: one session *)

(** False, always: the session is not told about the patch, so removal in the session that
    applied it finds no patch with the newest number. *)
Theorem C34_removal_never : forall c c2 w ps s w1 f len hdr stop s' w2 log,
  opened (c_e c) w ps s w1 -> run_ok c w1 ps f len hdr stop -> do_patch c s w1 = Some (0, s', Some hdr, w2, log) -> max_of ps 0 < 2 ^ 32 - 1 ->
  do_unpatch c2 s' w2 = Some (- ENOENT, w2, [], None).
Proof.
  intros c c2 w ps s w1 f len hdr stop s' w2 log O R H B. destruct (run_detail _ _ _ _ _ _ _ _ _ _ _ _ _ O R H) as [_ A].
  destruct (A eq_refl) as (li & src & dst & taddr & _ & _ & _ & _ & -> & _). exact (same_session _ _ _ _ _ _ _ _ w2 _ _ _ O B).
Qed.
Print Assumptions C34_removal_never.

Example C34_ex : opened (c_e run2) (restart m1) [ap1] (p_sess open2) (p_world open2) /\ run_ok run2 (p_world open2) [ap1] ex_img2 ex_len 0x7100000 0x7101000 /\
  do_patch run2 (p_sess open2) (p_world open2) = Some (0, o_sess out2, Some 0x7100000, o_world out2, o_log out2) /\ max_of [ap1] 0 = 1.
Proof. split; [exact opened2|]. split; [exact ok2|]. split; [exact out2_is|]. reflexivity. Qed.

Theorem C34_removal_refuted : exists c s w s' hdr w' log,
  do_patch c s w = Some (0, s', Some hdr, w', log) /\ do_unpatch c s' w' = Some (- ENOENT, w', [], None).
Proof.
  exists run2, (p_sess open2), (p_world open2), (o_sess out2), 0x7100000, (o_world out2), (o_log out2). split; [exact out2_is|].
  apply (C34_removal_never _ _ _ _ _ _ _ _ _ _ _ _ _ opened2 ok2 out2_is). reflexivity.
Qed.
Print Assumptions C34_removal_refuted.

(** And the same file is accepted a second time in the same session. *)
Definition again_out := do_patch run3 (o_sess out1) (o_world out1).
Strategy expand [again_out].
Lemma again_is : do_patch run3 (o_sess out1) (o_world out1) = Some (0, o_sess again_out, Some 0x7200000, o_world again_out, o_log again_out).
Proof.
  assert (G : again_out = Some (0, o_sess again_out, Some 0x7200000, o_world again_out, o_log again_out)) by (apply o_get; vm_compute; reflexivity).
  unfold again_out at 1 in G. exact G.
Qed.
Theorem C34_twice_refuted : exists c c2 s w s1 h1 w1 log1 s2 h2 w2 log2,
  c_ae c = c_ae c2 /\ do_patch c s w = Some (0, s1, Some h1, w1, log1) /\ do_patch c2 s1 w1 = Some (0, s2, Some h2, w2, log2).
Proof.
  exists run1, run3, (p_sess open1), (p_world open1), (o_sess out1), 0x7000000, (o_world out1), (o_log out1), (o_sess again_out), 0x7200000, (o_world again_out), (o_log again_out).
  split; [reflexivity|]. split; [exact out1_is|exact again_is].
Qed.
Print Assumptions C34_twice_refuted.

(** ** C88: a failed attempt leaves the function as it was *)

(** False: a write of the jump that is cut short is reported, but not undone. *)
Theorem C88_failed_refuted : exists c s w err s' hdr w' log taddr,
  do_patch c s w = Some (err, s', Some hdr, w', log) /\ err <> 0 /\ c_lookup c (str "old_fn") = Some taddr /\
  bytes_at (t_mem (w_t w)) taddr 16 = [0; 1; 2; 3; 4; 5; 6; 7; 8; 9; 10; 11; 12; 13; 14; 15] /\
  bytes_at (t_mem (w_t w')) taddr 16 = [255; 37; 2; 0; 0; 0; 144; 144; 8; 9; 10; 11; 12; 13; 14; 15].
Proof.
  exists short_jump, (Sess [] 0), pa_w, (- 8), (o_sess short_out), 0x7000000, (o_world short_out), (o_log short_out), 0x402000.
  split; [exact short_is|]. split; [lia|]. split; [exact short_lookup|]. split; vm_compute; reflexivity.
Qed.
Print Assumptions C88_failed_refuted.

(** If no write is cut short: every byte outside the new mapping and the name buffer. *)
Theorem C88_failed_partial : forall c s w err s' h w' log x, calm (c_e c) (c_a c) (c_libc c) -> whole_writes (c_e c) ->
  do_patch c s w = Some (err, s', h, w', log) -> err <> 0 -> kept (c_e c) x -> ~ buffer c w x ->
  (forall hdr m l, h = Some hdr -> alloc_patch_file (c_ae c) = Some (0, Some (m, l)) -> ~ within hdr l x) ->
  t_mem (w_t w') x = t_mem (w_t w) x.
Proof.
  intros c s w err s' h w' log x C WW H E K1 K2 K3. destruct (init_frame _ _ _ _ _ _ _ _ _ _ _ _ _ _ _ _ _ _ _ _ _ _ C H) as (fn & F).
  apply (F w' (or_introl eq_refl) x K1 K2 K3); assumption.
Qed.
Print Assumptions C88_failed_partial.

Definition stuck := pa_run (pa_env_w 0x7000000 (fun _ d s => if d =? 0x402000 then None else Some s)) ex_file.
Lemma stuck_fails : match do_patch stuck (Sess [] 0) pa_w with Some (e, _, Some h, w, _) => (e <? 0) && (h =? 0x7000000) | _ => false end = true.
Proof. vm_compute. reflexivity. Qed.
Example C88_ex : calm (c_e stuck) (c_a stuck) (c_libc stuck) /\ whole_writes (c_e stuck) /\ kept (c_e stuck) 0x402000 /\
  match do_patch stuck (Sess [] 0) pa_w with Some (e, _, Some h, w, _) => (e <? 0) && (h =? 0x7000000) | _ => false end = true.
Proof.
  split. { split; [intros n x s k [H|H]; cbn in H; [|destruct (x =? 0x402000); [discriminate|]]; assert (s = k) by congruence; lia|]. intros n. split; reflexivity. }
  split; [intros n d s k H; cbn in H; destruct (d =? 0x402000); congruence|]. split; [apply pa_kept|]. exact stuck_fails.
Qed.

(** ** C89: the tool dies while applying a patch *)

(** False: it dies after the record has got the number and the function's address and
    before the function's code has been copied to it; the next unpatch overwrites the
    function, which was still intact, with zeros, and reports success. *)
Definition crash := nth 4 (o_log out1) pa_w.
Definition late_open := open_session (c_e run3) (restart (t_mem (w_t crash))) [v1].
Definition late_out := do_unpatch run3 (p_sess late_open) (p_world late_open).
Strategy expand [late_open late_out crash].
Lemma crash_in : In crash (o_log out1).
Proof. unfold crash. apply nth_In. assert (E : List.length (o_log out1) = 10%nat) by (vm_compute; reflexivity). rewrite E. lia. Qed.
Lemma late_open_is : open_session (c_e run3) (restart (t_mem (w_t crash))) [v1] = Some (p_sess late_open, p_world late_open).
Proof.
  assert (G : late_open = Some (p_sess late_open, p_world late_open)) by (apply p_get; vm_compute; reflexivity).
  unfold late_open at 1 in G. exact G.
Qed.
Lemma late_is : do_unpatch run3 (p_sess late_open) (p_world late_open) = Some (0, q_world late_out, q_log late_out, Some (q_ulp late_out)).
Proof.
  assert (G : late_out = Some (0, q_world late_out, q_log late_out, Some (q_ulp late_out))) by (apply q_get; vm_compute; reflexivity).
  unfold late_out at 1 in G. exact G.
Qed.
Theorem C89_crash_refuted : exists c c2 w s w1 s' hdr stop w2 log u s2 w3 w4 log2 v,
  opened (c_e c) w [] s w1 /\ run_ok c w1 [] ex_img ex_len hdr stop /\
  do_patch c s w1 = Some (0, s', Some hdr, w2, log) /\ In u log /\
  open_session (c_e c2) (restart (t_mem (w_t u))) [(hdr, stop)] = Some (s2, w3) /\ do_unpatch c2 s2 w3 = Some (0, w4, log2, Some v) /\
  c_lookup c (str "old_fn") = Some 0x402000 /\
  bytes_at (t_mem (w_t w)) 0x402000 16 = [0; 1; 2; 3; 4; 5; 6; 7; 8; 9; 10; 11; 12; 13; 14; 15] /\
  bytes_at (t_mem (w_t u)) 0x402000 16 = [0; 1; 2; 3; 4; 5; 6; 7; 8; 9; 10; 11; 12; 13; 14; 15] /\
  bytes_at (t_mem (w_t w4)) 0x402000 16 = [0; 0; 0; 0; 0; 0; 0; 0; 0; 0; 0; 0; 0; 0; 0; 0].
Proof.
  exists run1, run3, pa_w, (p_sess open1), (p_world open1), (o_sess out1), 0x7000000, 0x7001000, (o_world out1), (o_log out1), crash, (p_sess late_open), (p_world late_open), (q_world late_out), (q_log late_out), (q_ulp late_out).
  split; [exact opened1|]. split; [exact ok1|]. split; [exact out1_is|]. split; [exact crash_in|]. split; [exact late_open_is|]. split; [exact late_is|].
  split; [vm_compute; reflexivity|]. split; [vm_compute; reflexivity|]. split; vm_compute; reflexivity.
Qed.
Print Assumptions C89_crash_refuted.

(** From any moment at which the copy has been made on, also after the jump has been
    written: the next session finds the patch, and removes it, so that the function's code
    is as before.  Missing (false): the moments before.  By [C31_backup_partial] the copy is made
    before the function is changed. *)
Theorem C89_crash_partial : forall c c2 w ps s w1 f len hdr stop err s' w2 log src dst taddr u wx vs s2 w3 w4 log2 v li bid,
  opened (c_e c) w ps s w1 -> run_ok c w1 ps f len hdr stop -> max_of ps 0 < 2 ^ 32 - 1 ->
  do_patch c s w1 = Some (err, s', Some hdr, w2, log) -> redirects f src dst -> c_lookup c dst = Some taddr -> In u (w2 :: log) ->
  setup_load_info f len = Some (inr li) -> li_bid li = Some bid ->
  stored (t_mem (w_t u)) hdr f ((max_of ps 0 + 1) mod 2 ^ 32) (taddr mod 2 ^ 64) (t_mem (w_t w)) ->
  t_mem (w_t wx) = t_mem (w_t u) -> Permutation ((hdr, stop) :: map p_range ps) vs -> Forall (readable (c_e c2)) vs -> calm (c_e c2) (c_a c2) (c_libc c2) ->
  (forall x, within (taddr mod 2 ^ 64) 16 x -> kept (c_e c2) x) ->
  open_session (c_e c2) wx vs = Some (s2, w3) -> do_unpatch c2 s2 w3 = Some (0, w4, log2, v) ->
  (exists v', v = Some v' /\ u_start v' = hdr) /\
  forall i, 0 <= i < 16 -> t_mem (w_t w4) (taddr mod 2 ^ 64 + i) = t_mem (w_t w) (taddr mod 2 ^ 64 + i).
Proof.
  intros c c2 w ps s w1 f len hdr stop err s' w2 log src dst taddr u wx vs s2 w3 w4 log2 v li bid O R B H Rd L Hu SU Eb St Em Pm RD C2 K2 OS H2.
  pose proof (still_present _ _ _ _ _ _ _ _ _ _ _ _ _ _ _ _ _ O R H Hu Rd L) as SP.
  pose proof (new_present _ _ _ _ _ _ _ u li bid taddr w R SU Eb St) as NP. set (p := Applied hdr stop f len bid _ _ _) in NP.
  change ((hdr, stop) :: map p_range ps) with (map p_range (p :: ps)) in Pm.
  destruct (Permutation_map_inv p_range _ (Permutation_sym Pm)) as (ps' & -> & P').
  destruct (max_of_ge ps 0) as [G0 G].
  assert (Ip : p_id p = max_of ps 0 + 1) by (cbn [p p_id]; apply Z.mod_small; lia).
  assert (O2 : opened (c_e c2) wx ps' s2 w3).
  { split; [|split; [|exact OS]].
    - rewrite Forall_map in RD. exact RD.
    - rewrite Em. apply (Permutation_Forall P'). constructor; assumption. }
  unfold do_unpatch in H2.
  assert (Sm : Forall (fun q => p_id q < p_id p) ps) by (rewrite Forall_forall in *; intros q Hq; specialize (G q Hq); lia).
  assert (P0 : 0 <= p_id p) by lia.
  destruct (remove_newest _ _ _ _ _ _ _ _ _ _ p ps _ _ _ C2 O2 P' Sm P0 H2) as ((v' & Ev & Es & _) & _ & Q).
  split; [exists v'; auto|]. intros i Hi. apply (Q i Hi). apply K2. unfold within. cbn [p p_fun]. lia.
Qed.
Print Assumptions C89_crash_partial.

Lemma after_is : match do_unpatch run3 (p_sess open3) (p_world open3) with Some (e, _, _, Some v) => (e =? 0) && (u_start v =? 0x7100000) | _ => false end = true.
Proof. vm_compute. reflexivity. Qed.
Example C89_ex : opened (c_e run2) (restart m1) [ap1] (p_sess open2) (p_world open2) /\ run_ok run2 (p_world open2) [ap1] ex_img2 ex_len 0x7100000 0x7101000 /\
  do_patch run2 (p_sess open2) (p_world open2) = Some (0, o_sess out2, Some 0x7100000, o_world out2, o_log out2) /\
  setup_load_info ex_img2 ex_len = Some (inr ex_li2) /\ present m2 ap2 /\ Permutation ((0x7100000, 0x7101000) :: map p_range [ap1]) [v1; v2] /\
  open_session (c_e run3) (restart m2) [v1; v2] = Some (p_sess open3, p_world open3) /\
  match do_unpatch run3 (p_sess open3) (p_world open3) with Some (e, _, _, Some v) => (e =? 0) && (u_start v =? 0x7100000) | _ => false end = true.
Proof.
  split; [exact opened2|]. split; [exact ok2|]. split; [exact out2_is|]. split; [apply ex_setup2|]. split; [exact ap2_present|]. split; [apply perm_swap|].
  split; [exact (proj2 (proj2 opened3))|]. exact after_is.
Qed.
