(** Finding and replacing the first call of a function: C215. *)
From Coq Require Import ZArith List Bool Lia.
From Verif Require Import Word WordLemmas InsnModel InsnSpec InsnProofs InsnProps FcModel FcSpec.
Import ListNotations.
Open Scope Z_scope.

Lemma code_nth m a l i b : code_at m a l -> nth_error l i = Some b -> 0 <= a -> a + Z.of_nat (length l) <= 2 ^ 64 -> m (a + Z.of_nat i) = b.
Proof.
  intros H E Ha Hl. rewrite <- (H i b E). f_equal. unfold addr64. symmetry. apply Z.mod_small.
  assert (i < length l)%nat by (apply nth_error_Some; congruence). lia.
Qed.

Lemma callq_found m func : forall pre rest fuel off, code_at m (func + off) (pre ++ 0xe8 :: rest) -> ~ In 0xe8 pre ->
  0 <= off -> off + Z.of_nat (length pre) < 2 ^ 32 -> (length pre < fuel)%nat ->
  callq_loop fuel m func off = Some (off + Z.of_nat (length pre)).
Proof.
  induction pre as [|b pre IH]; intros rest fuel off Hc Hn Ho Hs Hf; destruct fuel as [|fuel]; cbn [length] in *; try lia; cbn [callq_loop app] in *.
  - destruct (code_at_tl _ _ _ _ Hc) as [X _]. change (u64 (func + off)) with (addr64 (func + off)). rewrite X. cbn. f_equal. lia.
  - destruct (code_at_tl _ _ _ _ Hc) as [X Y]. change (u64 (func + off)) with (addr64 (func + off)). rewrite X.
    destruct (Z.eqb_spec b INST_CALLQ) as [->|]; [exfalso; apply Hn; left; reflexivity|].
    replace (u32 (off + 1)) with (off + 1) by (symmetry; apply wrap_id; lia). replace (func + off + 1) with (func + (off + 1)) in Y by ring.
    rewrite (IH rest fuel (off + 1) Y); try lia; [f_equal; lia|]. intros H. apply Hn. right. exact H.
Qed.

(** What is written in the place of a part of the code, of the same length. *)
Lemma code_put m a pre old new post : code_at m a (pre ++ old ++ post) -> length new = length old ->
  0 <= a -> a + Z.of_nat (length (pre ++ old ++ post)) <= 2 ^ 64 ->
  code_at (put m (a + Z.of_nat (length pre)) new) a (pre ++ new ++ post).
Proof.
  intros H El Ha Hl i b E. rewrite !app_length in Hl.
  assert (Hi : (i < length pre + (length new + length post))%nat) by (rewrite <- !app_length; apply nth_error_Some; congruence).
  assert (A : addr64 (a + Z.of_nat i) = a + Z.of_nat i) by (apply Z.mod_small; lia). rewrite A. unfold put.
  destruct (Nat.lt_ge_cases i (length pre)) as [C1|C1].
  - rewrite nth_error_app1 in E by lia. rewrite (proj2 (Z.leb_gt _ _)) by lia. cbn [andb]. rewrite <- A. apply (H i b). rewrite nth_error_app1 by lia. exact E.
  - rewrite nth_error_app2 in E by lia. destruct (Nat.lt_ge_cases (i - length pre) (length new)) as [C2|C2].
    + rewrite nth_error_app1 in E by lia. rewrite (proj2 (Z.leb_le _ _)), (proj2 (Z.ltb_lt _ _)) by lia. cbn [andb].
      replace (Z.to_nat (a + Z.of_nat i - (a + Z.of_nat (length pre)))) with (i - length pre)%nat by lia. apply nth_error_nth. exact E.
    + rewrite nth_error_app2 in E by lia. rewrite (proj2 (Z.leb_le _ _)), (proj2 (Z.ltb_ge _ _)) by lia. cbn [andb].
      rewrite <- A. apply (H i b). rewrite nth_error_app2 by lia. rewrite nth_error_app2 by lia. rewrite <- E. f_equal. lia.
Qed.

Lemma code_after m a pre l : code_at m a (pre ++ l) -> code_at m (a + Z.of_nat (length pre)) l.
Proof.
  intros H i b E. replace (a + Z.of_nat (length pre) + Z.of_nat i) with (a + Z.of_nat (length pre + i)) by lia.
  apply (H (length pre + i)%nat b). rewrite nth_error_app2 by lia. rewrite <- E. f_equal. lia.
Qed.
Lemma code_first m a l l' : code_at m a (l ++ l') -> code_at m a l.
Proof. intros H i b E. apply H. rewrite nth_error_app1; [exact E|]. apply nth_error_Some. congruence. Qed.

(** The claim: in code that is a sequence of instructions, the first call is found, and after
    it was replaced the code is the same but for the call.  On x86-64 the byte e8 is looked
    for: sub $0xe8,%rsp; call. *)
Definition frame_insn : list Z := [0x48; 0x81; 0xec; 0xe8; 0x00; 0x00; 0x00].
Theorem C215_first_call_refuted : exists m func pre call fuel off addr,
  code_at m func (concat pre ++ call) /\ x86_call call /\ Forall (fun i => ~ x86_call i) pre /\
  x86_64_func_callq_offset fuel m func = Some off /\ off <> Z.of_nat (length (concat pre)) /\
  - 2 ^ 31 <= sx 64 (addr - (func + off + 5)) < 2 ^ 31 /\
  ~ code_at (put m (func + off) (ftrace_call_replace 0 (func + off) addr)) func (concat pre).
Proof.
  exists (code_mem 0x401000 (frame_insn ++ [0xe8; 0x10; 0; 0; 0])), 0x401000, [frame_insn], [0xe8; 0x10; 0; 0; 0], 20%nat, 3, 0x402000.
  split; [apply code_mem_at; vm_compute; reflexivity|]. split; [exists 0x10, 0, 0, 0; reflexivity|].
  split; [constructor; [intros (? & ? & ? & ? & H); discriminate H|constructor]|]. split; [vm_compute; reflexivity|]. split; [discriminate|].
  split; [vm_compute; split; [discriminate|reflexivity]|].
  intros H. pose proof (code_nth _ 0x401000 _ 4 0 H eq_refl ltac:(lia) ltac:(vm_compute; discriminate)) as X4. vm_compute in X4. discriminate X4.
Qed.
Print Assumptions C215_first_call_refuted.

(** x86-64, what holds: the byte e8 is in no instruction before the call.  The offset is that
    of the call; after the replacement by a call the rest of the code is the same and the
    call goes to the address, if it can be reached, and will return behind itself; after the
    replacement by a nop the rest of the code is the same. *)
Theorem C215_x86_partial : forall m func pre call post fuel old addr regs,
  0 <= func -> func + Z.of_nat (length (concat pre ++ call ++ post)) <= 2 ^ 64 ->
  code_at m func (concat pre ++ call ++ post) -> x86_call call -> ~ In 0xe8 (concat pre) ->
  Z.of_nat (length (concat pre)) < 2 ^ 32 -> (length (concat pre) < fuel)%nat -> 0 <= addr < 2 ^ 64 ->
  exists off, x86_64_func_callq_offset fuel m func = Some off /\ off = Z.of_nat (length (concat pre)) /\
    (let new := ftrace_call_replace old (func + off) addr in
     let m' := put m (func + off) new in
     x86_call new /\ code_at m' func (concat pre ++ new ++ post) /\
     (- 2 ^ 31 <= sx 64 (addr - (func + off + 5)) < 2 ^ 31 ->
      exists s', x86_step (XCpu regs (func + off) m') = Some s' /\ x_rip s' = addr /\
        x_reg s' = set_reg regs rsp (addr64 (regs rsp - 8)) /\ x_mem s' = wr64 m' (addr64 (regs rsp - 8)) (addr64 (func + off + 5)))) /\
    code_at (put m (func + off) (firstn 5 ftrace_nop_replace)) func (concat pre ++ nop5 ++ post).
Proof.
  intros m func pre call post fuel old addr regs Hf Hl Hc (b0 & b1 & b2 & b3 & ->) Hn Hs Hfu Ha.
  exists (Z.of_nat (length (concat pre))).
  assert (E : x86_64_func_callq_offset fuel m func = Some (Z.of_nat (length (concat pre)))).
  { unfold x86_64_func_callq_offset. rewrite (callq_found m func (concat pre) ([b0; b1; b2; b3] ++ post)); [reflexivity| |exact Hn|lia|lia|exact Hfu].
    rewrite Z.add_0_r. exact Hc. }
  split; [exact E|]. split; [reflexivity|]. set (off := Z.of_nat (length (concat pre))) in *.
  split; [|apply (code_put m func (concat pre) [0xe8; b0; b1; b2; b3] nop5 post Hc eq_refl Hf Hl)].
  set (new := ftrace_call_replace old (func + off) addr). cbv zeta.
  assert (L : length new = 5%nat) by reflexivity.
  pose proof (code_put m func (concat pre) [0xe8; b0; b1; b2; b3] new post Hc L Hf Hl) as Q. fold off in Q.
  split; [eexists _, _, _, _; reflexivity|]. split; [exact Q|]. intros R.
  assert (Q' : code_at (put m (func + off) new) (func + off) new) by (apply code_after in Q; apply code_first in Q; exact Q).
  destruct (C19_call_jump_reach old 0xe8 (func + off) addr (put m (func + off) new) regs (or_introl eq_refl) Ha Q') as (s' & S1 & S2 & _ & S3).
  exists s'. split; [exact S1|]. split; [apply S2; exact R|]. apply S3. reflexivity.
Qed.
Print Assumptions C215_x86_partial.

Lemma is_bl_iff w : 0 <= w < 2 ^ 32 -> (is_bl w = true <-> a64_call w).
Proof.
  intros Hw. unfold is_bl, a64_call, bits. change 0xFC000000 with (Z.shiftl (Z.ones 6) 26). rewrite Z.eqb_eq.
  assert (X : Z.land w (Z.shiftl (Z.ones 6) 26) = w / 2 ^ 26 * 2 ^ 26).
  { rewrite <- Z.shiftr_div_pow2, <- Z.shiftl_mul_pow2 by lia. apply Z.bits_inj'. intros n Hn. rewrite Z.land_spec, !Z.shiftl_spec by lia.
    destruct (Z.lt_ge_cases n 26) as [C|C]; [rewrite !(Z.testbit_neg_r _ (n - 26)) by lia; apply andb_false_r|]. rewrite Z.shiftr_spec by lia. replace (n - 26 + 26) with n by lia.
    destruct (Z.lt_ge_cases n 32) as [D|D]; [rewrite Z.ones_spec_low by lia; apply andb_true_r|].
    rewrite Z.ones_spec_high by lia. rewrite andb_false_r. symmetry. destruct (Z.eq_dec w 0) as [->|Nz]; [apply Z.bits_0|]. apply Z.bits_above_log2; [lia|].
    apply Z.log2_lt_pow2; [lia|]. apply Z.lt_le_trans with (2 ^ 32); [lia|]. apply Z.pow_le_mono_r; lia. }
  rewrite X. change 0x94000000 with (0x25 * 2 ^ 26).
  assert (Y : (w / 2 ^ 26) mod 2 ^ 6 = w / 2 ^ 26) by (apply Z.mod_small; split; [apply Z.div_pos; lia|apply Z.div_lt_upper_bound; lia]). rewrite Y.
  change (2 ^ 26) with 67108864. set (q := w / 67108864). clearbody q. clear. lia.
Qed.

Lemma ld_rd n : forall m a, 0 <= a -> a + Z.of_nat n <= 2 ^ 64 -> ld n m a = rd n m a.
Proof.
  induction n as [|n IH]; intros m a Ha Hl; [reflexivity|]. rewrite ld_S, rd_S, IH by lia. f_equal. f_equal. unfold addr64. symmetry. apply Z.mod_small. lia.
Qed.
Lemma words_len ws : length (concat (map (le_bytes 4) ws)) = (4 * length ws)%nat.
Proof. induction ws as [|w ws IH]; [reflexivity|]. cbn [map concat]. rewrite app_length, IH. cbn. lia. Qed.

Lemma bl_found m func : forall pre w rest fuel off, code_at m (func + off) (concat (map (le_bytes 4) pre) ++ le_bytes 4 w ++ rest) ->
  Forall (fun w => 0 <= w < 2 ^ 32 /\ ~ a64_call w) pre -> 0 <= w < 2 ^ 32 -> a64_call w ->
  0 <= func -> 0 <= off -> func + off + 4 * Z.of_nat (length pre) + 4 <= 2 ^ 64 -> off + 4 * Z.of_nat (length pre) < 2 ^ 32 -> (length pre < fuel)%nat ->
  bl_loop fuel m func off = Some (off + 4 * Z.of_nat (length pre)).
Proof.
  assert (W : forall m a v rest, code_at m a (le_bytes 4 v ++ rest) -> 0 <= v < 2 ^ 32 -> 0 <= a -> a + 4 <= 2 ^ 64 -> ld 4 m (u64 a) = v).
  { intros m0 a v rest H Hv Ha Hl. replace (u64 a) with a by (symmetry; apply wrap_id; lia). rewrite ld_rd by (change (Z.of_nat 4) with 4; lia).
    rewrite (rd_le_bytes 4 v m0 a rest H). apply Z.mod_small. exact Hv. }
  induction pre as [|v pre IH]; intros w rest fuel off Hc Hp Hw Hb Hf Ho Hl Hs Hfu; destruct fuel as [|fuel]; cbn [length] in *; try lia; cbn [bl_loop map concat] in *.
  - cbn [app] in Hc. rewrite (W m (func + off) w rest Hc) by lia. rewrite (proj2 (is_bl_iff w Hw) Hb). f_equal. lia.
  - inversion Hp as [|? ? [Hv Nv] Hp']; subst. rewrite <- app_assoc in Hc. rewrite (W m (func + off) v _ Hc) by lia.
    destruct (is_bl v) eqn:B; [exfalso; apply Nv; apply (is_bl_iff v Hv); exact B|].
    replace (u32 (off + 4)) with (off + 4) by (symmetry; apply wrap_id; lia). apply code_after in Hc. change (Z.of_nat (length (le_bytes 4 v))) with 4 in Hc.
    replace (func + off + 4) with (func + (off + 4)) in Hc by ring. rewrite (IH w rest fuel (off + 4) Hc Hp' Hw Hb); try lia. f_equal. lia.
Qed.

(** AArch64: the offset is that of the first call; a replacement changes nothing else. *)
Theorem C215_a64 : forall m func pre w post fuel new,
  let code c := concat (map (le_bytes 4) (pre ++ c :: post)) in
  0 <= func -> func + Z.of_nat (length (code w)) <= 2 ^ 64 -> code_at m func (code w) ->
  Forall (fun w => 0 <= w < 2 ^ 32 /\ ~ a64_call w) pre -> 0 <= w < 2 ^ 32 -> a64_call w ->
  4 * Z.of_nat (length pre) < 2 ^ 32 -> (length pre < fuel)%nat ->
  exists off, aarch64_func_bl_offset fuel m func = Some off /\ off = 4 * Z.of_nat (length pre) /\
    code_at (put m (func + off) (le_bytes 4 new)) func (code new).
Proof.
  intros m func pre w post fuel new code Hf Hl Hc Hp Hw Hb Hs Hfu. exists (4 * Z.of_nat (length pre)).
  assert (Ec : forall c, code c = concat (map (le_bytes 4) pre) ++ le_bytes 4 c ++ concat (map (le_bytes 4) post)).
  { intros c. unfold code. rewrite map_app, concat_app. reflexivity. }
  rewrite Ec in Hl, Hc. pose proof (words_len pre) as Lp.
  assert (Hl' : func + 4 * Z.of_nat (length pre) + 4 <= 2 ^ 64).
  { rewrite !app_length, Lp in Hl. change (length (le_bytes 4 w)) with 4%nat in Hl. lia. }
  split.
  - unfold aarch64_func_bl_offset. rewrite (bl_found m func pre w (concat (map (le_bytes 4) post))); try assumption; try lia; [reflexivity|]. rewrite Z.add_0_r. exact Hc.
  - split; [reflexivity|]. rewrite Ec. replace (4 * Z.of_nat (length pre)) with (Z.of_nat (length (concat (map (le_bytes 4) pre)))) by lia.
    apply (code_put m func _ (le_bytes 4 w) (le_bytes 4 new) _ Hc eq_refl Hf Hl).
Qed.
Print Assumptions C215_a64.

(** push %rbp; mov %rsp,%rbp; call; ret, with the call redirected; stp, mov, bl, ret. *)
Definition x86_fn : list Z := [0x55; 0x48; 0x89; 0xe5; 0xe8; 0x10; 0; 0; 0; 0xc3].
Definition a64_fn : list Z := [0xa9bf7bfd; 0x910003fd; 0x94000010; 0xd65f03c0].
Example C215_ex : code_at (code_mem 0x401000 x86_fn) 0x401000 (concat [[0x55]; [0x48; 0x89; 0xe5]] ++ [0xe8; 0x10; 0; 0; 0] ++ [0xc3]) /\
  x86_64_func_callq_offset 20 (code_mem 0x401000 x86_fn) 0x401000 = Some 4 /\
  ftrace_call_replace 0 0x401004 0x402000 = [0xe8; 0xf7; 0x0f; 0; 0] /\
  code_at (code_mem 0x401000 (concat (map (le_bytes 4) a64_fn))) 0x401000 (concat (map (le_bytes 4) a64_fn)) /\
  Forall (fun w => 0 <= w < 2 ^ 32 /\ ~ a64_call w) [0xa9bf7bfd; 0x910003fd] /\ a64_call 0x94000010 /\
  aarch64_func_bl_offset 20 (code_mem 0x401000 (concat (map (le_bytes 4) a64_fn))) 0x401000 = Some 8.
Proof.
  split; [apply (code_mem_at 0x401000 x86_fn); reflexivity|]. split; [vm_compute; reflexivity|]. split; [vm_compute; reflexivity|].
  split; [apply code_mem_at; reflexivity|]. split; [repeat constructor; try lia; vm_compute; discriminate|]. split; vm_compute; reflexivity.
Qed.
