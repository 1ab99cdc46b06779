(** The list of patches: C188, C189. *)
From Coq Require Import ZArith String List Bool Lia.
From Verif Require EcModel LdModel PaModel.
From Verif Require Import LdSpec LdProofs LdMore LdEx LdProps PaSpec PaSess PaHist PaEx PaCase TextSpec.
From Verif Require Import Word WordLemmas RbModel Str ElfDefs MpSpec ScModel ScProps DsModel DsSpec DsProofs DsProps RsModel RsSpec RsProofs RsProps LiModel LiSpec LiProofs.
Import ListNotations.
Open Scope Z_scope.

(** ** C188 *)

(** The claim is what C188_listed_partial says, without [good_image].  A patch that another
    version of the tool has put into the process stays in the list without being filled. *)
Definition v4_bytes : list Z := Eval vm_compute in patch_list log_linked 136 [4; 0; 0; 0].
Definition v4_im : image := Im ex_th ex_len (LdModel.of_bytes v4_bytes).
Definition a_date (t : Z) : option (list Z) := if (0 <=? t) && (t <? 2 ^ 32) then Some (str "2026/11/16 10:00:00") else None.

Lemma named_check m name j s : LdModel.cstr_loop 40 m (sh_offset (section m (ld 8 m 40) (ld 2 m 62)) + sh_name (section m (ld 8 m 40) j)) = Some s ->
  (sec_named m name j <-> s = str name).
Proof. intros H. apply cstr_loop_string in H. unfold sec_named. split; [intros N; eapply string_at_fun; eauto; apply H|intros <-; apply H]. Qed.

Lemma v4_names j : 0 <= j < 11 -> exists s, LdModel.cstr_loop 40 (im_mem v4_im)
  (sh_offset (section (im_mem v4_im) (ld 8 (im_mem v4_im) 40) (ld 2 (im_mem v4_im) 62)) + sh_name (section (im_mem v4_im) (ld 8 (im_mem v4_im) 40) j)) = Some s /\
  (j <> 2 -> s <> str ".ulpatch.info") /\ (j <> 3 -> s <> str ".ulpatch.strtab").
Proof.
  intros H. assert (E : j = 0 \/ j = 1 \/ j = 2 \/ j = 3 \/ j = 4 \/ j = 5 \/ j = 6 \/ j = 7 \/ j = 8 \/ j = 9 \/ j = 10) by lia. clear H.
  intuition (subst; eexists; split; [vm_compute; reflexivity|split; intros N; first [destruct (N eq_refl)|vm_compute; discriminate]]).
Qed.
Lemma v4_shnum : ld 2 (im_mem v4_im) 60 = 11. Proof. vm_compute. reflexivity. Qed.
Lemma v4_first name n i : (name = ".ulpatch.info"%string /\ n = 2) \/ (name = ".ulpatch.strtab"%string /\ n = 3) -> 0 <= i < 11 -> i <> n -> ~ sec_named (im_mem v4_im) name i.
Proof.
  intros Hn Hi N. destruct (v4_names i Hi) as (s & E & A & B). rewrite (named_check _ _ _ _ E).
  destruct Hn as [[-> ->]|[-> ->]]; [apply A; auto|apply B; auto].
Qed.
Lemma v4_says : says v4_im 1 77 (str "old_fn").
Proof.
  split.
  - exists 80. split; [|vm_compute; auto]. exists 2. rewrite v4_shnum. split; [lia|]. split; [|split; [|vm_compute; reflexivity]].
    + eapply named_check; [vm_compute; reflexivity|vm_compute; reflexivity].
    + intros i Hi. apply v4_first with 2; auto; lia.
  - exists (str "log_it"), 3. rewrite v4_shnum. split; [lia|]. split; [|split].
    + eapply named_check; [vm_compute; reflexivity|vm_compute; reflexivity].
    + intros i Hi. apply v4_first with 3; auto; lia.
    + cbv zeta. split; [|split].
      * eapply (cstr_loop_string 40). vm_compute. reflexivity.
      * eapply (cstr_loop_string 40). vm_compute. reflexivity.
      * eapply (cstr_loop_string 40). vm_compute. reflexivity.
Qed.
Lemma v4_strings : strings_inside v4_im.
Proof.
  intros j Hj N. rewrite v4_shnum in Hj. destruct (Z.eq_dec j 3) as [->|D]; [|destruct (v4_first ".ulpatch.strtab" 3 j ltac:(auto) Hj D N)].
  exists 152, 159, 166. vm_compute. repeat split; discriminate.
Qed.
Lemma v4_wf : well_formed (im_mem v4_im) (im_len v4_im).
Proof.
  assert (N := v4_shnum). constructor.
  - vm_compute. repeat split; discriminate.
  - vm_compute. reflexivity.
  - rewrite N. use11; exists 477; vm_compute; repeat split; discriminate.
  - rewrite N. use11; intros _; vm_compute; discriminate.
  - rewrite N. intros j Hj Hn. destruct (Z.eq_dec j 3) as [->|D]; [|destruct (v4_first ".ulpatch.strtab" 3 j ltac:(auto) Hj D Hn)].
    exists 152, 159. vm_compute. repeat split; discriminate.
  - rewrite N. use11; intros (_ & F & _); specialize (F 1%nat ltac:(vm_compute; lia));
      first [vm_compute in F; discriminate F|vm_compute; discriminate].
  - rewrite N. use11; intros F; first [vm_compute in F; discriminate F|vm_compute; reflexivity].
Qed.

Theorem C188_listed_refuted : exists date pid exe im id t func,
  elf_image im = true /\ byte_mem (im_mem im) /\ well_formed (im_mem im) (im_len im) /\ strings_inside im /\
  says im id t func /\ id < 2 ^ 31 /\ date (s64 t) <> None /\
  show_task_patch_info date pid exe [im] = None.
Proof.
  exists a_date, 4711, (str "/usr/bin/prog"), v4_im, 1, 77, (str "old_fn").
  split; [vm_compute; reflexivity|]. split; [apply of_bytes_byte, bytes_check; vm_compute; reflexivity|].
  split; [exact v4_wf|]. split; [exact v4_strings|]. split; [exact v4_says|]. split; [lia|]. split; [vm_compute; discriminate|].
  vm_compute. reflexivity.
Qed.
Print Assumptions C188_listed_refuted.

(** Missing: patches that are not recognised, numbers of 2^31 and more, times that have no
    date. *)
Theorem C188_listed_partial : forall pid exe, exists head,
  (exists a b c, head = a ++ exe ++ b ++ dec pid ++ c ++ [10]) /\
  forall date ims, Forall (fun im => elf_image im = true -> can_be_shown date im) ims ->
    exists text, show_task_patch_info date pid exe ims = Some text /\ list_shown date pid head ims text.
Proof.
  intros pid exe.
  pose (c := [10] ++ ESC "[m" ++ ESC "[1m" ++ ESC "[7m" ++
            EcModel.padr 4 (str "NUM") ++ [32] ++ EcModel.padr 4 (str "ID") ++ [32] ++ EcModel.padr 20 (str "DATE") ++ [32] ++
            EcModel.padr 16 (str "VMA_START") ++ [32] ++ EcModel.padr 16 (str "TARGET_FUNC") ++ ESC "[m").
  exists ((ESC "[1m" ++ str "COMM: ") ++ exe ++ ([10] ++ str "PID: ") ++ dec pid ++ c ++ [10]). split; [eexists _, _, _; reflexivity|].
  intros date ims F. destruct (rows_ok date ims 1 F) as (l & body & E1 & E2 & E3 & E4).
  unfold show_task_patch_info. rewrite E1. destruct l as [|n l].
  - eexists. split; [reflexivity|]. left. split; [apply E4; reflexivity|reflexivity].
  - rewrite E2. eexists. split; [reflexivity|]. right. split; [intros Q; apply E4 in Q; discriminate|]. exists body. split; [exact E3|].
    subst c. rewrite <- !app_assoc. reflexivity.
Qed.
Print Assumptions C188_listed_partial.

(** A patch, and a mapping of that kind that is no ELF file. *)
Definition no_elf : image := Im ex_th ex_len (fun _ => 0).
Lemma log_shown : can_be_shown a_date log_im.
Proof.
  assert (Sh : ld 2 (im_mem log_im) 60 = 11) by (vm_compute; reflexivity).
  split; [exact log_good|]. split.
  - intros j Hj N. exists 152, 159, 166. rewrite Sh in Hj. revert j Hj N. use11; intros (_ & F & _);
      pose proof (F 1%nat ltac:(vm_compute; lia)) as F1; specialize (F 10%nat ltac:(vm_compute; lia));
      first [vm_compute in F; discriminate F|vm_compute in F1; discriminate F1|vm_compute; repeat split; discriminate].
  - assert (Li : info_at (im_mem log_im) 80).
    { destruct (PaLoad.setup_facts _ _ _ log_bytes log_setup) as (_ & (A & B & C & D) & _). exists 2. split; [lia|]. auto. }
    intros id t func ((info & (j & J1 & J2 & J3 & ->) & -> & ->) & _). destruct Li as (k & K1 & K2 & K3 & K4).
    assert (j = k) as ->. { destruct (Z.lt_total j k) as [L|[L|L]]; auto; [destruct (K3 j ltac:(lia) J2)|destruct (J3 k ltac:(lia) K2)]. }
    rewrite <- K4. vm_compute. split; [reflexivity|discriminate].
Qed.
Example C188_ex : can_be_shown a_date log_im /\ elf_image log_im = true /\ elf_image no_elf = false /\
  show_task_patch_info a_date 4711 (str "/usr/bin/prog") [no_elf] = Some (str "No ULPatch founded in process 4711" ++ [10]) /\
  show_task_patch_info a_date 4711 (str "/usr/bin/prog") [no_elf; log_im] =
    Some (27 :: str "[1mCOMM: /usr/bin/prog" ++ [10] ++ str "PID: 4711" ++ [10; 27] ++ str "[m" ++ [27] ++ str "[1m" ++ [27] ++
          str "[7mNUM  ID   DATE                 VMA_START        TARGET_FUNC     " ++ [27] ++ str "[m" ++ [10] ++
          str "1    1    2026/11/16 10:00:00  0x00000007000000 old_fn          " ++ [10]).
Proof.
  split; [apply log_shown|]. repeat split; vm_compute; reflexivity.
Qed.

(** ** C189 *)

(** What is shown if the bytes are no instruction of the engine. *)
Lemma shown_plain one target m a h1 a1 : hextext a1 h1 -> a <> a1 ->
  ~ jump_shown one [] target m a (str "----- jmp table ------" ++ [10] ++ str "jmp addr = 0x" ++ h1 ++ [10]).
Proof.
  intros (_ & _ & H1) N (dis & h & E & (_ & _ & H) & D). apply N. rewrite <- H, <- H1. f_equal.
  rewrite !app_nil_l in E. apply app_inv_head, app_inv_head in E.
  destruct D as [->|(left & l & head & rows & hx & _ & _ & _ & _ & _ & D & _ & q & ->)].
  - rewrite app_nil_l in E. apply app_inv_head in E. apply app_inj_tail in E. symmetry. apply E.
  - exfalso. rewrite D in E. change (str "jmp addr = 0x") with (106 :: str "mp addr = 0x") in E. change (str "Disasm: code addr 0x") with (68 :: str "isasm: code addr 0x") in E.
    cbn [app] in E. discriminate E.
Qed.

(** The claim is that the address in the text is the one in the code of the function.  The
    read fails, and what the stack of the tool held is shown: 0xa5a5a5a5a5a5a5a5. *)
Theorem C189_read_refuted : exists e w one cs host pfx target text w',
  proper_decoder one /\ engine one cs /\ byte_mem (t_mem (w_t w)) /\ 0 < target < 2 ^ 63 /\
  print_jump e w true cs host pfx target = (text, w') /\
  ~ jump_shown one pfx target (t_mem (w_t w)) (ld 8 (t_mem (w_t w)) (target + 8)) text.
Proof.
  exists noread_env, (W (Tg (fun _ => 0) (fun _ => 0) false) 0 []), ex_one, ex_cs, 0x5000, [], 0x402000.
  exists (str "----- jmp table ------" ++ [10] ++ str "jmp addr = 0x" ++ str "a5a5a5a5a5a5a5a5" ++ [10]). eexists.
  split; [exact ex_proper|]. split; [exact ex_engine|]. split; [intros x; cbn [t_mem w_t]; lia|]. split; [lia|]. split; [vm_compute; reflexivity|].
  apply shown_plain with (a1 := 0xa5a5a5a5a5a5a5a5); [|vm_compute; discriminate].
  change (str "a5a5a5a5a5a5a5a5") with (EcModel.hexn 1 0xa5a5a5a5a5a5a5a5). apply hexn_hextext. lia.
Qed.
Print Assumptions C189_read_refuted.

(** Nor is it the address of the function of the patch that it is shown with: with two
    patches of one function, applied one after the other, that of the newer one is shown
    with the older one. *)
Theorem C189_own_refuted : exists K m0 es m newer older info e w one cs host text,
  steps K (m0, []) es (m, map p_range [newer; older]) /\ present m newer /\ present m older /\ info_at (PaSpec.p_file older) info /\
  (forall n a s, e_read e n a s = Some s) /\ t_mem (w_t w) = m /\ proper_decoder one /\ engine one cs /\
  let target := ld 8 m (PaSpec.p_start older + info + 4) in let replacement := ld 8 m (PaSpec.p_start older + info + 12) in
  fst (print_jump e w true cs host [] target) = text /\ ~ jump_shown one [] target m replacement text.
Proof.
  exists K0, (t_mem (w_t pa_w)), (firstn 2 ex_events), m2, ap2, ap1, 80, (ex_env 0), (restart m2), ex_one, ex_cs, 0x5000.
  exists (str "----- jmp table ------" ++ [10] ++ str "jmp addr = 0x" ++ str "7100040" ++ [10]).
  split; [exact (steps_cons K0 _ _ _ _ _ ex_step1 (steps_cons K0 _ _ _ _ _ ex_step2 (steps_nil K0 _)))|].
  split; [exact ap2_present|]. split; [exact ap1_still|]. split.
  { destruct (PaLoad.setup_facts _ _ _ ex_bytes (proj2 C82_ex)) as (_ & (A & B & C & D) & _).
    change (PaSpec.p_file ap1) with ex_img. exists (LdModel.li_info_idx ex_li). split; [lia|]. auto. }
  split; [reflexivity|]. split; [apply restart_mem|]. split; [exact ex_proper|]. split; [exact ex_engine|]. cbv zeta. split; [vm_compute; reflexivity|].
  apply shown_plain with (a1 := 0x7100040); [|vm_compute; discriminate].
  change (str "7100040") with (EcModel.hexn 1 0x7100040). apply hexn_hextext. lia.
Qed.
Print Assumptions C189_own_refuted.

Lemma bytes_shift m m' h n : forall p, (forall x, p <= x < p + Z.of_nat n -> m' x = m (h + x)) -> bytes_at m' p n = bytes_at m (h + p) n.
Proof.
  induction n as [|n IH]; intros p H; [reflexivity|]. cbn [bytes_at]. rewrite (H p) by lia. f_equal.
  replace (h + p + 1) with (h + (p + 1)) by lia. apply IH. intros x Hx. apply H. lia.
Qed.
Lemma bytes_bytes m n : byte_mem m -> forall p, Forall byte (bytes_at m p n).
Proof. intros H. induction n as [|n IH]; intros p; cbn [bytes_at]; constructor; [apply H|apply IH]. Qed.

(** What does hold: if the code can be read, the address in it is shown, after the
    disassembly of the code.  Missing (false): that it belongs to this patch. *)
Theorem C189_jump_partial : forall e w one cs opened host pfx target,
  proper_decoder one -> engine one cs -> byte_mem (t_mem (w_t w)) -> 0 < target < 2 ^ 64 -> 0 <= host < 2 ^ 64 ->
  e_read e (w_n w) target 16 = Some 16 ->
  exists text w', print_jump e w opened cs host pfx target = (text, w') /\ w_t w' = w_t w /\
    jump_shown one pfx target (t_mem (w_t w)) (ld 8 (t_mem (w_t w)) (target + 8)) text.
Proof.
  intros e w one cs opened host pfx target Pd En Hm Ht Hh R. unfold print_jump. rewrite PaSess.read_whole by exact R.
  set (insn := fun i : Z => if (0 <=? i) && (i <? 16) then t_mem (w_t w) (target + i) else e_junk e i). eexists _, _. split; [reflexivity|]. split; [reflexivity|].
  assert (Eb : bytes_at insn 0 16 = bytes_at (t_mem (w_t w)) target 16).
  { transitivity (bytes_at (t_mem (w_t w)) (target + 0) 16); [|rewrite Z.add_0_r; reflexivity]. apply bytes_shift. intros x Hx. unfold insn. replace ((0 <=? x) && (x <? 16)) with true by lia. reflexivity. }
  assert (El : ld 8 insn 8 = ld 8 (t_mem (w_t w)) (target + 8)).
  { symmetry. apply PaLoad.ld_shift. intros x Hx. unfold insn. replace ((0 <=? x) && (x <? 16)) with true by lia. reflexivity. }
  rewrite Eb, El. exists (fst (fdisasm opened cs pfx target host (bytes_at (t_mem (w_t w)) target 16))), (EcModel.hexn 1 (ld 8 (t_mem (w_t w)) (target + 8))).
  split; [reflexivity|]. split; [apply hexn_hextext, ld_range; auto|].
  assert (Fb : Forall byte (bytes_at (t_mem (w_t w)) target 16)) by (apply bytes_bytes; auto).
  destruct (fdisasm_ok one cs opened pfx target host _ Pd En Fb ltac:(lia) Hh) as [(_ & _ & lf & D & _)|(_ & Q)].
  2:{ rewrite Q. left. reflexivity. }
  right. exists lf. destruct (Z.eqb_spec target 0) as [->|_]; [lia|]. exact D.
Qed.
Print Assumptions C189_jump_partial.

Example C189_ex : proper_decoder ex_one /\ engine ex_one ex_cs /\ e_read (ex_env 0) 0 0x402000 16 = Some 16 /\
  fst (print_jump (ex_env 0) (restart (st 8 (st 8 (fun _ => 0) 0x402000 0xc390) 0x402008 0x7000040)) true ex_cs 0x5000 (str "> ") 0x402000) =
    str "> ----- jmp table ------" ++ [10] ++ str "> Disasm: code addr 0x5000, size 16, count 2" ++ [10] ++ str "> 0x402000: 90  " ++ [9] ++ str "nop" ++ [9; 10] ++
    str "> 0x402001: c3  " ++ [9] ++ str "ret" ++ [9; 10] ++ str "> 0x402002:" ++ [10] ++ str "> jmp addr = 0x7000040" ++ [10].
Proof. split; [exact ex_proper|]. split; [exact ex_engine|]. split; [reflexivity|]. vm_compute. reflexivity. Qed.
