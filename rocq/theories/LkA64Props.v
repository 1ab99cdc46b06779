(** A patch that is applied on aarch64 is linked, except for what depends on places. *)
From Coq Require Import ZArith String List Bool Lia ZifyBool ZifyNat Permutation.
From Verif Require Import Word WordLemmas Str ElfDefs TextModel LdModel LdSpec LdProofs LdSyms LdMore LdEx LdProps X86RelocModel X86RelocSpec A64Model A64Spec A64RelocSpec A64RelocMore ScModel ScSpec ScProofs PaModel PaSpec PaRead PaProofs PaMore PaKick PaLoad PaSess PaHist PaFin PaX86 PaThm PaEx PaCase LkSpec LkSyms LkRel LkArch LkProofs LkProps.
From Verif Require InsnModel.
Import ListNotations.
Open Scope Z_scope.

(** C175: on aarch64, whatever patches are present, when the tool reports success the mapping
    of the new patch holds the file linked for its address, where fields that depend on their
    place have the value for the address at which the tool had the file ([a64_tool_value]), and
    the replaced function starts with a jump to the new one.  [b] is the address of the file
    in the tool, [oc] the values of the uninitialised overflow_check. *)
Theorem C175_linked_tool_partial c w ps ss w1 f len hdr stop s' w2 log oc b :
  opened (c_e c) w ps ss w1 -> run_ok c w1 ps f len hdr stop -> c_reloc c = a64_reloc oc b -> linkable a64_width f len ->
  0 <= hdr -> hdr + len < 2 ^ 64 -> 0 <= b -> b + len <= 2 ^ 64 ->
  do_patch c ss w1 = Some (0, s', Some hdr, w2, log) ->
  linked a64_width (c_lookup c) f hdr (a64_tool_value b hdr) len (t_mem (w_t w2)) /\
  exists src dst taddr s k S, redirects f src dst /\ c_lookup c dst = Some taddr /\ 0 <= s < nsec f /\ sh_type (sect f s) = SHT_SYMTAB /\
    0 <= k < count f s /\ string_at f (name f s k) src /\ (forall j, k < j < count f s -> ~ string_at f (name f s j) src) /\ denotes (c_lookup c) f hdr s k S /\
    forall i, 0 <= i < 16 -> t_mem (w_t w2) (taddr mod 2 ^ 64 + i) = nth (Z.to_nat i) (le_bytes 8 (c_jmp c) ++ le_bytes 8 S) 0.
Proof.
  intros O R Er LK H0 H1 B0 B1 H. apply (patch_image a64_width (a64_tool_value b hdr) c w ps ss w1 f len hdr stop s' w2 log); auto; [apply a64_width_pos|apply a64_tool_local|].
  intros li SU. rewrite Er. apply a64_relocates; auto. apply (setup_facts _ _ _ (proj1 (proj2 (r_file _ _ _ _ _ _ _ R))) SU).
Qed.
Print Assumptions C175_linked_tool_partial.

(** Hence a file without place dependent relocations is linked as AAELF64 says.  Missing
    (false): place dependent ones, above all branches and calls. *)
Theorem C175_linked_partial c w ps ss w1 f len hdr stop s' w2 log oc b :
  opened (c_e c) w ps ss w1 -> run_ok c w1 ps f len hdr stop -> c_reloc c = a64_reloc oc b -> linkable a64_width f len ->
  0 <= hdr -> hdr + len < 2 ^ 64 -> 0 <= b -> b + len <= 2 ^ 64 ->
  (forall i k, live f i k -> place_relative (e_type f i k) = false) ->
  do_patch c ss w1 = Some (0, s', Some hdr, w2, log) ->
  linked a64_width (c_lookup c) f hdr a64_value len (t_mem (w_t w2)).
Proof.
  intros O R Er LK H0 H1 B0 B1 NP H. destruct (C175_linked_tool_partial _ _ _ _ _ _ _ _ _ _ _ _ _ _ O R Er LK H0 H1 B0 B1 H) as [[A B] _].
  split; [|exact B]. intros i k L. destruct (A i k L) as (S & D & V). exists S. split; [exact D|]. unfold a64_tool_value in V. rewrite (NP i k L) in V. exact V.
Qed.
Print Assumptions C175_linked_partial.

(** *** Examples: an aarch64 process *)
Definition arm_kernel (at_ : Z) : kernel := fun nr args m =>
  (if nr =? 222 then (if nth 4 args 0 =? 2 ^ 64 - 1 then 0x5000000 else at_) else if nr =? 56 then 3 else 0, m).
Definition arm_wait (at_ : Z) : nat -> regs -> mem -> Z -> wres := fun n r m sig =>
  match a64_exec (arm_kernel at_) r m with
  | Some (r', m') => WStopped SIGTRAP r' m'
  | None => WStopped SIGSEGV r m
  end.
Definition arm_env (at_ : Z) : env :=
  Env (fun _ => None) (fun _ => None) (fun _ _ s => Some s) (fun _ _ s => Some s) (fun _ => None) (arm_wait at_)
      (fun _ => None) (fun _ r m => WStopped SIGSTOP r m) (fun _ => None) (fun _ => 0xa5).
(** The tool has the file at 0x5500000. *)
Definition arm_run (e : env) (file : list Z) : run :=
  Run 4 a64_arch a64_nrs false e 0x7000 0 ex_lookup (a64_reloc (fun _ => true) 0x5500000) 0xd61f022058000051 1700000000 (AEnv (Some file) true true) 0 (str "/tmp/ulp-1-x") 0.
Definition arm_w : world := W (Tg (fun i => if i =? PC then 0x1000 else 100 + i) (fun x => x mod 256) false) 0 [].

(** stp x29, x30, [sp, #-16]!; bl helper; ldp x29, x30, [sp], #16; ret *)
Definition call_file : list Z := Eval vm_compute in
  patch_list (patch_list (patch_list ex_file 18 [183; 0]) 64 [0xfd; 0x7b; 0xbf; 0xa9; 0; 0; 0; 0x94; 0xfd; 0x7b; 0xc1; 0xa8; 0xc0; 3; 0x5f; 0xd6])
    208 [4; 0; 0; 0; 0; 0; 0; 0; 27; 1; 0; 0; 2; 0; 0; 0; 0; 0; 0; 0; 0; 0; 0; 0].
(** ldr x17, 8; br x17; .quad helper *)
Definition quad_file : list Z := Eval vm_compute in
  patch_list (patch_list (patch_list ex_file 18 [183; 0]) 64 [0x51; 0; 0; 0x58; 0x20; 2; 0x1f; 0xd6; 0; 0; 0; 0; 0; 0; 0; 0])
    208 [8; 0; 0; 0; 0; 0; 0; 0; 1; 1; 0; 0; 2; 0; 0; 0; 0; 0; 0; 0; 0; 0; 0; 0].
Definition call_f : mem := of_bytes call_file.
Definition quad_f : mem := of_bytes quad_file.

Lemma arm_kept a x : kept (arm_env a) x.
Proof.
  split; [|intros n r m; reflexivity]. intros n r m sig. cbn. unfold arm_wait, a64_exec, arm_kernel.
  destruct (ld 4 m (r PC) =? 0xd4000001); [|reflexivity]. destruct (ld 4 m (r PC + 4) =? 0xd42000a0); reflexivity.
Qed.
Lemma arm_calm a : calm (arm_env a) a64_arch 0x7000.
Proof. split; [intros n x s k [H|H]; cbn in H; assert (s = k) by congruence; lia|]. intros n. split; reflexivity. Qed.

Lemma lay_safe_a64 oc b m len hdr li : byte_mem m -> layout m = true -> well_formed m len -> 1184 <= len -> setup_load_info m len = Some (inr li) -> 0 <= b -> b + 1184 <= 2 ^ 64 ->
  reloc_safe (a64_reloc oc b hdr li) m hdr.
Proof.
  intros Hb L W Hl S B0 B1. apply a64_reloc_safe; auto; [|apply lay_reloc; auto| |].
  - destruct (setup_facts _ _ _ Hb S) as (-> & _). reflexivity.
  - intros x M. apply (lay_tidy m L len W Hl). auto.
  - intros x [F|F]; [apply (lay_field m L) in F|apply (lay_rela m L) in F]; lia.
Qed.

Section File.
Variables (file : list Z) (m : mem).
Hypothesis Fb : byte_mem m.
Hypothesis L : layout m = true.
Hypothesis WF : well_formed m ex_len.
Hypothesis AL : alloc_patch_file (AEnv (Some file) true true) = Some (0, Some (m, ex_len)).
Hypothesis SU : setup_load_info m ex_len = Some (inr ex_li).
Hypothesis RD : redirects m (str "new_fn") (str "old_fn").

Lemma arm_good a : good_file (arm_run (arm_env a) file) m ex_len.
Proof.
  split; [exact AL|]. split; [exact Fb|]. split; [apply lay_tidy; [exact L|exact WF|vm_compute; discriminate]|]. split.
  - intros hdr li S. apply (lay_safe_a64 _ _ _ ex_len); [exact Fb|exact L|exact WF|vm_compute; discriminate|exact S|lia|lia].
  - intros li S. rewrite SU in S. assert (li = ex_li) by congruence. subst. discriminate.
Qed.

Lemma arm_ok a w hdr stop : shared hdr = true -> hdr + ex_len <= stop -> stop - hdr < 2 ^ 64 ->
  (match task_attach 4 (arm_env a) w with
   | Some (_, w1) => match task_malloc 4 a64_arch a64_nrs (arm_env a) 0x7000 0 w1 (Z.of_nat (List.length (str "/tmp/ulp-1-x")) + 1) with Some (n, _) => n =? 0x5000000 | None => false end
   | None => false end) = true ->
  0x6000000 <= hdr -> run_ok (arm_run (arm_env a) file) w [] m ex_len hdr stop.
Proof.
  intros Sh S1 S2 B Hh.
  assert (Bf : forall x, buffer (arm_run (arm_env a) file) w x -> within 0x5000000 100 x).
  { intros x Hx. apply (pa_buffer _ _ 0x5000000) in Hx; [|exact B]. unfold within in *. cbn in Hx. lia. }
  constructor; auto.
  - apply arm_calm.
  - apply arm_good.
  - intros x _. apply arm_kept.
  - intros x Hx (v & [] & _).
  - intros x (v & [] & _).
  - intros src dst taddr Rd Lk x. rewrite (ex_dst m src dst taddr RD Rd Lk). intros Hx. split; [apply arm_kept|]. split; [unfold within in *; lia|].
    split; [intros (v & [] & _)|]. intros Hb. apply Bf in Hb. unfold within in *. lia.
Qed.
End File.

Ltac wf_file N :=
  constructor;
  [vm_compute; repeat split; discriminate
  |vm_compute; reflexivity
  |rewrite N; use11; exists 477; vm_compute; repeat split; discriminate
  |rewrite N; use11; intros _; vm_compute; discriminate
  |rewrite N; use11; intros (_ & F & _); pose proof (F 1%nat ltac:(vm_compute; lia)) as F1; specialize (F 10%nat ltac:(vm_compute; lia));
      first [vm_compute in F; discriminate F|vm_compute in F1; discriminate F1|exists 152, 159; vm_compute; repeat split; discriminate]
  |rewrite N; use11; intros (_ & F & _); specialize (F 1%nat ltac:(vm_compute; lia));
      first [vm_compute in F; discriminate F|vm_compute; discriminate]
  |rewrite N; use11; intros F; first [vm_compute in F; discriminate F|vm_compute; reflexivity]].

Lemma call_b : byte_mem call_f. Proof. apply bytes_ok. vm_compute. reflexivity. Qed.
Lemma call_l : layout call_f = true. Proof. vm_compute. reflexivity. Qed.
Lemma call_wf : well_formed call_f ex_len.
Proof. assert (N : ld 2 call_f 60 = 11) by (vm_compute; reflexivity). wf_file N. Qed.
Lemma call_su : setup_load_info call_f ex_len = Some (inr ex_li). Proof. vm_compute. reflexivity. Qed.
Lemma call_al : alloc_patch_file (AEnv (Some call_file) true true) = Some (0, Some (call_f, ex_len)). Proof. vm_compute. reflexivity. Qed.
Lemma call_rd : redirects call_f (str "new_fn") (str "old_fn").
Proof. apply lay_redirects; [apply call_l|..]; apply string_check; vm_compute; reflexivity. Qed.

Lemma quad_b : byte_mem quad_f. Proof. apply bytes_ok. vm_compute. reflexivity. Qed.
Lemma quad_l : layout quad_f = true. Proof. vm_compute. reflexivity. Qed.
Lemma quad_wf : well_formed quad_f ex_len.
Proof. assert (N : ld 2 quad_f 60 = 11) by (vm_compute; reflexivity). wf_file N. Qed.
Lemma quad_su : setup_load_info quad_f ex_len = Some (inr ex_li). Proof. vm_compute. reflexivity. Qed.
Lemma quad_al : alloc_patch_file (AEnv (Some quad_file) true true) = Some (0, Some (quad_f, ex_len)). Proof. vm_compute. reflexivity. Qed.
Lemma quad_rd : redirects quad_f (str "new_fn") (str "old_fn").
Proof. apply lay_redirects; [apply quad_l|..]; apply string_check; vm_compute; reflexivity. Qed.

Lemma call_linkable : linkable a64_width call_f ex_len.
Proof. apply ll_linkable; [apply call_l| |unfold ex_len; lia]. vm_compute. intuition congruence. Qed.
Lemma quad_linkable : linkable a64_width quad_f ex_len.
Proof. apply ll_linkable; [apply quad_l| |unfold ex_len; lia]. vm_compute. intuition congruence. Qed.
Lemma call_live : live call_f 7 0.
Proof. apply ll_live7; [apply call_l|vm_compute; discriminate|vm_compute; reflexivity]. Qed.
Lemma quad_live : live quad_f 7 0.
Proof. apply ll_live7; [apply quad_l|vm_compute; discriminate|vm_compute; reflexivity]. Qed.

Definition run_c := arm_run (arm_env 0x7000000) call_file.
Definition run_q := arm_run (arm_env 0x7000000) quad_file.
Definition open_c := open_session (arm_env 0x7000000) arm_w [].
Definition out_c := do_patch run_c (p_sess open_c) (p_world open_c).
Definition out_q := do_patch run_q (p_sess open_c) (p_world open_c).
Strategy expand [open_c out_c out_q].

Lemma c_opened : opened (arm_env 0x7000000) arm_w [] (p_sess open_c) (p_world open_c).
Proof. split; [constructor|]. split; [constructor|]. unfold open_c at 1. apply p_get. vm_compute. reflexivity. Qed.
Lemma c_buf : (match task_attach 4 (arm_env 0x7000000) (p_world open_c) with
   | Some (_, w1) => match task_malloc 4 a64_arch a64_nrs (arm_env 0x7000000) 0x7000 0 w1 (Z.of_nat (List.length (str "/tmp/ulp-1-x")) + 1) with Some (n, _) => n =? 0x5000000 | None => false end
   | None => false end) = true.
Proof. vm_compute. reflexivity. Qed.
Lemma c_ok : run_ok run_c (p_world open_c) [] call_f ex_len 0x7000000 0x7001000.
Proof. apply (arm_ok call_file call_f call_b call_l call_wf call_al call_su call_rd); [reflexivity|vm_compute; discriminate|reflexivity|exact c_buf|lia]. Qed.
Lemma q_ok : run_ok run_q (p_world open_c) [] quad_f ex_len 0x7000000 0x7001000.
Proof. apply (arm_ok quad_file quad_f quad_b quad_l quad_wf quad_al quad_su quad_rd); [reflexivity|vm_compute; discriminate|reflexivity|exact c_buf|lia]. Qed.
Lemma c_out : do_patch run_c (p_sess open_c) (p_world open_c) = Some (0, o_sess out_c, Some 0x7000000, o_world out_c, o_log out_c).
Proof.
  assert (G : out_c = Some (0, o_sess out_c, Some 0x7000000, o_world out_c, o_log out_c)) by (apply o_get; vm_compute; reflexivity).
  unfold out_c at 1 in G. exact G.
Qed.
Lemma q_out : do_patch run_q (p_sess open_c) (p_world open_c) = Some (0, o_sess out_q, Some 0x7000000, o_world out_q, o_log out_q).
Proof.
  assert (G : out_q = Some (0, o_sess out_q, Some 0x7000000, o_world out_q, o_log out_q)) by (apply o_get; vm_compute; reflexivity).
  unfold out_q at 1 in G. exact G.
Qed.
Lemma c_word : ld 4 (t_mem (w_t (o_world out_c))) (0x7000000 + place call_f 7 0) = 0x94000000 + ((0x401000 - (0x5500000 + 68)) / 4) mod 2 ^ 26.
Proof. vm_compute. reflexivity. Qed.
Lemma q_word : ld 8 (t_mem (w_t (o_world out_q))) (0x7000000 + place quad_f 7 0) = 0x401000.
Proof. vm_compute. reflexivity. Qed.

Example C175_ex : linked a64_width ex_lookup quad_f 0x7000000 a64_value ex_len (t_mem (w_t (o_world out_q))) /\ live quad_f 7 0 /\
  ex_lookup (str "helper") = Some 0x401000 /\ ld 8 (t_mem (w_t (o_world out_q))) (0x7000000 + place quad_f 7 0) = 0x401000.
Proof.
  split; [|split; [exact quad_live|split; [vm_compute; reflexivity|exact q_word]]].
  refine (C175_linked_partial run_q _ _ _ _ _ _ _ _ _ _ _ _ _ c_opened q_ok eq_refl quad_linkable _ _ _ _ _ q_out); try lia; try (unfold ex_len; lia).
  intros i k Lv. destruct (ll_live a64_width quad_f quad_l i k Lv) as [-> ->]. vm_compute. reflexivity.
Qed.

(** C175 is false for calls: the tool reports success, the displacement fits, and the bl in
    the process does not go to the function. *)
Theorem C175_linked_refuted : exists c w ss w1 f len hdr stop s' w2 log oc b i k S v,
  opened (c_e c) w [] ss w1 /\ run_ok c w1 [] f len hdr stop /\ c_reloc c = a64_reloc oc b /\ linkable a64_width f len /\
  do_patch c ss w1 = Some (0, s', Some hdr, w2, log) /\
  live f i k /\ e_type f i k = 283 /\ denotes (c_lookup c) f hdr (sh_link (sect f i)) (e_sym f i k) S /\
  aaelf_insn 283 S (e_add f i k) (hdr + place f i k) = Some (IMM_26, v) /\ - 2 ^ 25 <= v < 2 ^ 25 /\
  imm_of IMM_26 (ld 4 (t_mem (w_t w2)) (hdr + place f i k)) <> v mod 2 ^ 26.
Proof.
  exists run_c, arm_w, (p_sess open_c), (p_world open_c), call_f, ex_len, 0x7000000, 0x7001000, (o_sess out_c), (o_world out_c), (o_log out_c), (fun _ => true), 0x5500000, 7, 0, 0x401000, ((0x401000 - (0x7000000 + 68)) / 4).
  split; [exact c_opened|]. split; [exact c_ok|]. split; [reflexivity|]. split; [exact call_linkable|]. split; [exact c_out|]. split; [exact call_live|].
  split; [vm_compute; reflexivity|]. split; [|split; [vm_compute; reflexivity|split; [vm_compute; split; [discriminate|reflexivity]|]]].
  - assert (Es : e_sym call_f 7 0 = 2) by (vm_compute; reflexivity). assert (El : sh_link (sect call_f 7) = 8) by (vm_compute; reflexivity). rewrite Es, El.
    assert (Ex : ld 2 call_f (sym call_f 8 2 + 6) = 0) by (vm_compute; reflexivity).
    assert (Sn : string_at call_f (name call_f 8 2) (str "helper")) by (apply string_check; vm_compute; reflexivity).
    unfold denotes. cbv zeta. rewrite Ex. split; [intros [X|[X|X]]; discriminate|]. split; [|split].
    + intros _ _ n a N Lk _. rewrite <- (string_at_fun _ _ _ _ Sn N) in Lk. vm_compute in Lk. assert (a = 0x401000) by congruence. subst a. reflexivity.
    + intros _ _ n N Lk. rewrite <- (string_at_fun _ _ _ _ Sn N) in Lk. vm_compute in Lk. destruct Lk; discriminate.
    + intros _ X. lia.
  - rewrite c_word. vm_compute. discriminate.
Qed.
Print Assumptions C175_linked_refuted.
