(** A patch that is applied is linked for its process. *)
From Coq Require Import ZArith String List Bool Lia ZifyBool ZifyNat Permutation.
From Verif Require Import Word WordLemmas Str ElfDefs TextModel LdModel LdSpec LdProofs LdSyms LdMore LdEx LdProps X86RelocModel X86RelocSpec ScModel ScSpec ScProofs PaModel PaSpec PaRead PaProofs PaMore PaKick PaLoad PaSess PaHist PaFin PaX86 PaThm PaEx PaCase LkSpec LkSyms LkRel LkArch LkProofs.
Import ListNotations.
Open Scope Z_scope.

(** C174: whatever patches are present, when the tool reports success the mapping of the
    new patch holds the file linked for its address ([linked]: every relocated field has the
    value the psABI gives it for the addresses at which the process has the symbols; all else
    is as in the file), and the replaced function starts with a jump to the address of the
    new one.  Partial: the kernel and the rest of the process behave ([run_ok]), and nothing
    in the file overlaps ([linkable]). *)
Theorem C174_linked_partial c w ps ss w1 f len hdr stop s' w2 log :
  opened (c_e c) w ps ss w1 -> run_ok c w1 ps f len hdr stop -> c_reloc c = x86_reloc -> linkable field_width f len -> 0 <= hdr -> hdr + len < 2 ^ 64 ->
  do_patch c ss w1 = Some (0, s', Some hdr, w2, log) ->
  linked field_width (c_lookup c) f hdr x86_value len (t_mem (w_t w2)) /\
  exists src dst taddr s k S, redirects f src dst /\ c_lookup c dst = Some taddr /\ 0 <= s < nsec f /\ sh_type (sect f s) = SHT_SYMTAB /\
    0 <= k < count f s /\ string_at f (name f s k) src /\ (forall j, k < j < count f s -> ~ string_at f (name f s j) src) /\ denotes (c_lookup c) f hdr s k S /\
    forall i, 0 <= i < 16 -> t_mem (w_t w2) (taddr mod 2 ^ 64 + i) = nth (Z.to_nat i) (le_bytes 8 (c_jmp c) ++ le_bytes 8 S) 0.
Proof.
  intros O R Er LK H0 H1 H. apply (patch_image field_width x86_value c w ps ss w1 f len hdr stop s' w2 log); auto; [apply x86_width_pos|apply x86_local|].
  intros li SU. rewrite Er. apply x86_relocates. apply (setup_facts _ _ _ (proj1 (proj2 (r_file _ _ _ _ _ _ _ R))) SU).
Qed.
Print Assumptions C174_linked_partial.

(** *** Example: the first patch of the example process *)
Section Ex.
Variable wd : Z -> Z.
Variable m : mem.
Hypothesis L : layout m = true.

Lemma ll_n : nsec m = 11. Proof. unfold nsec. apply (lay_t m L). Qed.
Lemma ll_sect j : sect m j = section m 480 j. Proof. unfold sect. destruct (lay_t m L) as (-> & _). reflexivity. Qed.
Lemma ll_record x : record_byte m x -> 80 <= x < 132.
Proof. intros (j & Hj & N & Hx). rewrite ll_n in Hj. pose proof (lay_info m L j Hj N). subst j. rewrite ll_sect, (off2 m L) in Hx. lia. Qed.
Lemma ll_table x : in_table m x -> 480 <= x < 1184.
Proof. unfold in_table. destruct (lay_t m L) as (-> & -> & _). lia. Qed.
Lemma ll_size7 : sh_size (section m 480 7) = 24.
Proof. pose proof L as LL. unfold layout in LL. rewrite !andb_true_iff in LL. lia. Qed.
Lemma ll_size8 : sh_size (section m 480 8) = 96.
Proof. pose proof L as LL. unfold layout in LL. rewrite !andb_true_iff in LL. lia. Qed.
Lemma ll_info7 : sh_info (section m 480 7) = 1.
Proof. pose proof L as LL. unfold layout in LL. rewrite !andb_true_iff in LL. lia. Qed.
Lemma ll_entry x : entry_byte m x -> 208 <= x < 232.
Proof.
  intros (j & Hj & N & Hx). rewrite ll_n in Hj. rewrite ll_sect in N. pose proof (lay_rela_sec m L j Hj N). subst j.
  rewrite ll_sect, (off7 m L), ll_size7 in Hx. change (24 / 24) with 1 in Hx. lia.
Qed.
Lemma ll_sym s : 0 <= s < nsec m -> sh_type (sect m s) = SHT_SYMTAB -> s = 8.
Proof.
  rewrite ll_n, ll_sect. intros Hs Ty. pose proof L as LL. unfold layout in LL. rewrite !andb_true_iff in LL. decompose [and] LL.
  match goal with H : on_all m (fun m j => Bool.eqb (sh_type _ =? SHT_SYMTAB) _) = true |- _ => pose proof (on_all_ok _ _ H s Hs) as Y end. cbv beta in Y. rewrite Ty in Y.
  destruct (Z.eqb_spec s 8); [auto|discriminate].
Qed.
Lemma ll_live i k : live m i k -> i = 7 /\ k = 0.
Proof.
  intros (Hi & Ty & _ & _ & _ & Hk). rewrite ll_n in Hi. rewrite ll_sect in Ty. pose proof (lay_rela_sec m L i Hi Ty). subst i. split; auto.
  rewrite ll_sect, ll_size7 in Hk. change (24 / 24) with 1 in Hk. lia.
Qed.
Lemma ll_symbyte x : sym_byte m 8 x -> 232 <= x < 328.
Proof. unfold sym_byte, count. rewrite ll_sect, (off8 m L), ll_size8. change (96 / 24) with 4. lia. Qed.
Lemma ll_count : count m 8 = 4.
Proof. unfold count. rewrite ll_sect, ll_size8. reflexivity. Qed.

(** What is left is computed. *)
Hypothesis C : 64 <= place m 7 0 <= 72 /\ 0 <= wd (e_type m 7 0) <= 8 /\ e_sym m 7 0 = 2 /\ sh_link (sect m 7) = 8 /\ sh_type (sect m 0) = 0 /\ sh_flags (sect m 0) = 0 /\
  forallb (fun j => sh_offset (sect m j) <=? 1184) [0; 1; 2; 3; 4; 5; 6; 7; 8; 9; 10] = true /\
  forallb (fun k => (328 <=? name m 8 k) && (name m 8 k <=? 350) && (m 350 =? 0) && (ld 2 m (sym m 8 k + 6) <? 11)) [0; 1; 2; 3] = true.

Lemma ll_linkable len : 1184 <= len -> linkable wd m len.
Proof.
  intros Hl. destruct C as (C1 & C2 & C3 & C4 & C5 & C6 & C7 & C8). rewrite forallb_forall in C7, C8.
  assert (K4 : forall k, 0 <= k < 4 -> In k [0; 1; 2; 3]) by (intros k Hk; cbn [In]; lia).
  constructor.
  - auto.
  - intros j Hj. rewrite ll_n in Hj. specialize (C7 j ltac:(cbn [In]; lia)). lia.
  - intros x Hx. apply ll_entry in Hx. split; [lia|]. split; intros X; [apply ll_table in X|apply ll_record in X]; lia.
  - intros s x Hs Ty Hx. pose proof (ll_sym s Hs Ty). subst s. apply ll_symbyte in Hx. split; [lia|].
    repeat split; intros X; [apply ll_table in X|apply ll_record in X|apply ll_entry in X]; lia.
  - intros s k Hs Ty Hk. pose proof (ll_sym s Hs Ty). subst s. rewrite ll_count in Hk. specialize (C8 k (K4 k Hk)). exists 350. split; [lia|]. split; [lia|].
    intros x Hx. split; [intros X; apply ll_table in X; lia|]. split; [intros X; apply ll_record in X; lia|]. split; [intros X; apply ll_symbyte in X; lia|].
    intros i k' Lv X. destruct (ll_live _ _ Lv). subst. unfold in_place in X. lia.
  - intros s k Hs Ty Hk. pose proof (ll_sym s Hs Ty). subst s. rewrite ll_count in Hk. specialize (C8 k (K4 k Hk)). cbv zeta. rewrite ll_n. lia.
  - intros s i k Hs Ty Lv. pose proof (ll_sym s Hs Ty). subst s. destruct (ll_live _ _ Lv). subst. rewrite ll_count. lia.
  - intros i k Lv. destruct (ll_live _ _ Lv). subst. lia.
  - intros i k x Lv Hx. destruct (ll_live _ _ Lv). subst. unfold in_place in Hx.
    split; [intros X; apply ll_table in X; lia|]. split; [intros X; apply ll_record in X; lia|]. split; [intros X; apply ll_entry in X; lia|].
    intros s Hs Ty X. pose proof (ll_sym s Hs Ty). subst s. apply ll_symbyte in X. lia.
  - intros i k i' k' A B N. destruct (ll_live _ _ A), (ll_live _ _ B). subst. congruence.
Qed.

Lemma ll_live7 : Z.land (sh_flags (section m 480 1)) SHF_ALLOC <> 0 -> sh_type (section m 480 7) = SHT_RELA -> live m 7 0.
Proof.
  intros F T. unfold live. rewrite ll_n, !ll_sect, ll_info7, ll_size7. split; [lia|]. split; [exact T|]. split; [lia|]. split; [exact F|]. split; [|change (24 / 24) with 1; lia].
  intros (_ & N & _). pose proof (lay_info m L 1 ltac:(lia) N). lia.
Qed.
End Ex.

Lemma ex_linkable : linkable field_width ex_img ex_len.
Proof. apply ll_linkable; [apply ex_layout| |unfold ex_len; lia]. vm_compute. intuition congruence. Qed.
Lemma ex_live : live ex_img 7 0.
Proof. apply ll_live7; [apply ex_layout|vm_compute; discriminate|vm_compute; reflexivity]. Qed.

Lemma run1_linked : linked field_width ex_lookup ex_img 0x7000000 x86_value ex_len m1.
Proof. exact (proj1 (C174_linked_partial _ _ _ _ _ _ _ _ _ _ _ _ opened1 ok1 eq_refl ex_linkable ltac:(lia) ltac:(vm_compute; reflexivity) out1_is)). Qed.
Lemma run1_call : ld 4 m1 (0x7000000 + 69) = (0x401000 - 4 - (0x7000000 + 69)) mod 2 ^ 32.
Proof. vm_compute. reflexivity. Qed.
(** The call in the new function goes to the helper of the process, at 0x401000. *)
Example C174_ex : linked field_width ex_lookup ex_img 0x7000000 x86_value ex_len m1 /\ live ex_img 7 0 /\
  ex_lookup (str "helper") = Some 0x401000 /\ ld 4 m1 (0x7000000 + 69) = (0x401000 - 4 - (0x7000000 + 69)) mod 2 ^ 32.
Proof. split; [exact run1_linked|]. split; [exact ex_live|]. split; [vm_compute; reflexivity|exact run1_call]. Qed.

(** *** Refuted: a function that the process does not have
    is no reason to fail, when a symbol that it has comes later in the table (patch.c 731-740
    leaves the error of an earlier symbol overwritten, C38); the call then goes to address 0. *)
Definition strong_file : list Z := Eval vm_compute in
  patch_list (patch_list (patch_list ex_file (232 + 24 * 2) (firstn 24 (skipn 72 ex_symtab))) (232 + 24 * 3) (firstn 24 (skipn 48 ex_symtab))) (232 + 24 * 2 + 4) [0x12].
Definition strong_f : mem := of_bytes strong_file.
Definition run_s := pa_run (pa_env 0x7000000) strong_file.
Definition open_s := open_session (c_e run_s) pa_w [].
Definition out_s := do_patch run_s (p_sess open_s) (p_world open_s).
Strategy expand [open_s out_s].

Lemma s_bytes : byte_mem strong_f. Proof. apply bytes_ok. vm_compute. reflexivity. Qed.
Lemma s_layout : layout strong_f = true. Proof. vm_compute. reflexivity. Qed.
Lemma s_wf : well_formed strong_f ex_len.
Proof.
  assert (N : ld 2 strong_f 60 = 11) by (vm_compute; reflexivity). constructor.
  - vm_compute. repeat split; discriminate.
  - vm_compute. reflexivity.
  - rewrite N. use11; exists 477; vm_compute; repeat split; discriminate.
  - rewrite N. use11; intros _; vm_compute; discriminate.
  - rewrite N. use11; intros (_ & F & _); pose proof (F 1%nat ltac:(vm_compute; lia)) as F1; specialize (F 10%nat ltac:(vm_compute; lia));
      first [vm_compute in F; discriminate F|vm_compute in F1; discriminate F1|exists 152, 159; vm_compute; repeat split; discriminate].
  - rewrite N. use11; intros (_ & F & _); specialize (F 1%nat ltac:(vm_compute; lia));
      first [vm_compute in F; discriminate F|vm_compute; discriminate].
  - rewrite N. use11; intros F; first [vm_compute in F; discriminate F|vm_compute; reflexivity].
Qed.
Lemma s_setup : setup_load_info strong_f ex_len = Some (inr ex_li). Proof. vm_compute. reflexivity. Qed.
Lemma s_good : good_file run_s strong_f ex_len.
Proof.
  split; [vm_compute; reflexivity|]. split; [apply s_bytes|]. split; [apply lay_tidy; [apply s_layout|apply s_wf|vm_compute; discriminate]|]. split.
  - intros hdr li S. apply (lay_safe _ ex_len); [apply s_bytes|apply s_layout|apply s_wf|vm_compute; discriminate|exact S].
  - intros li S. rewrite s_setup in S. assert (li = ex_li) by congruence. subst. discriminate.
Qed.
Lemma s_redirects : redirects strong_f (str "new_fn") (str "old_fn").
Proof. apply lay_redirects; [apply s_layout|..]; apply string_check; vm_compute; reflexivity. Qed.
Lemma s_opened : opened (c_e run_s) pa_w [] (p_sess open_s) (p_world open_s).
Proof. split; [constructor|]. split; [constructor|]. unfold open_s at 1. apply p_get. vm_compute. reflexivity. Qed.
Lemma s_ok : run_ok run_s (p_world open_s) [] strong_f ex_len 0x7000000 0x7001000.
Proof.
  apply mk_ok; [apply s_good|apply s_redirects|reflexivity|vm_compute; discriminate|reflexivity| |vm_compute; reflexivity|lia].
  intros x (v & [] & _).
Qed.
Lemma s_out : do_patch run_s (p_sess open_s) (p_world open_s) = Some (0, o_sess out_s, Some 0x7000000, o_world out_s, o_log out_s).
Proof.
  assert (G : out_s = Some (0, o_sess out_s, Some 0x7000000, o_world out_s, o_log out_s)) by (apply o_get; vm_compute; reflexivity).
  unfold out_s at 1 in G. exact G.
Qed.
Lemma s_linkable : linkable field_width strong_f ex_len.
Proof. apply ll_linkable; [apply s_layout| |unfold ex_len; lia]. vm_compute. intuition congruence. Qed.
Lemma s_live : live strong_f 7 0.
Proof. apply ll_live7; [apply s_layout|vm_compute; discriminate|vm_compute; reflexivity]. Qed.
Lemma s_call : ld 4 (t_mem (w_t (o_world out_s))) (0x7000000 + place strong_f 7 0) = (0 - 4 - (0x7000000 + place strong_f 7 0)) mod 2 ^ 32.
Proof. vm_compute. reflexivity. Qed.

Theorem C174_linked_refuted : exists c w ss w1 f len hdr stop s' w2 log i k nm,
  opened (c_e c) w [] ss w1 /\ run_ok c w1 [] f len hdr stop /\ c_reloc c = x86_reloc /\ linkable field_width f len /\
  do_patch c ss w1 = Some (0, s', Some hdr, w2, log) /\
  live f i k /\ e_type f i k = 4 /\ e_add f i k = 2 ^ 64 - 4 /\
  let q := sym f (sh_link (sect f i)) (e_sym f i k) in
  ld 2 f (q + 6) = SHN_UNDEF /\ sym_bind f q = STB_GLOBAL /\ string_at f (name f (sh_link (sect f i)) (e_sym f i k)) nm /\ c_lookup c nm = None /\
  ld 4 (t_mem (w_t w2)) (hdr + place f i k) = (0 - 4 - (hdr + place f i k)) mod 2 ^ 32.
Proof.
  exists run_s, pa_w, (p_sess open_s), (p_world open_s), strong_f, ex_len, 0x7000000, 0x7001000, (o_sess out_s), (o_world out_s), (o_log out_s), 7, 0, (str "weak_fn").
  split; [exact s_opened|]. split; [exact s_ok|]. split; [reflexivity|]. split; [exact s_linkable|]. split; [exact s_out|]. split; [exact s_live|].
  split; [vm_compute; reflexivity|]. split; [vm_compute; reflexivity|]. cbv zeta. split; [vm_compute; reflexivity|]. split; [vm_compute; reflexivity|].
  split; [apply string_check; vm_compute; reflexivity|]. split; [vm_compute; reflexivity|]. exact s_call.
Qed.
Print Assumptions C174_linked_refuted.
