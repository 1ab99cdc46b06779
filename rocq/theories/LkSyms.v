(** The headers and the symbols of a patch file that is linked. *)
From Coq Require Import ZArith String List Bool Lia ZifyBool ZifyNat.
From Verif Require Import Word WordLemmas Str ElfDefs TextModel LdModel LdSpec LdProofs LdSyms LdMore X86RelocModel X86RelocSpec ScModel ScSpec PaModel PaSpec PaRead PaProofs PaMore PaKick PaLoad LkSpec.
Import ListNotations.
Open Scope Z_scope.

Lemma find_symtab_str img len t n : forall i r, find_symtab img len t i n = Some (Some r) ->
  snd r = sh_offset (section img t (sh_link (section img t (fst r)))).
Proof.
  induction n as [|n IH]; intros i r H; cbn [find_symtab] in H; [discriminate|]. ob H. clear E.
  destruct (z =? SHT_SYMTAB).
  - ob H. apply rd_inv in E. destruct E as (-> & _). ob H. apply rd_inv in E. destruct E as (-> & _). apply some_inj in H.
    assert (r = (i, ld 8 img (sec t (ld 4 img (sec t i + 40)) + 24))) by congruence. subst r. reflexivity.
  - apply (IH (i + 1)); auto.
Qed.

Lemma setup_strtab m l li : setup_load_info m l = Some (inr li) ->
  li_strtab li = sh_offset (section m (ld 8 m 40) (sh_link (section m (ld 8 m 40) (li_sym li)))).
Proof.
  intros SU. unfold setup_load_info in SU. cbv zeta in SU. unfold e_shoff in SU.
  ob SU. apply rd_inv in E. destruct E as (-> & _).
  do 3 ob SU. destruct (z1 =? 0); [discriminate|].
  do 2 ob SU. destruct (negb (z3 =? ULPATCH_FILE_VERSION)); [discriminate|].
  ob SU. destruct (z4 =? 0); [discriminate|]. ob SU.
  ob SU. destruct (z6 =? 0); [discriminate|]. ob SU.
  ob SU. destruct (z8 =? 0); [discriminate|]. ob SU.
  ob SU. destruct (z10 =? 0); [discriminate|]. ob SU.
  destruct (negb (z11 =? SHT_NOTE)); [discriminate|]. do 3 ob SU. ob SU. destruct p as [[e1 s1] d1].
  destruct (negb (e1 =? 0)); [discriminate|]. ob SU. ob SU. destruct o0 as [[sy st]|]; [|discriminate].
  match goal with H : find_symtab _ _ _ _ _ = _ |- _ => apply find_symtab_str in H; cbn [fst snd] in H; rename H into FS end.
  apply some_inj in SU. match type of SU with inr ?a = inr _ => assert (Hl : li = a) by congruence end. subst li. exact FS.
Qed.

Lemma rewrite_loop_byte len th li n : forall m i err m', rewrite_loop m len th li i n = Some (err, m') -> byte_mem m -> byte_mem m'.
Proof.
  induction n as [|n IH]; intros m i err m' H Hb; cbn [rewrite_loop] in H.
  - apply some_pair2 in H. destruct H as [_ <-]. auto.
  - do 4 ob H. destruct (_ && _). { apply some_pair2 in H. destruct H as [_ <-]. auto. }
    ob H. destruct (_ && _). { apply some_pair2 in H. destruct H as [_ <-]. auto. }
    ob H. match goal with H : wr _ _ _ _ _ = _ |- _ => apply wr_inv in H; destruct H as (-> & _) end. apply (IH _ _ _ _ H). apply st_byte. auto.
Qed.

Lemma rewrite_byte m len th li err m' : rewrite_section_headers m len th li = Some (err, m') -> byte_mem m -> byte_mem m'.
Proof.
  intros H Hb. unfold rewrite_section_headers in H. ob H. apply wr_inv in E. destruct E as (-> & _). ob H. ob H. destruct p as [e1 m1].
  apply rewrite_loop_byte in E0; [|apply st_byte; auto]. destruct (negb (e1 =? 0)). { apply some_pair2 in H. destruct H as [_ <-]. auto. }
  ob H. ob H. apply wr_inv in E2. destruct E2 as (-> & _). apply some_pair2 in H. destruct H as [_ <-]. apply st_byte. auto.
Qed.

Lemma simplify_loop_byte lookup len li n : forall m p ret ret' m', simplify_loop lookup m len li p n ret = Some (ret', m') -> byte_mem m -> byte_mem m'.
Proof.
  induction n as [|n IH]; intros m p ret ret' m' H Hb; cbn [simplify_loop] in H.
  - apply some_pair2 in H. destruct H as [_ <-]. auto.
  - ob H. destruct p0 as [r1 m1]. destruct (simplify_one_spec lookup (li_strtab li) (li_sechdrs li) _ _ _ _ _ _ _ eq_refl eq_refl Hb E) as (_ & Hb1 & _). eauto.
Qed.

Section Stage.
Variables (wd : Z -> Z) (lookup : list Z -> option Z) (f : mem) (len hdr : Z) (li : linfo).
Hypothesis Hb : byte_mem f.
Hypothesis T : tidy f len.
Hypothesis SU : setup_load_info f len = Some (inr li).
Hypothesis LK : linkable wd f len.

Notation t := (ld 8 f 40).
Notation n := (nsec f).
Notation s := (li_sym li).

Lemma s_range : 1 <= s < n.
Proof. destruct (setup_facts _ _ _ Hb SU) as (_ & _ & (X & _) & _). exact X. Qed.
Lemma s_type : sh_type (sect f s) = SHT_SYMTAB.
Proof. destruct (setup_facts _ _ _ Hb SU) as (_ & _ & (_ & X) & _). exact X. Qed.
Lemma off_pos j : 0 <= sh_offset (sect f j) < 2 ^ 64.
Proof. apply (ld_range 8). auto. Qed.
Lemma size_pos j : 0 <= sh_size (sect f j).
Proof. apply (ld_range 8). auto. Qed.
Lemma count_pos : 0 <= count f s.
Proof. apply Z.div_pos; [apply size_pos|lia]. Qed.

(** *** After the headers are rewritten *)
Lemma headers_agree m j : agrees f m -> 0 <= j < n ->
  sh_type (section m t j) = sh_type (sect f j) /\ sh_offset (section m t j) = sh_offset (sect f j) /\ sh_size (section m t j) = sh_size (sect f j) /\
  sh_link (section m t j) = sh_link (sect f j) /\ sh_info (section m t j) = sh_info (sect f j).
Proof.
  intros A Hj. unfold sect, section, shdr_at. cbn [sh_type sh_offset sh_size sh_link sh_info].
  repeat split; apply ld_ext; intros x Hx; apply A; apply (header_meta f j); auto; lia.
Qed.

(** The flags by which relocation sections are chosen. *)
Definition flags_as (m : mem) : Prop := forall j, 0 <= j < n ->
  (Z.land (sh_flags (section m t j)) SHF_ALLOC = 0 <-> j = li_info_idx li \/ Z.land (sh_flags (sect f j)) SHF_ALLOC = 0).

Lemma no_alloc v : Z.land (u64 (Z.lor (Z.land v (u64 (Z.lnot SHF_ALLOC))) SHF_RELA_LIVEPATCH)) SHF_ALLOC = 0.
Proof.
  unfold u64, wrap. apply Z.bits_inj'. intros k Hk. rewrite Z.land_spec, Z.bits_0. destruct (Z.eq_dec k 1) as [->|Nk].
  - rewrite Z.mod_pow2_bits_low by lia. rewrite Z.lor_spec, Z.land_spec. change (Z.testbit (Z.lnot SHF_ALLOC mod 2 ^ 64) 1) with false.
    change (Z.testbit SHF_RELA_LIVEPATCH 1) with false. rewrite andb_false_r. reflexivity.
  - assert (X : Z.testbit SHF_ALLOC k = false). { change SHF_ALLOC with (2 ^ 1). rewrite Z.pow2_bits_eqb by lia. lia. } rewrite X. apply andb_false_r.
Qed.

Lemma rewrite_stage m : rewrite_section_headers f len hdr li = Some (0, m) ->
  byte_mem m /\ (forall x, ~ in_table f x -> m x = f x) /\ agrees f m /\ placed f hdr m /\ flags_as m /\ same_outside (written f) f m.
Proof.
  intros H. split; [apply (rewrite_byte _ _ _ _ _ _ H Hb)|]. destruct (rewrite_step f len li Hb T SU _ _ _ H) as [A1 B1].
  destruct (setup_facts _ _ _ Hb SU) as (Et & (I1 & I2 & I3 & I4) & _ & _).
  pose proof (wf_table _ _ (proj1 T)) as Tb. rewrite <- Et in Tb.
  destruct (rewrite_spec _ _ _ _ _ _ _ eq_refl Tb ltac:(lia) ltac:(lia) H) as [A B]. rewrite Et in *. specialize (B eq_refl).
  split; [|split; [|split; [|split]]]; auto.
  - intros x Hx. apply A. intros (j & Hj & D). apply Hx. unfold in_table. unfold addr_field in D. lia.
  - apply (outside_agrees f len T). auto.
  - intros j Hj. unfold nsec in Hj. destruct (Z.eq_dec j (li_info_idx li)) as [->|Nj].
    + destruct (B (li_info_idx li) ltac:(lia)) as (_ & _ & C). cbv zeta in C. rewrite C. rewrite Z.eqb_refl. cbn [sh_flags set_flags]. rewrite no_alloc. tauto.
    + assert (Ef : sh_flags (section m t j) = sh_flags (sect f j)).
      { apply (ld_ext 8). intros x Hx. apply A. intros (q & Hq & D). unfold addr_field in D. lia. }
      rewrite Ef. tauto.
Qed.

(** *** After the symbols have their values *)
Lemma strtab_is : li_strtab li = sh_offset (sect f (sh_link (sect f s))).
Proof. apply (setup_strtab _ _ _ SU). Qed.

Lemma sym_in k x : 0 <= k < count f s -> sym f s k <= x < sym f s k + 24 -> sym_byte f s x.
Proof. intros Hk Hx. unfold sym_byte, sym in *. lia. Qed.

Lemma sym_out x : sym_byte f s x -> 0 <= x < len /\ ~ in_table f x /\ ~ record_byte f x /\ ~ entry_byte f x.
Proof. intros Hx. pose proof s_range. destruct (lk_syms _ _ _ LK s x ltac:(lia) s_type Hx) as (A & B). split; auto. unfold sym_byte in Hx. pose proof (off_pos s). lia. Qed.

(** The entry of symbol [k] in an image that has the bytes of the file outside the table. *)
Lemma ld_sym m w k o : (forall x, ~ in_table f x -> m x = f x) -> 0 <= k < count f s -> 0 <= o -> o + Z.of_nat w <= 24 ->
  ld w m (sym f s k + o) = ld w f (sym f s k + o).
Proof. intros A Hk O0 O1. apply ld_ext. intros x Hx. apply A. apply (sym_out x). apply (sym_in k); auto. lia. Qed.

Lemma name_before m k : (forall x, ~ in_table f x -> m x = f x) -> 0 <= k < count f s ->
  name_off (li_strtab li) m (sym f s k) = name f s k /\ forall w, string_at m (name f s k) w <-> string_at f (name f s k) w.
Proof.
  intros A Hk. split.
  - unfold name_off, name. rewrite strtab_is. f_equal. replace (sym f s k) with (sym f s k + 0) by lia. apply ld_sym; auto; lia.
  - intros w. pose proof s_range. destruct (lk_names _ _ _ LK s k ltac:(lia) s_type Hk) as (z & Z0 & Hz & D).
    assert (G : forall x, name f s k <= x <= z -> m x = f x) by (intros x Hx; apply A; apply (D x Hx)).
    split; intros S.
    + apply string_at_ext with m; auto. intros x Hx. symmetry. apply G. assert (Zm : m z = 0) by (rewrite G by lia; auto). pose proof (string_before _ _ _ _ S Zm ltac:(lia)). lia.
    + apply string_at_ext with f; auto. intros x Hx. apply G. pose proof (string_before _ _ _ _ S Z0 ltac:(lia)). lia.
Qed.

Lemma apart_after m : (forall x, ~ in_table f x -> m x = f x) -> apart (li_strtab li) t m (sh_offset (sect f s) + 24) (Z.to_nat (count f s) - 1).
Proof.
  intros A k Hk. cbv zeta. pose proof count_pos. pose proof s_range.
  assert (Eq : sh_offset (sect f s) + 24 + 24 * k = sym f s (k + 1)) by (unfold sym; lia). rewrite Eq.
  assert (Ee : sh_offset (sect f s) + 24 + 24 * Z.of_nat (Z.to_nat (count f s) - 1) = sh_offset (sect f s) + 24 * count f s) by lia. rewrite Ee.
  destruct (name_before m (k + 1) A ltac:(lia)) as [Nm _]. rewrite Nm.
  destruct (lk_names _ _ _ LK s (k + 1) ltac:(lia) s_type ltac:(lia)) as (z & Z0 & Hz & D). split.
  - exists z. split; [rewrite A; [auto|apply (D z); lia]|]. split; [lia|].
    destruct (Z_lt_le_dec z (sh_offset (sect f s) + 24)); [auto|right].
    destruct (Z_le_gt_dec (sh_offset (sect f s) + 24 * count f s) (name f s (k + 1))); [auto|exfalso].
    set (y := Z.max (name f s (k + 1)) (sh_offset (sect f s) + 24)). destruct (D y ltac:(lia)) as (_ & _ & X & _). apply X. unfold sym_byte. lia.
  - unfold sym_shndx. rewrite ld_sym by (auto; lia). intros N1 N2 N3.
    destruct (lk_shndx _ _ _ LK s (k + 1) ltac:(lia) s_type ltac:(lia)) as [X|[X|X]]; [contradiction|contradiction|].
    assert (X0 : 0 <= ld 2 f (sym f s (k + 1) + 6)) by (apply ld_range; auto). set (j := ld 2 f (sym f s (k + 1) + 6)) in *.
    destruct (Z_le_gt_dec (t + 64 * j + 64) (sh_offset (sect f s) + 24)); [auto|right].
    destruct (Z_le_gt_dec (sh_offset (sect f s) + 24 * count f s) (t + 64 * j)); [auto|exfalso].
    set (y := Z.max (t + 64 * j) (sh_offset (sect f s) + 24)). destruct (sym_out y ltac:(unfold sym_byte; lia)) as (_ & Y & _). apply Y. unfold in_table, nsec in *. lia.
Qed.

Definition value_of (x : Z) : Prop := exists k, 1 <= k < count f s /\ sym f s k + 8 <= x < sym f s k + 16.

Lemma value_sym x : value_of x -> sym_byte f s x.
Proof. intros (k & Hk & Hx). apply (sym_in k); lia. Qed.

Lemma simplify_stage m ret m' : byte_mem m -> (forall x, ~ in_table f x -> m x = f x) -> agrees f m -> placed f hdr m -> 
  simplify_symbols lookup m len hdr li = Some (ret, m') ->
  byte_mem m' /\ (forall x, ~ value_of x -> m' x = m x) /\
  forall k, 0 <= k < count f s -> denotes lookup f hdr s k (ld 8 m' (sym f s k + 8)).
Proof.
  intros Bm A Ag Pl H. destruct (setup_facts _ _ _ Hb SU) as (Et & _). pose proof s_range as Sr. pose proof count_pos as Cp.
  assert (Ea : ld 8 m (t + 64 * s + 16) = u64 (hdr + sh_offset (sect f s))) by (apply Pl; unfold nsec in Sr; lia).
  unfold simplify_symbols, symtab_off, symtab_num, g_addr, g_size in H. ob H. ob E. apply rd_inv in E0. destruct E0 as (-> & _).
  ob H. ob E0. apply rd_inv in E1. destruct E1 as (-> & _). rewrite Et in *. unfold sec, sizeof_shdr, sizeof_sym in *.
  rewrite Ea in E. apply some_inj in E, E0. subst z z0.
  assert (Es : ld 8 m (t + 64 * s + 32) / 24 = count f s).
  { unfold count. f_equal. apply (headers_agree m s Ag ltac:(lia)). }
  rewrite Es in H.
  assert (Eo : u64 (u64 (hdr + sh_offset (sect f s)) - hdr) = sh_offset (sect f s)).
  { unfold u64, wrap. rewrite Zminus_mod_idemp_l. replace (hdr + sh_offset (sect f s) - hdr) with (sh_offset (sect f s)) by lia. apply Z.mod_small. apply off_pos. }
  rewrite Eo in H. split; [apply (simplify_loop_byte _ _ _ _ _ _ _ _ _ H Bm)|].
  destruct (simplify_loop_spec lookup (li_strtab li) t _ _ _ _ _ _ _ _ eq_refl Et Bm (apart_after m A) H) as (F & NV & _).
  assert (Fr : forall x, ~ value_of x -> m' x = m x).
  { intros x Hx. apply F. intros (k & Hk & V). apply Hx. exists (k + 1). unfold value_field in V. unfold sym. split; lia. }
  split; [exact Fr|].
  intros k Hk. unfold denotes. cbv zeta.
  assert (K0 : k = 0 -> ld 8 m' (sym f s k + 8) = ld 8 f (sym f s k + 8)).
  { intros ->. rewrite <- (ld_sym m 8 0 8) by (auto; lia). apply ld_ext. intros x Hx. apply Fr. intros (k & Hk' & V). unfold sym in *. lia. }
  assert (K1 : 1 <= k -> new_value lookup (li_strtab li) t m (sym f s k) (ld 8 m' (sym f s k + 8))).
  { intros Hk1. specialize (NV (k - 1) ltac:(lia)). replace (sh_offset (sect f s) + 24 + 24 * (k - 1)) with (sym f s k) in NV by (unfold sym; lia). exact NV. }
  destruct (name_before m k A Hk) as [Nm St].
  assert (Sx : sym_shndx m (sym f s k) = ld 2 f (sym f s k + 6)) by (unfold sym_shndx; apply ld_sym; auto; lia).
  assert (Sv : LdSpec.sym_value m (sym f s k) = ld 8 f (sym f s k + 8)) by (unfold LdSpec.sym_value; apply ld_sym; auto; lia).
  set (x := ld 2 f (sym f s k + 6)) in *. set (v := ld 8 m' (sym f s k + 8)) in *.
  split; [|split; [|split]].
  - intros D. destruct (Z.eq_dec k 0) as [E0|N0]; [auto|]. destruct (K1 ltac:(lia)) as (V & _). rewrite Sx, Sv in V. apply V. tauto.
  - intros Hk1 U w a S L Na. destruct (K1 Hk1) as (_ & V & _). apply V. split; [congruence|]. split; auto. exists w. rewrite Nm, St. auto.
  - intros Hk1 U w S L. destruct (K1 Hk1) as (V & _). rewrite Sx, Sv in V. apply V. right. right. split; [congruence|]. exists w. rewrite Nm, St. auto.
  - intros Hk1 Hx Na Nc. destruct (K1 Hk1) as (_ & _ & V). rewrite Sx, Sv in V. rewrite V by (auto; unfold SHN_UNDEF; lia).
    rewrite Pl by (unfold nsec in Hx; lia). rewrite Z.add_mod_idemp_r by lia. f_equal. unfold sect. lia.
Qed.
End Stage.
