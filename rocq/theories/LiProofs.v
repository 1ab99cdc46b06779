(** Lemmas about the list of patches. *)
From Coq Require Import ZArith String List Bool Lia.
From Verif Require LdModel PaModel EcModel.
From Verif Require Import Word WordLemmas RbModel Str ElfDefs LdSpec LdProofs PaSpec PaLoad MpSpec DsSpec DsModel DsProofs RsModel RsSpec RsProofs ScModel LiModel LiSpec.
Import ListNotations.
Open Scope Z_scope.

Lemma magic_elf im : LdModel.magic_ok (im_mem im) = elf_image im.
Proof.
  unfold elf_image. apply eq_true_iff_eq. change (bytes_at (im_mem im) 0 4) with [im_mem im 0; im_mem im 1; im_mem im 2; im_mem im 3].
  change (0x7f :: str "ELF") with [127; 69; 76; 70]. unfold LdModel.magic_ok. rewrite !andb_true_iff, !Z.eqb_eq.
  destruct (list_eq_dec Z.eq_dec _ _) as [E|N]; split; try congruence.
  - intros _. injection E as -> -> -> ->. auto.
  - intros (((E1 & E2) & E3) & E4). rewrite E1, E2, E3, E4 in N. congruence.
Qed.

Lemma string_ends m n : forall off z, m z = 0 -> off <= z -> (Z.to_nat (z - off) < n)%nat ->
  exists s, string_at m off s /\ off + Z.of_nat (List.length s) <= z.
Proof.
  induction n as [|n IH]; intros off z Hz Ho Hn; [lia|]. destruct (Z.eq_dec (m off) 0) as [E|N].
  - exists []. split; [apply string_at_nil; auto|cbn [List.length]; lia].
  - assert (off <> z) by congruence. destruct (IH (off + 1) z Hz ltac:(lia) ltac:(lia)) as (s & S1 & S2).
    exists (m off :: s). split; [apply string_at_cons; auto|cbn [List.length]; lia].
Qed.

Lemma string_end m p s z : string_at m p s -> m z = 0 -> p <= z -> p + Z.of_nat (List.length s) <= z.
Proof.
  intros Hs Hz Hp. destruct (string_ends m (S (Z.to_nat (z - p))) p z Hz Hp ltac:(lia)) as (s' & S1 & S2).
  rewrite (string_at_fun _ _ _ _ Hs S1). exact S2.
Qed.

Lemma load_entry_ok im : good_image im -> strings_inside im -> exists id t func n,
  load_entry im = Some (Some n) /\ says im id t func /\ n_start n = im_start im /\ n_dst n = func /\
  ld 4 (n_info n) LdModel.ui_id = id /\ ld 8 (n_info n) LdModel.ui_time = t.
Proof.
  intros G Si. destruct (patch_syms_ok (Mp true true true 0 [] [] [] (Some im)) im G eq_refl eq_refl) as (ws & Ew & _).
  unfold load_entry. rewrite Ew. destruct (gi_known _ G) as (li & SU & Hb). rewrite SU.
  destruct (setup_facts _ _ _ (gi_bytes _ G) SU) as (F1 & (F2 & F3 & F4 & F5) & _ & j & src & J1 & J2 & J3 & S1 & S2 & S3 & S4).
  destruct (Si j ltac:(lia) J2) as (z1 & z2 & z3 & Z1 & Z2 & Z3 & L1 & L2 & L3).
  set (o := sh_offset (section (im_mem im) (ld 8 (im_mem im) 40) j)) in *.
  assert (Ho : 0 <= o) by (apply ld_range; apply (gi_bytes _ G)).
  pose proof (string_end _ _ _ _ S1 Z1 L1) as E1. change (Z.of_nat (List.length LdModel.SEC_MAGIC)) with 8 in E1.
  pose proof (string_end _ _ _ _ S2 Z2 ltac:(lia)) as E2.
  destruct (string_ends (im_mem im) (S (Z.to_nat (z3 - LdModel.li_dst li))) (LdModel.li_dst li) z3 Z3 ltac:(lia) ltac:(lia)) as (dst & D1 & D2).
  rewrite (cstr_ok _ _ _ _ D1) by lia. destruct (LdModel.li_bid li) as [bid|]; [|congruence].
  eexists _, _, dst, _. split; [reflexivity|]. cbn [n_start n_dst n_info]. split.
  - split.
    + exists (LdModel.li_info li). split; [|split; reflexivity]. exists (LdModel.li_info_idx li). split; [lia|]. auto.
    + exists src, j. split; [lia|]. split; [exact J2|]. split; [exact J3|]. cbv zeta. fold o. rewrite <- S4. auto.
  - split; [reflexivity|]. split; [reflexivity|]. split.
    + rewrite <- (Z.add_0_r (LdModel.li_info li)) at 2. symmetry. apply ld_shift. reflexivity.
    + symmetry. apply ld_shift. reflexivity.
Qed.

Lemma blanks n l : repeat 32 n ++ 32 :: l = repeat 32 (S n) ++ l.
Proof. change (repeat 32 (S n)) with (32 :: repeat 32 n). rewrite repeat_cons, <- app_assoc. reflexivity. Qed.

Lemma says_fun im id t func id' t' func' : says im id t func -> says im id' t' func' -> id = id' /\ t = t' /\ func = func'.
Proof.
  intros ((i1 & A1 & -> & ->) & s1 & j1 & B1 & C1 & D1 & E1 & F1 & G1) ((i2 & A2 & -> & ->) & s2 & j2 & B2 & C2 & D2 & E2 & F2 & G2).
  assert (i1 = i2) as ->.
  { destruct A1 as (j & X1 & X2 & X3 & ->), A2 as (k & Y1 & Y2 & Y3 & ->). assert (j = k) as ->; [|reflexivity].
    destruct (Z.lt_total j k) as [L|[L|L]]; auto; [destruct (Y3 j ltac:(lia) X2)|destruct (X3 k ltac:(lia) Y2)]. }
  assert (j1 = j2) as ->. { destruct (Z.lt_total j1 j2) as [L|[L|L]]; auto; [destruct (D2 j1 ltac:(lia) C1)|destruct (D1 j2 ltac:(lia) C2)]. }
  pose proof (string_at_fun _ _ _ _ F1 F2) as ->. pose proof (string_at_fun _ _ _ _ G1 G2) as ->. auto.
Qed.

Section Show.
Variable date : Z -> option (list Z).

Lemma row_ok i im : can_be_shown date im -> exists n line, load_entry im = Some (Some n) /\ row date i (Some n) = Some line /\ row_shown date (i, im) line.
Proof.
  intros (G & Si & Sh). destruct (load_entry_ok im G Si) as (id & t & func & n & E1 & E2 & E3 & E4 & E5 & E6).
  destruct (Sh _ _ _ E2) as [Hid Hd]. destruct (date (s64 t)) as [d|] eqn:Ed; [|congruence]. clear Hd.
  destruct (alt16_ok (im_start im) (gi_start _ G)) as (p & h & Ea & Ep & Eh).
  exists n. unfold row, ulp_info_strftime. rewrite E6, Ed, E5, E3, E4, Ea.
  assert (s32 id = id) as ->.
  { destruct E2 as ((info & _ & -> & _) & _). pose proof (ld_range 4 (im_mem im) info (gi_bytes _ G)) as R. clear - R Hid. apply sgn_id; lia. }
  eexists. split; [exact E1|]. split; [reflexivity|].
  exists id, t, func, d, p, h, (4 - List.length (dec i))%nat, (4 - List.length (dec id))%nat, (20 - List.length d)%nat, (16 - List.length func)%nat.
  split; [exact E2|]. split; [exact Ed|]. split; [|auto]. unfold EcModel.padr. rewrite <- !app_assoc.
  cbn [app fst snd]. rewrite !blanks. reflexivity.
Qed.

Lemma rows_ok ims : forall i, Forall (fun im => elf_image im = true -> can_be_shown date im) ims -> exists l text, load_list ims = Some l /\ rows date i l = Some text /\
  lines_of (row_shown date) (numbered i (filter elf_image ims)) text /\
  (l = [] <-> filter elf_image ims = []).
Proof.
  induction ims as [|im r IH]; intros i F.
  - exists [], []. split; [reflexivity|]. split; [reflexivity|]. split; [|tauto]. exists []. split; [constructor|reflexivity].
  - apply Forall_cons_iff in F. destruct F as [F1 F]. cbn [load_list filter]. rewrite magic_elf. destruct (elf_image im) eqn:El; cbn [negb].
    + destruct (IH (i + 1) F) as (l & text & E1 & E2 & (ls & L1 & L2) & _). destruct (row_ok i im (F1 eq_refl)) as (n & line & N1 & N2 & N3).
      rewrite N1, E1. exists (Some n :: l), (line ++ text). split; [reflexivity|]. cbn [rows]. rewrite N2, E2. split; [reflexivity|].
      split; [|split; discriminate]. exists (line :: ls). split; [constructor; auto|]. cbn [concat]. rewrite L2. reflexivity.
    + apply IH, F.
Qed.
End Show.
