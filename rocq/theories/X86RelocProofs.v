(** Proofs about x86-64 relocation. *)
From Coq Require Import ZArith List Bool Lia.
From Coq Require Import ZifyBool ZifyNat.
From Verif Require Import Word WordLemmas ElfDefs X86RelocModel X86RelocSpec.
Import ListNotations.
Open Scope Z_scope.

Ltac Zify.zify_post_hook ::= Z.div_mod_to_equations.

Lemma u64_small x : 0 <= x < 2 ^ 64 -> u64 x = x.
Proof. apply wrap_id. Qed.

Lemma t_off_cancel j x y : 0 <= y < 2 ^ 64 ->
  x = xj_target_hdr j + (y - xj_hdr j) -> u64 (x + x86_t_off j) = y.
Proof.
  intros Hy ->. unfold x86_t_off, u64, s64.
  destruct (sgn_congr 64 (xj_hdr j - xj_target_hdr j) ltac:(lia)) as [k ->].
  rewrite <- (wrap_id 64 y) at 2 by lia. apply wrap_congr with (k := k); lia.
Qed.

Lemma t_off_back j x y : 0 <= y < 2 ^ 64 ->
  x = xj_hdr j + (y - xj_target_hdr j) -> u64 (x - x86_t_off j) = y.
Proof.
  intros Hy ->. unfold x86_t_off, u64, s64.
  destruct (sgn_congr 64 (xj_hdr j - xj_target_hdr j) ltac:(lia)) as [k ->].
  rewrite <- (wrap_id 64 y) at 2 by lia. apply wrap_congr with (k := - k); lia.
Qed.

(** The types handled by the code. *)
Definition known_ty (ty : Z) : bool :=
  (ty =? 0) || (ty =? 1) || (ty =? 2) || (ty =? 4) || (ty =? 9) || (ty =? 10)
  || (ty =? 11) || (ty =? 18) || (ty =? 22) || (ty =? 23) || (ty =? 24)
  || (ty =? 41) || (ty =? 42).

Lemma unknown_ty m pi r S A P : known_ty (ra_ty r) = false ->
  psabi (ra_ty r) S A P = None /\ field_width (ra_ty r) = 0 /\ ~ acceptable m pi r.
Proof.
  unfold acceptable. destruct r as [off sy ty ad]; cbn [ra_ty].
  intros H. unfold known_ty in H.
  destruct ty as [|p|p]; [discriminate| |split; [|split]; auto].
  repeat (destruct p as [p|p|]; try discriminate; try (split; [|split]; auto; fail)).
Qed.

Lemma acceptable_zero m pi r : acceptable m pi r ->
  ld (Z.to_nat (field_width (ra_ty r))) m (field_host pi r) = 0.
Proof.
  intros H. destruct (known_ty (ra_ty r)) eqn:Hk.
  - unfold acceptable in H. cbv zeta in H. unfold known_ty in Hk.
    repeat (apply orb_true_iff in Hk; destruct Hk as [Hk|Hk]);
      apply Z.eqb_eq in Hk; rewrite Hk in *; try reflexivity; try exact H; apply H.
  - destruct (unknown_ty m pi r 0 0 0 Hk) as (_ & _ & C). contradiction.
Qed.

Section Step.
Variables (j : x86_job) (pi : placed_image) (m0 : mem).
Hypothesis Hd : describes j pi.
Hypothesis Hok : image_ok m0 pi.

Ltac facts :=
  pose proof (ds_hdr _ _ Hd) as Dhdr; pose proof (ds_target _ _ Hd) as Dtgt;
  pose proof (ds_rel _ _ Hd) as Drel; pose proof (ds_sym _ _ Hd) as Dsym;
  pose proof (ds_sec _ _ Hd) as Dsec; pose proof (io_hdr _ _ Hok) as Ihdr;
  pose proof (io_target _ _ Hok) as Itgt; pose proof (io_offs _ _ Hok) as Ioffs;
  pose proof (io_rel_tab _ _ Hok) as Itab; pose proof (io_rel _ _ Hok) as Irel.

Lemma rel_base_eq : pi_rels pi <> [] -> x86_rel_base j = pi_hdr pi + pi_rel_off pi.
Proof.
  intros Hne. facts. unfold x86_rel_base. apply t_off_cancel; [|rewrite Drel; lia].
  destruct (pi_rels pi); [congruence|]. simpl length in *. lia.
Qed.

Lemma loc_eq r : In r (pi_rels pi) -> x86_loc j (ra_off r) = field_host pi r.
Proof.
  intros Hin. apply In_nth_error in Hin. destruct Hin as [i Hi].
  facts. destruct (Irel i r Hi) as ((Ho1 & Ho2 & Ho3 & Ho4 & Ho5 & Ho6) & Hw & Hl & Hs).
  unfold x86_loc.
  replace (sh_addr (xj_sechdrs j (sh_info (xj_sechdrs j (xj_relsec j)))) + x86_t_off j + ra_off r)
    with (sh_addr (xj_sechdrs j (sh_info (xj_sechdrs j (xj_relsec j)))) + ra_off r + x86_t_off j) by lia.
  unfold field_host, field_off in *.
  apply t_off_cancel; rewrite ?Dsec; lia.
Qed.

Lemma symp_eq r : In r (pi_rels pi) -> x86_symp j (ra_sym r) = sym_host pi r.
Proof.
  intros Hin. apply In_nth_error in Hin. destruct Hin as [i Hi].
  facts. destruct (Irel i r Hi) as ((Ho1 & Ho2 & Ho3 & Ho4 & Ho5 & Ho6) & Hw & Hl & Hs).
  unfold x86_symp, sizeof_sym.
  rewrite (t_off_cancel j _ (pi_hdr pi + pi_sym_off pi)) by (rewrite ?Dsym; lia).
  unfold sym_host. apply u64_small. lia.
Qed.

Lemma place_eq r : In r (pi_rels pi) ->
  u64 (field_host pi r - x86_t_off j) = field_target pi r.
Proof.
  intros Hin. apply In_nth_error in Hin. destruct Hin as [i Hi].
  facts. destruct (Irel i r Hi) as ((Ho1 & Ho2 & Ho3 & Ho4 & Ho5 & Ho6) & Hw & Hl & Hs).
  unfold field_host, field_target, field_off in *. apply t_off_back; lia.
Qed.

Lemma r_info_dec r : 0 <= ra_ty r < 2 ^ 32 ->
  r_sym (ra_sym r * 2 ^ 32 + ra_ty r) = ra_sym r /\ r_type (ra_sym r * 2 ^ 32 + ra_ty r) = ra_ty r.
Proof.
  intros H. unfold r_sym, r_type. split.
  - rewrite Z.div_add_l by lia. rewrite Z.div_small; lia.
  - rewrite Z.add_comm, Z_mod_plus_full. apply Z.mod_small; lia.
Qed.

(** [m1] agrees with the original memory outside of the fields of the entries
    before index [i]. *)
Definition agree_upto (i : nat) (m1 : mem) : Prop :=
  forall x, (forall k q, (k < i)%nat -> nth_error (pi_rels pi) k = Some q ->
              ~ (field_host pi q <= x < field_host pi q + field_width (ra_ty q))) ->
  m1 x = m0 x.

Lemma agree_ld i m1 n a : agree_upto i m1 ->
  (forall k q, (k < i)%nat -> nth_error (pi_rels pi) k = Some q ->
     disjoint (field_host pi q) (field_width (ra_ty q)) a (Z.of_nat n)) ->
  ld n m1 a = ld n m0 a.
Proof.
  intros Ha Hdj. apply ld_ext. intros x Hx. apply Ha. intros k q Hk Hq Hin.
  specialize (Hdj k q Hk Hq). unfold disjoint in Hdj. lia.
Qed.

Lemma field_width_nonneg ty : 0 <= field_width ty.
Proof.
  unfold field_width. destruct ty as [|p|p]; try lia.
  repeat (destruct p as [p|p|]; try lia).
Qed.

Lemma one_spec i r m1 :
  nth_error (pi_rels pi) i = Some r -> agree_upto i m1 -> byte_mem m1 ->
  match x86_reloc_one j m1 (Z.of_nat i) with
  | RGo m' =>
      acceptable m0 pi r /\
      (forall x, ~ (field_host pi r <= x < field_host pi r + field_width (ra_ty r)) -> m' x = m1 x) /\
      (forall w v, psabi (ra_ty r) (sym_value m0 pi r) (ra_add r) (field_target pi r) = Some (w, v) ->
         ld w m' (field_host pi r) = v mod 2 ^ (8 * Z.of_nat w)) /\
      byte_mem m'
  | RErr e m' =>
      e = - ENOEXEC /\ ~ acceptable m0 pi r /\
      (forall x, ~ (field_host pi r <= x < field_host pi r + field_width (ra_ty r)) -> m' x = m1 x) /\
      (ld (Z.to_nat (field_width (ra_ty r))) m1 (field_host pi r) <> 0 -> m' = m1)
  end.
Proof.
  intros Hi Hag Hb.
  assert (Hin : In r (pi_rels pi)) by (eapply nth_error_In; eauto).
  assert (Hne : pi_rels pi <> []) by (intros E; rewrite E in Hin; destruct Hin).
  pose proof (io_rel _ _ Hok i r Hi) as ((Ho1 & Ho2 & Ho3 & Ho4 & Ho5 & Ho6) & Hw & Hl & Hs).
  pose proof (r_info_dec r Ho4) as [Hrs Hrt].
  assert (Hilen : (i < length (pi_rels pi))%nat) by (apply nth_error_Some; congruence).
  (* reads from the tables see the original bytes *)
  set (relp := pi_hdr pi + pi_rel_off pi + 24 * Z.of_nat i).
  assert (Hrelrd : forall o, 0 <= o <= 16 -> ld 8 m1 (relp + o) = ld 8 m0 (relp + o)).
  { intros o Ho. apply agree_ld with (i := i); auto. intros k q Hk Hq.
    pose proof (io_tab_disj _ _ Hok q (nth_error_In _ _ Hq)) as D.
    unfold disjoint, field_host in *. subst relp.
    change (Z.of_nat 8) with 8. lia. }
  assert (Hsymrd : ld 8 m1 (sym_host pi r + 8) = ld 8 m0 (sym_host pi r + 8)).
  { apply agree_ld with (i := i); auto. intros k q Hk Hq.
    pose proof (io_sym_disj _ _ Hok q r (nth_error_In _ _ Hq) Hin) as D.
    unfold disjoint, field_host, sym_host in *.
    change (Z.of_nat 8) with 8. lia. }
  assert (Hfld : forall n, Z.of_nat n = field_width (ra_ty r) ->
            ld n m1 (field_host pi r) = ld n m0 (field_host pi r)).
  { intros n Hn. apply agree_ld with (i := i); auto. intros k q Hk Hq.
    pose proof (io_disj _ _ Hok k i q r Hq Hi ltac:(lia)) as D.
    unfold disjoint, field_host in *. rewrite Hn. lia. }
  unfold x86_reloc_one. cbv zeta.
  rewrite rel_base_eq by auto. unfold sizeof_rela, r_info_at, r_offset_at, r_addend_at, st_value_at.
  fold relp.
  assert (E0 : ld 8 m1 relp = ra_off r).
  { replace relp with (relp + 0) by lia. rewrite Hrelrd by lia. rewrite Z.add_0_r. exact Ho1. }
  assert (E1 : ld 8 m1 (relp + 8) = ra_sym r * 2 ^ 32 + ra_ty r).
  { rewrite Hrelrd by lia. exact Ho2. }
  assert (E2 : ld 8 m1 (relp + 16) = u64 (ra_add r)).
  { rewrite Hrelrd by lia. exact Ho3. }
  rewrite E0, E1, E2, Hrs, Hrt.
  rewrite (loc_eq r Hin), (symp_eq r Hin), Hsymrd, (place_eq r Hin).
  fold (sym_value m0 pi r).
  assert (Hval : u64 (sym_value m0 pi r + u64 (ra_add r)) = u64 (sym_value m0 pi r + ra_add r)).
  { unfold u64. apply wrap_add_r; lia. }
  rewrite Hval.
  set (V := sym_value m0 pi r + ra_add r) in *.
  set (F := field_host pi r) in *.
  set (P := field_target pi r) in *.
  set (SV := sym_value m0 pi r) in *.
  (* now by type *)
  destruct (known_ty (ra_ty r)) eqn:Hk.
  2:{ destruct (unknown_ty m0 pi r SV (ra_add r) P Hk) as (U1 & U2 & U3).
      unfold known_ty in Hk. repeat (apply orb_false_iff in Hk; destruct Hk as [Hk ?]).
      unfold R_X86_64_NONE, R_X86_64_64, R_X86_64_PC32, R_X86_64_PLT32, R_X86_64_GOTPCREL,
        R_X86_64_32, R_X86_64_32S, R_X86_64_TPOFF64, R_X86_64_GOTTPOFF, R_X86_64_TPOFF32,
        R_X86_64_PC64, R_X86_64_GOTPCRELX, R_X86_64_REX_GOTPCRELX.
      repeat match goal with H : (ra_ty r =? _) = false |- _ => rewrite H; clear H end.
      cbn [orb]. repeat split; auto. }
  assert (Hst : forall n v x, Z.of_nat n = field_width (ra_ty r) ->
      ~ (F <= x < F + field_width (ra_ty r)) -> st n m1 F v x = m1 x).
  { intros n v x Hn Hx. apply st_out. lia. }
  assert (Hmod : forall a, u64 a mod 2 ^ 32 = a mod 2 ^ 32).
  { intros a. unfold u64, wrap. apply mod_pow_mod; lia. }
  assert (Hmod64 : forall a, u64 a mod 2 ^ 64 = a mod 2 ^ 64).
  { intros a. unfold u64, wrap. apply Z.mod_mod. lia. }
  assert (Hpcv : u64 (u64 V - P) = u64 (V - P)).
  { unfold u64. apply wrap_sub_l; lia. }
  unfold known_ty in Hk.
  (* PC32-like group with an arbitrary value *)
  assert (Hpc32 : forall val, field_width (ra_ty r) = 4 ->
     (acceptable m0 pi r <-> ld 4 m0 F = 0) ->
     (forall w v, psabi (ra_ty r) SV (ra_add r) P = Some (w, v) -> val = u64 V /\ w = 4%nat /\ v = V - P) ->
     match x86_pc32 j m1 F val with
     | RGo m' =>
         acceptable m0 pi r /\
         (forall x, ~ (F <= x < F + field_width (ra_ty r)) -> m' x = m1 x) /\
         (forall w v, psabi (ra_ty r) SV (ra_add r) P = Some (w, v) ->
            ld w m' F = v mod 2 ^ (8 * Z.of_nat w)) /\ byte_mem m'
     | RErr e m' =>
         e = - ENOEXEC /\ ~ acceptable m0 pi r /\
         (forall x, ~ (F <= x < F + field_width (ra_ty r)) -> m' x = m1 x) /\
         (ld (Z.to_nat (field_width (ra_ty r))) m1 F <> 0 -> m' = m1)
     end).
  { intros val Hw4 Hacc Hps. unfold x86_pc32. subst F. rewrite (place_eq r Hin). fold P.
    set (F := field_host pi r) in *.
    rewrite (Hfld 4%nat) by (rewrite Hw4; reflexivity).
    destruct (Z.eqb_spec (ld 4 m0 F) 0) as [E|E]; cbn [negb].
    - split; [tauto|]. split; [|split].
      + intros x Hx. apply Hst; auto; rewrite Hw4; reflexivity.
      + intros w v Hp. destruct (Hps w v Hp) as (-> & -> & ->).
        rewrite ld_st. change (8 * Z.of_nat 4) with 32. rewrite Hpcv. apply Hmod.
      + apply st_byte; auto.
    - split; auto. split; [tauto|]. split; auto. }
  unfold R_X86_64_NONE, R_X86_64_64, R_X86_64_PC32, R_X86_64_PLT32, R_X86_64_GOTPCREL,
        R_X86_64_32, R_X86_64_32S, R_X86_64_TPOFF64, R_X86_64_GOTTPOFF, R_X86_64_TPOFF32,
        R_X86_64_PC64, R_X86_64_GOTPCRELX, R_X86_64_REX_GOTPCRELX.
  repeat (apply orb_true_iff in Hk; destruct Hk as [Hk|Hk]);
    apply Z.eqb_eq in Hk; unfold acceptable in *; rewrite Hk in *; cbn [Z.eqb Pos.eqb orb];
    fold V F in Hpc32; fold V; fold F.
  (* 0 *)
  - split; auto. split; auto. split; auto. intros w v E; discriminate E.
  (* 1 *)
  - rewrite (Hfld 8%nat) by reflexivity.
    destruct (Z.eqb_spec (ld 8 m0 F) 0) as [E|E]; cbn [negb].
    + split; auto. split; [|split].
      * intros x Hx; apply Hst; auto.
      * intros w v Hp. injection Hp as <- <-. rewrite ld_st. change (8 * Z.of_nat 8) with 64.
        apply Hmod64.
      * apply st_byte; auto.
    + repeat split; auto.
  (* 2 *)
  - apply Hpc32; [reflexivity|tauto|]. intros w v Hp; injection Hp as <- <-; auto.
  (* 4 *)
  - apply Hpc32; [reflexivity|tauto|]. intros w v Hp; injection Hp as <- <-; auto.
  (* 9 *)
  - apply Hpc32; [reflexivity|tauto|]. intros w v Hp; discriminate Hp.
  (* 10 *)
  - rewrite (Hfld 4%nat) by reflexivity.
    destruct (Z.eqb_spec (ld 4 m0 F) 0) as [E|E]; cbn [negb].
    + rewrite ld_st. change (8 * Z.of_nat 4) with 32.
      destruct (Z.eqb_spec (u64 V) (u64 V mod 2 ^ 32)) as [E2'|E2']; cbn [negb].
      * split; [split; [exact E|]|].
        { change (fits_u 32 (u64 V)). unfold fits_u. rewrite E2'.
          apply Z.mod_pos_bound; lia. }
        split; [|split].
        { intros x Hx; apply Hst; auto. }
        { intros w v Hp. injection Hp as <- <-. rewrite ld_st. apply Hmod. }
        { apply st_byte; auto. }
      * split; auto. split.
        { intros [_ Hf]. change (fits_u 32 (u64 V)) in Hf.
          apply E2'. symmetry. apply Z.mod_small. exact Hf. }
        split.
        { intros x Hx; apply Hst; auto. }
        { intros C. exfalso. apply C. change (Z.to_nat (field_width 10)) with 4%nat.
          rewrite (Hfld 4%nat) by reflexivity. exact E. }
    + repeat split; auto. intros [? ?]; auto.
  (* 11 *)
  - rewrite (Hfld 4%nat) by reflexivity.
    destruct (Z.eqb_spec (ld 4 m0 F) 0) as [E|E]; cbn [negb].
    + rewrite ld_st. change (8 * Z.of_nat 4) with 32.
      assert (Es : s32 (u64 V mod 2 ^ 32) = s32 V).
      { unfold s32. apply wrap_eq_sgn_eq. unfold wrap. rewrite Hmod. rewrite Z.mod_mod by lia. auto. }
      assert (Es2 : s64 (u64 V) = as_s64 V).
      { unfold as_s64, s64, u64, sgn, wrap. rewrite Z.mod_mod by lia. reflexivity. }
      rewrite Es, Es2.
      assert (Hiff : as_s64 V = s32 V <-> fits_s 32 (as_s64 V)).
      { split; intros H.
        - rewrite H. unfold fits_s, s32. apply sgn_range. lia.
        - unfold s32. rewrite <- Es2 in *. unfold fits_s in H.
          rewrite <- (sgn_id 32 (s64 (u64 V))) by (try lia; exact H).
          apply wrap_eq_sgn_eq. unfold wrap.
          destruct (sgn_congr 64 (u64 V) ltac:(lia)) as [k Hk'].
          unfold s64. rewrite Hk'.
          replace (k * 2 ^ 64) with ((k * 2 ^ 32) * 2 ^ 32) by lia.
          rewrite Z_mod_plus_full. apply Hmod. }
      destruct (Z.eqb_spec (as_s64 V) (s32 V)) as [E2'|E2']; cbn [negb].
      * split; [split; [exact E|tauto]|].
        split; [|split].
        { intros x Hx; apply Hst; auto. }
        { intros w v Hp. injection Hp as <- <-. rewrite ld_st. apply Hmod. }
        { apply st_byte; auto. }
      * split; auto. split.
        { intros [_ Hf]. tauto. }
        split.
        { intros x Hx; apply Hst; auto. }
        { intros C. exfalso. apply C. change (Z.to_nat (field_width 11)) with 4%nat.
          rewrite (Hfld 4%nat) by reflexivity. exact E. }
    + repeat split; auto. intros [? ?]; auto.
  (* 18 *)
  - split; auto. split; auto. split; auto. intros w v E; discriminate E.
  (* 22 *)
  - apply Hpc32; [reflexivity|tauto|]. intros w v Hp; discriminate Hp.
  (* 23 *)
  - split; auto. split; auto. split; auto. intros w v E; discriminate E.
  (* 24 *)
  - rewrite (Hfld 8%nat) by reflexivity.
    destruct (Z.eqb_spec (ld 8 m0 F) 0) as [E|E]; cbn [negb].
    + split; auto. split; [|split].
      * intros x Hx; apply Hst; auto.
      * intros w v Hp. injection Hp as <- <-. rewrite ld_st. change (8 * Z.of_nat 8) with 64.
        rewrite Hpcv. apply Hmod64.
      * apply st_byte; auto.
    + repeat split; auto.
  (* 41 *)
  - apply Hpc32; [reflexivity|tauto|]. intros w v Hp; discriminate Hp.
  (* 42 *)
  - apply Hpc32; [reflexivity|tauto|]. intros w v Hp; discriminate Hp.
Qed.

Definition in_fld (r : rela) (x : Z) : Prop :=
  field_host pi r <= x < field_host pi r + field_width (ra_ty r).

Lemma psabi_width ty S A P w v : psabi ty S A P = Some (w, v) -> Z.of_nat w = field_width ty.
Proof.
  unfold psabi, field_width. destruct ty as [|p|p]; try discriminate.
  repeat (destruct p as [p|p|]; try discriminate); intros E; injection E as <- <-; reflexivity.
Qed.

Lemma fields_disj i k r q x : nth_error (pi_rels pi) i = Some r ->
  nth_error (pi_rels pi) k = Some q -> i <> k -> in_fld r x -> ~ in_fld q x.
Proof.
  intros Hi Hk Hne H1 H2.
  pose proof (io_disj _ _ Hok i k r q Hi Hk Hne) as D.
  unfold disjoint, in_fld, field_host in *. lia.
Qed.

Lemma loop_spec : forall n i m1,
  (i + n = length (pi_rels pi))%nat -> agree_upto i m1 -> byte_mem m1 ->
  let '(ret, m') := x86_reloc_loop j m1 (Z.of_nat i) n in
  (ret = 0 -> forall k r, (i <= k)%nat -> nth_error (pi_rels pi) k = Some r ->
     acceptable m0 pi r /\
     (forall w v, psabi (ra_ty r) (sym_value m0 pi r) (ra_add r) (field_target pi r) = Some (w, v) ->
        ld w m' (field_host pi r) = v mod 2 ^ (8 * Z.of_nat w))) /\
  (ret <> 0 -> ret = - ENOEXEC /\
     exists k r, (i <= k)%nat /\ nth_error (pi_rels pi) k = Some r /\ ~ acceptable m0 pi r) /\
  (forall x, (forall k q, (i <= k)%nat -> nth_error (pi_rels pi) k = Some q -> ~ in_fld q x) ->
     m' x = m1 x) /\
  (forall k r, (i <= k)%nat -> nth_error (pi_rels pi) k = Some r ->
     ld (Z.to_nat (field_width (ra_ty r))) m0 (field_host pi r) <> 0 ->
     forall x, in_fld r x -> m' x = m0 x).
Proof.
  induction n as [|n IH]; intros i m1 Hlen Hag Hb.
  - simpl. split; [|split; [|split]].
    + intros _ k r Hk Hn. assert (k < length (pi_rels pi))%nat by (apply nth_error_Some; congruence). lia.
    + congruence.
    + auto.
    + intros k r Hk Hn. assert (k < length (pi_rels pi))%nat by (apply nth_error_Some; congruence). lia.
  - destruct (nth_error (pi_rels pi) i) as [r|] eqn:Hi.
    2:{ apply nth_error_None in Hi. lia. }
    pose proof (one_spec i r m1 Hi Hag Hb) as H1.
    assert (Hown : forall x, in_fld r x -> m1 x = m0 x).
    { intros x Hx. apply Hag. intros k q Hk Hq. apply (fields_disj i k r q x); auto. lia. }
    cbn [x86_reloc_loop].
    destruct (x86_reloc_one j m1 (Z.of_nat i)) as [m2|e m2].
    + destruct H1 as (Hacc & Hfr & Hv & Hb2).
      assert (Hag2 : agree_upto (S i) m2).
      { intros x Hx. rewrite Hfr.
        - apply Hag. intros k q Hk Hq. apply (Hx k q); auto; lia.
        - apply (Hx i r); auto. }
      specialize (IH (S i) m2 ltac:(lia) Hag2 Hb2).
      replace (Z.of_nat i + 1) with (Z.of_nat (S i)) by lia.
      destruct (x86_reloc_loop j m2 (Z.of_nat (S i)) n) as [ret m'].
      destruct IH as (I1 & I2 & I3 & I4).
      assert (Hkeep : forall x, in_fld r x -> m' x = m2 x).
      { intros x Hx. apply I3. intros k q Hk Hq. apply (fields_disj i k r q x); auto. lia. }
      split; [|split; [|split]].
      * intros H0 k q Hk Hq. destruct (Nat.eq_dec k i) as [->|Hne].
        -- rewrite Hi in Hq. injection Hq as <-. split; auto.
           intros w v Hp. rewrite <- (Hv w v Hp). apply ld_ext. intros x Hx. apply Hkeep.
           unfold in_fld. rewrite <- (psabi_width _ _ _ _ _ _ Hp). exact Hx.
        -- apply (I1 H0 k q); auto; lia.
      * intros H0. destruct (I2 H0) as (E & k & q & Hk & Hq & Hna). split; auto.
        exists k, q. split; auto. lia.
      * intros x Hx. rewrite I3; [|intros k q Hk Hq; apply (Hx k q); auto; lia].
        apply Hfr. apply (Hx i r); auto.
      * intros k q Hk Hq Hnz x Hx. destruct (Nat.eq_dec k i) as [->|Hne].
        -- rewrite Hi in Hq. injection Hq as <-. exfalso.
           apply Hnz. apply acceptable_zero; auto.
        -- apply (I4 k q); auto. lia.
    + destruct H1 as (He & Hna & Hfr & Hnzk).
      split; [|split; [|split]].
      * intros H0. rewrite He in H0. discriminate H0.
      * intros _. split; auto. exists i, r. auto.
      * intros x Hx. apply Hfr. apply (Hx i r); auto.
      * intros k q Hk Hq Hnz x Hx.
        assert (Hq0 : m1 x = m0 x).
        { apply Hag. intros k' q' Hk' Hq'. apply (fields_disj k k' q q' x); auto. lia. }
        destruct (Nat.eq_dec k i) as [->|Hne].
        -- rewrite Hi in Hq. injection Hq as <-. rewrite Hnzk; auto.
           intros E. apply Hnz. rewrite <- E. symmetry. apply ld_ext. intros y Hy. apply Hown.
           unfold in_fld. rewrite Z2Nat.id in Hy by apply field_width_nonneg. exact Hy.
        -- rewrite <- Hq0. apply Hfr. apply (fields_disj k i q r x); auto.
Qed.

Lemma apply_spec :
  let '(ret, m') := x86_apply_relocate_add j m0 in
  (ret = 0 -> forall r, In r (pi_rels pi) ->
     acceptable m0 pi r /\
     (forall w v, psabi (ra_ty r) (sym_value m0 pi r) (ra_add r) (field_target pi r) = Some (w, v) ->
        ld w m' (field_host pi r) = v mod 2 ^ (8 * Z.of_nat w))) /\
  (ret <> 0 -> ret = - ENOEXEC /\ exists r, In r (pi_rels pi) /\ ~ acceptable m0 pi r) /\
  (forall x, ~ in_field pi x -> m' x = m0 x) /\
  (forall r, In r (pi_rels pi) ->
     ld (Z.to_nat (field_width (ra_ty r))) m0 (field_host pi r) <> 0 ->
     forall x, field_host pi r <= x < field_host pi r + field_width (ra_ty r) -> m' x = m0 x).
Proof.
  unfold x86_apply_relocate_add, sizeof_rela. rewrite (ds_count _ _ Hd), Nat2Z.id.
  pose proof (loop_spec (length (pi_rels pi)) 0 m0 eq_refl (fun x _ => eq_refl) (io_bytes _ _ Hok)) as H.
  change (Z.of_nat 0) with 0 in H.
  destruct (x86_reloc_loop j m0 0 (length (pi_rels pi))) as [ret m'].
  destruct H as (H1 & H2 & H3 & H4).
  split; [|split; [|split]].
  - intros E r Hr. apply In_nth_error in Hr. destruct Hr as [k Hk]. apply (H1 E k r); auto; lia.
  - intros E. destruct (H2 E) as (He & k & r & _ & Hk & Hna). split; auto.
    exists r; split; auto. eapply nth_error_In; eauto.
  - intros x Hx. rewrite H3; auto. intros k q _ Hq Hin. apply Hx. exists q. split; auto.
    eapply nth_error_In; eauto.
  - intros r Hr Hnz x Hx. apply In_nth_error in Hr. destruct Hr as [k Hk].
    apply (H4 k r); auto; lia.
Qed.

End Step.

Lemma x86_one_byte j m i : byte_mem m ->
  match x86_reloc_one j m i with RGo m' => byte_mem m' | RErr _ m' => byte_mem m' end.
Proof.
  intros Hb. unfold x86_reloc_one, x86_pc32. cbv zeta.
  repeat match goal with |- context [if ?b then _ else _] => destruct b end; auto using st_byte.
Qed.

Lemma x86_loop_byte j : forall n m i ret m', x86_reloc_loop j m i n = (ret, m') ->
  byte_mem m -> byte_mem m'.
Proof.
  induction n as [|n IH]; intros m i ret m' E Hb; simpl in E.
  - injection E as <- <-; auto.
  - pose proof (x86_one_byte j m i Hb) as H1.
    destruct (x86_reloc_one j m i) as [m1|e m1].
    + eapply IH; eauto.
    + injection E as <- <-; auto.
Qed.

Lemma x86_apply_byte j m ret m' : x86_apply_relocate_add j m = (ret, m') ->
  byte_mem m -> byte_mem m'.
Proof. apply x86_loop_byte. Qed.
