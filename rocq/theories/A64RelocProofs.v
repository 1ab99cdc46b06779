(** Proofs about the aarch64 relocation loop. *)
From Coq Require Import ZArith List Bool Lia.
From Coq Require Import ZifyBool ZifyNat.
From Verif Require Import Word WordLemmas ElfDefs X86RelocModel X86RelocSpec X86RelocProofs
  InsnSpec InsnProofs A64Model A64Spec A64Proofs A64RelocSpec.
Import ListNotations.
Open Scope Z_scope.

Ltac Zify.zify_post_hook ::= Z.div_mod_to_equations.

(** ** The table of types *)

Definition known_list : list Z :=
  [0; 257; 258; 259; 260; 261; 262; 263; 264; 265; 266; 267; 268; 269; 270; 271; 272;
   273; 274; 275; 276; 277; 278; 279; 280; 282; 283; 284; 285; 286; 287; 288; 289; 290;
   291; 292; 293; 299].

Lemma switch_known ty ch : a64_switch ty = Some ch -> In ty known_list.
Proof.
  intros H. unfold a64_switch in H.
  destruct ty as [|p|p]; [simpl; auto| |discriminate].
  repeat (destruct p as [p|p|]; try discriminate H); unfold known_list; simpl; tauto.
Qed.

Definition hwidth (h : handler) : Z :=
  match h with HNone => 0 | HData _ len => len / 8 | _ => 4 end.

(** Facts about the table that hold for every known type. *)
Definition row_ok (ty : Z) : bool :=
  match a64_switch ty with
  | None => false
  | Some (c, h) =>
      Bool.eqb c (unchecked_type ty) && (hwidth h =? a64_width ty) && a64_known ty &&
      match h with
      | HNone => ty =? 0
      | HData op len => ((len =? 16) || (len =? 32) || (len =? 64)) &&
                        match op with OP_ABS | OP_PREL => true | _ => false end
      | HMovw op lsb t => (0 <=? lsb) && (lsb <=? 48)
      | HImm op lsb len t => (0 <=? lsb) && (0 <? len) && (lsb + len <? 64) &&
                             (len <=? imm_width t) &&
                             match t with IMM_MAX => false | _ => true end
      end
  end.

Lemma rows_ok : forallb row_ok known_list = true.
Proof. vm_compute. reflexivity. Qed.

Lemma row ty c h : a64_switch ty = Some (c, h) -> row_ok ty = true.
Proof.
  intros H. pose proof (switch_known _ _ H) as K. pose proof rows_ok as R.
  rewrite forallb_forall in R. auto.
Qed.

Lemma row_clear ty c h : a64_switch ty = Some (c, h) -> c = unchecked_type ty.
Proof.
  intros H. pose proof (row _ _ _ H) as R. unfold row_ok in R. rewrite H in R.
  rewrite !andb_true_iff in R. destruct R as [[[R _] _] _]. apply eqb_prop. auto.
Qed.

Lemma row_width ty c h : a64_switch ty = Some (c, h) -> hwidth h = a64_width ty.
Proof.
  intros H. pose proof (row _ _ _ H) as R. unfold row_ok in R. rewrite H in R.
  rewrite !andb_true_iff in R. destruct R as [[[_ R] _] _]. lia.
Qed.

Lemma row_known ty c h : a64_switch ty = Some (c, h) -> a64_known ty = true.
Proof.
  intros H. pose proof (row _ _ _ H) as R. unfold row_ok in R. rewrite H in R.
  rewrite !andb_true_iff in R. apply R.
Qed.

Definition hwf (h : handler) : Prop :=
  match h with
  | HNone => True
  | HData op len => (len = 16 \/ len = 32 \/ len = 64) /\ (op = OP_ABS \/ op = OP_PREL)
  | HMovw op lsb t => 0 <= lsb <= 48
  | HImm op lsb len t => 0 <= lsb /\ 0 < len /\ lsb + len < 64 /\ len <= imm_width t /\ t <> IMM_MAX
  end.

Lemma row_hwf ty c h : a64_switch ty = Some (c, h) -> hwf h.
Proof.
  intros H. pose proof (row _ _ _ H) as R. unfold row_ok in R. rewrite H in R.
  apply andb_true_iff in R. destruct R as [_ R]. destruct h as [|op len|op lsb t|op lsb len t]; cbn [hwf]; auto.
  - apply andb_true_iff in R. destruct R as [R1 R2]. split; [lia|].
    destruct op; try discriminate; auto.
  - lia.
  - rewrite !andb_true_iff in R. destruct R as [[[[R1 R2] R3] R4] R5].
    repeat split; try lia. destruct t; try discriminate.
Qed.

(** A known type has an entry in the switch. *)
Lemma known_switch ty : a64_known ty = true -> exists c h, a64_switch ty = Some (c, h).
Proof.
  intros H. assert (K : In ty known_list).
  { unfold a64_known, unchecked_type, checked_range in H.
    destruct ty as [|p|p]; [simpl; auto| |discriminate].
    repeat (destruct p as [p|p|]; try discriminate H); unfold known_list; simpl; tauto. }
  pose proof rows_ok as R. rewrite forallb_forall in R. specialize (R ty K).
  unfold row_ok in R. destruct (a64_switch ty) as [[c h]|]; [eauto|discriminate].
Qed.

(** ** Handlers are local *)

Lemma st_same n m1 m2 a v x : a <= x < a + Z.of_nat n -> st n m1 a v x = st n m2 a v x.
Proof. intros H. rewrite !st_in by auto. reflexivity. Qed.

Lemma handler_frame h m loc val x : hwf h -> x < loc \/ loc + hwidth h <= x ->
  snd (run_handler h m loc val) x = m x.
Proof.
  intros Hw Hx. destruct h as [|op len|op lsb t|op lsb len t]; cbn [run_handler hwidth] in *.
  - reflexivity.
  - destruct Hw as [[-> | [-> | ->]] [-> | ->]]; cbn; apply st_out; cbn in *; lia.
  - unfold reloc_insn_movw. destruct (movw_insn _ _ _ _ _ _) as [ret insn]. cbn [snd].
    apply st_out. lia.
  - unfold reloc_insn_imm. destruct (imm_insn _ _ _ _ _ _ _) as [ret insn]. cbn [snd].
    apply st_out. lia.
Qed.

Lemma handler_local h m1 m2 loc val : hwf h ->
  (forall x, loc <= x < loc + hwidth h -> m1 x = m2 x) ->
  fst (run_handler h m1 loc val) = fst (run_handler h m2 loc val) /\
  forall x, loc <= x < loc + hwidth h ->
    snd (run_handler h m1 loc val) x = snd (run_handler h m2 loc val) x.
Proof.
  intros Hw Hx. destruct h as [|op len|op lsb t|op lsb len t]; cbn [run_handler hwidth] in *.
  - auto.
  - destruct Hw as [[-> | [-> | ->]] [-> | ->]]; cbn; split; auto; intros x H; apply st_same; cbn in *; lia.
  - unfold reloc_insn_movw. rewrite (ld_ext 4 m1 m2 loc) by (intros; apply Hx; lia).
    destruct (movw_insn _ _ _ _ _ _) as [ret insn]. cbn [fst snd]. split; auto.
    intros x H; apply st_same. lia.
  - unfold reloc_insn_imm. rewrite (ld_ext 4 m1 m2 loc) by (intros; apply Hx; lia).
    destruct (imm_insn _ _ _ _ _ _ _) as [ret insn]. cbn [fst snd]. split; auto.
    intros x H; apply st_same. lia.
Qed.

Lemma a64_width_nonneg ty : 0 <= a64_width ty.
Proof.
  unfold a64_width. destruct ty as [|p|p]; try lia.
  repeat (destruct p as [p|p|]; try lia).
Qed.

Section Loop.
Variables (j : x86_job) (pi : placed_image) (m0 : mem) (oc0 : bool).
Hypothesis Hd : describes j pi.
Hypothesis Hok : a64_image_ok m0 pi.

Ltac facts :=
  pose proof (ds_hdr _ _ Hd) as Dhdr; pose proof (ds_target _ _ Hd) as Dtgt;
  pose proof (ds_rel _ _ Hd) as Drel; pose proof (ds_sym _ _ Hd) as Dsym;
  pose proof (ds_sec _ _ Hd) as Dsec; pose proof (ao_hdr _ _ Hok) as Ihdr;
  pose proof (ao_target _ _ Hok) as Itgt; pose proof (ao_offs _ _ Hok) as Ioffs;
  pose proof (ao_rel_tab _ _ Hok) as Itab; pose proof (ao_rel _ _ Hok) as Irel.

Lemma a_rel_base : pi_rels pi <> [] -> x86_rel_base j = pi_hdr pi + pi_rel_off pi.
Proof.
  intros Hne. facts. unfold x86_rel_base. apply t_off_cancel; [|rewrite Drel; lia].
  destruct (pi_rels pi); [congruence|]. simpl length in *. lia.
Qed.

Lemma a_loc r : In r (pi_rels pi) -> x86_loc j (ra_off r) = field_host pi r.
Proof.
  intros Hin. apply In_nth_error in Hin. destruct Hin as [i Hi].
  facts. destruct (Irel i r Hi) as ((Ho1 & Ho2 & Ho3 & Ho4 & Ho5 & Ho6) & Hw & Hl & Hs).
  unfold x86_loc.
  replace (sh_addr (xj_sechdrs j (sh_info (xj_sechdrs j (xj_relsec j)))) + x86_t_off j + ra_off r)
    with (sh_addr (xj_sechdrs j (sh_info (xj_sechdrs j (xj_relsec j)))) + ra_off r + x86_t_off j) by lia.
  unfold field_host, field_off in *.
  apply t_off_cancel; rewrite ?Dsec; lia.
Qed.

Lemma a_symp r : In r (pi_rels pi) -> x86_symp j (ra_sym r) = sym_host pi r.
Proof.
  intros Hin. apply In_nth_error in Hin. destruct Hin as [i Hi].
  facts. destruct (Irel i r Hi) as ((Ho1 & Ho2 & Ho3 & Ho4 & Ho5 & Ho6) & Hw & Hl & Hs).
  unfold x86_symp, sizeof_sym.
  rewrite (t_off_cancel j _ (pi_hdr pi + pi_sym_off pi)) by (rewrite ?Dsym; lia).
  unfold sym_host. apply u64_small. lia.
Qed.

Definition infld (q : rela) (x : Z) : Prop :=
  field_host pi q <= x < field_host pi q + a64_width (ra_ty q).

Definition hres (h : handler) (q : rela) : Z * mem :=
  run_handler h m0 (field_host pi q) (sa m0 pi q).

(** Invariant before entry [i]. *)
Definition inv (i : nat) (m1 : mem) : Prop :=
  (forall x, (forall k q, (k < i)%nat -> nth_error (pi_rels pi) k = Some q -> ~ infld q x) -> m1 x = m0 x) /\
  (forall k q c h, (k < i)%nat -> nth_error (pi_rels pi) k = Some q ->
     a64_switch (ra_ty q) = Some (c, h) -> forall x, infld q x -> m1 x = snd (hres h q) x).

Lemma inv_ld i m1 n a : inv i m1 ->
  (forall k q, (k < i)%nat -> nth_error (pi_rels pi) k = Some q ->
     disjoint (field_host pi q) (a64_width (ra_ty q)) a (Z.of_nat n)) ->
  ld n m1 a = ld n m0 a.
Proof.
  intros [Ha _] Hdj. apply ld_ext. intros x Hx. apply Ha. intros k q Hk Hq Hin.
  specialize (Hdj k q Hk Hq). unfold disjoint, infld in *. lia.
Qed.

(** The check is active when entry [i] is handled. *)
Definition active (i : nat) : bool :=
  oc0 && forallb (fun q => negb (unchecked_type (ra_ty q))) (firstn (S i) (pi_rels pi)).

Definition bad (i : nat) (r : rela) : Prop :=
  a64_switch (ra_ty r) = None \/
  exists c h, a64_switch (ra_ty r) = Some (c, h) /\ active i = true /\ fst (hres h r) = - ERANGE.

Lemma entry_reads i r m1 : nth_error (pi_rels pi) i = Some r -> inv i m1 ->
  let relp := x86_rel_base j + sizeof_rela * Z.of_nat i in
  r_type (r_info_at m1 relp) = ra_ty r /\
  x86_loc j (r_offset_at m1 relp) = field_host pi r /\
  u64 (st_value_at m1 (x86_symp j (r_sym (r_info_at m1 relp))) + r_addend_at m1 relp) = sa m0 pi r.
Proof.
  intros Hi Hinv. facts.
  assert (Hin : In r (pi_rels pi)) by (eapply nth_error_In; eauto).
  assert (Hlt : (i < length (pi_rels pi))%nat) by (apply nth_error_Some; congruence).
  assert (Hne : pi_rels pi <> []) by (intros E; rewrite E in Hlt; simpl in Hlt; lia).
  cbv zeta. rewrite (a_rel_base Hne). unfold sizeof_rela.
  destruct (Irel i r Hi) as ((Ho1 & Ho2 & Ho3 & Ho4 & Ho5 & Ho6) & Hw & Hl & Hs).
  assert (Htab : forall o, 0 <= o <= 16 ->
     ld 8 m1 (pi_hdr pi + pi_rel_off pi + 24 * Z.of_nat i + o) =
     ld 8 m0 (pi_hdr pi + pi_rel_off pi + 24 * Z.of_nat i + o)).
  { intros o Ho. apply (inv_ld i); auto. intros k q Hk Hq.
    pose proof (ao_tab_disj _ _ Hok q ltac:(eapply nth_error_In; eauto)) as D.
    unfold disjoint, field_host in *. change (Z.of_nat 8) with 8. lia. }
  assert (Hinfo : r_info_at m1 (pi_hdr pi + pi_rel_off pi + 24 * Z.of_nat i) = ra_sym r * 2 ^ 32 + ra_ty r).
  { unfold r_info_at. rewrite Htab by lia. exact Ho2. }
  assert (Hoff : r_offset_at m1 (pi_hdr pi + pi_rel_off pi + 24 * Z.of_nat i) = ra_off r).
  { unfold r_offset_at. specialize (Htab 0 ltac:(lia)). rewrite Z.add_0_r in Htab. rewrite Htab. exact Ho1. }
  rewrite Hinfo, Hoff. destruct (r_info_dec r Ho4) as [E1 E2]. rewrite E1, E2.
  split; [reflexivity|]. split; [apply a_loc; auto|].
  rewrite (a_symp r Hin). unfold sa, sym_value, st_value_at, r_addend_at.
  rewrite (inv_ld i m1 8 (sym_host pi r + 8) Hinv).
  2:{ intros k q Hk Hq.
      pose proof (ao_sym_disj _ _ Hok q r ltac:(eapply nth_error_In; eauto) Hin) as D.
      unfold disjoint, field_host, sym_host in *. change (Z.of_nat 8) with 8. lia. }
  rewrite Htab by lia. rewrite Ho3.
  change (as_u64 ?x) with (wrap 64 x). unfold u64, s64.
  match goal with |- context [sgn 64 ?y] => destruct (sgn_congr 64 y ltac:(lia)) as [k1 ->] | _ => idtac end.
  unfold wrap. 
  first [ rewrite Zplus_mod_idemp_r; reflexivity
        | match goal with |- (?a + (?b mod _ + ?c * _)) mod _ = _ =>
            rewrite Z.add_assoc, Z_mod_plus_full, Zplus_mod_idemp_r; reflexivity end ].
Qed.

Lemma loop_spec : forall n i oc m1 ret m',
  (i + n = length (pi_rels pi))%nat -> inv i m1 ->
  oc = oc0 && forallb (fun q => negb (unchecked_type (ra_ty q))) (firstn i (pi_rels pi)) ->
  a64_reloc_loop j oc m1 (Z.of_nat i) n = (ret, m') ->
  (forall x, ~ a64_in_field pi x -> m' x = m0 x) /\
  (ret = 0 -> inv (length (pi_rels pi)) m' /\
     forall k r, (i <= k)%nat -> nth_error (pi_rels pi) k = Some r -> ~ bad k r) /\
  (ret <> 0 -> ret = - ENOEXEC /\ exists k r, nth_error (pi_rels pi) k = Some r /\ bad k r).
Proof.
  induction n as [|n IH]; intros i oc m1 ret m' Hn Hinv Hoc E; cbn [a64_reloc_loop] in E.
  - injection E as <- <-. assert (i = length (pi_rels pi)) by lia. subst i. split; [|split].
    + intros x Hx. apply Hinv. intros k q Hk Hq Hf. apply Hx. exists q.
      split; [eapply nth_error_In; eauto|exact Hf].
    + intros _. split; auto. intros k r Hk Hr.
      assert (k < length (pi_rels pi))%nat by (apply nth_error_Some; congruence). lia.
    + congruence.
  - assert (Hex : exists r, nth_error (pi_rels pi) i = Some r).
    { destruct (nth_error (pi_rels pi) i) eqn:En; eauto. apply nth_error_None in En. lia. }
    destruct Hex as [r Hr].
    destruct (entry_reads i r m1 Hr Hinv) as (R1 & R2 & R3). cbv zeta in R1, R2, R3.
    rewrite R1, R2, R3 in E.
    assert (Hin : In r (pi_rels pi)) by (eapply nth_error_In; eauto).
    assert (Hact : firstn (S i) (pi_rels pi) = firstn i (pi_rels pi) ++ [r]).
    { clear -Hr. revert i Hr. induction (pi_rels pi) as [|a l IHl]; intros [|i] H; try discriminate.
      - injection H as <-. reflexivity.
      - cbn in *. f_equal. apply IHl. exact H. }
    destruct (a64_switch (ra_ty r)) as [[c h]|] eqn:Hsw.
    2:{ injection E as <- <-. split; [|split].
        - intros x Hx. apply Hinv. intros k q Hk Hq Hf. apply Hx. exists q.
          split; [eapply nth_error_In; eauto|exact Hf].
        - unfold ENOEXEC. lia.
        - intros _. split; auto. exists i, r. split; auto. left; auto. }
    pose proof (row_hwf _ _ _ Hsw) as Hw. pose proof (row_width _ _ _ Hsw) as Hwd.
    assert (Hloc : forall x, infld r x -> m1 x = m0 x).
    { intros x Hx. apply Hinv. intros k q Hk Hq Hf.
      pose proof (ao_disj _ _ Hok k i q r Hq Hr ltac:(lia)) as D.
      unfold disjoint, infld, field_host in *. pose proof (a64_width_nonneg (ra_ty r)).
      pose proof (a64_width_nonneg (ra_ty q)). lia. }
    destruct (handler_local h m1 m0 (field_host pi r) (sa m0 pi r) Hw) as [L1 L2].
    { intros x Hx. apply Hloc. unfold infld. rewrite <- Hwd. auto. }
    pose proof (handler_frame h m1 (field_host pi r) (sa m0 pi r)) as L3.
    destruct (run_handler h m1 (field_host pi r) (sa m0 pi r)) as [ovf m2] eqn:Erun. cbn [fst snd] in *.
    assert (Hoc' : (if c then false else oc) = active i).
    { unfold active. rewrite Hact, forallb_app, Hoc. cbn [forallb].
      rewrite (row_clear _ _ _ Hsw). destruct (unchecked_type (ra_ty r)); cbn [negb andb];
        rewrite ?andb_false_r, ?andb_true_r; reflexivity. }
    assert (Hinv2 : inv (S i) m2).
    { split.
      - intros x Hx. rewrite L3; auto.
        + apply Hinv. intros k q Hk Hq. apply (Hx k q); auto.
        + specialize (Hx i r ltac:(lia) Hr). unfold infld in Hx. lia.
      - intros k q c' h' Hk Hq Hs x Hx. destruct (Nat.eq_dec k i) as [->|Nk].
        + assert (q = r) by congruence. subst q. assert (h' = h) by congruence. subst h'.
          unfold hres. apply L2. unfold infld in Hx. rewrite <- Hwd in Hx. auto.
        + rewrite L3; auto.
          * apply (proj2 Hinv k q c' h'); auto. lia.
          * pose proof (ao_disj _ _ Hok k i q r Hq Hr Nk) as D.
            unfold disjoint, infld, field_host in *. lia. }
    rewrite Hoc' in E.
    destruct (active i && (ovf =? - ERANGE)) eqn:Eb.
    + apply andb_true_iff in Eb. destruct Eb as [Ea Eo]. injection E as <- <-.
      split; [|split].
      * intros x Hx. apply Hinv2. intros k q Hk Hq Hf. apply Hx. exists q.
        split; [eapply nth_error_In; eauto|exact Hf].
      * unfold ENOEXEC. lia.
      * intros _. split; auto. exists i, r. split; auto. right. exists c, h.
        repeat split; auto. unfold hres. rewrite <- L1. lia.
    + assert (E' : a64_reloc_loop j (active i) m2 (Z.of_nat (S i)) n = (ret, m')).
      { rewrite <- E. f_equal. lia. }
      destruct (IH (S i) (active i) m2 ret m' ltac:(lia) Hinv2 eq_refl E') as (I1 & I2 & I3).
      split; [exact I1|]. split; [|exact I3].
      intros H0. destruct (I2 H0) as [I4 I5]. split; [exact I4|].
      intros k q Hk Hq. destruct (Nat.eq_dec k i) as [->|Nk]; [|apply I5; auto; lia].
      assert (q = r) by congruence. subst q. intros [Hb|(c' & h' & Hs & Ha & Ho)]; [congruence|].
      assert (h' = h) by congruence. subst h'. rewrite Ha in Eb. cbn [andb] in Eb.
      unfold hres in Ho. rewrite <- L1 in Ho. lia.
Qed.

Lemma a64_apply_spec ret m' : a64_apply_relocate_add oc0 j m0 = (ret, m') ->
  (forall x, ~ a64_in_field pi x -> m' x = m0 x) /\
  (ret = 0 ->
     (forall q c h, In q (pi_rels pi) -> a64_switch (ra_ty q) = Some (c, h) ->
        forall x, infld q x -> m' x = snd (hres h q) x) /\
     forall k r, nth_error (pi_rels pi) k = Some r -> ~ bad k r) /\
  (ret <> 0 -> ret = - ENOEXEC /\ exists k r, nth_error (pi_rels pi) k = Some r /\ bad k r).
Proof.
  intros E. unfold a64_apply_relocate_add, sizeof_rela in E. rewrite (ds_count _ _ Hd) in E.
  rewrite Nat2Z.id in E.
  destruct (loop_spec (length (pi_rels pi)) 0 oc0 m0 ret m') as (A & B & C); auto.
  - split; auto. intros; lia.
  - cbn. rewrite andb_true_r. reflexivity.
  - split; [exact A|]. split; [|exact C]. intros H0. destruct (B H0) as [B1 B2]. split.
    + intros q c h Hq Hs x Hx. apply In_nth_error in Hq. destruct Hq as [k Hk].
      apply (proj2 B1 k q c h); auto. apply nth_error_Some. congruence.
    + intros k r Hr. apply B2; auto. lia.
Qed.
End Loop.
