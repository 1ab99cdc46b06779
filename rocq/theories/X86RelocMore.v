(** Corollaries of [apply_spec] in the form of the property statements. *)
From Coq Require Import ZArith List Bool Lia.
From Coq Require Import ZifyBool ZifyNat.
From Verif Require Import Word WordLemmas ElfDefs X86RelocModel X86RelocSpec X86RelocProofs X86RelocExamples.
Import ListNotations.
Open Scope Z_scope.

Ltac Zify.zify_post_hook ::= Z.div_mod_to_equations.

Lemma x86_reloc_value : forall j pi m m',
  image_ok m pi -> describes j pi -> x86_apply_relocate_add j m = (0, m') ->
  (forall r w v, In r (pi_rels pi) ->
     psabi (ra_ty r) (sym_value m pi r) (ra_add r) (field_target pi r) = Some (w, v) ->
     ld w m' (field_host pi r) = v mod 2 ^ (8 * Z.of_nat w)) /\
  (forall x, ~ in_field pi x -> m' x = m x).
Proof.
  intros j pi m m' Hok Hd E. pose proof (apply_spec j pi m Hd Hok) as H. rewrite E in H.
  destruct H as (H1 & _ & H3 & _). split; auto.
  intros r w v Hr. apply (H1 eq_refl r Hr).
Qed.

Lemma x86_reloc_frame : forall j pi m ret m',
  image_ok m pi -> describes j pi -> x86_apply_relocate_add j m = (ret, m') ->
  forall x, ~ in_field pi x -> m' x = m x.
Proof.
  intros j pi m ret m' Hok Hd E. pose proof (apply_spec j pi m Hd Hok) as H. rewrite E in H.
  apply H.
Qed.

Lemma x86_accept_iff : forall j pi m ret m',
  image_ok m pi -> describes j pi -> x86_apply_relocate_add j m = (ret, m') ->
  (ret = 0 <-> forall r, In r (pi_rels pi) -> acceptable m pi r) /\
  (ret <> 0 -> ret = - ENOEXEC).
Proof.
  intros j pi m ret m' Hok Hd E. pose proof (apply_spec j pi m Hd Hok) as H. rewrite E in H.
  destruct H as (H1 & H2 & _). split; [split|].
  - intros Z r Hr. apply (H1 Z r Hr).
  - intros Ha. destruct (Z.eq_dec ret 0) as [|N]; auto.
    destruct (H2 N) as (_ & r & Hr & Hna). exfalso; auto.
  - intros N. apply (H2 N).
Qed.

Lemma x86_abs32_exact : forall j pi m r,
  image_ok m pi -> describes j pi -> pi_rels pi = [r] ->
  (ra_ty r = 10 \/ ra_ty r = 11) -> ld 4 m (field_host pi r) = 0 ->
  (fst (x86_apply_relocate_add j m) = 0 <->
   if ra_ty r =? 10 then fits_u 32 (as_u64 (sym_value m pi r + ra_add r))
   else fits_s 32 (as_s64 (sym_value m pi r + ra_add r))).
Proof.
  intros j pi m r Hok Hd Hr Hty Hz.
  destruct (x86_apply_relocate_add j m) as [ret m'] eqn:E. simpl fst.
  destruct (x86_accept_iff j pi m ret m' Hok Hd E) as [Hiff _]. rewrite Hiff, Hr.
  assert (A : (forall q, In q [r] -> acceptable m pi q) <-> acceptable m pi r).
  { split; intros H; [apply H; left; auto|]. intros q [<-|[]]; auto. }
  rewrite A. unfold acceptable. cbv zeta.
  destruct Hty as [-> | ->]; simpl; tauto.
Qed.

Lemma x86_pc32_truncates : exists j pi m m' r,
  image_ok m pi /\ describes j pi /\ In r (pi_rels pi) /\ ra_ty r = 2 /\
  x86_apply_relocate_add j m = (0, m') /\
  ~ fits_s 32 (as_s64 (sym_value m pi r + ra_add r - field_target pi r)) /\
  as_u64 (field_target pi r + s32 (ld 4 m' (field_host pi r))) <>
  as_u64 (sym_value m pi r + ra_add r).
Proof.
  exists (ex_job ex2_pi), ex2_pi, ex2_mem,
    (snd (x86_apply_relocate_add (ex_job ex2_pi) ex2_mem)), (Rela 0 1 2 (-4)).
  split; [exact ex2_ok|]. split; [apply ex_describes|]. split; [left; reflexivity|].
  split; [reflexivity|]. split; [|split].
  - assert (E : fst (x86_apply_relocate_add (ex_job ex2_pi) ex2_mem) = 0) by (vm_compute; reflexivity).
    rewrite <- E. apply surjective_pairing.
  - vm_compute. intros [_ H]. discriminate H.
  - vm_compute. discriminate.
Qed.

Lemma x86_pc32_reaches : forall j pi m m' r,
  image_ok m pi -> describes j pi -> x86_apply_relocate_add j m = (0, m') ->
  In r (pi_rels pi) -> (ra_ty r = 2 \/ ra_ty r = 4) ->
  fits_s 32 (as_s64 (sym_value m pi r + ra_add r - field_target pi r)) ->
  as_u64 (field_target pi r + s32 (ld 4 m' (field_host pi r))) =
  as_u64 (sym_value m pi r + ra_add r).
Proof.
  intros j pi m m' r Hok Hd E Hr Hty Hf.
  destruct (x86_reloc_value j pi m m' Hok Hd E) as [Hv _].
  assert (Hl : ld 4 m' (field_host pi r) =
    (sym_value m pi r + ra_add r - field_target pi r) mod 2 ^ 32).
  { rewrite (Hv r 4%nat (sym_value m pi r + ra_add r - field_target pi r) Hr); auto.
    destruct Hty as [-> | ->]; reflexivity. }
  rewrite Hl. set (D := sym_value m pi r + ra_add r - field_target pi r) in *.
  change (as_s64 D) with (sgn 64 D) in Hf. unfold fits_s in Hf.
  assert (Hs : s32 (D mod 2 ^ 32) = sgn 64 D).
  { unfold s32. change (D mod 2 ^ 32) with (wrap 32 D). rewrite sgn_wrap by lia.
    rewrite <- (sgn_id 32 (sgn 64 D)) by (try lia; exact Hf).
    apply wrap_eq_sgn_eq. unfold wrap.
    destruct (sgn_congr 64 D ltac:(lia)) as [k ->].
    replace (k * 2 ^ 64) with ((k * 2 ^ 32) * 2 ^ 32) by lia.
    symmetry. apply Z_mod_plus_full. }
  rewrite Hs. destruct (sgn_congr 64 D ltac:(lia)) as [k ->].
  change (as_u64 ?x) with (wrap 64 x). apply wrap_congr with (k := k); subst D; lia.
Qed.

Lemma x86_refuses_nonzero : forall j pi m ret m' r,
  image_ok m pi -> describes j pi -> x86_apply_relocate_add j m = (ret, m') ->
  In r (pi_rels pi) ->
  ld (Z.to_nat (field_width (ra_ty r))) m (field_host pi r) <> 0 ->
  ret = - ENOEXEC /\
  forall x, field_host pi r <= x < field_host pi r + field_width (ra_ty r) -> m' x = m x.
Proof.
  intros j pi m ret m' r Hok Hd E Hr Hnz. pose proof (apply_spec j pi m Hd Hok) as H. rewrite E in H.
  destruct H as (H1 & H2 & _ & H4). split.
  - destruct (Z.eq_dec ret 0) as [Z|N]; [|apply (H2 N)].
    exfalso. apply Hnz. apply acceptable_zero. apply (H1 Z r Hr).
  - apply H4; auto.
Qed.

Lemma x86_refuses_unknown : forall j pi m ret m' r,
  image_ok m pi -> describes j pi -> x86_apply_relocate_add j m = (ret, m') ->
  In r (pi_rels pi) ->
  ~ In (ra_ty r) [0; 1; 2; 4; 9; 10; 11; 18; 22; 23; 24; 41; 42] ->
  ret = - ENOEXEC.
Proof.
  intros j pi m ret m' r Hok Hd E Hr Hn. pose proof (apply_spec j pi m Hd Hok) as H. rewrite E in H.
  destruct H as (H1 & H2 & _). destruct (Z.eq_dec ret 0) as [Z|N]; [|apply (H2 N)].
  exfalso. destruct (known_ty (ra_ty r)) eqn:Hk.
  - apply Hn. unfold known_ty in Hk. simpl.
    repeat (apply orb_true_iff in Hk; destruct Hk as [Hk|Hk]); lia.
  - destruct (unknown_ty m pi r 0 0 0 Hk) as (_ & _ & C). apply C. apply (H1 Z r Hr).
Qed.

Lemma x86_not_twice : forall j pi m m' m'' ret r w v,
  image_ok m pi -> describes j pi ->
  x86_apply_relocate_add j m = (0, m') -> x86_apply_relocate_add j m' = (ret, m'') ->
  In r (pi_rels pi) ->
  psabi (ra_ty r) (sym_value m pi r) (ra_add r) (field_target pi r) = Some (w, v) ->
  v mod 2 ^ (8 * Z.of_nat w) <> 0 -> ret = - ENOEXEC.
Proof.
  intros j pi m m' m'' ret r w v Hok Hd E1 E2 Hr Hp Hnz.
  destruct (x86_reloc_value j pi m m' Hok Hd E1) as [Hv Hfr].
  assert (Hok' : image_ok m' pi).
  { destruct Hok. constructor; auto.
    - intros x. pose proof (apply_spec j pi m Hd ltac:(constructor; auto)) as H.
      clear H. revert x. apply (x86_apply_byte j m 0 m' E1). exact io_bytes.
    - intros i q Hi. destruct (io_rel i q Hi) as ((A1 & A2 & A3 & A4) & B). split; auto.
      assert (Hi' : (i < length (pi_rels pi))%nat) by (apply nth_error_Some; congruence).
      assert (Hrd : forall o, 0 <= o <= 16 ->
         ld 8 m' (pi_hdr pi + pi_rel_off pi + 24 * Z.of_nat i + o) =
         ld 8 m (pi_hdr pi + pi_rel_off pi + 24 * Z.of_nat i + o)).
      { intros o Ho. apply ld_ext. intros x Hx. apply Hfr. intros (q' & Hq' & Hin).
        pose proof (io_tab_disj q' Hq') as D. unfold disjoint, field_host in *.
        change (Z.of_nat 8) with 8 in Hx. lia. }
      repeat split; try apply A4.
      + rewrite <- A1. specialize (Hrd 0 ltac:(lia)). rewrite Z.add_0_r in Hrd. exact Hrd.
      + rewrite <- A2. apply Hrd; lia.
      + rewrite <- A3. apply Hrd; lia. }
  destruct (x86_refuses_nonzero j pi m' ret m'' r Hok' Hd E2 Hr); auto.
  rewrite <- (psabi_width _ _ _ _ _ _ Hp), Nat2Z.id. rewrite (Hv r w v Hr Hp). exact Hnz.
Qed.
