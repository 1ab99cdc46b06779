(** Symbolic execution of the trampolines. *)
From Coq Require Import ZArith List Bool Lia ZifyBool.
From Verif Require Import Word WordLemmas TrModel TrSpec.
Import ListNotations.
Open Scope Z_scope.

Lemma up_same f i v : up f i v i = v.
Proof. unfold up. rewrite Z.eqb_refl. auto. Qed.
Lemma up_other f i v j : j <> i -> up f i v j = f j.
Proof. intros H. unfold up. destruct (Z.eqb_spec j i); [contradiction|auto]. Qed.

Lemma u64_id x : 0 <= x < 2 ^ 64 -> u64 x = x.
Proof. intros H. unfold u64, wrap. apply Z.mod_small. auto. Qed.

Lemma align_down s : 0 <= s < 2 ^ 64 -> Z.land s 18446744073709551600 = s - s mod 16.
Proof.
  intros H. change 18446744073709551600 with (Z.shiftl (Z.ones 60) 4).
  assert (E : Z.land s (Z.shiftl (Z.ones 60) 4) = Z.shiftl (Z.land (Z.shiftr s 4) (Z.ones 60)) 4).
  { apply Z.bits_inj'. intros n Hn. rewrite Z.land_spec. destruct (Z_lt_ge_dec n 4).
    - rewrite !Z.shiftl_spec_low by lia. apply andb_false_r.
    - rewrite !Z.shiftl_spec by lia. rewrite Z.land_spec, Z.shiftr_spec by lia. replace (n - 4 + 4) with n by lia. auto. }
  rewrite E, Z.land_ones, Z.shiftl_mul_pow2, Z.shiftr_div_pow2 by lia. change (2 ^ 4) with 16.
  change (2 ^ 64) with 18446744073709551616 in H. change (2 ^ 60) with 1152921504606846976.
  rewrite Z.mod_small. { Z.div_mod_to_equations. lia. } Z.div_mod_to_equations. lia.
Qed.

Ltac look := repeat (rewrite up_same || (rewrite up_other by (let Q := fresh in intros Q; discriminate Q))).
Ltac w64 := repeat match goal with |- context [u64 ?x] => rewrite (u64_id x) by lia end.
Ltac red1 := cbn [gp me vr setg setm setv]; look.

Lemma xrun_cons h i l c : xrun h (i :: l) c = xrun h l (xstep h c i).
Proof. reflexivity. Qed.
Lemma xrun_app h l1 l2 c : xrun h (l1 ++ l2) c = xrun h l2 (xrun h l1 c).
Proof. apply fold_left_app. Qed.


Ltac upc := unfold up; repeat match goal with |- context [?a =? ?b] => destruct (Z.eqb_spec a b) end; subst; auto; try contradiction; try lia.

(** Loads through stores elsewhere and at the same place. *)
Ltac ldst := repeat (rewrite ld_st_disj by lia); try (rewrite ld_st; change (8 * Z.of_nat 8) with 64; change (8 * Z.of_nat 16) with 128; rewrite Z.mod_small by lia); try reflexivity.

Lemma xentry hook ret c : valid_cpu c -> 96 <= gp c RSP -> gp c RSP + 8 < 2 ^ 64 ->
  exists c1, xrun hook (x86_entry_pre ++ [XCall ret]) c = hook c1 /\
    let s := gp c RSP - 48 in let al := s - s mod 16 in
    gp c1 RDI = u64 (gp c RBP + 8) /\ gp c1 RSI = ld 8 (me c) (gp c RSP) /\ gp c1 RDX = s /\ gp c1 RSP = al - 24 /\
    (forall r, ~ In r [RDI; RSI; RDX; RSP] -> gp c1 r = gp c r) /\ vr c1 = vr c /\
    ld 8 (me c1) (s + 40) = gp c RDI /\ ld 8 (me c1) (s + 32) = gp c RSI /\ ld 8 (me c1) (s + 24) = gp c RDX /\
    ld 8 (me c1) (s + 16) = gp c RCX /\ ld 8 (me c1) (s + 8) = gp c R8 /\ ld 8 (me c1) s = gp c R9 /\
    ld 8 (me c1) (al - 8) = s /\ ld 8 (me c1) (al - 16) = gp c RAX /\
    (forall a, a < gp c RSP - 88 \/ gp c RSP <= a -> me c1 a = me c a).
Proof.
  intros [Hv _] Hlo Hhi. pose (s := gp c RSP - 48).
  assert (Hs : gp c RSP = s + 48) by (unfold s; lia). assert (Hb : 48 <= s < 2 ^ 64 - 56) by lia. rewrite Hs. clearbody s.
  assert (Hm : 0 <= s mod 16 < 16) by (apply Z.mod_pos_bound; lia).
  unfold x86_entry_pre. cbn [app].
  rewrite xrun_cons. cbn [xstep]. rewrite Hs. replace (s + 48 - 48) with s by lia. rewrite (u64_id s) by lia.
  do 6 (rewrite xrun_cons; cbn [xstep]; red1; w64).
  rewrite xrun_cons; cbn [xstep]; red1; w64.
  rewrite xrun_cons; cbn [xstep]; red1.
  rewrite xrun_cons; cbn [xstep]; red1.
  rewrite xrun_cons; cbn [xstep]; red1. rewrite align_down by lia.
  assert (Hal : exists al, al = s - s mod 16) by eauto. destruct Hal as (al & Eal). rewrite <- Eal. assert (Hal : s - 15 <= al <= s) by lia. clear Eal Hm.
  rewrite xrun_cons; cbn [xstep]; red1; rewrite (u64_id (al - 8)) by lia.
  rewrite xrun_cons; cbn [xstep]; red1; rewrite (u64_id (al - 8 - 8)) by lia. replace (al - 8 - 8) with (al - 16) by lia.
  rewrite xrun_cons; cbn [xstep]; red1; rewrite (u64_id (al - 16 - 8)) by lia. replace (al - 16 - 8) with (al - 24) by lia.
  cbn [xrun fold_left].
  match goal with |- exists c1, hook ?x = hook c1 /\ _ => exists x end. split; [reflexivity|].
  cbv zeta. cbn [gp vr me setg setm]. look. rewrite Z.add_0_r.
  split; [reflexivity|]. split; [ldst|]. split; [reflexivity|]. split; [reflexivity|]. split.
  { intros r Hr. cbn [In] in Hr. repeat rewrite up_other by (intros Q; apply Hr; auto 8). auto. }
  split; [reflexivity|].
  pose proof (Hv RDI). pose proof (Hv RSI). pose proof (Hv RDX). pose proof (Hv RCX). pose proof (Hv R8). pose proof (Hv R9). pose proof (Hv RAX).
  repeat match goal with |- _ /\ _ => split end; try (ldst; lia).
  intros a Ha. rewrite !st_out by lia. auto.
Qed.

Lemma x86_entry_ok hook ret c : valid_cpu c -> 96 <= gp c RSP -> gp c RSP + 8 < 2 ^ 64 -> x86_conforming hook (gp c RSP + 8) ->
  exists c1 c', x86_entry hook ret c = (ld 8 (me c) (gp c RSP), c') /\
    gp c1 RDI = u64 (gp c RBP + 8) /\ gp c1 RSI = ld 8 (me c) (gp c RSP) /\
    (exists p, gp c1 RDX = p /\ ld 8 (me c1) (p + 40) = gp c RDI /\ ld 8 (me c1) (p + 32) = gp c RSI /\ ld 8 (me c1) (p + 24) = gp c RDX /\
       ld 8 (me c1) (p + 16) = gp c RCX /\ ld 8 (me c1) (p + 8) = gp c R8 /\ ld 8 (me c1) p = gp c R9) /\
    (gp c1 RSP + 8) mod 16 = 0 /\ gp c1 RSP < gp c RSP /\ (forall a, a < gp c RSP - 88 \/ gp c RSP <= a -> me c1 a = me c a) /\ vr c1 = vr c /\
    (forall r, In r [RAX; RCX; RDX; RSI; RDI; R8; R9; RBX; RBP; 12; 13; 14; 15] -> gp c' r = gp c r) /\
    gp c' RSP = gp c RSP + 8 /\ me c' = me (hook c1) /\ vr c' = vr (hook c1).
Proof.
  intros V Hlo Hhi HC. destruct (xentry hook ret c V Hlo Hhi) as (c1 & E & A1 & A2 & A3 & A4 & A5 & A6 & B1 & B2 & B3 & B4 & B5 & B6 & B7 & B8 & A7).
  exists c1. unfold x86_entry. rewrite app_assoc, xrun_app, E. clear E.
  destruct (HC c1) as (C1 & C2 & C3 & C4). rewrite A4 in C1, C3.
  remember (gp c RSP - 48) as s eqn:Es. assert (Hs : gp c RSP = s + 48) by lia. rewrite Hs in *. clear Es.
  assert (Hm : 0 <= s mod 16 < 16) by (apply Z.mod_pos_bound; lia). 
  remember (s - s mod 16) as al eqn:Eal. assert (Hal : s - 15 <= al <= s) by lia.
  assert (Ha16 : al mod 16 = 0). { subst al. clear. rewrite Zminus_mod, Zmod_mod, Z.sub_diag. reflexivity. }
  clear Eal Hm. remember (hook c1) as h eqn:Eh.
  assert (F : forall a, al - 16 <= a -> a + 8 <= s + 48 + 8 -> ld 8 (me h) a = ld 8 (me c1) a).
  { intros a L1 L2. apply ld_ext. intros x Hx. apply C3. lia. }
  rewrite (u64_id (al - 24 + 8)) in C1 by lia. replace (al - 24 + 8) with (al - 16) in C1 by lia.
  unfold x86_entry_post.
  rewrite xrun_cons; cbn [xstep]; red1. rewrite C1, (F (al - 16)), B8 by lia. rewrite (u64_id (al - 16 + 8)) by lia. replace (al - 16 + 8) with (al - 8) by lia.
  rewrite xrun_cons; cbn [xstep]; red1. rewrite (F (al - 8)), B7 by lia. rewrite (u64_id (al - 8 + 8)) by lia.
  rewrite xrun_cons; cbn [xstep]; red1.
  rewrite xrun_cons; cbn [xstep]; red1. w64. rewrite Z.add_0_r, (F s), B6 by lia.
  rewrite xrun_cons; cbn [xstep]; red1. w64. rewrite (F (s + 8)), B5 by lia.
  rewrite xrun_cons; cbn [xstep]; red1. w64. rewrite (F (s + 16)), B4 by lia.
  rewrite xrun_cons; cbn [xstep]; red1. w64. rewrite (F (s + 24)), B3 by lia.
  rewrite xrun_cons; cbn [xstep]; red1. w64. rewrite (F (s + 32)), B2 by lia.
  rewrite xrun_cons; cbn [xstep]; red1. w64. rewrite (F (s + 40)), B1 by lia.
  rewrite xrun_cons; cbn [xstep]; red1. w64.
  cbn [xrun fold_left]. unfold xret. red1. w64. rewrite (F (s + 48)) by lia.
  assert (G : ld 8 (me c1) (s + 48) = ld 8 (me c) (s + 48)). { apply ld_ext. intros x Hx. apply A7. lia. }
  rewrite G. eexists. split; [reflexivity|]. cbn [gp vr me setg setm setv].
  split; [exact A1|]. split; [exact A2|].
  split. { exists s. auto 10. }
  split. { rewrite A4. replace (al - 24 + 8) with (al + (-1) * 16) by lia. rewrite Z.mod_add by lia. auto. }
  split; [rewrite A4; lia|]. split; [exact A7|]. split; [exact A6|]. split; [|split; [look; reflexivity|auto]].
  intros r Hr. assert (Hd : forall r, In r [RBX; RBP; 12; 13; 14; 15] -> gp h r = gp c r).
  { intros r0 Hr0. rewrite C2 by auto. apply A5. cbn [In] in *. unfold RBX, RBP, RDI, RSI, RDX, RSP in *. lia. }
  cbn [In] in Hr. decompose [or] Hr; try contradiction; subst r; look; auto; apply Hd; cbn [In]; auto 10.
Qed.

Lemma xexit hook ret c : valid_cpu c -> 96 <= gp c RSP -> gp c RSP < 2 ^ 64 ->
  exists c1, xrun hook (x86_exit_pre ++ [XCall ret]) c = hook c1 /\
    let s := gp c RSP - 48 in let al := s - s mod 16 in
    gp c1 RDI = s /\ gp c1 RSP = al - 24 /\
    (forall r, ~ In r [RDI; RSP] -> gp c1 r = gp c r) /\ vr c1 = vr c /\
    ld 8 (me c1) s = gp c RAX /\ ld 8 (me c1) (s + 8) = gp c RDX /\ ld 16 (me c1) (s + 16) = vr c 0 /\ ld 8 (me c1) (s + 32) = gp c RDI /\
    ld 8 (me c1) (al - 16) = s /\
    (forall a, a < gp c RSP - 88 \/ gp c RSP <= a -> me c1 a = me c a).
Proof.
  intros [Hv Hx] Hlo Hhi. pose (s := gp c RSP - 48).
  assert (Hs : gp c RSP = s + 48) by (unfold s; lia). assert (Hb : 48 <= s < 2 ^ 64 - 48) by lia. rewrite Hs. clearbody s.
  assert (Hm : 0 <= s mod 16 < 16) by (apply Z.mod_pos_bound; lia).
  unfold x86_exit_pre. cbn [app].
  rewrite xrun_cons. cbn [xstep]. rewrite Hs. replace (s + 48 - 48) with s by lia. rewrite (u64_id s) by lia.
  do 4 (rewrite xrun_cons; cbn [xstep]; red1; w64).
  rewrite xrun_cons; cbn [xstep]; red1; w64.
  rewrite xrun_cons; cbn [xstep]; red1. rewrite align_down by lia.
  assert (Hal : exists al, al = s - s mod 16) by eauto. destruct Hal as (al & Eal). rewrite <- Eal. assert (Hal : s - 15 <= al <= s) by lia. clear Eal Hm.
  rewrite xrun_cons; cbn [xstep]; red1. w64.
  rewrite xrun_cons; cbn [xstep]; red1. w64.
  rewrite xrun_cons; cbn [xstep]; red1. w64.
  cbn [xrun fold_left].
  match goal with |- exists c1, hook ?x = hook c1 /\ _ => exists x end. split; [reflexivity|].
  cbv zeta. cbn [gp vr me setg setm]. look. rewrite !Z.add_0_r.
  split; [reflexivity|]. split; [lia|]. split.
  { intros r Hr. cbn [In] in Hr. repeat rewrite up_other by (intros Q; apply Hr; auto 8). auto. }
  split; [reflexivity|].
  pose proof (Hv RDI). pose proof (Hv RAX). pose proof (Hv RDX). pose proof (Hx 0).
  repeat match goal with |- _ /\ _ => split end; try (ldst; lia).
  intros a Ha. rewrite !st_out by lia. auto.
Qed.

Lemma x86_exit_ok hook ret c : valid_cpu c -> 96 <= gp c RSP -> gp c RSP < 2 ^ 64 -> x86_conforming hook (gp c RSP) ->
  exists c1 c', x86_exit hook ret c = (gp (hook c1) RAX, c') /\
    (exists p, gp c1 RDI = p /\ ld 8 (me c1) p = gp c RAX /\ ld 8 (me c1) (p + 8) = gp c RDX /\ ld 16 (me c1) (p + 16) = vr c 0) /\
    (gp c1 RSP + 8) mod 16 = 0 /\ gp c1 RSP < gp c RSP /\ (forall a, a < gp c RSP - 88 \/ gp c RSP <= a -> me c1 a = me c a) /\ vr c1 = vr c /\
    (forall r, In r [RAX; RDX; RDI; RBX; RBP; RSP; 12; 13; 14; 15] -> gp c' r = gp c r) /\ vr c' 0 = vr c 0 /\
    (forall a, a < gp c RSP - 8 \/ gp c RSP <= a -> me c' a = me (hook c1) a) /\
    (forall i, i <> 0 -> vr c' i = vr (hook c1) i).
Proof.
  intros V Hlo Hhi HC. destruct (xexit hook ret c V Hlo Hhi) as (c1 & E & A1 & A4 & A5 & A6 & B1 & B2 & B3 & B4 & B5 & A7).
  exists c1. unfold x86_exit. rewrite app_assoc, xrun_app, E. clear E.
  destruct (HC c1) as (C1 & C2 & C3 & C4). rewrite A4 in C1, C3.
  remember (gp c RSP - 48) as s eqn:Es. assert (Hs : gp c RSP = s + 48) by lia. rewrite Hs in *. clear Es.
  assert (Hm : 0 <= s mod 16 < 16) by (apply Z.mod_pos_bound; lia).
  remember (s - s mod 16) as al eqn:Eal. assert (Hal : s - 15 <= al <= s) by lia.
  assert (Ha16 : al mod 16 = 0). { subst al. clear. rewrite Zminus_mod, Zmod_mod, Z.sub_diag. reflexivity. }
  clear Eal Hm. remember (hook c1) as h eqn:Eh.
  assert (F : forall n a, al - 16 <= a -> a + Z.of_nat n <= s + 48 -> ld n (me h) a = ld n (me c1) a).
  { intros n a L1 L2. apply ld_ext. intros x Hx. apply C3. lia. }
  rewrite (u64_id (al - 24 + 8)) in C1 by lia. replace (al - 24 + 8) with (al - 16) in C1 by lia.
  unfold x86_exit_post.
  rewrite xrun_cons; cbn [xstep]; red1. rewrite C1. w64. rewrite !Z.add_0_r, (F 8%nat (al - 16)), B5 by lia.
  rewrite xrun_cons; cbn [xstep]; red1. w64.
  rewrite xrun_cons; cbn [xstep]; red1. w64. rewrite Z.add_0_r, ld_st_disj, (F 8%nat s), B1 by lia.
  rewrite xrun_cons; cbn [xstep]; red1. w64. rewrite ld_st_disj, (F 8%nat (s + 8)), B2 by lia.
  rewrite xrun_cons; cbn [xstep]; red1. w64. rewrite ld_st_disj, (F 16%nat (s + 16)), B3 by lia.
  rewrite xrun_cons; cbn [xstep]; red1. w64. rewrite ld_st_disj, (F 8%nat (s + 32)), B4 by lia.
  rewrite xrun_cons; cbn [xstep]; red1. w64.
  cbn [xrun fold_left]. unfold xret. red1. w64.
  rewrite ld_st. change (8 * Z.of_nat 8) with 64. rewrite Z.mod_small.
  2:{ apply C4. intros i. destruct (Z.eq_dec i RDI) as [->|N1]; [lia|]. destruct (Z.eq_dec i RSP) as [->|N2]; [lia|].
      rewrite A5 by (cbn [In]; intuition auto). apply V. }
  eexists. split; [reflexivity|]. cbn [gp vr me setg setm setv].
  split. { exists s. auto 10. }
  split. { rewrite A4. replace (al - 24 + 8) with (al + (-1) * 16) by lia. rewrite Z.mod_add by lia. auto. }
  split; [rewrite A4; lia|]. split; [exact A7|]. split; [exact A6|]. split.
  { intros r Hr. assert (Hd : forall r, In r [RBX; RBP; 12; 13; 14; 15] -> gp h r = gp c r).
    { intros r0 Hr0. rewrite C2 by auto. apply A5. cbn [In] in *. unfold RBX, RBP, RDI, RSP in *. lia. }
    cbn [In] in Hr. decompose [or] Hr; try contradiction; subst r; look; auto; try lia; apply Hd; cbn [In]; auto 10. }
  split; [look; reflexivity|]. split.
  - intros a Ha. rewrite st_out by lia. reflexivity.
  - intros i Hi. rewrite up_other by auto. reflexivity.
Qed.

(** ** aarch64 *)

Lemma arun_cons h i l c : arun h (i :: l) c = arun h l (astep h c i).
Proof. reflexivity. Qed.
Lemma arun_app h l1 l2 c : arun h (l1 ++ l2) c = arun h l2 (arun h l1 c).
Proof. apply fold_left_app. Qed.

Lemma aentry hook ret c : valid_cpu c -> 96 <= gp c ASP -> gp c ASP < 2 ^ 64 ->
  exists c1, arun hook (a64_entry_pre ++ [ABl ret]) c = hook c1 /\
    let s := gp c ASP - 96 in
    gp c1 0 = u64 (gp c 29 + 8) /\ gp c1 1 = gp c 30 /\ gp c1 2 = s /\ gp c1 ASP = s /\ gp c1 29 = s + 80 /\ gp c1 30 = ret /\
    (forall r, ~ In r [0; 1; 2; 29; 30; ASP] -> gp c1 r = gp c r) /\ vr c1 = vr c /\
    (forall k, 0 <= k < 8 -> ld 8 (me c1) (s + 8 * k) = gp c k) /\
    ld 8 (me c1) (s + 64) = gp c 8 /\ ld 8 (me c1) (s + 72) = gp c 18 /\ ld 8 (me c1) (s + 80) = gp c 29 /\ ld 8 (me c1) (s + 88) = gp c 30 /\
    (forall a, a < s \/ gp c ASP <= a -> me c1 a = me c a).
Proof.
  intros [Hv Hx] Hlo Hhi. pose (s := gp c ASP - 96).
  assert (Hs : gp c ASP = s + 96) by (unfold s; lia). assert (Hb : 0 <= s < 2 ^ 64 - 96) by lia. rewrite Hs. clearbody s.
  unfold a64_entry_pre. cbn [app].
  rewrite arun_cons. cbn [astep]. rewrite Hs. replace (s + 96 - 16) with (s + 80) by lia. red1. w64. replace (s + 80 + 8) with (s + 88) by lia.
  rewrite arun_cons; cbn [astep]; red1.
  rewrite arun_cons; cbn [astep]; red1. replace (s + 80 - 16) with (s + 64) by lia. w64. replace (s + 64 + 8) with (s + 72) by lia.
  rewrite arun_cons; cbn [astep]; red1. replace (s + 64 - 16) with (s + 48) by lia. w64. replace (s + 48 + 8) with (s + 56) by lia.
  rewrite arun_cons; cbn [astep]; red1. replace (s + 48 - 16) with (s + 32) by lia. w64. replace (s + 32 + 8) with (s + 40) by lia.
  rewrite arun_cons; cbn [astep]; red1. replace (s + 32 - 16) with (s + 16) by lia. w64. replace (s + 16 + 8) with (s + 24) by lia.
  rewrite arun_cons; cbn [astep]; red1. replace (s + 16 - 16) with s by lia. w64.
  rewrite arun_cons; cbn [astep]; red1.
  rewrite arun_cons; cbn [astep]; red1.
  rewrite arun_cons; cbn [astep]; red1.
  rewrite arun_cons; cbn [astep]; red1.
  rewrite arun_cons; cbn [astep]; red1.
  cbn [arun fold_left].
  match goal with |- exists c1, hook ?x = hook c1 /\ _ => exists x end. split; [reflexivity|].
  cbv zeta. cbn [gp vr me setg setm]. look. replace (s + 96 - 96) with s by lia.
  pose proof (Hv 29). pose proof (Hv 30). pose proof (Hv 8). pose proof (Hv 18).
  split. { f_equal. f_equal. ldst. }
  split; [reflexivity|]. split; [reflexivity|]. split; [reflexivity|]. split; [reflexivity|]. split; [reflexivity|]. split.
  { intros r Hr. cbn [In] in Hr. repeat rewrite up_other by (intros Q; apply Hr; auto 8). auto. }
  split; [reflexivity|]. split.
  { intros k Hk. pose proof (Hv k). assert (Hc : k = 0 \/ k = 1 \/ k = 2 \/ k = 3 \/ k = 4 \/ k = 5 \/ k = 6 \/ k = 7) by lia.
    decompose [or] Hc; subst k; repeat match goal with |- context [s + 8 * ?k] => let v := eval compute in (8 * k) in change (8 * k) with v end; rewrite ?Z.add_0_r; ldst. }
  repeat match goal with |- _ /\ _ => split end; try (ldst; lia).
  intros a Ha. rewrite !st_out by lia. auto.
Qed.

Lemma a64_entry_ok hook ret c : valid_cpu c -> 96 <= gp c ASP -> gp c ASP < 2 ^ 64 -> gp c ASP mod 16 = 0 -> a64_conforming hook (gp c ASP) ->
  exists c1 c', a64_entry hook ret c = (gp c 30, c') /\
    gp c1 0 = u64 (gp c 29 + 8) /\ gp c1 1 = gp c 30 /\
    (exists p, gp c1 2 = p /\ forall k, 0 <= k < 8 -> ld 8 (me c1) (p + 8 * k) = gp c k) /\
    gp c1 ASP mod 16 = 0 /\ gp c1 ASP < gp c ASP /\ (forall a, a < gp c ASP - 96 \/ gp c ASP <= a -> me c1 a = me c a) /\ vr c1 = vr c /\
    (forall r, 0 <= r <= 8 \/ r = 18 \/ 19 <= r <= 31 -> gp c' r = gp c r) /\
    me c' = me (hook c1) /\ vr c' = vr (hook c1).
Proof.
  intros V Hlo Hhi H16 HC. destruct (aentry hook ret c V Hlo Hhi) as (c1 & E & A1 & A2 & A3 & A4 & A5 & A6 & A7 & A8 & B & B8 & B18 & B29 & B30 & A9).
  exists c1. unfold a64_entry. rewrite app_assoc, arun_app, E. clear E.
  destruct (HC c1) as (C1 & C2 & _ & C3 & C4). rewrite A4 in C1, C3.
  remember (gp c ASP - 96) as s eqn:Es. assert (Hs : gp c ASP = s + 96) by lia. rewrite Hs in *. clear Es.
  remember (hook c1) as h eqn:Eh.
  assert (F : forall n a, s <= a -> a + Z.of_nat n <= s + 96 -> ld n (me h) a = ld n (me c1) a).
  { intros n a L1 L2. apply ld_ext. intros x Hx. apply C3. lia. }
  unfold a64_entry_post.
  pose proof (B 0 ltac:(lia)) as B0. pose proof (B 1 ltac:(lia)) as B1. pose proof (B 2 ltac:(lia)) as B2. pose proof (B 3 ltac:(lia)) as B3.
  pose proof (B 4 ltac:(lia)) as B4. pose proof (B 5 ltac:(lia)) as B5. pose proof (B 6 ltac:(lia)) as B6. pose proof (B 7 ltac:(lia)) as B7.
  change (8 * 0) with 0 in B0. change (8 * 1) with 8 in B1. change (8 * 2) with 16 in B2. change (8 * 3) with 24 in B3.
  change (8 * 4) with 32 in B4. change (8 * 5) with 40 in B5. change (8 * 6) with 48 in B6. change (8 * 7) with 56 in B7. rewrite Z.add_0_r in B0.
  rewrite arun_cons; cbn [astep]; red1. rewrite C1. w64. rewrite !F, B0, B1 by lia.
  rewrite arun_cons; cbn [astep]; red1. replace (s + 16 + 8) with (s + 24) by lia. replace (s + 16 + 16) with (s + 32) by lia. w64. rewrite !F, B2, B3 by lia.
  rewrite arun_cons; cbn [astep]; red1. replace (s + 32 + 8) with (s + 40) by lia. replace (s + 32 + 16) with (s + 48) by lia. w64. rewrite !F, B4, B5 by lia.
  rewrite arun_cons; cbn [astep]; red1. replace (s + 48 + 8) with (s + 56) by lia. replace (s + 48 + 16) with (s + 64) by lia. w64. rewrite !F, B6, B7 by lia.
  rewrite arun_cons; cbn [astep]; red1. replace (s + 64 + 8) with (s + 72) by lia. replace (s + 64 + 16) with (s + 80) by lia. w64. rewrite !F, B8, B18 by lia.
  rewrite arun_cons; cbn [astep]; red1. replace (s + 80 + 8) with (s + 88) by lia. replace (s + 80 + 16) with (s + 96) by lia. w64. rewrite !F, B29, B30 by lia.
  cbn [arun fold_left gp setg setv setm me vr]. look. eexists. split; [reflexivity|]. cbn [gp vr me setg setm setv].
  split; [exact A1|]. split; [exact A2|]. split. { exists s. auto. }
  split. { rewrite A4. replace (s + 96) with (s + 6 * 16) in H16 by lia. rewrite Z.mod_add in H16 by lia. auto. }
  split; [rewrite A4; lia|]. split; [intros a Ha; apply A9; lia|]. split; [exact A8|]. split; [|auto].
  intros r Hr.
  assert (Hc : r = 0 \/ r = 1 \/ r = 2 \/ r = 3 \/ r = 4 \/ r = 5 \/ r = 6 \/ r = 7 \/ r = 8 \/ r = 18 \/ 19 <= r <= 28 \/ r = 29 \/ r = 30 \/ r = 31) by lia.
  assert (Hd : 19 <= r <= 28 -> gp h r = gp c r).
  { intros L. rewrite C2 by lia. apply A7. cbn [In]. unfold ASP. lia. }
  unfold up, ASP.
  repeat match goal with |- context [r =? ?b] => destruct (Z.eqb_spec r b); [subst r; auto; fail|] end.
  apply Hd. lia.
Qed.

Lemma aexit hook ret c : valid_cpu c -> 64 <= gp c ASP -> gp c ASP < 2 ^ 64 ->
  exists c1, arun hook (a64_exit_pre ++ [ABl ret]) c = hook c1 /\
    let s := gp c ASP - 64 in
    gp c1 0 = s + 32 /\ gp c1 ASP = s /\
    (forall r, ~ In r [0; 30; ASP] -> gp c1 r = gp c r) /\ vr c1 = vr c /\
    ld 8 (me c1) s = gp c 8 /\ ld 8 (me c1) (s + 8) = gp c 18 /\ ld 16 (me c1) (s + 16) = vr c 0 /\
    ld 8 (me c1) (s + 32) = gp c 0 /\ ld 8 (me c1) (s + 40) = gp c 1 /\ ld 8 (me c1) (s + 48) = gp c 29 /\ ld 8 (me c1) (s + 56) = gp c 30 /\
    (forall a, a < s \/ gp c ASP <= a -> me c1 a = me c a).
Proof.
  intros [Hv Hx] Hlo Hhi. pose (s := gp c ASP - 64).
  assert (Hs : gp c ASP = s + 64) by (unfold s; lia). assert (Hb : 0 <= s < 2 ^ 64 - 64) by lia. rewrite Hs. clearbody s.
  unfold a64_exit_pre. cbn [app].
  rewrite arun_cons. cbn [astep]. rewrite Hs. replace (s + 64 - 16) with (s + 48) by lia. red1. w64. replace (s + 48 + 8) with (s + 56) by lia.
  rewrite arun_cons; cbn [astep]; red1. replace (s + 48 - 16) with (s + 32) by lia. w64. replace (s + 32 + 8) with (s + 40) by lia.
  rewrite arun_cons; cbn [astep]; red1. replace (s + 32 - 16) with (s + 16) by lia. w64.
  rewrite arun_cons; cbn [astep]; red1. replace (s + 16 - 16) with s by lia. w64.
  rewrite arun_cons; cbn [astep]; red1. w64.
  rewrite arun_cons; cbn [astep]; red1.
  cbn [arun fold_left].
  match goal with |- exists c1, hook ?x = hook c1 /\ _ => exists x end. split; [reflexivity|].
  cbv zeta. cbn [gp vr me setg setm]. look. replace (s + 64 - 64) with s by lia.
  pose proof (Hv 29). pose proof (Hv 30). pose proof (Hv 8). pose proof (Hv 18). pose proof (Hv 0). pose proof (Hv 1). pose proof (Hx 0).
  split; [reflexivity|]. split; [reflexivity|]. split.
  { intros r Hr. cbn [In] in Hr. repeat rewrite up_other by (intros Q; apply Hr; auto 8). auto. }
  split; [reflexivity|].
  repeat match goal with |- _ /\ _ => split end; try (ldst; lia).
  intros a Ha. rewrite !st_out by lia. auto.
Qed.

Lemma a64_exit_ok hook ret c : valid_cpu c -> 64 <= gp c ASP -> gp c ASP < 2 ^ 64 -> gp c ASP mod 16 = 0 -> a64_conforming hook (gp c ASP) ->
  exists c1 c', a64_exit hook ret c = (gp (hook c1) 0, c') /\
    (exists p, gp c1 0 = p /\ ld 8 (me c1) p = gp c 0 /\ ld 8 (me c1) (p + 8) = gp c 1) /\
    gp c1 ASP mod 16 = 0 /\ gp c1 ASP < gp c ASP /\ (forall a, a < gp c ASP - 64 \/ gp c ASP <= a -> me c1 a = me c a) /\ vr c1 = vr c /\
    (forall r, r = 0 \/ r = 1 \/ r = 8 \/ r = 18 \/ 19 <= r <= 31 -> gp c' r = gp c r) /\ vr c' 0 = vr c 0 /\
    me c' = me (hook c1) /\ (forall i, i <> 0 -> vr c' i = vr (hook c1) i).
Proof.
  intros V Hlo Hhi H16 HC. destruct (aexit hook ret c V Hlo Hhi) as (c1 & E & A1 & A4 & A7 & A8 & B8 & B18 & BQ & B0 & B1 & B29 & B30 & A9).
  exists c1. unfold a64_exit. rewrite app_assoc, arun_app, E. clear E.
  destruct (HC c1) as (C1 & C2 & _ & C3 & C4). rewrite A4 in C1, C3.
  remember (gp c ASP - 64) as s eqn:Es. assert (Hs : gp c ASP = s + 64) by lia. rewrite Hs in *. clear Es.
  remember (hook c1) as h eqn:Eh.
  assert (F : forall n a, s <= a -> a + Z.of_nat n <= s + 64 -> ld n (me h) a = ld n (me c1) a).
  { intros n a L1 L2. apply ld_ext. intros x Hx. apply C3. lia. }
  unfold a64_exit_post.
  rewrite arun_cons; cbn [astep]; red1.
  rewrite arun_cons; cbn [astep]; red1. rewrite C1. w64. rewrite !F, B8, B18 by lia.
  rewrite arun_cons; cbn [astep]; red1. replace (s + 16 + 16) with (s + 32) by lia. w64. rewrite !F, BQ by lia.
  rewrite arun_cons; cbn [astep]; red1. replace (s + 32 + 8) with (s + 40) by lia. replace (s + 32 + 16) with (s + 48) by lia. w64. rewrite !F, B0, B1 by lia.
  rewrite arun_cons; cbn [astep]; red1. replace (s + 48 + 8) with (s + 56) by lia. replace (s + 48 + 16) with (s + 64) by lia. w64. rewrite !F, B29, B30 by lia.
  cbn [arun fold_left gp setg setv setm me vr]. look. eexists. split; [reflexivity|]. cbn [gp vr me setg setm setv].
  split. { exists (s + 32). replace (s + 32 + 8) with (s + 40) by lia. auto. }
  split. { rewrite A4. replace (s + 64) with (s + 4 * 16) in H16 by lia. rewrite Z.mod_add in H16 by lia. auto. }
  split; [rewrite A4; lia|]. split; [intros a Ha; apply A9; lia|]. split; [exact A8|]. split.
  { intros r Hr.
    assert (Hd : 19 <= r <= 28 -> gp h r = gp c r).
    { intros L. rewrite C2 by lia. apply A7. cbn [In]. unfold ASP. lia. }
    unfold up, ASP.
    repeat match goal with |- context [r =? ?b] => destruct (Z.eqb_spec r b); [subst r; auto; try lia; fail|] end.
    apply Hd. lia. }
  split; [look; reflexivity|]. split; [reflexivity|]. intros i Hi. rewrite up_other by auto. reflexivity.
Qed.
