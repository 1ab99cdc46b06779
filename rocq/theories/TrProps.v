(** Tracing trampolines: the property theorems C61-C63, C96, C97. *)
From Coq Require Import ZArith List Bool Lia ZifyBool.
From Verif Require Import Word WordLemmas TrModel TrSpec TrProofs.
Import ListNotations.
Open Scope Z_scope.

(** ** C61 *)
Theorem C61_entry hook ret c : valid_cpu c -> 96 <= gp c RSP -> gp c RSP + 8 < 2 ^ 64 -> x86_conforming hook (gp c RSP + 8) ->
  exists c1 c', x86_entry hook ret c = (ld 8 (me c) (gp c RSP), c') /\
    gp c1 RDI = u64 (gp c RBP + 8) /\ gp c1 RSI = ld 8 (me c) (gp c RSP) /\
    (exists p, gp c1 RDX = p /\ ld 8 (me c1) (p + 40) = gp c RDI /\ ld 8 (me c1) (p + 32) = gp c RSI /\ ld 8 (me c1) (p + 24) = gp c RDX /\
       ld 8 (me c1) (p + 16) = gp c RCX /\ ld 8 (me c1) (p + 8) = gp c R8 /\ ld 8 (me c1) p = gp c R9) /\
    (gp c1 RSP + 8) mod 16 = 0 /\ gp c1 RSP < gp c RSP /\ (forall a, a < gp c RSP - 88 \/ gp c RSP <= a -> me c1 a = me c a) /\ vr c1 = vr c /\
    (forall r, In r [RAX; RCX; RDX; RSI; RDI; R8; R9; RBX; RBP; 12; 13; 14; 15] -> gp c' r = gp c r) /\
    gp c' RSP = gp c RSP + 8 /\ me c' = me (hook c1) /\ vr c' = vr (hook c1).
Proof. exact (x86_entry_ok hook ret c). Qed.
Print Assumptions C61_entry.

(** A hook that uses what it may: it destroys all registers it need not keep. *)
Definition wild_x86 (c : cpu) : cpu :=
  Cpu (fun r => if r =? RSP then u64 (gp c RSP + 8) else if (r =? RBX) || (r =? RBP) || ((12 <=? r) && (r <=? 15)) then gp c r else 57005)
      (fun _ => 48879) (fun a => if (0 <=? a) && (a <? 4096) then 1 else me c a).
Lemma wild_x86_ok hi : x86_conforming (fun c => let c' := wild_x86 c in Cpu (gp c') (vr c') (me c)) hi.
Proof.
  intros c. cbn [gp me wild_x86]. split; [reflexivity|]. split.
  { intros r Hr. cbn [In] in Hr. decompose [or] Hr; subst; try contradiction; reflexivity. }
  split; [auto|]. intros H i. pose proof (H i). destruct (i =? RSP). { unfold u64, wrap. apply Z.mod_pos_bound. lia. }
  destruct (_ || _); auto. lia.
Qed.
Definition wild (c : cpu) : cpu := let c' := wild_x86 c in Cpu (gp c') (vr c') (me c).

Definition ex_cpu : cpu := Cpu (fun r => if r =? RSP then 1000008 else if r =? RBP then 1000016 else if (0 <=? r) && (r <? 16) then 100 + r else 0) (fun i => if i =? 0 then 77 else if i =? 1 then 78 else 0)
  (st 8 (fun _ => 0) 1000008 4195987).
Lemma ex_cpu_ok : valid_cpu ex_cpu.
Proof.
  split; intros i; cbn [gp vr ex_cpu]; repeat match goal with |- context [if ?c then _ else _] => destruct c eqn:? end; lia.
Qed.
Example C61_entry_ex : valid_cpu ex_cpu /\ x86_conforming wild (gp ex_cpu RSP + 8) /\
  let '(pc, c') := x86_entry wild 4096 ex_cpu in
  pc = 4195987 /\ gp c' RSP = 1000016 /\ map (gp c') [RAX; RDI; RSI; RDX; RCX; R8; R9; RBP] = [100; 107; 106; 102; 101; 108; 109; 1000016].
Proof. split; [exact ex_cpu_ok|]. split; [apply wild_x86_ok|]. vm_compute. repeat split; reflexivity. Qed.

(** ** C62 *)
Theorem C62_return hook ret c : valid_cpu c -> 96 <= gp c RSP -> gp c RSP < 2 ^ 64 -> x86_conforming hook (gp c RSP) ->
  exists c1 c', x86_exit hook ret c = (gp (hook c1) RAX, c') /\
    (exists p, gp c1 RDI = p /\ ld 8 (me c1) p = gp c RAX /\ ld 8 (me c1) (p + 8) = gp c RDX /\ ld 16 (me c1) (p + 16) = vr c 0) /\
    (gp c1 RSP + 8) mod 16 = 0 /\ gp c1 RSP < gp c RSP /\ (forall a, a < gp c RSP - 88 \/ gp c RSP <= a -> me c1 a = me c a) /\ vr c1 = vr c /\
    (forall r, In r [RAX; RDX; RDI; RBX; RBP; RSP; 12; 13; 14; 15] -> gp c' r = gp c r) /\ vr c' 0 = vr c 0 /\
    (forall a, a < gp c RSP - 8 \/ gp c RSP <= a -> me c' a = me (hook c1) a) /\
    (forall i, i <> 0 -> vr c' i = vr (hook c1) i).
Proof. exact (x86_exit_ok hook ret c). Qed.
Print Assumptions C62_return.
Example C62_return_ex : valid_cpu ex_cpu /\ x86_conforming wild (gp ex_cpu RSP) /\
  let '(pc, c') := x86_exit wild 4096 ex_cpu in pc = 57005 /\ gp c' RSP = 1000008 /\ gp c' RAX = 100 /\ gp c' RDX = 102 /\ vr c' 0 = 77.
Proof. split; [exact ex_cpu_ok|]. split; [apply wild_x86_ok|]. vm_compute. repeat split; reflexivity. Qed.

(** ** C63 *)
Theorem C63_entry hook ret c : valid_cpu c -> 96 <= gp c ASP -> gp c ASP < 2 ^ 64 -> gp c ASP mod 16 = 0 -> a64_conforming hook (gp c ASP) ->
  exists c1 c', a64_entry hook ret c = (gp c 30, c') /\
    gp c1 0 = u64 (gp c 29 + 8) /\ gp c1 1 = gp c 30 /\
    (exists p, gp c1 2 = p /\ forall k, 0 <= k < 8 -> ld 8 (me c1) (p + 8 * k) = gp c k) /\
    gp c1 ASP mod 16 = 0 /\ gp c1 ASP < gp c ASP /\ (forall a, a < gp c ASP - 96 \/ gp c ASP <= a -> me c1 a = me c a) /\ vr c1 = vr c /\
    (forall r, 0 <= r <= 8 \/ r = 18 \/ 19 <= r <= 31 -> gp c' r = gp c r) /\
    me c' = me (hook c1) /\ vr c' = vr (hook c1).
Proof. exact (a64_entry_ok hook ret c). Qed.
Print Assumptions C63_entry.

Theorem C63_return hook ret c : valid_cpu c -> 64 <= gp c ASP -> gp c ASP < 2 ^ 64 -> gp c ASP mod 16 = 0 -> a64_conforming hook (gp c ASP) ->
  exists c1 c', a64_exit hook ret c = (gp (hook c1) 0, c') /\
    (exists p, gp c1 0 = p /\ ld 8 (me c1) p = gp c 0 /\ ld 8 (me c1) (p + 8) = gp c 1) /\
    gp c1 ASP mod 16 = 0 /\ gp c1 ASP < gp c ASP /\ (forall a, a < gp c ASP - 64 \/ gp c ASP <= a -> me c1 a = me c a) /\ vr c1 = vr c /\
    (forall r, r = 0 \/ r = 1 \/ r = 8 \/ r = 18 \/ 19 <= r <= 31 -> gp c' r = gp c r) /\ vr c' 0 = vr c 0 /\
    me c' = me (hook c1) /\ (forall i, i <> 0 -> vr c' i = vr (hook c1) i).
Proof. exact (a64_exit_ok hook ret c). Qed.
Print Assumptions C63_return.

Definition wild_a64 (c : cpu) : cpu :=
  Cpu (fun r => if (r =? ASP) || ((19 <=? r) && (r <=? 29)) then gp c r else 57005)
      (fun i => if (8 <=? i) && (i <=? 15) then vr c i mod 2 ^ 64 else 48879) (me c).
Lemma wild_a64_ok hi : a64_conforming wild_a64 hi.
Proof.
  intros c. cbn [gp vr me wild_a64]. split; [reflexivity|]. split.
  { intros r Hr. replace ((19 <=? r) && (r <=? 29)) with true by lia. rewrite orb_true_r. auto. }
  split. { intros i Hi. replace ((8 <=? i) && (i <=? 15)) with true by lia. apply Zmod_mod. }
  split; [auto|]. intros H i. pose proof (H i). destruct (_ || _); auto. lia.
Qed.
Definition ex_cpu_a : cpu := Cpu (fun r => if r =? ASP then 1000000 else if (0 <=? r) && (r <? 31) then 100 + r else 0) (fun i => if i =? 0 then 77 else if i =? 1 then 78 else 0) (fun _ => 0).
Lemma ex_cpu_a_ok : valid_cpu ex_cpu_a.
Proof.
  split; intros i; cbn [gp vr ex_cpu_a]; repeat match goal with |- context [if ?c then _ else _] => destruct c eqn:? end; lia.
Qed.
Example C63_ex : valid_cpu ex_cpu_a /\ a64_conforming wild_a64 (gp ex_cpu_a ASP) /\ gp ex_cpu_a ASP mod 16 = 0 /\
  (let '(pc, c') := a64_entry wild_a64 4096 ex_cpu_a in pc = 130 /\ map (gp c') [0; 1; 7; 8; 18; 29; 30; ASP] = [100; 101; 107; 108; 118; 129; 130; 1000000]) /\
  (let '(pc, c') := a64_exit wild_a64 4096 ex_cpu_a in pc = 57005 /\ map (gp c') [0; 1; 8; 18; 29; ASP] = [100; 101; 108; 118; 129; 1000000] /\ vr c' 0 = 77).
Proof. split; [exact ex_cpu_a_ok|]. split; [apply wild_a64_ok|]. split; [reflexivity|]. split; vm_compute; repeat split; reflexivity. Qed.

(** ** C96: floating point arguments are passed in vector registers 0 to 7. *)
Theorem C96_float_args_refuted :
  (exists hook ret c, valid_cpu c /\ 96 <= gp c RSP /\ gp c RSP + 8 < 2 ^ 64 /\ x86_conforming hook (gp c RSP + 8) /\
     vr (snd (x86_entry hook ret c)) 0 <> vr c 0) /\
  (exists hook ret c, valid_cpu c /\ 96 <= gp c ASP /\ gp c ASP < 2 ^ 64 /\ gp c ASP mod 16 = 0 /\ a64_conforming hook (gp c ASP) /\
     vr (snd (a64_entry hook ret c)) 0 <> vr c 0).
Proof.
  split.
  - exists wild, 4096, ex_cpu. split; [exact ex_cpu_ok|]. split; [vm_compute; discriminate|]. split; [reflexivity|]. split; [apply wild_x86_ok|]. vm_compute. discriminate.
  - exists wild_a64, 4096, ex_cpu_a. split; [exact ex_cpu_a_ok|]. split; [vm_compute; discriminate|]. split; [reflexivity|]. split; [reflexivity|]. split; [apply wild_a64_ok|]. vm_compute. discriminate.
Qed.
Print Assumptions C96_float_args_refuted.

(** They survive if the hook does not use vector registers. *)
Theorem C96_float_args_partial hook ret c : valid_cpu c -> (forall c, vr (hook c) = vr c) ->
  (96 <= gp c RSP -> gp c RSP + 8 < 2 ^ 64 -> x86_conforming hook (gp c RSP + 8) -> vr (snd (x86_entry hook ret c)) = vr c) /\
  (96 <= gp c ASP -> gp c ASP < 2 ^ 64 -> gp c ASP mod 16 = 0 -> a64_conforming hook (gp c ASP) -> vr (snd (a64_entry hook ret c)) = vr c).
Proof.
  intros V H. split.
  - intros A B C. destruct (x86_entry_ok hook ret c V A B C) as (c1 & c' & E & _ & _ & _ & _ & _ & _ & Q1 & _ & _ & _ & Q2).
    rewrite E. cbn [snd]. rewrite Q2, H. exact Q1.
  - intros A B C D. destruct (a64_entry_ok hook ret c V A B C D) as (c1 & c' & E & _ & _ & _ & _ & _ & _ & Q1 & _ & _ & Q2).
    rewrite E. cbn [snd]. rewrite Q2, H. exact Q1.
Qed.
Print Assumptions C96_float_args_partial.
Example C96_float_args_partial_ex : let hook := fun c => Cpu (gp (wild c)) (vr c) (me c) in
  (forall c, vr (hook c) = vr c) /\ x86_conforming hook (gp ex_cpu RSP + 8) /\ vr (snd (x86_entry hook 4096 ex_cpu)) 1 = 78.
Proof. split; [reflexivity|]. split; [exact (wild_x86_ok _)|]. vm_compute. reflexivity. Qed.

(** ** C97: a complex number or a pair of floating point numbers is returned in vector registers 0 and 1. *)
Theorem C97_float_results_refuted :
  (exists hook ret c, valid_cpu c /\ 96 <= gp c RSP /\ gp c RSP < 2 ^ 64 /\ x86_conforming hook (gp c RSP) /\
     vr (snd (x86_exit hook ret c)) 1 <> vr c 1) /\
  (exists hook ret c, valid_cpu c /\ 64 <= gp c ASP /\ gp c ASP < 2 ^ 64 /\ gp c ASP mod 16 = 0 /\ a64_conforming hook (gp c ASP) /\
     vr (snd (a64_exit hook ret c)) 1 <> vr c 1).
Proof.
  split.
  - exists wild, 4096, ex_cpu. split; [exact ex_cpu_ok|]. split; [vm_compute; discriminate|]. split; [reflexivity|]. split; [apply wild_x86_ok|]. vm_compute. discriminate.
  - exists wild_a64, 4096, ex_cpu_a. split; [exact ex_cpu_a_ok|]. split; [vm_compute; discriminate|]. split; [reflexivity|]. split; [reflexivity|]. split; [apply wild_a64_ok|]. vm_compute. discriminate.
Qed.
Print Assumptions C97_float_results_refuted.

(** The first one survives every hook, the others one that does not use vector registers. *)
Theorem C97_float_results_partial hook ret c : valid_cpu c ->
  (96 <= gp c RSP -> gp c RSP < 2 ^ 64 -> x86_conforming hook (gp c RSP) ->
     vr (snd (x86_exit hook ret c)) 0 = vr c 0 /\ ((forall c, vr (hook c) = vr c) -> forall i, vr (snd (x86_exit hook ret c)) i = vr c i)) /\
  (64 <= gp c ASP -> gp c ASP < 2 ^ 64 -> gp c ASP mod 16 = 0 -> a64_conforming hook (gp c ASP) ->
     vr (snd (a64_exit hook ret c)) 0 = vr c 0 /\ ((forall c, vr (hook c) = vr c) -> forall i, vr (snd (a64_exit hook ret c)) i = vr c i)).
Proof.
  intros V. split.
  - intros A B C. destruct (x86_exit_ok hook ret c V A B C) as (c1 & c' & E & _ & _ & _ & _ & Q1 & _ & Q0 & _ & Q2).
    rewrite E. cbn [snd]. split; [exact Q0|]. intros H i. destruct (Z.eq_dec i 0) as [->|N]; auto. rewrite Q2, H, Q1 by auto. auto.
  - intros A B C D. destruct (a64_exit_ok hook ret c V A B C D) as (c1 & c' & E & _ & _ & _ & _ & Q1 & _ & Q0 & _ & Q2).
    rewrite E. cbn [snd]. split; [exact Q0|]. intros H i. destruct (Z.eq_dec i 0) as [->|N]; auto. rewrite Q2, H, Q1 by auto. auto.
Qed.
Print Assumptions C97_float_results_partial.
Example C97_float_results_partial_ex : x86_conforming wild (gp ex_cpu RSP) /\ vr (snd (x86_exit wild 4096 ex_cpu)) 0 = 77 /\
  a64_conforming wild_a64 (gp ex_cpu_a ASP) /\ vr (snd (a64_exit wild_a64 4096 ex_cpu_a)) 0 = 77.
Proof. split; [apply wild_x86_ok|]. split; [reflexivity|]. split; [apply wild_a64_ok|reflexivity]. Qed.
