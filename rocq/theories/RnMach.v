(** The two processors of InsnSpec as machines. *)
From Coq Require Import ZArith List Bool Lia ZifyBool ZifyNat.
From Verif Require Import Word WordLemmas InsnModel InsnSpec InsnProofs RnSpec RnProofs.
Import ListNotations.
Open Scope Z_scope.

(** The bytes [a], …, [a + n - 1]. *)
Definition span (a : Z) (n : nat) (x : Z) : Prop := exists i, (i < n)%nat /\ x = addr64 (a + Z.of_nat i).

Lemma rd_ext n : forall m m' a, (forall x, span a n x -> m' x = m x) -> rd n m' a = rd n m a.
Proof.
  induction n as [|n IH]; intros m m' a H; [reflexivity|]. cbn [rd]. f_equal.
  - apply H. exists O. split; [lia|]. f_equal. lia.
  - f_equal. apply IH. intros x (i & Hi & ->). apply H. exists (S i). split; [lia|]. f_equal. lia.
Qed.

(** ** x86-64: registers and instruction pointer *)
Definition xs := ((Z -> Z) * Z)%type.
Definition x86_writes (m : mem) (s : xs) : list (Z * Z) :=
  if rd 1 m (snd s) =? 0xe8
  then map (fun i => (addr64 (fst s rsp - 8 + Z.of_nat i), addr64 (snd s + 5) / 2 ^ (8 * Z.of_nat i) mod 256)) (seq 0 8)
  else [].
Definition x86_exec1 (m : mem) (s : xs) : option (xs * list (Z * Z)) :=
  match x86_step (XCpu (fst s) (snd s) m) with
  | Some c => Some ((x_reg c, x_rip c), x86_writes m s)
  | None => None
  end.
Definition x86_looks (m : mem) (s : xs) (x : Z) : Prop :=
  let b := rd 1 m (snd s) in
  span (snd s) 1 x \/
  ((b = 0xe9 \/ b = 0xe8) /\ span (snd s + 1) 4 x) \/
  ((b = 0xeb \/ b = 0xff) /\ span (snd s + 1) 1 x) \/
  (b = 0xc3 /\ span (fst s rsp) 8 x) \/
  (b = 0xff /\ rd 1 m (snd s + 1) = 0x25 /\ (span (snd s + 2) 4 x \/ span (snd s + 6 + sx 32 (rd 4 m (snd s + 2))) 8 x)).
Definition x86_machine : machine := Machine xs snd (fun s t => (fst s, t)) x86_exec1 x86_looks.

(** What a call writes is what [x86_step] writes. *)
Lemma x86_writes_ok regs ip m c : x86_step (XCpu regs ip m) = Some c -> forall x, 0 <= x < 2 ^ 64 -> x_mem c x = write m (x86_writes m (regs, ip)) x.
Proof.
  unfold x86_step, x86_writes. cbn [x_reg x_rip x_mem fst snd].
  destruct (Z.eqb_spec (rd 1 m ip) 0xe8) as [E|N].
  - rewrite E. intros H. assert (Hc : c = XCpu (set_reg regs rsp (addr64 (regs rsp - 8))) (addr64 (ip + 5 + sx 32 (rd 4 m (ip + 1)))) (wr64 m (addr64 (regs rsp - 8)) (addr64 (ip + 5)))) by congruence.
    subst c. cbn [x_mem]. intros x Hx. unfold wr64. set (a := regs rsp - 8). set (v := addr64 (ip + 5)). clearbody v.
    assert (Hs : forall i, x = addr64 (a + i) <-> (0 <= i < 2 ^ 64 -> (x - addr64 a) mod 2 ^ 64 = i) /\ (x - addr64 a) mod 2 ^ 64 = i mod 2 ^ 64).
    { intros i. unfold addr64. split.
      - intros ->. assert (Y : (((a + i) mod 2 ^ 64 - a mod 2 ^ 64)) mod 2 ^ 64 = i mod 2 ^ 64) by (rewrite <- Zminus_mod; f_equal; lia).
        split; [intros Hi; rewrite Y; apply Z.mod_small; exact Hi|exact Y].
      - intros [_ Y]. rewrite <- (Z.mod_small x (2 ^ 64)) by exact Hx. rewrite <- Z.add_mod_idemp_r by lia. rewrite <- Y. rewrite Zminus_mod_idemp_r.
        rewrite Z.add_mod_idemp_r by lia. f_equal. lia. }
    set (o := (x - addr64 a) mod 2 ^ 64) in *. assert (Ho : 0 <= o < 2 ^ 64) by (unfold o; apply Z.mod_pos_bound; lia).
    assert (Eq : forall i, 0 <= i < 8 -> (x =? addr64 (a + i)) = (o =? i)).
    { intros i Hi. destruct (Z.eqb_spec x (addr64 (a + i))) as [Ex|Nx].
      - apply Hs in Ex. destruct Ex as [Ex _]. rewrite Ex by lia. symmetry. apply Z.eqb_refl.
      - symmetry. apply Z.eqb_neq. intros Eo. apply Nx. apply Hs. split; [auto|]. rewrite Eo. symmetry. apply Z.mod_small. lia. }
    clear Hs. clearbody o. cbn [map seq write]. cbn [Z.of_nat Pos.of_succ_nat Pos.succ]. rewrite !Eq by lia.
    destruct (o <? 8) eqn:Eo8.
    + assert (Ho8 : o = 0 \/ o = 1 \/ o = 2 \/ o = 3 \/ o = 4 \/ o = 5 \/ o = 6 \/ o = 7) by lia.
      destruct Ho8 as [->|[->|[->|[->|[->|[->|[->| ->]]]]]]]; reflexivity.
    + repeat match goal with |- context [o =? ?k] => replace (o =? k) with false by lia end. reflexivity.
  - intros H x _. cbn [write].
    destruct (rd 1 m ip) as [|p|p]; try discriminate H.
    assert (Hm : x_mem c = m); [|rewrite Hm; reflexivity].
    revert H N. generalize (rd 1 m (ip + 1)). intros z.
    repeat match goal with |- context [match ?q with xI _ => _ | xO _ => _ | xH => _ end] => is_var q; destruct q; try discriminate end;
      try (destruct (z =? 0x25)); intros H; try discriminate H; try congruence;
      intros N; try (exfalso; apply N; reflexivity);
      match type of H with Some ?a = Some ?b => assert (Hc : a = b) by congruence; rewrite <- Hc; reflexivity end.
Qed.

Lemma x86_local : local x86_machine.
Proof.
  intros m m' [regs ip] H. cbn [exec looks x86_machine] in *. unfold x86_exec1, x86_looks, x86_writes, x86_step in *. cbn [fst snd x_reg x_rip x_mem] in *.
  assert (E1 : rd 1 m' ip = rd 1 m ip) by (apply rd_ext; intros x Hx; apply H; left; exact Hx). rewrite E1.
  destruct (Z.eq_dec (rd 1 m ip) 0xe9) as [E|N9].
  { rewrite E. rewrite (rd_ext 4 m m' (ip + 1)); [reflexivity|]. intros x Hx. apply H. tauto. }
  destruct (Z.eq_dec (rd 1 m ip) 0xe8) as [E|N8].
  { rewrite E. rewrite (rd_ext 4 m m' (ip + 1)); [reflexivity|]. intros x Hx. apply H. tauto. }
  destruct (Z.eq_dec (rd 1 m ip) 0xeb) as [E|Nb].
  { rewrite E. rewrite (rd_ext 1 m m' (ip + 1)); [reflexivity|]. intros x Hx. apply H. tauto. }
  destruct (Z.eq_dec (rd 1 m ip) 0xc3) as [E|N3].
  { rewrite E. rewrite (rd_ext 8 m m' (regs rsp)); [reflexivity|]. intros x Hx. apply H. tauto. }
  destruct (Z.eq_dec (rd 1 m ip) 0xff) as [E|Nf].
  { rewrite E. assert (E2 : rd 1 m' (ip + 1) = rd 1 m (ip + 1)) by (apply rd_ext; intros x Hx; apply H; tauto). rewrite E2.
    destruct (Z.eqb_spec (rd 1 m (ip + 1)) 0x25) as [E25|]; [|reflexivity].
    rewrite (rd_ext 4 m m' (ip + 2)) by (intros x Hx; apply H; tauto).
    rewrite (rd_ext 8 m m' (ip + 6 + sx 32 (rd 4 m (ip + 2)))) by (intros x Hx; apply H; tauto). reflexivity. }
  clear E1. generalize dependent (rd 1 m ip). intros z H N9 N8 Nb N3 Nf. clear H.
  destruct z as [|p|p]; try reflexivity.
  repeat match goal with |- context [match ?q with xI _ => _ | xO _ => _ | xH => _ end] => is_var q; destruct q; try reflexivity end;
    exfalso; first [apply N9; reflexivity|apply N8; reflexivity|apply Nb; reflexivity|apply N3; reflexivity|apply Nf; reflexivity].
Qed.

(** The first word of the jump entries (C20, C21). *)
Definition x86_jmp := 0x90900000000225ff.
Definition a64_jmp := 0xd61f022058000051.

Lemma jump_code m f j t a : 0 <= f -> f + 16 <= 2 ^ 64 -> jump_entry a t = le_bytes 8 j ++ le_bytes 8 t -> jump_at m f j t -> code_at m f (jump_entry a t).
Proof.
  intros H1 H2 E J i b Hb. rewrite E in Hb. assert (Hi : (i < 16)%nat) by (assert (X : nth_error (le_bytes 8 j ++ le_bytes 8 t) i <> None) by congruence; apply nth_error_Some in X; rewrite app_length, !le_bytes_length in X; lia).
  unfold addr64. rewrite Z.mod_small by lia. rewrite J by lia. rewrite Nat2Z.id. apply nth_error_nth. exact Hb.
Qed.

Definition x86_mid (n : nat) (s : xs) (t : Z) : xs := match n with O => s | _ => (fst s, t) end.
Lemma x86_enters : enters x86_machine x86_jmp 1 x86_mid.
Proof.
  constructor; [reflexivity|reflexivity|lia|]. intros n m [regs ip] t Hn Ht H1 H2 J. assert (n = O) by lia. subst n. cbn [x86_machine pc exec x86_mid snd fst] in *.
  unfold x86_exec1. cbn [fst snd].
  assert (C : code_at m ip (jump_entry X86_64 t)) by (apply (jump_code m ip x86_jmp t X86_64); auto). rewrite (x86_entry_exec m ip t regs Ht C). cbn [x_reg x_rip].
  unfold x86_writes. cbn [fst snd]. pose proof (C O 0xff) as C0. cbn [rd]. replace (m (addr64 ip)) with 0xff; [reflexivity|].
  symmetry. replace (addr64 ip) with (addr64 (ip + Z.of_nat 0)) by (f_equal; lia). apply C0. reflexivity.
Qed.

(** ** AArch64: registers and program counter.  Control passed by the jump entry leaves the
    address in x17. *)
Definition a64_exec1 (m : mem) (s : xs) : option (xs * list (Z * Z)) :=
  match a64_step (ACpu (fst s) (snd s) m) with
  | Some c => Some ((a_reg c, a_pc c), [])
  | None => None
  end.
Definition a64_looks (m : mem) (s : xs) (x : Z) : Prop :=
  let w := rd 4 m (snd s) in
  span (snd s) 4 x \/ (bits w 24 8 = 0x58 /\ span (snd s + 4 * sx 19 (bits w 5 19)) 8 x).
Definition a64_machine : machine := Machine xs snd (fun s t => (set_reg (fst s) 17 t, t)) a64_exec1 a64_looks.

Lemma a64_no_writes s c : a64_step s = Some c -> a_mem c = a_mem s.
Proof.
  unfold a64_step. intros H. repeat match type of H with context [if ?b then _ else _] => destruct b; try discriminate H end;
    match type of H with Some ?a = Some ?b => assert (Hc : a = b) by congruence; rewrite <- Hc; reflexivity end.
Qed.

Lemma a64_local : local a64_machine.
Proof.
  intros m m' [regs ip] H. cbn [exec looks a64_machine] in *. unfold a64_exec1, a64_looks, a64_step in *. cbn [fst snd a_reg a_pc a_mem] in *.
  assert (E1 : rd 4 m' ip = rd 4 m ip) by (apply rd_ext; intros x Hx; apply H; left; exact Hx). rewrite E1.
  destruct (Z.eqb_spec (bits (rd 4 m ip) 24 8) 0x58) as [E|N].
  - rewrite (rd_ext 8 m m' (ip + 4 * sx 19 (bits (rd 4 m ip) 5 19))) by (intros x Hx; apply H; tauto).
    destruct (bits (rd 4 m ip) 0 5 =? 31); reflexivity.
  - repeat match goal with |- context [if ?b then _ else _] => destruct b; try reflexivity end.
Qed.

Definition a64_mid (n : nat) (s : xs) (t : Z) : xs :=
  match n with O => s | 1%nat => (set_reg (fst s) 17 t, addr64 (snd s + 4)) | _ => (set_reg (fst s) 17 t, t) end.
Lemma a64_enters : enters a64_machine a64_jmp 2 a64_mid.
Proof.
  constructor; [reflexivity|reflexivity|lia|]. intros n m [regs ip] t Hn Ht H1 H2 J. cbn [a64_machine pc exec snd fst] in *.
  assert (C : code_at m ip (jump_entry AARCH64 t)) by (apply (jump_code m ip a64_jmp t AARCH64); auto).
  assert (St : a64_step (ACpu regs ip m) = Some (ACpu (set_reg regs 17 t) (addr64 (ip + 4)) m)).
  { unfold jump_entry, jmp_table_entry, arch_jmp_table_jmp in C. pose proof C as H.
    assert (Hd8 : rd 8 m (ip + 8) = t).
    { apply code_at_app in H. rewrite le_bytes_length in H. change (Z.of_nat 8) with 8 in H. apply code_at_nil_r in H. apply rd_le_bytes in H. rewrite H.
      apply Z.mod_small. exact Ht. }
    change (le_bytes 8 0xd61f022058000051) with (le_bytes 4 0x58000051 ++ le_bytes 4 0xd61f0220) in H. rewrite <- app_assoc in H.
    pose proof (rd_le_bytes _ _ _ _ _ H) as W1. change (0x58000051 mod _) with 0x58000051 in W1.
    unfold a64_step. cbn [a_mem a_pc a_reg]. rewrite W1. change (bits 0x58000051 24 8 =? 0x58) with true. cbv match.
    change (bits 0x58000051 0 5) with 17. change (17 =? 31) with false. cbv match. change (4 * sx 19 (bits 0x58000051 5 19)) with 8. rewrite Hd8. reflexivity. }
  pose proof (a64_entry_exec m ip t regs Ht C) as S2. cbn [a64_steps] in S2. rewrite St in S2.
  assert (n = 0 \/ n = 1)%nat as [-> | ->] by lia; unfold a64_exec1; cbn [a64_mid fst snd].
  - rewrite St. reflexivity.
  - destruct (a64_step (ACpu (set_reg regs 17 t) (addr64 (ip + 4)) m)) as [c|]; [|discriminate S2].
    assert (Hc : c = ACpu (set_reg regs 17 t) t m) by congruence. rewrite Hc. reflexivity.
Qed.
