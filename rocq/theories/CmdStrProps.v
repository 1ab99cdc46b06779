(** Writing strings into the target, memcpy.c 108-113: C173. *)
From Coq Require Import ZArith String List Bool Lia.
From Verif Require Import Word WordLemmas Str ScModel ScSpec ScProofs ScProps CmdModel CmdSpec CmdProps.
Import ListNotations.
Open Scope Z_scope.

(** A C string: bytes other than NUL. *)
Definition c_string (s : list Z) : Prop := Forall (fun c => 0 < c < 256) s.

(** Memory has the string with its terminator at [a]. *)
Definition holds_string (m : mem) (a : Z) (s : list Z) : Prop :=
  (forall i, (i < List.length s)%nat -> m (a + Z.of_nat i) = nth i s 0) /\ m (a + Z.of_nat (List.length s)) = 0.

(** Every write is complete. *)
Definition writes (e : env) : Prop := forall n a s, e_write e n a s = Some s.

(** A target whose memory cannot be written. *)
Definition nowrite_env : env :=
  Env (fun _ => None) (fun _ => None) (fun _ _ s => Some s) (fun _ _ _ => None) (fun _ => None)
      (fun _ _ _ _ => WFail) (fun _ => None) (fun _ r m => WStopped SIGSTOP r m) (fun _ => None) (fun _ => 0xa5).

(** The write fails: the caller is given the same pointer as after a success, and the string
    is not in the target. *)
Theorem C173_write_string_refuted : exists e w dst s, c_string s /\
  ~ holds_string (t_mem (w_t (strcpy_to_task e w dst s))) dst s.
Proof.
  exists nowrite_env, ex_w, 0x5000, [65; 66]. split; [repeat constructor|]. intros [H _].
  specialize (H 0%nat ltac:(cbn; lia)). vm_compute in H. discriminate.
Qed.
Print Assumptions C173_write_string_refuted.

Lemma nth_str (s : list Z) i : (i < List.length s)%nat -> of_list (s ++ [0]) (Z.of_nat i) = nth i s 0.
Proof.
  intros H. unfold of_list. rewrite app_length, Nat2Z.id. cbn [List.length].
  destruct (Z.leb_spec 0 (Z.of_nat i)), (Z.ltb_spec (Z.of_nat i) (Z.of_nat (List.length s + 1))); try lia.
  cbn [andb]. apply app_nth1. exact H. Qed.
Lemma nth_nul (s : list Z) : of_list (s ++ [0]) (Z.of_nat (List.length s)) = 0.
Proof.
  unfold of_list. rewrite app_length, Nat2Z.id, app_nth2 by lia. destruct (_ && _); [|reflexivity]. rewrite Nat.sub_diag. reflexivity. Qed.

(** What does hold when the writes are complete: the string and its terminator are in the
    target, nothing else has changed, and reading it back gives the string if it is of at
    most 1024 bytes.  Missing (false): failing and short writes are not reported. *)
Theorem C173_write_string_partial : forall e w dst s, writes e -> c_string s -> 0 <= dst ->
  let w' := strcpy_to_task e w dst s in
  holds_string (t_mem (w_t w')) dst s /\
  (forall x, ~ dst <= x <= dst + Z.of_nat (List.length s) -> t_mem (w_t w') x = t_mem (w_t w) x) /\
  t_regs (w_t w') = t_regs (w_t w) /\ t_attached (w_t w') = t_attached (w_t w) /\
  (reads e -> dst + 1024 < 2 ^ 64 -> (List.length s <= 1024)%nat -> forall buf,
     holds_string (fst (strcpy_from_task e w' buf dst)) 0 s).
Proof.
  intros e w dst s We S D w'. unfold w', strcpy_to_task.
  destruct (memcpy_to_task e w dst (of_list (s ++ [0])) (Z.of_nat (List.length s) + 1)) as [r w1] eqn:E.
  cbn [snd]. destruct (write_mem _ _ _ _ _ _ _ E) as (O & I & R & A & _). unfold within in *.
  assert (H : holds_string (t_mem (w_t w1)) dst s).
  { split.
    - intros i Hi. rewrite I by (solve [lia|apply We]). replace (dst + Z.of_nat i - dst) with (Z.of_nat i) by lia. apply nth_str. exact Hi.
    - rewrite I by (solve [lia|apply We]). replace (dst + Z.of_nat (List.length s) - dst) with (Z.of_nat (List.length s)) by lia.
      apply nth_nul. }
  split; [exact H|]. split.
  { intros x Hx. apply O; [lia|]. intros k Hk. rewrite We in Hk. injection Hk as <-. lia. }
  split; [exact R|]. split; [exact A|]. intros Re B L buf.
  assert (T : string_at (t_mem (w_t w1)) dst (List.length s)).
  { destruct H as [H1 H2]. split; [exact H2|]. intros i Hi. rewrite H1 by exact Hi.
    unfold c_string in S. rewrite Forall_forall in S. specialize (S (nth i s 0) (nth_In s 0 Hi)). lia. }
  destruct (C104_read_string_partial e w1 buf dst _ Re D B T) as (_ & C & _). destruct (C L) as [C1 _].
  destruct H as [H1 H2]. split.
  - intros i Hi. change (0 + Z.of_nat i) with (Z.of_nat i). rewrite C1 by lia. apply H1. exact Hi.
  - change (0 + Z.of_nat (List.length s)) with (Z.of_nat (List.length s)). rewrite C1 by lia. exact H2.
Qed.
Print Assumptions C173_write_string_partial.

Example C173_ex : writes (ex_env 0) /\ reads (ex_env 0) /\ c_string [65; 66] /\
  t_mem (w_t ex_w) 0x5002 = 2 /\
  t_mem (w_t (strcpy_to_task (ex_env 0) ex_w 0x5000 [65; 66])) 0x5002 = 0 /\
  t_mem (w_t (strcpy_to_task (ex_env 0) ex_w 0x5000 [65; 66])) 0x5003 = 3.
Proof. repeat split; repeat constructor. Qed.
