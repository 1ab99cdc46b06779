(** Small modules: the property theorems C57-C60 and C93-C95. *)
From Coq Require Import ZArith String List Bool Lia ZifyBool.
From Verif Require Import Word Str SymProofs ListModel ListSpec ListProps ScModel MiscModel MiscSpec MiscProofs.
Import ListNotations.
Open Scope Z_scope.

(** ** C57 *)

(** For any contents of the file. *)
Theorem C57_auxv_any rd f l junk fuel : vector_file f l -> reads_all rd (16 * Z.of_nat (List.length l)) -> (List.length l < fuel)%nat ->
  exists ret p, load_task_auxv fuel None rd f junk = Some (ret, p) /\
    last_given l 3 (av_phdr p) /\ last_given l 4 (av_phent p) /\ last_given l 5 (av_phnum p) /\
    last_given l 7 (av_interp p) /\ last_given l 9 (av_entry p) /\
    ((ret = 0 /\ av_phdr p <> 0 /\ av_phent p <> 0 /\ av_phnum p <> 0 /\ av_interp p <> 0 /\ av_entry p <> 0) \/
     (ret = - ENOENT /\ (av_phdr p = 0 \/ av_phent p = 0 \/ av_phnum p = 0 \/ av_interp p = 0 \/ av_entry p = 0))).
Proof. exact (auxv_ok rd f l junk fuel). Qed.
Print Assumptions C57_auxv_any.

Lemma last_given_end l t v x : t <> 0 -> last_given (l ++ [(0, x)]) t v -> last_given l t v.
Proof.
  intros Ht [(L & R & E & H)|[H ->]].
  - left. destruct R as [|r R] using rev_ind.
    + apply app_inj_tail in E. destruct E as [_ E]. congruence.
    + clear IHR. rewrite app_comm_cons, app_assoc in E. apply app_inj_tail in E. destruct E as [-> _]. exists L, R. split; auto.
      intros v' Q. apply (H v'). apply in_or_app. auto.
  - right. split; auto. intros v' Q. apply (H v'). apply in_or_app. auto.
Qed.

(** For the vectors the kernel provides: entries, then a terminator. *)
Theorem C57_auxv rd f l x junk fuel : vector_file f (l ++ [(0, x)]) -> reads_all rd (16 * (Z.of_nat (List.length l) + 1)) ->
  (List.length l + 1 < fuel)%nat ->
  exists ret p, load_task_auxv fuel None rd f junk = Some (ret, p) /\
    last_given l 3 (av_phdr p) /\ last_given l 4 (av_phent p) /\ last_given l 5 (av_phnum p) /\
    last_given l 7 (av_interp p) /\ last_given l 9 (av_entry p) /\
    ((ret = 0 /\ forall v, In v [av_phdr p; av_phent p; av_phnum p; av_interp p; av_entry p] -> v <> 0) \/
     (ret = - ENOENT /\ In 0 [av_phdr p; av_phent p; av_phnum p; av_interp p; av_entry p])).
Proof.
  intros Hf Hr Hl. assert (E : Z.of_nat (List.length (l ++ [(0, x)])) = Z.of_nat (List.length l) + 1) by (rewrite app_length; cbn [List.length]; lia).
  destruct (auxv_ok rd f (l ++ [(0, x)]) junk fuel Hf) as (ret & p & A & B1 & B2 & B3 & B4 & B5 & B).
  { rewrite E. exact Hr. } { rewrite app_length. exact Hl. }
  exists ret, p. split; [exact A|].
  split; [revert B1; apply last_given_end; lia|]. split; [revert B2; apply last_given_end; lia|].
  split; [revert B3; apply last_given_end; lia|]. split; [revert B4; apply last_given_end; lia|].
  split; [revert B5; apply last_given_end; lia|].
  destruct B as [(C & D1 & D2 & D3 & D4 & D5)|[C D]].
  - left. split; auto. intros v Hv. cbn [In] in Hv. intuition (subst; auto).
  - right. split; auto. cbn [In]. intuition auto.
Qed.
Print Assumptions C57_auxv.

Definition ex_vec : list (Z * Z) := [(6, 4096); (3, 64); (4, 56); (5, 13); (7, 4096); (9, 65536)].
Definition words_file (ws : list Z) : Word.mem := fun a =>
  if a <? 0 then 0 else (nth (Z.to_nat (a / 8)) ws 0 / 2 ^ (8 * (a mod 8))) mod 256.
Definition ex_file : Word.mem := words_file [6; 4096; 3; 64; 4; 56; 5; 13; 7; 4096; 9; 65536; 0; 0].
Definition ex_rd (size : Z) (i : nat) (off : Z) : Z := Z.min 16 (size - off).
Example C57_auxv_ex : vector_file ex_file (ex_vec ++ [(0, 0)]) /\ reads_all (ex_rd 112) (16 * (Z.of_nat (List.length ex_vec) + 1)) /\
  load_task_auxv 10 None (ex_rd 112) ex_file (3, 5) = Some (0, Auxv 64 56 13 4096 65536) /\
  load_task_auxv 10 None (ex_rd 48) ex_file (3, 5) = Some (- ENOENT, Auxv 64 56 0 0 0).
Proof.
  split.
  { intros k t v H. do 7 (destruct k as [|k]; [injection H as <- <-; vm_compute; split; reflexivity|]). destruct k; discriminate. }
  split; [intros i off _; reflexivity|]. split; reflexivity.
Qed.

(** ** C93: a statically linked program has no interpreter, its AT_BASE is 0. *)
Theorem C93_static_refuted : exists f l junk, vector_file f (l ++ [(0, 0)]) /\
  (forall t, In t [3; 4; 5; 9] -> exists v, In (t, v) l /\ v <> 0) /\ In (7, 0) l /\
  exists p, load_task_auxv 10 None (ex_rd (16 * (Z.of_nat (List.length l) + 1))) f junk = Some (- ENOENT, p).
Proof.
  exists (words_file [3; 64; 4; 56; 5; 10; 7; 0; 9; 4198400; 0; 0]), [(3, 64); (4, 56); (5, 10); (7, 0); (9, 4198400)], (0, 0).
  split.
  { intros k t v H. do 6 (destruct k as [|k]; [injection H as <- <-; vm_compute; split; reflexivity|]). destruct k; discriminate. }
  split.
  { intros t Ht. cbn [In] in Ht. decompose [or] Ht; subst; try contradiction; eexists; (split; [cbn [In]; eauto 8|discriminate]). }
  split; [cbn [In]; auto|]. eexists. vm_compute. reflexivity.
Qed.
Print Assumptions C93_static_refuted.

(** Programs with an interpreter are accepted. *)
Theorem C93_dynamic_partial rd f l x junk fuel : vector_file f (l ++ [(0, x)]) -> reads_all rd (16 * (Z.of_nat (List.length l) + 1)) ->
  (List.length l + 1 < fuel)%nat ->
  (forall t, In t [3; 4; 5; 7; 9] -> (exists v, In (t, v) l) /\ forall v, In (t, v) l -> v <> 0) ->
  exists p, load_task_auxv fuel None rd f junk = Some (0, p).
Proof.
  intros Hf Hr Hl Hall. destruct (C57_auxv rd f l x junk fuel Hf Hr Hl) as (ret & p & A & B1 & B2 & B3 & B4 & B5 & B).
  assert (G : forall t v, In t [3; 4; 5; 7; 9] -> last_given l t v -> v <> 0).
  { intros t v Ht. destruct (Hall t Ht) as ((v0 & Hv0) & Hv). intros [(L & R & E & _)|[H _]].
    - apply Hv. rewrite E. apply in_or_app. right. left. auto.
    - exfalso. eapply H; eauto. }
  destruct B as [[-> _]|[_ B]]; [eauto|]. exfalso. cbn [In] in B.
  decompose [or] B; try contradiction;
    [eapply (G 3 (av_phdr p))|eapply (G 4 (av_phent p))|eapply (G 5 (av_phnum p))|eapply (G 7 (av_interp p))|eapply (G 9 (av_entry p))]; cbn [In]; auto 8.
Qed.
Print Assumptions C93_dynamic_partial.
Example C93_dynamic_partial_ex : forall t, In t [3; 4; 5; 7; 9] -> (exists v, In (t, v) ex_vec) /\ forall v, In (t, v) ex_vec -> v <> 0.
Proof.
  intros t Ht. cbn [In] in Ht. decompose [or] Ht; subst; try contradiction;
    (split; [eexists; unfold ex_vec; cbn [In]; eauto 10|]); intros v Hv; unfold ex_vec in Hv; cbn [In] in Hv; intuition congruence.
Qed.

(** ** C94 *)
Theorem C94_terminates_refuted : exists rd, forall fuel f junk, load_task_auxv fuel None rd f junk = None.
Proof. exists (fun _ _ => -1). intros. unfold load_task_auxv. rewrite auxv_stuck. reflexivity. Qed.
Print Assumptions C94_terminates_refuted.

Theorem C94_terminates_partial rd f len n junk : reads_all (fun i => rd (n + i)%nat) (16 * Z.of_nat len) ->
  (forall i off, 0 <= off <= 16 * Z.of_nat len -> rd i off = -1 \/ rd i off = Z.min 16 (16 * Z.of_nat len - off)) ->
  exists fuel r, load_task_auxv fuel None rd f junk = Some r.
Proof.
  intros H1 H2. exists (n + len + 1)%nat.
  destruct (auxv_term rd f len n H1 H2 (n + len + 1)%nat O O junk (Auxv 0 0 0 0 0) ltac:(lia) ltac:(lia)) as (q & E).
  unfold load_task_auxv. change (16 * Z.of_nat 0) with 0 in E. rewrite E.
  repeat match goal with |- context [if ?c then _ else _] => destruct c; [eauto|] end. eauto.
Qed.
Print Assumptions C94_terminates_partial.
Example C94_terminates_partial_ex :
  let rd := fun i off => if Nat.ltb i 3 then -1 else ex_rd 112 i off in
  reads_all (fun i => rd (3 + i)%nat) (16 * Z.of_nat 7) /\ load_task_auxv 12 None rd ex_file (0, 0) = Some (0, Auxv 64 56 13 4096 65536).
Proof. split; [intros i off _; reflexivity|reflexivity]. Qed.

(** ** C58 *)
Theorem C58_callbacks c head ops fuel : head <> 0 -> ring (c_heap c) head [] -> NoDup (allocated ops) ->
  (forall a, In a (allocated ops) -> a <> 0 /\ live (c_heap c) a = false) -> (List.length ops < fuel)%nat ->
  exists c', insert_all c head ops = Some (map insert_result ops, c') /\
    callback_launch_chain fuel c' head = Some (registered ops) /\
    exists c'', destroy_callback_chain fuel c' head = Some (0, allocated ops, c'') /\
      callback_launch_chain fuel c'' head = Some [] /\
      (forall x, live (c_heap c'') x = true -> live (c_heap c') x = true /\ ~ In x (allocated ops)).
Proof.
  intros Hh R N F Hl. destruct (insert_all_ok head ops Hh c [] R N F) as (c' & E & R' & M). cbn [app map] in R', M.
  assert (HL : (List.length (allocated ops) <= List.length ops)%nat).
  { clear. induction ops as [|[[cb arg] new] ops IH]; auto. cbn [allocated List.length]. destruct (cb =? 0); [lia|]. destruct new; cbn [List.length]; lia. }
  exists c'. split; auto. split. { rewrite <- M. apply launch_ok; auto. lia. }
  destruct (C06_free_all (c_heap c') head (allocated ops) fuel R' ltac:(lia)) as (h' & F1 & F2 & F3 & _).
  unfold destroy_callback_chain. rewrite F1. eexists. split; [reflexivity|]. cbn [snd fst c_heap]. split.
  - rewrite launch_ok with (l := []); auto. cbn [List.length]. lia.
  - intros x. rewrite F3. destruct (in_dec Z.eq_dec x (allocated ops)); [discriminate|auto].
Qed.
Print Assumptions C58_callbacks.

Definition ex_chain : chain := Ch (Lh (fun x => x =? 8) (fun _ => 8) (fun _ => 8)) (fun _ => 0) (fun _ => 0).
Example C58_callbacks_ex :
  let ops := [(101, 1, Some 16); (0, 2, Some 24); (102, 3, None); (103, 4, Some 32); (101, 5, Some 48)] in
  ring (c_heap ex_chain) 8 [] /\ NoDup (allocated ops) /\ registered ops = [(101, 1); (103, 4); (101, 5)] /\
  match insert_all ex_chain 8 ops with
  | Some (rs, c) => rs = [0; - ENOENT; - ENOMEM; 0; 0] /\ callback_launch_chain 9 c 8 = Some [(101, 1); (103, 4); (101, 5)]
  | None => False
  end.
Proof.
  split. { split; [split; reflexivity|]. split; [constructor; [intros []|constructor]|]. repeat constructor; discriminate. }
  split. { cbn [allocated Z.eqb]. repeat constructor; cbn [In]; intuition discriminate. }
  split; [reflexivity|]. vm_compute. split; reflexivity.
Qed.

(** ** C59 *)
Theorem C59_names s v : (str2loglevel (Some s) = v /\ 0 <= v) <-> exists n, In (n, v) level_names /\ same_name s (str n).
Proof.
  split.
  - intros [H Hv]. cbv beta iota zeta delta [str2loglevel] in H.
    repeat match type of H with
    | (if ?a || ?b then _ else _) = _ => let E := fresh "E" in let F := fresh "F" in destruct a eqn:E; [|destruct b eqn:F]; cbn [orb] in H
    | (if ?a then _ else _) = _ => let E := fresh "E" in destruct a eqn:E
    end;
    try (match goal with E : strcasecmp_eq s (str ?n) = true |- _ => exists n; subst v; split; [unfold level_names; cbn [In]; auto 20|apply strcasecmp_ok; exact E] end).
    unfold EINVAL in H. lia.
  - intros (n & Hin & Hs). apply strcasecmp_ok in Hs. unfold strcasecmp_eq in Hs. apply str_eqb_eq in Hs.
    unfold str2loglevel, strcasecmp_eq. cbv beta zeta. rewrite Hs.
    unfold level_names in Hin. cbn [In] in Hin.
    decompose [or] Hin; clear Hin; try contradiction; match goal with E : (_, _) = (_, _) |- _ => injection E as <- <- end; split; (reflexivity || lia).
Qed.
Print Assumptions C59_names.

Theorem C59_unknown s : (forall n v, In (n, v) level_names -> ~ same_name s (str n)) <-> str2loglevel (Some s) = - EINVAL.
Proof.
  split.
  - intros H. assert (Q : str2loglevel (Some s) < 0).
    { destruct (Z_lt_ge_dec (str2loglevel (Some s)) 0); auto. exfalso.
      destruct (proj1 (C59_names s (str2loglevel (Some s)))) as (n & A & B). { split; [auto|lia]. } eapply H; eauto. }
    revert Q. cbv beta iota zeta delta [str2loglevel].
    repeat match goal with |- context [if ?a then _ else _] => destruct a; [intros; lia|] end. auto.
  - intros H n v Hin Hs. destruct (proj2 (C59_names s v)) as [A B]. { eauto. } unfold EINVAL in H. lia.
Qed.
Print Assumptions C59_unknown.

(** What is printed and what syslog passes on are exactly the messages at most as detailed as the level in force. *)
Theorem C59_filter l : levels_ok l -> log_program l = Some (visible 3 (said_of l), visible 3 (said_of l)).
Proof.
  intros H. unfold log_program, lstate0. destruct (init_inv 3 false 255 ltac:(lia)) as (s & E & I & L). rewrite E.
  rewrite (lrun_ok l s I H), L. reflexivity.
Qed.
Print Assumptions C59_filter.

Example C59_ex : str2loglevel (Some (str "WaRn")) = 4 /\ same_name (str "WaRn") (str "warn") /\ str2loglevel (Some (str "warned")) = - EINVAL /\
  let l := [Log 3 true (str "a"); Log 4 false (str "b"); SetLevel 6; SetPrefix true; Log 6 true (str "c"); Log 7 true (str "d"); SetLevel 0; Log 1 false (str "e")] in
  levels_ok l /\ log_program l = Some ([str "a"; str "c"], [str "a"; str "c"]).
Proof.
  split; [reflexivity|]. split. { apply strcasecmp_ok. reflexivity. } split; [reflexivity|].
  split; [repeat constructor; lia|reflexivity].
Qed.

(** ** C95 *)

(** The documented number 0 is refused, an undocumented one is accepted. *)
Theorem C95_option_refuted : log_level_option (str "0") = None /\
  (exists s v, log_level_option s = Some v /\ ~ (0 <= v <= 7)) /\
  (exists s, log_level_option s = Some 7 /\ s <> str "7" /\ forall n v, In (n, v) level_names -> ~ same_name s (str n)).
Proof.
  split; [reflexivity|]. split. { exists (str "-5"), (-5). split; [reflexivity|lia]. }
  exists (str "7up"). split; [reflexivity|]. split; [discriminate|]. apply C59_unknown. reflexivity.
Qed.
Print Assumptions C95_option_refuted.

(** The other documented numbers and all names are understood. *)
Theorem C95_option_partial :
  (forall k, 1 <= k <= 7 -> log_level_option [48 + k] = Some k) /\
  (forall s n v, In (n, v) level_names -> same_name s (str n) -> log_level_option s = Some v).
Proof.
  split.
  - intros k Hk. assert (H : k = 1 \/ k = 2 \/ k = 3 \/ k = 4 \/ k = 5 \/ k = 6 \/ k = 7) by lia.
    decompose [or] H; subst; reflexivity.
  - intros s n v Hin Hs. destruct (proj2 (C59_names s v)) as [A B]; [eauto|].
    assert (Z0 : atoi s = 0).
    { unfold level_names in Hin. cbn [In] in Hin.
      assert (Hc : exists c n', str n = c :: n' /\ 97 <= c <= 122) by (decompose [or] Hin; try contradiction; match goal with E : (_, _) = (_, _) |- _ => injection E as <- <- end; eexists; eexists; (split; [reflexivity|vm_compute; split; discriminate])).
      destruct Hc as (c & n' & E & Hc). rewrite E in Hs. inversion Hs as [|x y s' t' H1 H2]; subst.
      assert (Hx : 65 <= x <= 122) by (inversion H1; subst; lia).
      unfold atoi. cbn [skip_space]. unfold is_space. replace ((x =? 32) || ((9 <=? x) && (x <=? 13))) with false by lia.
      assert (M : match x :: s' with 45 :: r => (true, r) | 43 :: r => (false, r) | _ => (false, x :: s') end = (false, x :: s')).
      { destruct (Z.eq_dec x 45); [lia|]. destruct (Z.eq_dec x 43); [lia|].
        destruct x as [|p|p]; auto. do 7 (destruct p as [p|p|]; auto; try lia). }
      rewrite M. cbn [digits_val]. unfold is_digit. replace ((48 <=? x) && (x <=? 57)) with false by lia. reflexivity. }
    unfold log_level_option. rewrite Z0, Z.eqb_refl, A. destruct (Z.ltb_spec v 0); [lia|auto].
Qed.
Print Assumptions C95_option_partial.

(** ** C60 *)

(** A failed read counts as success: the code is overwritten without having been compared. *)
Theorem C60_validated_refuted : exists e w pc old new val junk w',
  ~ holds4 (t_mem (w_t w)) pc old /\ ftrace_modify_code e w pc old new true val junk = (0, w') /\
  holds4 (t_mem (w_t w')) pc new /\ t_mem (w_t w') pc <> t_mem (w_t w) pc.
Proof.
  set (e := Env (fun _ => None) (fun _ => None) (fun _ _ _ => None) (fun _ _ _ => Some 4) (fun _ => None) (fun _ _ _ _ => WFail) (fun _ => None) (fun _ _ _ => WFail) (fun _ => None) (fun _ => 0)).
  exists e, (W (Tg (fun _ => 0) (fun _ => 0) true) O []), 4096, 3573751839, 2516582401, (word4 3573751839), 0. eexists.
  split. { unfold holds4. cbn [t_mem w_t]. lia. } split; [reflexivity|]. split; [reflexivity|]. vm_compute. discriminate.
Qed.
Print Assumptions C60_validated_refuted.

(** A failed write is reported as success. *)
Theorem C60_reported_refuted : exists e w pc old new val junk w',
  holds4 (t_mem (w_t w)) pc old /\ ftrace_modify_code e w pc old new true val junk = (0, w') /\ ~ holds4 (t_mem (w_t w')) pc new.
Proof.
  set (e := Env (fun _ => None) (fun _ => None) (fun _ _ _ => Some 4) (fun _ _ _ => None) (fun _ => None) (fun _ _ _ _ => WFail) (fun _ => None) (fun _ _ _ => WFail) (fun _ => None) (fun _ => 0)).
  exists e, (W (Tg (fun _ => 0) (fun _ => 0) true) O []), 4096, 0, 2516582401, (word4 7), 0. eexists.
  split. { reflexivity. } split; [reflexivity|]. unfold holds4. vm_compute. discriminate.
Qed.
Print Assumptions C60_reported_refuted.

(** Unaligned addresses are refused, whatever fails. *)
Theorem C60_unaligned e w pc old new validate val junk r w' : pc mod 4 <> 0 ->
  ftrace_modify_code e w pc old new validate val junk = (r, w') -> r < 0 /\ t_mem (w_t w') = t_mem (w_t w).
Proof.
  intros Ha. assert (Hw : forall w, aarch64_insn_write e w pc new = (- EINVAL, w)).
  { intros w0. unfold aarch64_insn_write. destruct (Z.eqb_spec (pc mod 4) 0); [contradiction|reflexivity]. }
  unfold ftrace_modify_code. destruct validate.
  - unfold aarch64_insn_read, memcpy_from_task. destruct (e_read e (w_n w) pc 4) as [k|];
      repeat match goal with |- context [if ?c then _ else _] => destruct c end; rewrite ?Hw; intros H; injection H as <- <-; split; (reflexivity || auto).
  - rewrite Hw. intros H; injection H as <- <-; split; reflexivity.
Qed.
Print Assumptions C60_unaligned.

(** Whatever fails, only the instruction at this address can change. *)
Theorem C60_only_there e w pc old new validate val junk r w' : (forall n a k, e_write e n a 4 = Some k -> k <= 4) ->
  ftrace_modify_code e w pc old new validate val junk = (r, w') ->
  forall a, ~ (pc <= a < pc + 4) -> t_mem (w_t w') a = t_mem (w_t w) a.
Proof.
  intros Hk H a Hx.
  assert (Hw : forall w0 r0 w1, aarch64_insn_write e w0 pc new = (r0, w1) -> t_mem (w_t w1) a = t_mem (w_t w0) a).
  { intros w0 r0 w1 E. destruct (Z.eq_dec (pc mod 4) 0) as [Ha|Ha].
    - destruct (write_mem e w0 pc new Ha) as (r2 & w2 & E2 & _ & _ & M). rewrite E2 in E. injection E as <- <-.
      destruct (e_write e (w_n w0) pc 4) as [k|] eqn:Ek.
      + destruct M as [_ M]. rewrite M. pose proof (Hk _ _ _ Ek). replace ((pc <=? a) && (a <? pc + k)) with false by lia. auto.
      + destruct M as [_ M]. rewrite M. auto.
    - unfold aarch64_insn_write in E. destruct (Z.eqb_spec (pc mod 4) 0); [contradiction|]. injection E as <- <-. auto. }
  unfold ftrace_modify_code in H. destruct validate.
  - unfold aarch64_insn_read, memcpy_from_task in H. destruct (e_read e (w_n w) pc 4) as [k|]; cbv beta iota zeta in H;
    repeat match type of H with
    | (let '(_, _) := aarch64_insn_write ?a ?b ?c ?d in _) = _ => let E := fresh "E" in destruct (aarch64_insn_write a b c d) as [? ?] eqn:E; apply Hw in E; cbn [tick w_t] in E
    | (if ?c then _ else _) = _ => destruct c
    end; injection H as <- <-; auto.
  - destruct (aarch64_insn_write e w pc new) as [r0 w0] eqn:E. apply Hw in E. destruct (r0 =? 0); injection H as <- <-; auto.
Qed.
Print Assumptions C60_only_there.

(** If transfers are complete the claim holds. *)
Theorem C60_validated_partial e w pc old new validate val junk r w' :
  (forall n a, e_read e n a 4 = Some 4) -> (forall n a, e_write e n a 4 = Some 4) -> 0 <= new < 2 ^ 32 ->
  ftrace_modify_code e w pc old new validate val junk = (r, w') ->
  (r = 0 /\ pc mod 4 = 0 /\ (validate = true -> holds4 (t_mem (w_t w)) pc old) /\ holds4 (t_mem (w_t w')) pc new /\
     forall a, ~ (pc <= a < pc + 4) -> t_mem (w_t w') a = t_mem (w_t w) a) \/
  (r < 0 /\ t_mem (w_t w') = t_mem (w_t w) /\ (pc mod 4 <> 0 \/ (validate = true /\ ~ holds4 (t_mem (w_t w)) pc old /\ r = - EINVAL))).
Proof.
  intros Hr Hw Hn H. destruct (Z.eq_dec (pc mod 4) 0) as [Ha|Ha].
  2:{ right. destruct (C60_unaligned e w pc old new validate val junk r w' Ha H). auto. }
  assert (G : forall w0 r0 w1, t_mem (w_t w0) = t_mem (w_t w) -> aarch64_insn_write e w0 pc new = (r0, w1) ->
     r0 = 0 /\ holds4 (t_mem (w_t w1)) pc new /\ forall a, ~ (pc <= a < pc + 4) -> t_mem (w_t w1) a = t_mem (w_t w) a).
  { intros w0 r0 w1 Em E. destruct (write_mem e w0 pc new Ha) as (r2 & w2 & E2 & _ & _ & M). rewrite E2 in E. injection E as <- <-.
    rewrite Hw in M. destruct M as [M1 M]. split; [apply M1; lia|]. split.
    - unfold holds4. rewrite !M. replace ((pc <=? pc) && (pc <? pc + 4)) with true by lia. replace ((pc <=? pc + 1) && (pc + 1 <? pc + 4)) with true by lia.
      replace ((pc <=? pc + 2) && (pc + 2 <? pc + 4)) with true by lia. replace ((pc <=? pc + 3) && (pc + 3 <? pc + 4)) with true by lia.
      replace (pc - pc) with 0 by lia. replace (pc + 1 - pc) with 1 by lia. replace (pc + 2 - pc) with 2 by lia. replace (pc + 3 - pc) with 3 by lia.
      apply word4_val, Hn.
    - intros a Hx. rewrite M. replace ((pc <=? a) && (a <? pc + 4)) with false by lia. rewrite Em. auto. }
  unfold ftrace_modify_code in H. destruct validate.
  - unfold aarch64_insn_read, memcpy_from_task in H. rewrite Hr in H. cbn [Z.eqb negb] in H. rewrite ld4 in H.
    cbn [Z.leb Z.ltb Z.compare Z.add andb Pos.compare Pos.compare_cont Pos.add] in H. rewrite Z.add_0_r in H.
    match type of H with (if negb (?x =? old) then _ else _) = _ => destruct (Z.eqb_spec x old) as [E|E] end; cbn [negb] in H.
    + left. destruct (aarch64_insn_write e (tick w) pc new) as [r0 w0] eqn:Ew. destruct (G (tick w) r0 w0 eq_refl Ew) as (-> & A & B). injection H as <- <-.
      split; auto. 
    + right. injection H as <- <-. split; [reflexivity|]. split; [reflexivity|]. right. auto.
  - left. destruct (aarch64_insn_write e w pc new) as [r0 w0] eqn:Ew. destruct (G w r0 w0 eq_refl Ew) as (-> & A & B). injection H as <- <-.
    split; auto. split; auto. split; [discriminate|auto].
Qed.
Print Assumptions C60_validated_partial.

Example C60_validated_partial_ex :
  let e := Env (fun _ => None) (fun _ => None) (fun _ _ _ => Some 4) (fun _ _ _ => Some 4) (fun _ => None) (fun _ _ _ _ => WFail) (fun _ => None) (fun _ _ _ => WFail) (fun _ => None) (fun _ => 0) in
  let w := W (Tg (fun _ => 0) (fun a => word4 3573751839 (a - 4096)) true) O [] in
  fst (ftrace_modify_code e w 4096 3573751839 2516582401 true (word4 0) 0) = 0 /\
  holds4 (t_mem (w_t (snd (ftrace_modify_code e w 4096 3573751839 2516582401 true (word4 0) 0)))) 4096 2516582401 /\
  fst (ftrace_modify_code e w 4096 3573751838 2516582401 true (word4 0) 0) = - EINVAL /\
  fst (ftrace_modify_code e w 4098 3573751839 2516582401 false (word4 0) 0) = - EPERM.
Proof. vm_compute. repeat split; reflexivity. Qed.
