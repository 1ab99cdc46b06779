(** C201, C202: the summary of a process. *)
From Coq Require Import ZArith String List Bool Lia ZifyBool ZifyNat Permutation.
From Verif Require EcModel PkModel VmaModel GrModel.
From Verif Require Import Word WordLemmas Str ScModel PaModel PaSpec PaHist PaEx PaCase.
Import ListNotations.
Open Scope Z_scope.

(** The lines of the summary of a process with [n] patches. *)
Definition line (label value : list Z) : list Z := label ++ value ++ repeat 32 (32 - List.length value) ++ [10].
Definition summary (comm exe : list Z) (pid : Z) (pie : bool) (n : nat) : list Z :=
  line (str "Command: ") comm ++ line (str "Exe:     ") exe ++ line (str "Pid:     ") (dec pid) ++ line (str "PIE:     ") (if pie then str "YES" else str "NO") ++
  match n with O => [] | _ => str "Patched: YES (num " ++ dec (Z.of_nat n) ++ str ")" ++ [10] end.

(** After any history of patches applied (also in vain) and removed, whoever opens the process
    next is shown the number of the patches in effect; and no line about patches if there are none. *)
Theorem C201_patched : forall K m0 es m vs e w vs' s w1 comm exe pid pie flag fd,
  steps K (m0, []) es (m, vs) -> Z.of_nat (List.length es) < 2 ^ 31 ->
  t_mem (w_t w) = m -> Forall (readable e) vs -> Permutation vs vs' -> open_session e w vs' = Some (s, w1) ->
  exists stk, stack_after es [] = Some stk /\ List.length stk = List.length vs /\
    GrModel.print_task false comm exe pid pie (s_max s) flag fd = summary comm exe pid pie (List.length stk).
Proof.
  intros K m0 es m vs e w vs' s w1 comm exe pid pie flag fd H Bd Em R P O.
  assert (Bd' : Z.of_nat (List.length (@nil (applied * Z * Z))) + Z.of_nat (List.length es) < 2 ^ 32 - 1) by (cbn [List.length]; lia).
  destruct (steps_inv K m0 _ _ _ [] H Bd' (inv_start K m0)) as (ps & I & E). cbn [map] in E.
  exists (map triple ps). split; [exact E|]. rewrite map_length. split.
  { destruct I as (Pv & _). apply Permutation_length in Pv. cbn [snd] in Pv. rewrite map_length in Pv. congruence. }
  destruct (open_inv K m0 m vs ps e w vs' s w1 I Em R P O) as (ps' & us & P1 & _ & Es & _ & _).
  assert (M : s_max s = Z.of_nat (List.length ps)) by (rewrite Es; apply (max_is K m0 ps ps'); [apply I|exact P1]).
  assert (Le : Z.of_nat (List.length ps) <= Z.of_nat (List.length es)).
  { assert (G : forall l st st', stack_after l st = Some st' -> (List.length st' <= List.length st + List.length l)%nat).
    { induction l as [|ev l IH]; intros st st' Q; cbn [stack_after] in Q; [injection Q as ->; lia|].
      destruct ev; cbn [List.length]; try (apply IH in Q; cbn [List.length] in Q; lia). destruct st as [|[[h0 v0] j0] st]; [discriminate|].
      destruct (_ =? _); [apply IH in Q; cbn [List.length] in *; lia|discriminate]. }
    apply G in E. rewrite map_length in E. cbn [List.length] in E. lia. }
  rewrite M. unfold GrModel.print_task, summary, line, EcModel.padr. rewrite <- !app_assoc, app_nil_r.
  do 15 (f_equal; []). destruct ps as [|q ps]; [reflexivity|]. cbn [List.length]. 
  destruct (Z.eqb_spec (Z.of_nat (S (List.length ps))) 0); [lia|]. replace (s32 (Z.of_nat (S (List.length ps)))) with (Z.of_nat (S (List.length ps))); [reflexivity|]. cbn [List.length] in Le. unfold s32. symmetry. apply sgn_id; lia.
Qed.
Print Assumptions C201_patched.

(** Two patches applied, a third one in vain: the next one who looks sees two. *)
Example C201_ex : steps K0 (t_mem (w_t pa_w), []) (firstn 4 ex_events) (m4, [v2; v1]) /\ t_mem (w_t (restart m4)) = m4 /\
  Forall (readable (c_e run3)) [v2; v1] /\ Permutation [v2; v1] [v1; v2] /\
  match open_session (c_e run3) (restart m4) [v1; v2] with Some (s, _) => s_max s = 2 | None => False end /\
  match stack_after (firstn 4 ex_events) [] with Some stk => List.length stk = 2%nat | None => False end.
Proof.
  split; [exact (steps_cons K0 _ _ _ _ _ ex_step1 (steps_cons K0 _ _ _ _ _ ex_step2 (steps_cons K0 _ _ _ _ _ ex_step3 (steps_cons K0 _ _ _ _ _ ex_step4 (steps_nil K0 _)))))|].
  split; [apply restart_mem|]. split; [apply (proj2 (proj2 (pa_quiet _ _ _)))|]. split; [exact perm_v|]. split; vm_compute; reflexivity.
Qed.

(** ** C202 *)

Import VmaModel PkModel GrModel.

(** The program of the process has the ELF header [h]: some mapping of its file starts with it,
    and no mapping of its file starts with another one. *)
Definition program (l : list (vma_type * option header)) (h : header) : Prop :=
  In (VMA_SELF, Some h) l /\ forall h', In (VMA_SELF, Some h') l -> h' = h.

(** ELF says: position independent executables are of type 3 (ET_DYN). *)
Theorem C202_pie_partial : forall l h, program l h -> (is_pie l = true <-> h_type h = 3).
Proof.
  intros l h [I U]. unfold is_pie.
  assert (G : forall l b, (forall h', In (VMA_SELF, Some h') l -> h' = h) -> (In (VMA_SELF, Some h) l \/ b = (h_type h =? ET_DYN)) ->
    fold_left (fun b '(t, h) => match t, h with VMA_SELF, Some h => h_type h =? ET_DYN | _, _ => b end) l b = (h_type h =? ET_DYN)).
  { clear. induction l as [|[t o] l IH]; intros b U H; cbn [fold_left]; [destruct H as [[]|H]; exact H|].
    apply IH; [intros h' H'; apply U; right; exact H'|]. destruct H as [[H|H]|H]; [|auto|].
    - injection H as -> ->. auto.
    - right. destruct t, o as [h'|]; try exact H. rewrite (U h' (or_introl eq_refl)). reflexivity. }
  rewrite (G l false U (or_introl I)). apply Z.eqb_eq.
Qed.
Print Assumptions C202_pie_partial.

Example C202_ex : program [(VMA_SELF, Some (Hd true 3 13)); (VMA_SELF, None); (VMA_LIBC, Some (Hd true 3 14))] (Hd true 3 13) /\
  is_pie [(VMA_SELF, Some (Hd true 3 13)); (VMA_SELF, None); (VMA_LIBC, Some (Hd true 3 14))] = true.
Proof. split; [|reflexivity]. split; [left; reflexivity|]. intros h' [H|[H|[H|[]]]]; congruence. Qed.

(** False if a later mapping of the program file happens to start with another ELF header (a
    program that carries a library in a segment of its own): a program at a fixed address is
    said to be position independent.  The first mapping is that of the begin of the file. *)
Theorem C202_pie_refuted : exists l h r, l = (VMA_SELF, Some h) :: r /\ h_ok h = true /\ h_type h = 2 /\ is_pie l = true.
Proof. exists [(VMA_SELF, Some (Hd true 2 11)); (VMA_SELF, Some (Hd true 3 9))], (Hd true 2 11), [(VMA_SELF, Some (Hd true 3 9))]. repeat split. Qed.
Print Assumptions C202_pie_refuted.
