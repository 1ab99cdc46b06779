(** The patched target runs: the properties. *)
From Coq Require Import ZArith String List Bool Lia ZifyBool ZifyNat Permutation.
From Verif Require Import Word WordLemmas Str ElfDefs TextModel LdModel LdSpec LdProofs LdSyms LdMore LdEx LdProps X86RelocModel ScModel ScSpec ScProofs ScProps PaModel PaSpec PaRead PaProofs PaMore PaKick PaLoad PaSess PaHist PaX86 PaEx PaFin PaThm PaCase.
From Verif Require InsnModel InsnSpec.
From Verif Require Import RnSpec RnProofs RnMach RnHist.
Import ListNotations.
Open Scope Z_scope.

(** ** C168: the patched process behaves like the program with its functions replaced *)

(** After any history of patches applied and removed, on any machine on which the jump
    entry passes control (C20, C21): the process behaves like the program, with its original
    code, in which a thread that comes to a replaced function goes on at the address that
    the newest patch for it records.  Conditions: the replaced functions do not overlap, and
    the program, so replaced, neither executes nor reads nor writes the first 16 bytes of
    replaced functions, except by coming to the function.  Missing (false): functions
    shorter than 16 bytes. *)
Definition recorded_by (m : mem) (stk : list (Z * Z * Z)) (R : list (Z * Z)) : Prop :=
  Forall2 (fun p r => fst r = snd (fst p) /\ recorded m (fst (fst p)) (fst r) (snd r)) stk R.

Definition original (m0 m : mem) (R : list (Z * Z)) (m' : mem) : Prop :=
  (forall x, covered R x -> m' x = m0 x) /\ (forall x, ~ covered R x -> m' x = m x).

Lemma in_range m stk R : byte_mem m -> recorded_by m stk R -> (forall f t, In (f, t) R -> f + 16 <= 2 ^ 64) ->
  forall f t, In (f, t) R -> 0 <= f /\ f + 16 <= 2 ^ 64 /\ 0 <= t < 2 ^ 64.
Proof.
  intros Hb H Hf f t Hin. split; [|split; [apply (Hf f t Hin)|]].
  - revert Hin. induction H as [|p r stk R (_ & info & _ & E & _) H IH]; [intros []|]. intros [->|Hin]; [|apply IH; auto; intros f1 t1 H1; apply (Hf f1 t1); right; exact H1].
    cbn [fst snd] in *. rewrite <- E. apply (ld_range 8); auto.
  - revert Hin. induction H as [|p r stk R (_ & info & _ & _ & E) H IH]; [intros []|]. intros [->|Hin]; [|apply IH; auto; intros f1 t1 H1; apply (Hf f1 t1); right; exact H1].
    cbn [fst snd] in *. rewrite <- E. apply (ld_range 8); auto.
Qed.

Lemma covered_K K m0 ps x : stacked K m0 ps -> covered (map (fun q => (p_fun (pa q), snd q)) ps) x -> K x.
Proof.
  intros S (f & t & Hin & Hx). apply in_map_iff in Hin. destruct Hin as (q & E & Hq). assert (p_fun (pa q) = f) by congruence. subst f.
  induction ps as [|q' ps IH]; [destruct Hq|]. destruct S as (_ & Fk & _ & _ & S). destruct Hq as [->|Hq]; [|apply IH; auto]. apply Fk. unfold within. lia.
Qed.

Theorem C168_running_partial : forall K m0 es m vs, steps K (m0, []) es (m, vs) -> Z.of_nat (List.length es) < 2 ^ 32 - 1 -> byte_mem m ->
  exists stk R, stack_after es [] = Some stk /\ recorded_by m stk R /\
  forall M j k mid ths m', local M -> enters M j k mid -> (forall h v j', In (h, v, j') stk -> j' = j) ->
    (forall f t, In (f, t) R -> f + 16 <= 2 ^ 64) -> apart R -> original m0 m R m' -> respects M R (covered R) (ths, m') ->
    behaves M R (covered R) k mid (ths, m) (ths, m').
Proof.
  intros K m0 es m vs H Bd Hb. destruct (steps_recs K m0 _ _ _ [] H ltac:(cbn [List.length]; lia) (inv_start K m0) ltac:(constructor)) as (ps & (P & F & C & S) & Rc & E).
  cbn [fst snd map] in *. exists (map triple ps), (map (fun q => (p_fun (pa q), snd q)) ps). split; [exact E|].
  pose proof (recs_recorded m ps F Rc) as RB. split; [exact RB|]. intros M j k mid ths m' L En Hj Hf Ap (O1 & O2) Rs.
  apply (behaves_if M j); auto.
  - apply (in_range m (map triple ps)); auto.
  - intros f t Hr i Hi. rewrite C; [apply (over_jump K m0 ps j); auto|]. apply (covered_K K m0 ps); auto. exists f, t. split; [apply replaced_in; exact Hr|lia].
  - intros x Hx. symmetry. auto.
Qed.
Print Assumptions C168_running_partial.

(** Both processors are such machines. *)
Theorem C168_machines : local x86_machine /\ enters x86_machine (InsnModel.arch_jmp_table_jmp InsnModel.X86_64) 1 x86_mid /\
  local a64_machine /\ enters a64_machine (InsnModel.arch_jmp_table_jmp InsnModel.AARCH64) 2 a64_mid.
Proof. split; [exact x86_local|]. split; [exact x86_enters|]. split; [exact a64_local|exact a64_enters]. Qed.
Print Assumptions C168_machines.

(** The history of PaCase with two patches of one function; one thread comes to the
    function, the others return from another one. *)
Definition R2 : list (Z * Z) := [(0x402000, 0x7100040); (0x402000, 0x7000040)].
Definition m2_orig : mem := fun x => if (0x402000 <=? x) && (x <? 0x402010) then t_mem (w_t pa_w) x else m2 x.
Definition rg0 : Z -> Z := fun r => if r =? InsnSpec.rsp then 0x600010 else r.
Definition ths2 : threads x86_machine := fun i => if Nat.eqb i 0 then (rg0, 0x402000) else (rg0, 0x6000c3).
Definition rg1 : Z -> Z := InsnSpec.set_reg rg0 InsnSpec.rsp 0x600018.
Definition set2 (s : xs) : Prop := s = (rg0, 0x402000) \/ s = (rg0, 0x7100040) \/ s = (rg0, 0x6000c3) \/ s = (rg1, 0x1716151413121110).
Lemma covered2 x : covered R2 x <-> 0x402000 <= x < 0x402010.
Proof.
  split; [intros (f & t & [E|[E|[]]] & H); assert (f = 0x402000) by congruence; lia|]. intros H. exists 0x402000, 0x7100040. split; [left; reflexivity|lia].
Qed.
Lemma lay_info_at m : layout m = true -> sec_named m ".ulpatch.info" 2 -> info_at m 80.
Proof.
  intros L N. destruct (lay_t m L) as (E1 & E2 & E3). exists 2. rewrite E1, E2. split; [lia|]. split; [exact N|]. split; [|symmetry; apply (off2 m L)].
  intros i Hi X. pose proof (lay_info m L i ltac:(lia) X). lia.
Qed.
Lemma recorded2 : recorded_by m2 [(0x7100000, 0x402000, pa_jmp); (0x7000000, 0x402000, pa_jmp)] R2.
Proof.
  constructor; [|constructor; [|constructor]]; cbn [fst snd]; (split; [reflexivity|]); exists 80; (split; [|split; vm_compute; reflexivity]);
    (apply lay_info_at; [vm_compute; reflexivity|apply string_check; vm_compute; reflexivity]).
Qed.
Lemma behaves2 : apart R2 /\ original (t_mem (w_t pa_w)) m2 R2 m2_orig /\ respects x86_machine R2 (covered R2) (ths2, m2_orig).
Proof.
  split; [intros f t f' t' [E|[E|[]]] [E'|[E'|[]]]; left; congruence|]. split.
  - split; [intros x Hx; rewrite covered2 in Hx; unfold m2_orig; destruct ((0x402000 <=? x) && (x <? 0x402010)) eqn:Eb; [reflexivity|lia]|intros x Hx; rewrite covered2 in Hx; unfold m2_orig; destruct ((0x402000 <=? x) && (x <? 0x402010)) eqn:Eb; [lia|reflexivity]].
  - apply (respects_closed x86_machine R2 (covered R2) ths2 m2_orig set2).
    + intros i. unfold ths2, set2. destruct (Nat.eqb i 0); auto.
    + assert (Far : forall a n x, span a n x -> (forall i, (i < n)%nat -> ~ 0x402000 <= InsnSpec.addr64 (a + Z.of_nat i) < 0x402010) -> ~ covered R2 x).
      { intros a n x (i & Hi & ->) Hn Hc. rewrite covered2 in Hc. exact (Hn i Hi Hc). }
      assert (B1 : InsnSpec.rd 1 m2_orig 0x7100040 = 0x55) by (vm_compute; reflexivity).
      assert (B2 : InsnSpec.rd 1 m2_orig 0x6000c3 = 0xc3) by (vm_compute; reflexivity).
      assert (B3 : InsnSpec.rd 1 m2_orig 0x1716151413121110 = 0x10) by (vm_compute; reflexivity).
      assert (B4 : InsnSpec.rd 8 m2_orig 0x600010 = 0x1716151413121110) by (vm_compute; reflexivity).
      intros s [->|[->|[->| ->]]]; cbn [x86_machine pc snd fst go exec looks].
      * right. left. reflexivity.
      * change (replaced R2 0x7100040) with (@None Z). cbv match. unfold x86_looks, x86_exec1, InsnSpec.x86_step. cbn [fst snd InsnSpec.x_mem InsnSpec.x_rip InsnSpec.x_reg]. rewrite B1. split; [|left; reflexivity].
        intros x [Hx|[[[Hx|Hx] _]|[[[Hx|Hx] _]|[[Hx _]|[Hx _]]]]]; try discriminate Hx. apply (Far _ _ _ Hx). intros i Hi. assert (i = O) by lia. subst i. vm_compute. intuition discriminate.
      * change (replaced R2 0x6000c3) with (@None Z). cbv match. unfold x86_looks, x86_exec1, x86_writes, InsnSpec.x86_step. cbn [fst snd InsnSpec.x_mem InsnSpec.x_rip InsnSpec.x_reg]. rewrite B2. split.
        -- intros x [Hx|[[[Hx|Hx] _]|[[[Hx|Hx] _]|[[_ Hx]|[Hx _]]]]]; try discriminate Hx; apply (Far _ _ _ Hx); intros i Hi.
           ++ assert (i = O) by lia. subst i. vm_compute. intuition discriminate.
           ++ unfold rg0, InsnSpec.addr64. cbn [Z.eqb Pos.eqb InsnSpec.rsp]. rewrite Z.mod_small by lia. lia.
        -- right. exists (rg1, 0x1716151413121110). split; [|right; right; right; reflexivity].
           change (rg0 InsnSpec.rsp) with 0x600010. rewrite B4. reflexivity.
      * change (replaced R2 0x1716151413121110) with (@None Z). cbv match. unfold x86_looks, x86_exec1, InsnSpec.x86_step. cbn [fst snd InsnSpec.x_mem InsnSpec.x_rip InsnSpec.x_reg]. rewrite B3. split; [|left; reflexivity].
        intros x [Hx|[[[Hx|Hx] _]|[[[Hx|Hx] _]|[[Hx _]|[Hx _]]]]]; try discriminate Hx. apply (Far _ _ _ Hx). intros i Hi. assert (i = O) by lia. subst i. vm_compute. intuition discriminate.
Qed.

Example C168_ex : steps K0 (t_mem (w_t pa_w), []) [EPatch 0x7000000 0x402000 pa_jmp; EPatch 0x7100000 0x402000 pa_jmp] (m2, [v2; v1]) /\
  recorded_by m2 [(0x7100000, 0x402000, pa_jmp); (0x7000000, 0x402000, pa_jmp)] R2 /\
  apart R2 /\ original (t_mem (w_t pa_w)) m2 R2 m2_orig /\ respects x86_machine R2 (covered R2) (ths2, m2_orig) /\
  enters x86_machine pa_jmp 1 x86_mid /\
  (exists st, runs x86_machine (ths2, m2) [0; 1; 2]%nat = Some st /\ snd (fst st 0%nat) = 0x7100040 /\ snd (fst st 2%nat) = 0x1716151413121110).
Proof.
  split; [exact (steps_cons K0 _ _ _ _ _ ex_step1 (steps_cons K0 _ _ _ _ _ ex_step2 (steps_nil K0 _)))|].
  split; [exact recorded2|]. destruct behaves2 as (A & B & C). split; [exact A|]. split; [exact B|]. split; [exact C|]. split; [exact x86_enters|].
  assert (G : match runs x86_machine (ths2, m2) [0; 1; 2]%nat with Some st => (snd (fst st 0%nat) =? 0x7100040) && (snd (fst st 2%nat) =? 0x1716151413121110) | None => false end = true) by (vm_compute; reflexivity).
  revert G. generalize (runs x86_machine (ths2, m2) [0; 1; 2]%nat). intros [st|] G; [|discriminate G]. exists st. split; [reflexivity|]. lia.
Qed.
