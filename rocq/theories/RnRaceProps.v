(** The patched target runs: neighbours of a function, threads inside it, removal, tools at
    the same time. *)
From Coq Require Import ZArith String List Bool Lia ZifyBool ZifyNat Permutation.
From Verif Require Import Word WordLemmas Str ElfDefs TextModel LdModel LdSpec LdProofs LdSyms LdMore LdEx LdProps X86RelocModel ScModel ScSpec ScProofs ScProps PaModel PaSpec PaRead PaProofs PaMore PaKick PaLoad PaSess PaHist PaX86 PaEx PaFin PaThm PaCase.
From Verif Require InsnModel InsnSpec.
From Verif Require Import RnSpec RnProofs RnMach RnHist RnProps.
Import ListNotations.
Open Scope Z_scope.

(** ** C168: a function shorter than 16 bytes *)

(** The function at 0x402000, jmp 0x40200b, has 11 bytes; at 0x40200b begins another one,
    jmp 0x40201d. *)
Definition nb_mem : mem := fun x => if x =? 0x402000 then 0xeb else if x =? 0x402001 then 9 else if x =? 0x40200b then 0xeb else if x =? 0x40200c then 0x10 else x mod 256.
Definition nb_w : world := restart nb_mem.
Definition nb_run := pa_run (pa_env 0xc3000000) ex_file.
Definition nb_open := open_session (c_e nb_run) nb_w [].
Definition nb_out := do_patch nb_run (p_sess nb_open) (p_world nb_open).
Definition nb_m := t_mem (w_t (o_world nb_out)).
Definition nb_R : list (Z * Z) := [(0x402000, 0xc3000040)].
Definition nb_orig : mem := fun x => if (0x402000 <=? x) && (x <? 0x402010) then nb_mem x else nb_m x.
Definition nb_ths : threads x86_machine := fun _ => (rg0, 0x40200b).

Lemma nb_step : step K0 (nb_mem, []) (EPatch 0xc3000000 0x402000 pa_jmp) (nb_m, [(0xc3000000, 0xc3001000)]).
Proof.
  refine (mk_patch nb_run nb_mem nb_m [] [] nb_w ex_img ex_len (str "new_fn") (str "old_fn") 0x402000 0x402000 0xc3000000 0xc3001000 pa_jmp nb_open nb_out
    _ (pa_quiet _ _ _) (Permutation_refl _) _ _ _ _ (pa_good _) ex_redirects _ _ eq_refl eq_refl _ _).
  - reflexivity.
  - unfold nb_open. reflexivity.
  - vm_compute. reflexivity.
  - unfold nb_out. reflexivity.
  - vm_compute. reflexivity.
  - vm_compute. reflexivity.
  - split; [reflexivity|]. split; [vm_compute; discriminate|]. split; [reflexivity|]. split; [|split; [intros; apply pa_kept|]].
    + intros x Hx. split; [unfold K0; lia|]. intros (v & [] & _).
    + intros x Hx B. apply (pa_buffer _ _ 0x5000000) in B; [|vm_compute; reflexivity]. unfold within in B. cbn in B. destruct Hx as [Hx|(v & [] & _)]. unfold K0 in Hx. lia.
  - intros x Hx. unfold within in Hx. unfold K0. lia.
  - unfold nb_m. reflexivity.
Qed.

Lemma nb_covered x : covered nb_R x <-> 0x402000 <= x < 0x402010.
Proof.
  split; [intros (f & t & [E|[]] & H); assert (f = 0x402000) by congruence; lia|]. intros H. exists 0x402000, 0xc3000040. split; [left; reflexivity|lia].
Qed.
Lemma nb_recorded : recorded_by nb_m [(0xc3000000, 0x402000, pa_jmp)] nb_R.
Proof.
  constructor; [|constructor]; cbn [fst snd]; (split; [reflexivity|]); exists 80; (split; [|split; vm_compute; reflexivity]);
    (apply lay_info_at; [vm_compute; reflexivity|apply string_check; vm_compute; reflexivity]).
Qed.

(** The program jumps to 0x40201d (where this machine faults). *)
Definition nb_set (s : xs) : Prop := s = (rg0, 0x40200b) \/ s = (rg0, 0x40201d).
Lemma nb_program sch st' : runs_replaced x86_machine nb_R (nb_ths, nb_orig) sch = Some st' -> forall i, nb_set (fst st' i).
Proof.
  intros H. assert (B1 : InsnSpec.rd 1 nb_orig 0x40200b = 0xeb) by (vm_compute; reflexivity).
  assert (B2 : InsnSpec.rd 1 nb_orig (0x40200b + 1) = 0x10) by (vm_compute; reflexivity).
  assert (B3 : InsnSpec.rd 1 nb_orig 0x40201d = 0x1d) by (vm_compute; reflexivity).
  apply (proj2 (respects_closed x86_machine nb_R (fun _ => False) nb_ths nb_orig nb_set (fun _ => or_introl eq_refl)
    ltac:(intros s [->| ->]; cbn [x86_machine pc snd fst go exec looks];
      [change (replaced nb_R 0x40200b) with (@None Z)|change (replaced nb_R 0x40201d) with (@None Z)]; cbv match; (split; [intros x _ []|]);
      unfold x86_exec1, x86_writes, InsnSpec.x86_step; cbn [fst snd InsnSpec.x_mem InsnSpec.x_rip InsnSpec.x_reg];
      [rewrite B1, B2; right; exists (rg0, 0x40201d); split; [reflexivity|right; reflexivity]|rewrite B3; left; reflexivity]))) in H.
  exact (proj2 H).
Qed.

Lemma behaves_at M R Bs k mid st st' sch (P : threads M * mem -> bool) : behaves M R Bs k mid st st' ->
  match runs M st sch with Some st1 => P st1 | None => false end = true ->
  exists st1 sch' st1', P st1 = true /\ runs_replaced M R st' sch' = Some st1' /\ same_process M R Bs k mid st1 st1'.
Proof.
  intros (B & _) H. specialize (B sch). destruct (runs M st sch) as [st1|]; [|discriminate H]. destruct B as (sch' & st1' & A & C). exists st1, sch', st1'. auto.
Qed.

(** False: the jump of 16 bytes is written over whatever follows a shorter function.  Here
    the other function, which no patch names, returns instead of jumping. *)
Theorem C168_running_refuted : exists K m0 es m vs stk R ths m',
  steps K (m0, []) es (m, vs) /\ stack_after es [] = Some stk /\ recorded_by m stk R /\ apart R /\ original m0 m R m' /\
  (forall i, replaced R (pc x86_machine (ths i)) = None) /\ enters x86_machine pa_jmp 1 x86_mid /\
  ~ behaves x86_machine R (covered R) 1 x86_mid (ths, m) (ths, m').
Proof.
  exists K0, nb_mem, [EPatch 0xc3000000 0x402000 pa_jmp], nb_m, [(0xc3000000, 0xc3001000)], [(0xc3000000, 0x402000, pa_jmp)], nb_R, nb_ths, nb_orig.
  split; [exact (steps_cons K0 _ _ _ _ _ nb_step (steps_nil K0 _))|]. split; [reflexivity|]. split; [exact nb_recorded|].
  split; [intros f t f' t' [E|[]] [E'|[]]; left; congruence|]. split.
  { split; [intros x Hx; rewrite nb_covered in Hx; unfold nb_orig; destruct ((0x402000 <=? x) && (x <? 0x402010)) eqn:Eb; [reflexivity|lia]|intros x Hx; rewrite nb_covered in Hx; unfold nb_orig; destruct ((0x402000 <=? x) && (x <? 0x402010)) eqn:Eb; [lia|reflexivity]]. }
  split; [intros i; reflexivity|]. split; [exact x86_enters|]. intros B.
  destruct (behaves_at x86_machine nb_R (covered nb_R) 1 x86_mid (nb_ths, nb_m) (nb_ths, nb_orig) [0%nat] (fun st => snd (fst st 0%nat) =? 0x1716151413121110) B) as (st & sch' & st' & G & Hr & Sm & _); [vm_compute; reflexivity|].
  specialize (Sm 0%nat). pose proof (nb_program sch' st' Hr 0%nat) as Hp. cbv beta in G.
  destruct Sm as [E|(n & s0 & t & Hn & _)]; [|lia]. rewrite E in G. destruct Hp as [Hp|Hp]; rewrite Hp in G; cbn [snd] in G; discriminate G.
Qed.
Print Assumptions C168_running_refuted.

(** ** C169: where the target is stopped when it is patched *)

(** False: nothing checks where the target is.  Here it is stopped inside the function, in
    front of the jump to 0x40201d, and continues, at the same place, with a return. *)
Definition in_w : world := W (Tg (fun i => if i =? RIP then 0x40200b else 100 + i) nb_mem false) 0 [].
Definition in_open := open_session (c_e nb_run) in_w [].
Definition in_out := do_patch nb_run (p_sess in_open) (p_world in_open).
Strategy expand [in_open in_out].
Lemma in_is : do_patch nb_run (p_sess in_open) (p_world in_open) = Some (0, o_sess in_out, Some 0xc3000000, o_world in_out, o_log in_out).
Proof.
  assert (G : in_out = Some (0, o_sess in_out, Some 0xc3000000, o_world in_out, o_log in_out)) by (apply o_get; vm_compute; reflexivity).
  unfold in_out at 1 in G. exact G.
Qed.
Lemma in_opened : opened (c_e nb_run) in_w [] (p_sess in_open) (p_world in_open).
Proof. split; [constructor|]. split; [constructor|]. unfold in_open at 1. apply p_get. vm_compute. reflexivity. Qed.
Lemma in_rip : t_regs (w_t (o_world in_out)) RIP = 0x40200b. Proof. vm_compute. reflexivity. Qed.
Lemma in_byte : InsnSpec.rd 1 (t_mem (w_t (o_world in_out))) 0x40200b = 0xc3. Proof. vm_compute. reflexivity. Qed.
Lemma in_ret : InsnSpec.rd 8 (t_mem (w_t (o_world in_out))) 0x600010 = 0x1716151413121110. Proof. vm_compute. reflexivity. Qed.
Lemma in_lookup : c_lookup nb_run (str "old_fn") = Some 0x402000. Proof. vm_compute. reflexivity. Qed.
Lemma ret_step m ip : InsnSpec.rd 1 m ip = 0xc3 -> InsnSpec.rd 8 m 0x600010 = 0x1716151413121110 ->
  InsnSpec.x86_step (InsnSpec.XCpu rg0 ip m) = Some (InsnSpec.XCpu rg1 0x1716151413121110 m).
Proof.
  intros B1 B2. unfold InsnSpec.x86_step. cbn [InsnSpec.x_mem InsnSpec.x_rip InsnSpec.x_reg]. rewrite B1.
  change (rg0 InsnSpec.rsp) with 0x600010. rewrite B2. reflexivity.
Qed.
Lemma nb_jmp : InsnSpec.x86_step (InsnSpec.XCpu rg0 0x40200b nb_mem) = Some (InsnSpec.XCpu rg0 0x40201d nb_mem).
Proof. reflexivity. Qed.
Theorem C169_inside_refuted : exists c w s w1 hdr s' w2 log taddr regs c1 c2,
  opened (c_e c) w [] s w1 /\ do_patch c s w1 = Some (0, s', Some hdr, w2, log) /\ redirects ex_img (str "new_fn") (str "old_fn") /\ c_lookup c (str "old_fn") = Some taddr /\
  taddr < t_regs (w_t w) RIP < taddr + 16 /\ t_regs (w_t w2) RIP = t_regs (w_t w) RIP /\
  InsnSpec.x86_step (InsnSpec.XCpu regs (t_regs (w_t w) RIP) (t_mem (w_t w))) = Some c1 /\
  InsnSpec.x86_step (InsnSpec.XCpu regs (t_regs (w_t w2) RIP) (t_mem (w_t w2))) = Some c2 /\ InsnSpec.x_rip c1 <> InsnSpec.x_rip c2.
Proof.
  exists nb_run, in_w, (p_sess in_open), (p_world in_open), 0xc3000000, (o_sess in_out), (o_world in_out), (o_log in_out), 0x402000, rg0.
  exists (InsnSpec.XCpu rg0 0x40201d nb_mem), (InsnSpec.XCpu rg1 0x1716151413121110 (t_mem (w_t (o_world in_out)))).
  split; [exact in_opened|]. split; [exact in_is|]. split; [exact ex_redirects|]. split; [exact in_lookup|]. rewrite in_rip.
  change (t_regs (w_t in_w) RIP) with 0x40200b. change (t_mem (w_t in_w)) with nb_mem.
  split; [lia|]. split; [reflexivity|]. split; [exact nb_jmp|]. split; [exact (ret_step _ _ in_byte in_ret)|]. cbn [InsnSpec.x_rip]. discriminate.
Qed.
Print Assumptions C169_inside_refuted.

(** A thread, of any machine, that is elsewhere: at every moment of the attempt its next
    instruction does what it did before. *)
Theorem C169_inside_partial : forall c w ps s w1 f len hdr stop err s' w2 log src dst taddr u M th,
  opened (c_e c) w ps s w1 -> run_ok c w1 ps f len hdr stop -> do_patch c s w1 = Some (err, s', Some hdr, w2, log) ->
  redirects f src dst -> c_lookup c dst = Some taddr -> In u (w2 :: log) -> local M ->
  (forall x, looks M (t_mem (w_t w)) th x -> kept (c_e c) x /\ ~ within hdr len x /\ ~ within (taddr mod 2 ^ 64) 16 x /\ ~ buffer c w1 x) ->
  exec M (t_mem (w_t u)) th = exec M (t_mem (w_t w)) th.
Proof.
  intros c w ps s w1 f len hdr stop err s' w2 log src dst taddr u M th O R H Rd L Hu Lc Lk. apply Lc. intros x Hx. destruct (Lk x Hx) as (A & B & C & D).
  destruct (run_detail _ _ _ _ _ _ _ _ _ _ _ _ _ O R H) as [Q _]. apply (Q src dst taddr Rd L u Hu); auto.
Qed.
Print Assumptions C169_inside_partial.

Example C169_ex : opened (c_e run2) (restart m1) [ap1] (p_sess open2) (p_world open2) /\ run_ok run2 (p_world open2) [ap1] ex_img2 ex_len 0x7100000 0x7101000 /\
  do_patch run2 (p_sess open2) (p_world open2) = Some (0, o_sess out2, Some 0x7100000, o_world out2, o_log out2) /\
  redirects ex_img2 (str "new_fn") (str "old_fn") /\ c_lookup run2 (str "old_fn") = Some 0x402000 /\ local x86_machine /\
  (forall x, looks x86_machine (t_mem (w_t (restart m1))) (rg0, 0x6000c3) x ->
     kept (c_e run2) x /\ ~ within 0x7100000 ex_len x /\ ~ within (0x402000 mod 2 ^ 64) 16 x /\ ~ buffer run2 (p_world open2) x).
Proof.
  split; [exact opened2|]. split; [exact ok2|]. split; [exact out2_is|]. split; [exact ex_redirects2|]. split; [exact lookup2|]. split; [exact x86_local|].
  assert (B2 : InsnSpec.rd 1 m1 0x6000c3 = 0xc3) by (vm_compute; reflexivity). rewrite restart_mem. cbn [x86_machine looks]. unfold x86_looks. cbn [fst snd]. rewrite B2.
  change (rg0 InsnSpec.rsp) with 0x600010. intros x Hx.
  assert (Hr : 0x600010 <= x < 0x600100 + 0x1000).
  { destruct Hx as [(i & Hi & ->)|[[[X|X] _]|[[[X|X] _]|[[_ (i & Hi & ->)]|[X _]]]]]; try discriminate X; unfold InsnSpec.addr64; rewrite Z.mod_small by lia; lia. }
  split; [apply pa_kept|]. split; [unfold within, ex_len; lia|]. split; [change (0x402000 mod 2 ^ 64) with 0x402000; unfold within; lia|].
  intros B. apply (pa_buffer _ _ 0x5000000) in B; [|vm_compute; reflexivity]. unfold within in B. cbn in B. lia.
Qed.

(** ** C170: where the target is when a patch is removed *)

(** False: the mapping is removed while the target executes the replacement; it is stopped
    there, munmap of these bytes is executed, and it continues there. *)
Definition stopped_at (ip : Z) (m : mem) : world := W (Tg (fun i => if i =? RIP then ip else 100 + i) m false) 0 [].
Lemma stopped_mem ip m : t_mem (w_t (stopped_at ip m)) = m. Proof. reflexivity. Qed.
Lemma stopped_rip ip m : t_regs (w_t (stopped_at ip m)) RIP = ip. Proof. reflexivity. Qed.
Definition un_w : world := stopped_at 0x7000044 m1.
Definition un_open := open_session (c_e run3) un_w [v1].
Definition un_out := do_unpatch run3 (p_sess un_open) (p_world un_open).
Strategy expand [un_open un_out].
Lemma un_opened : opened (c_e run3) un_w [ap1] (p_sess un_open) (p_world un_open).
Proof. split; [constructor; [apply pa_readable|constructor]|]. split; [unfold un_w; rewrite stopped_mem; constructor; [exact ap1_present|constructor]|]. unfold un_open at 1. apply p_get. vm_compute. reflexivity. Qed.
Lemma un_is : do_unpatch run3 (p_sess un_open) (p_world un_open) = Some (0, q_world un_out, q_log un_out, Some (q_ulp un_out)).
Proof.
  assert (G : un_out = Some (0, q_world un_out, q_log un_out, Some (q_ulp un_out))) by (apply q_get; vm_compute; reflexivity).
  unfold un_out at 1 in G. exact G.
Qed.
Lemma un_range : u_start (q_ulp un_out) = 0x7000000 /\ u_end (q_ulp un_out) = 0x7001000.
Proof. split; vm_compute; reflexivity. Qed.
Lemma un_rip : t_regs (w_t (q_world un_out)) RIP = 0x7000044. Proof. vm_compute. reflexivity. Qed.
Lemma un_call : existsb (fun z => let '(r, m, sg) := z in (r RAX =? 11) && (r RDI =? 0x7000000) && (r RSI =? 0x1000) && (m (r RIP) =? 15) && (m (r RIP + 1) =? 5)) (w_conts (q_world un_out)) = true.
Proof. vm_compute. reflexivity. Qed.
Theorem C170_removed_refuted : exists c w ps s w1 w2 log u,
  opened (c_e c) w ps s w1 /\ do_unpatch c s w1 = Some (0, w2, log, Some u) /\
  u_start u <= t_regs (w_t w) RIP < u_end u /\ t_regs (w_t w2) RIP = t_regs (w_t w) RIP /\
  exists r m sg, In (r, m, sg) (w_conts w2) /\ r RAX = 11 /\ r RDI = u_start u /\ r RSI = u_end u - u_start u /\ m (r RIP) = 15 /\ m (r RIP + 1) = 5.
Proof.
  exists run3, un_w, [ap1], (p_sess un_open), (p_world un_open), (q_world un_out), (q_log un_out), (q_ulp un_out).
  split; [exact un_opened|]. split; [exact un_is|]. destruct un_range as [-> ->]. rewrite un_rip. unfold un_w at 1 2 3. rewrite !stopped_rip. split; [lia|]. split; [reflexivity|].
  pose proof un_call as C. apply existsb_exists in C. destruct C as ([[r m] sg] & I & C). exists r, m, sg. rewrite !andb_true_iff, !Z.eqb_eq in C.
  destruct C as ((((C1 & C2) & C3) & C4) & C5). split; [exact I|]. split; [exact C1|]. split; [exact C2|]. split; [rewrite C3; reflexivity|]. split; [exact C4|exact C5].
Qed.
Print Assumptions C170_removed_refuted.

(** If no thread uses the mapping any more: after any history and the removal of a patch,
    whatever is then where its mapping was, the process behaves like the program in which the
    remaining patches' functions are replaced.  (The conditions on the program are those of
    C168; in addition it never executes, reads or writes the bytes of the mapping.) *)
Theorem C170_removed_partial : forall K m0 es m vs h stop m2 vs2 mm, steps K (m0, []) es (m, vs) -> step K (m, vs) (EUnpatch h) (m2, vs2) ->
  Z.of_nat (List.length es) + 1 < 2 ^ 32 - 1 -> byte_mem m2 -> Permutation vs ((h, stop) :: vs2) -> (forall x, ~ h <= x < stop -> mm x = m2 x) ->
  exists v jm stk R, stack_after es [] = Some ((h, v, jm) :: stk) /\ recorded_by m2 stk R /\
  forall M j k mid ths m', local M -> enters M j k mid -> (forall h v j', In (h, v, j') stk -> j' = j) ->
    (forall f t, In (f, t) R -> f + 16 <= 2 ^ 64) -> apart R -> original m0 m2 R m' -> respects M R (fun x => covered R x \/ h <= x < stop) (ths, m') ->
    behaves M R (fun x => covered R x \/ h <= x < stop) k mid (ths, mm) (ths, m').
Proof.
  intros K m0 es m vs h stop m2 vs2 mm H1 H2 Bd Hb PV Hm.
  assert (Len : forall st es st', steps K st es st' -> forall ps, Z.of_nat (List.length ps) + Z.of_nat (List.length es) < 2 ^ 32 - 1 -> inv K m0 st ps -> recs (fst st) ps ->
    exists ps', inv K m0 st' ps' /\ recs (fst st') ps' /\ (List.length ps' <= List.length ps + List.length es)%nat /\ stack_after es (map triple ps) = Some (map triple ps')).
  { clear. intros st es st' H. induction H as [s|s1 e s2 es s3 H1 H2 IH]; intros ps Bd I Rc.
    - exists ps. split; auto. split; auto. split; [lia|reflexivity].
    - cbn [List.length] in *. destruct (step_recs K m0 s1 e s2 ps ltac:(lia) I Rc H1) as (ps1 & I1 & R1 & L1 & X). destruct (IH ps1 ltac:(lia) I1 R1) as (ps2 & I2 & R2 & L2 & Y).
      exists ps2. split; auto. split; auto. split; [lia|]. rewrite X. exact Y. }
  destruct (Len _ _ _ H1 [] ltac:(cbn [List.length]; lia) (inv_start K m0) ltac:(constructor)) as (ps & I1 & R1 & L1 & E1). cbn [List.length map] in *.
  destruct (step_recs K m0 _ _ _ ps ltac:(lia) I1 R1 H2) as (ps2 & I2 & R2 & _ & E2). cbn [fst] in R2.
  destruct (step_inv K m0 _ _ _ ps ltac:(lia) I1 H2) as (ps3 & I3 & _ & E3 & q & Eq). rewrite Eq in *.
  specialize (E2 []). cbn [map stack_after] in E2. destruct (triple q) as [[h' v] jm] eqn:Et. destruct (Z.eqb_spec h h') as [<-|Ne]; [|discriminate E2].
  cbn [stack_after] in E2. assert (E2' : map triple ps3 = map triple ps2) by congruence.
  exists v, jm, (map triple ps2), (map (fun q => (p_fun (pa q), snd q)) ps2). split; [rewrite E1; cbn [map]; rewrite Et, E2'; reflexivity|].
  destruct I2 as (P2 & F2 & C2 & S2). cbn [fst snd] in *.
  pose proof (recs_recorded m2 ps2 F2 R2) as RB. split; [exact RB|]. intros M j k mid ths m' L En Hj Hf Ap (O1 & O2) Rs.
  assert (NK : forall x, h <= x < stop -> ~ K x).
  { intros x Hx. destruct I1 as (P1 & _ & _ & S1). cbn [fst snd] in *.
    assert (Hin : In (h, stop) (map (fun q => p_range (pa q)) (q :: ps3))) by (apply (Permutation_in _ P1), (Permutation_in _ (Permutation_sym PV)); left; reflexivity).
    apply in_map_iff in Hin. destruct Hin as (q0 & Eq0 & Hq0). unfold p_range in Eq0. assert (p_start (pa q0) = h /\ p_stop (pa q0) = stop) as [Ea Eb] by (split; congruence).
    assert (Ns : forall l, stacked K m0 l -> In q0 l -> ~ K x).
    { induction l as [|q' l IH]; [intros _ []|]. intros (_ & _ & _ & S4 & S5) [->|Hl]; [|apply IH; auto]. apply (S4 x). lia. }
    apply (Ns _ S1 Hq0). }
  apply (behaves_if M j); auto.
  - apply (in_range m2 (map triple ps2)); auto.
  - intros f t Hr i Hi. assert (Kx : K (f + i)) by (apply (covered_K K m0 ps2); auto; exists f, t; split; [apply replaced_in; exact Hr|lia]).
    rewrite Hm by (intros X; apply (NK _ X Kx)). rewrite C2 by exact Kx. apply (over_jump K m0 ps2 j); auto.
  - intros x Hx. rewrite Hm by tauto. symmetry. apply O2. tauto.
Qed.
Print Assumptions C170_removed_partial.

(** ** C171: the jump while it is written *)

(** False: other threads run while the 16 bytes are written.  A thread that comes to the
    function when 8 of them are written runs neither the old nor the new function. *)
Definition torn : mem := fun x => if x <? 0x402008 then nb_m x else nb_mem x.
Lemma nb_else x : torn x = nb_mem x \/ torn x = nb_m x.
Proof. unfold torn. destruct (x <? 0x402008); auto. Qed.
Lemma torn_step : InsnSpec.x86_step (InsnSpec.XCpu rg0 0x402000 torn) = Some (InsnSpec.XCpu rg0 0x0f0e0d10eb0a0908 torn).
Proof.
  assert (B1 : InsnSpec.rd 1 torn 0x402000 = 0xff) by (vm_compute; reflexivity).
  assert (B2 : InsnSpec.rd 1 torn (0x402000 + 1) = 0x25) by (vm_compute; reflexivity).
  assert (B3 : InsnSpec.rd 4 torn (0x402000 + 2) = 2) by (vm_compute; reflexivity).
  assert (B4 : InsnSpec.rd 8 torn 0x402008 = 0x0f0e0d10eb0a0908) by (vm_compute; reflexivity).
  revert B1 B2 B3 B4. generalize torn. intros m B1 B2 B3 B4. unfold InsnSpec.x86_step. cbn [InsnSpec.x_mem InsnSpec.x_rip InsnSpec.x_reg]. rewrite B1, B2, B3.
  change (0x402000 + 6 + InsnSpec.sx 32 2) with 0x402008. cbv match. rewrite B4. reflexivity.
Qed.
Lemma nb_old : InsnSpec.x86_step (InsnSpec.XCpu rg0 0x402000 nb_mem) = Some (InsnSpec.XCpu rg0 0x40200b nb_mem).
Proof. reflexivity. Qed.
Theorem C171_torn_refuted : exists K m vs h f j m2 vs2 t u regs c c1,
  step K (m, vs) (EPatch h f j) (m2, vs2) /\ recorded m2 h f t /\ (forall x, u x = m x \/ u x = m2 x) /\
  InsnSpec.x86_step (InsnSpec.XCpu regs f u) = Some c /\ InsnSpec.x_rip c <> t /\
  InsnSpec.x86_step (InsnSpec.XCpu regs f m) = Some c1 /\ InsnSpec.x_rip c <> InsnSpec.x_rip c1.
Proof.
  exists K0, nb_mem, [], 0xc3000000, 0x402000, pa_jmp, nb_m, [(0xc3000000, 0xc3001000)], 0xc3000040, torn, rg0,
    (InsnSpec.XCpu rg0 0x0f0e0d10eb0a0908 torn), (InsnSpec.XCpu rg0 0x40200b nb_mem).
  split; [exact nb_step|]. split; [pose proof nb_recorded as R; inversion R as [|? ? ? ? (_ & X) ?]; exact X|]. split; [exact nb_else|].
  split; [exact torn_step|]. split; [cbn [InsnSpec.x_rip]; discriminate|]. split; [exact nb_old|]. cbn [InsnSpec.x_rip]. discriminate.
Qed.
Print Assumptions C171_torn_refuted.

(** Whatever part is written: threads elsewhere are not affected; if all 16 bytes are
    written, a thread that comes to the function goes to the recorded address. *)
Theorem C171_torn_partial : forall K m0 es m vs h f j m2 vs2, steps K (m0, []) es (m, vs) -> step K (m, vs) (EPatch h f j) (m2, vs2) ->
  Z.of_nat (List.length es) + 1 < 2 ^ 32 - 1 -> byte_mem m2 ->
  exists t, recorded m2 h f t /\
  forall u, (forall x, u x = m x \/ u x = m2 x) ->
    (forall M s, local M -> (forall x, looks M m s x -> K x /\ ~ f <= x < f + 16) -> exec M u s = exec M m s) /\
    ((forall x, f <= x < f + 16 -> u x = m2 x) ->
     forall M k mid s n, enters M j k mid -> pc M s = f -> f + 16 <= 2 ^ 64 -> (n < k)%nat -> exec M u (mid n s t) = Some (mid (S n) s t, [])).
Proof.
  intros K m0 es m vs h f j m2 vs2 H1 H2 Bd Hb.
  assert (Len : forall st es st', steps K st es st' -> forall ps, Z.of_nat (List.length ps) + Z.of_nat (List.length es) < 2 ^ 32 - 1 -> inv K m0 st ps -> recs (fst st) ps ->
    exists ps', inv K m0 st' ps' /\ recs (fst st') ps' /\ (List.length ps' <= List.length ps + List.length es)%nat).
  { clear. intros st es st' H. induction H as [s|s1 e s2 es s3 H1 H2 IH]; intros ps Bd I Rc.
    - exists ps. split; auto. split; auto. lia.
    - cbn [List.length] in *. destruct (step_recs K m0 s1 e s2 ps ltac:(lia) I Rc H1) as (ps1 & I1 & R1 & L1 & X). destruct (IH ps1 ltac:(lia) I1 R1) as (ps2 & I2 & R2 & L2).
      exists ps2. split; auto. split; auto. lia. }
  destruct (Len _ _ _ H1 [] ltac:(cbn [List.length]; lia) (inv_start K m0) ltac:(constructor)) as (ps & I1 & R1 & L1). cbn [List.length] in *.
  destruct (step_more K m0 _ _ _ ps ltac:(lia) I1 H2) as (ps2 & I2 & _ & E2 & (q & -> & Hq) & _).
  specialize (E2 []). cbn [map stack_after] in E2. assert (Et : triple q = (h, f, j)) by congruence.
  destruct I1 as (_ & _ & C1 & _). destruct I2 as (P2 & F2 & C2 & S2). cbn [fst snd] in *.
  pose proof (recs_recorded m2 [q] ltac:(cbn [map] in *; constructor; [exact (Forall_inv F2)|constructor]) ltac:(constructor; [exact Hq|constructor])) as RB.
  cbn [map] in RB. inversion RB as [|? ? ? ? (Ra & Rb) _]. subst. rewrite Et in Ra, Rb. cbn [fst snd] in Ra, Rb. exists (snd q). rewrite Ra in Rb. split; [exact Rb|].
  destruct q as [[p jj] tg]. unfold triple, pa in *. cbn [fst snd] in *. assert (p_fun p = f /\ jj = j) as [Ef ->] by (split; congruence).
  intros u Hu. split.
  - intros M s L Lk. apply L. intros x Hx. destruct (Lk x Hx) as [Kx Nx]. destruct (Hu x) as [X|X]; [exact X|]. rewrite X, C2, C1 by exact Kx. cbn [over].
    replace (inside (p_fun p) 16 x) with false by (unfold inside; lia). reflexivity.
  - intros Hn M k mid s n En Hp Hf Hk. destruct Rb as (info & _ & Rf & Rt).
    apply (en_step _ _ _ _ En); [exact Hk|rewrite <- Rt; apply (ld_range 8); auto|rewrite Hp, <- Rf; apply (ld_range 8); auto|rewrite Hp; exact Hf|]. rewrite Hp.
    intros i Hi. rewrite Hn by lia. destruct S2 as (_ & Fk & _). unfold pa in Fk. cbn [fst] in Fk. rewrite C2 by (apply Fk; unfold within; lia). cbn [over].
    rewrite Ef. replace (inside f 16 (f + i)) with true by (unfold inside; lia). replace (f + i - f) with i by lia. reflexivity.
Qed.
Print Assumptions C171_torn_partial.

(** The same threads as for C168, after the second patch has been removed. *)
Definition mo5 : mem := fun x => if (0x402000 <=? x) && (x <? 0x402010) then t_mem (w_t pa_w) x else m5 x.
Definition mm5 : mem := fun x => if (0x7100000 <=? x) && (x <? 0x7101000) then 0 else m5 x.
Definition R5 : list (Z * Z) := [(0x402000, 0x7000040)].
Definition B5 (x : Z) : Prop := covered R5 x \/ 0x7100000 <= x < 0x7101000.
Definition set5 (s : xs) : Prop := s = (rg0, 0x402000) \/ s = (rg0, 0x7000040) \/ s = (rg0, 0x6000c3) \/ s = (rg1, 0x1716151413121110).
Lemma covered5 x : covered R5 x <-> 0x402000 <= x < 0x402010.
Proof.
  split; [intros (f & t & [E|[]] & H); assert (f = 0x402000) by congruence; lia|]. intros H. exists 0x402000, 0x7000040. split; [left; reflexivity|lia].
Qed.
Lemma mo5_1 : InsnSpec.rd 1 mo5 0x7000040 = 0x55. Proof. vm_compute. reflexivity. Qed.
Lemma mo5_2 : InsnSpec.rd 1 mo5 0x6000c3 = 0xc3. Proof. vm_compute. reflexivity. Qed.
Lemma mo5_3 : InsnSpec.rd 1 mo5 0x1716151413121110 = 0x10. Proof. vm_compute. reflexivity. Qed.
Lemma mo5_4 : InsnSpec.rd 8 mo5 0x600010 = 0x1716151413121110. Proof. vm_compute. reflexivity. Qed.
Lemma respects5 : respects x86_machine R5 B5 (ths2, mo5).
Proof.
  pose proof mo5_1 as F1. pose proof mo5_2 as F2. pose proof mo5_3 as F3. pose proof mo5_4 as F4. revert F1 F2 F3 F4. generalize mo5. intros mo F1 F2 F3 F4.
  apply (respects_closed x86_machine R5 B5 ths2 mo set5).
  - intros i. unfold ths2, set5. destruct (Nat.eqb i 0); auto.
  - assert (Far : forall a n x, span a n x -> 0 <= a -> a + Z.of_nat n <= 2 ^ 64 -> (a + Z.of_nat n <= 0x402000 \/ 0x402010 <= a) -> (a + Z.of_nat n <= 0x7100000 \/ 0x7101000 <= a) -> ~ B5 x).
    { intros a n x (i & Hi & ->) H1 H2 H3 H4 Hc. unfold InsnSpec.addr64 in Hc. rewrite Z.mod_small in Hc by lia. unfold B5 in Hc. rewrite covered5 in Hc. lia. }
    intros s [->|[->|[->| ->]]]; cbn [x86_machine pc snd fst go exec looks].
    + right. left. reflexivity.
    + change (replaced R5 0x7000040) with (@None Z). cbv match. unfold x86_looks, x86_exec1, InsnSpec.x86_step. cbn [fst snd InsnSpec.x_mem InsnSpec.x_rip InsnSpec.x_reg]. rewrite F1. split; [|left; reflexivity].
      intros x [Hx|[[[Hx|Hx] _]|[[[Hx|Hx] _]|[[Hx _]|[Hx _]]]]]; try discriminate Hx. apply (Far _ _ _ Hx); lia.
    + change (replaced R5 0x6000c3) with (@None Z). cbv match. unfold x86_looks, x86_exec1, x86_writes, InsnSpec.x86_step. cbn [fst snd InsnSpec.x_mem InsnSpec.x_rip InsnSpec.x_reg]. rewrite F2. split.
      * change (rg0 InsnSpec.rsp) with 0x600010. intros x [Hx|[[[Hx|Hx] _]|[[[Hx|Hx] _]|[[_ Hx]|[Hx _]]]]]; try discriminate Hx; apply (Far _ _ _ Hx); lia.
      * right. exists (rg1, 0x1716151413121110). split; [|right; right; right; reflexivity].
        change (rg0 InsnSpec.rsp) with 0x600010. rewrite F4. reflexivity.
    + change (replaced R5 0x1716151413121110) with (@None Z). cbv match. unfold x86_looks, x86_exec1, InsnSpec.x86_step. cbn [fst snd InsnSpec.x_mem InsnSpec.x_rip InsnSpec.x_reg]. rewrite F3. split; [|left; reflexivity].
      intros x [Hx|[[[Hx|Hx] _]|[[[Hx|Hx] _]|[[Hx _]|[Hx _]]]]]; try discriminate Hx. apply (Far _ _ _ Hx); lia.
Qed.
Lemma recorded5 : recorded_by m5 [(0x7000000, 0x402000, pa_jmp)] R5.
Proof.
  constructor; [|constructor]; cbn [fst snd]; (split; [reflexivity|]); exists 80; (split; [|split; vm_compute; reflexivity]);
    (apply lay_info_at; [vm_compute; reflexivity|apply string_check; vm_compute; reflexivity]).
Qed.
Lemma original5 : original (t_mem (w_t pa_w)) m5 R5 mo5.
Proof.
  unfold mo5. generalize m5. intros m. generalize (t_mem (w_t pa_w)). intros m0.
  split; intros x Hx; rewrite covered5 in Hx; destruct ((0x402000 <=? x) && (x <? 0x402010)) eqn:Eb; first [reflexivity|lia].
Qed.
Lemma gone5 x : ~ 0x7100000 <= x < 0x7101000 -> mm5 x = m5 x.
Proof. unfold mm5. generalize m5. intros m Hx. destruct ((0x7100000 <=? x) && (x <? 0x7101000)) eqn:Eb; [lia|reflexivity]. Qed.
Example C170_ex : steps K0 (t_mem (w_t pa_w), []) [EPatch 0x7000000 0x402000 pa_jmp; EPatch 0x7100000 0x402000 pa_jmp; EFail; ERun] (m4, [v2; v1]) /\
  step K0 (m4, [v2; v1]) (EUnpatch 0x7100000) (m5, [v1]) /\ (forall x, ~ 0x7100000 <= x < 0x7101000 -> mm5 x = m5 x) /\
  recorded_by m5 [(0x7000000, 0x402000, pa_jmp)] R5 /\ original (t_mem (w_t pa_w)) m5 R5 mo5 /\
  respects x86_machine R5 (fun x => covered R5 x \/ 0x7100000 <= x < 0x7101000) (ths2, mo5).
Proof.
  split; [exact (steps_cons K0 _ _ _ _ _ ex_step1 (steps_cons K0 _ _ _ _ _ ex_step2 (steps_cons K0 _ _ _ _ _ ex_step3 (steps_cons K0 _ _ _ _ _ ex_step4 (steps_nil K0 _)))))|].
  split; [exact ex_step5|]. split; [exact gone5|]. split; [exact recorded5|]. split; [exact original5|]. exact respects5.
Qed.

(** The conditions of C171: the step is that of the counterexample. *)
Example C171_ex : steps K0 (nb_mem, []) [] (nb_mem, []) /\ step K0 (nb_mem, []) (EPatch 0xc3000000 0x402000 pa_jmp) (nb_m, [(0xc3000000, 0xc3001000)]) /\
  local a64_machine /\ enters x86_machine pa_jmp 1 x86_mid /\ (forall x, torn x = nb_mem x \/ torn x = nb_m x) /\
  (forall x, looks x86_machine nb_mem (rg0, 0x4020eb) x -> K0 x /\ ~ 0x402000 <= x < 0x402000 + 16).
Proof.
  split; [constructor|]. split; [exact nb_step|]. split; [exact a64_local|]. split; [exact x86_enters|]. split; [exact nb_else|].
  intros x. cbn [x86_machine looks]. unfold x86_looks. cbn [fst snd]. change (InsnSpec.rd 1 nb_mem 0x4020eb) with 0xeb.
  intros [(i & Hi & ->)|[[[Hx|Hx] _]|[[_ (i & Hi & ->)]|[[Hx _]|[Hx _]]]]]; try discriminate Hx; unfold InsnSpec.addr64, K0; rewrite Z.mod_small by lia; lia.
Qed.

(** ** C172: two tools at the same time *)

(** Two sessions, A and B, are opened while no patch is present; both apply the same file
    (a second time it should be refused); both patches get number 1; then two sessions
    remove a patch each, successfully. *)
Definition toolA := pa_run (pa_env 0x7100000) ex_file.
Definition toolB := pa_run (pa_env 0x7000000) ex_file.
Definition tw_a := do_patch toolA (p_sess open1) (p_world open1).
Definition tw_ma := t_mem (w_t (o_world tw_a)).
Definition tw_b := do_patch toolB (p_sess open1) (restart tw_ma).
Definition tw_mb := t_mem (w_t (o_world tw_b)).
Definition tw_open1 := open_session (c_e run3) (restart tw_mb) [v1; v2].
Definition tw_u1 := do_unpatch run3 (p_sess tw_open1) (p_world tw_open1).
Definition tw_m1 := t_mem (w_t (q_world tw_u1)).
Definition tw_open2 := open_session (c_e run3) (restart tw_m1) [v1].
Definition tw_u2 := do_unpatch run3 (p_sess tw_open2) (p_world tw_open2).
Definition tw_m2 := t_mem (w_t (q_world tw_u2)).
Strategy expand [tw_a tw_ma tw_b tw_mb tw_open1 tw_u1 tw_m1 tw_open2 tw_u2 tw_m2].
Lemma tw_a_is : do_patch toolA (p_sess open1) (p_world open1) = Some (0, o_sess tw_a, Some 0x7100000, o_world tw_a, o_log tw_a).
Proof. assert (G : tw_a = Some (0, o_sess tw_a, Some 0x7100000, o_world tw_a, o_log tw_a)) by (apply o_get; vm_compute; reflexivity). unfold tw_a at 1 in G. exact G. Qed.
Lemma tw_b_is : do_patch toolB (p_sess open1) (restart tw_ma) = Some (0, o_sess tw_b, Some 0x7000000, o_world tw_b, o_log tw_b).
Proof. assert (G : tw_b = Some (0, o_sess tw_b, Some 0x7000000, o_world tw_b, o_log tw_b)) by (apply o_get; vm_compute; reflexivity). unfold tw_b at 1 in G. exact G. Qed.
Lemma tw_open1_is : open_session (c_e run3) (restart tw_mb) [v1; v2] = Some (p_sess tw_open1, p_world tw_open1).
Proof. unfold tw_open1 at 1. apply p_get. vm_compute. reflexivity. Qed.
Lemma tw_u1_is : do_unpatch run3 (p_sess tw_open1) (p_world tw_open1) = Some (0, q_world tw_u1, q_log tw_u1, Some (q_ulp tw_u1)).
Proof. assert (G : tw_u1 = Some (0, q_world tw_u1, q_log tw_u1, Some (q_ulp tw_u1))) by (apply q_get; vm_compute; reflexivity). unfold tw_u1 at 1 in G. exact G. Qed.
Lemma tw_open2_is : open_session (c_e run3) (restart tw_m1) [v1] = Some (p_sess tw_open2, p_world tw_open2).
Proof. unfold tw_open2 at 1. apply p_get. vm_compute. reflexivity. Qed.
Lemma tw_u2_is : do_unpatch run3 (p_sess tw_open2) (p_world tw_open2) = Some (0, q_world tw_u2, q_log tw_u2, Some (q_ulp tw_u2)).
Proof. assert (G : tw_u2 = Some (0, q_world tw_u2, q_log tw_u2, Some (q_ulp tw_u2))) by (apply q_get; vm_compute; reflexivity). unfold tw_u2 at 1 in G. exact G. Qed.
Lemma tw_removed1 : (u_start (q_ulp tw_u1), u_end (q_ulp tw_u1)) = v2. Proof. vm_compute. reflexivity. Qed.
Lemma tw_removed2 : (u_start (q_ulp tw_u2), u_end (q_ulp tw_u2)) = v1. Proof. vm_compute. reflexivity. Qed.
Lemma tw_left : bytes_at tw_m2 0x402000 16 = le_bytes 8 pa_jmp ++ le_bytes 8 0x7100040. Proof. vm_compute. reflexivity. Qed.
Lemma tw_before : bytes_at (t_mem (w_t pa_w)) 0x402000 16 <> le_bytes 8 pa_jmp ++ le_bytes 8 0x7100040. Proof. vm_compute. discriminate. Qed.
Lemma open1_is : open_session (c_e run3) pa_w [] = Some (p_sess open1, p_world open1). Proof. reflexivity. Qed.

(** False: although every patch has been removed, the function jumps into the mapping of
    the first, which is gone. *)
Theorem C172_tools_refuted : exists cA cB cU w s w1 sA wA logA sB wB logB sU1 wU1 wU1' logU1 u1 sU2 wU2 wU2' logU2 u2 hA stopA hB stopB f j t,
  open_session (c_e cU) w [] = Some (s, w1) /\ c_ae cA = c_ae cB /\
  do_patch cA s w1 = Some (0, sA, Some hA, wA, logA) /\
  do_patch cB s (restart (t_mem (w_t wA))) = Some (0, sB, Some hB, wB, logB) /\
  open_session (c_e cU) (restart (t_mem (w_t wB))) [(hB, stopB); (hA, stopA)] = Some (sU1, wU1) /\
  do_unpatch cU sU1 wU1 = Some (0, wU1', logU1, Some u1) /\ (u_start u1, u_end u1) = (hA, stopA) /\
  open_session (c_e cU) (restart (t_mem (w_t wU1'))) [(hB, stopB)] = Some (sU2, wU2) /\
  do_unpatch cU sU2 wU2 = Some (0, wU2', logU2, Some u2) /\ (u_start u2, u_end u2) = (hB, stopB) /\
  bytes_at (t_mem (w_t w)) f 16 <> bytes_at (t_mem (w_t wU2')) f 16 /\
  bytes_at (t_mem (w_t wU2')) f 16 = le_bytes 8 j ++ le_bytes 8 t /\ hA <= t < stopA.
Proof.
  exists toolA, toolB, run3, pa_w, (p_sess open1), (p_world open1), (o_sess tw_a), (o_world tw_a), (o_log tw_a), (o_sess tw_b), (o_world tw_b), (o_log tw_b).
  exists (p_sess tw_open1), (p_world tw_open1), (q_world tw_u1), (q_log tw_u1), (q_ulp tw_u1), (p_sess tw_open2), (p_world tw_open2), (q_world tw_u2), (q_log tw_u2), (q_ulp tw_u2).
  exists 0x7100000, 0x7101000, 0x7000000, 0x7001000, 0x402000, pa_jmp, 0x7100040.
  split; [exact open1_is|]. split; [reflexivity|]. split; [exact tw_a_is|]. split; [exact tw_b_is|]. split; [exact tw_open1_is|]. split; [exact tw_u1_is|]. split; [exact tw_removed1|].
  split; [exact tw_open2_is|]. split; [exact tw_u2_is|]. split; [exact tw_removed2|]. split; [|split; [exact tw_left|lia]].
  intros E. apply tw_before. rewrite E. exact tw_left.
Qed.
Print Assumptions C172_tools_refuted.

(** Sessions opened while the same patches are present give their patches the same number,
    whatever happens in between. *)
Lemma number_of c s w f len hdr stop s' w' log info : run_ok c w [] f len hdr stop -> do_patch c s w = Some (0, s', Some hdr, w', log) -> info_at f info ->
  ld 4 (t_mem (w_t w')) (hdr + info) = (s_max s + 1) mod 2 ^ 32 /\
  exists src dst taddr, redirects f src dst /\ c_lookup c dst = Some taddr /\
    (forall i, 0 <= i < 16 -> t_mem (w_t w') (hdr + info + 28 + i) = t_mem (w_t w) (taddr mod 2 ^ 64 + i)) /\
    (forall i, 0 <= i < 16 -> t_mem (w_t w') (taddr mod 2 ^ 64 + i) = nth (Z.to_nat i) (le_bytes 8 (c_jmp c) ++ le_bytes 8 (ld 8 (t_mem (w_t w')) (hdr + info + 12))) 0).
Proof.
  intros R H Hi. destruct R as [CM GF Sh St Kp Nw Bf Fn]. destruct GF as (AL & Hb & T & RS & BI).
  destruct (init_detail _ _ _ _ _ _ _ _ _ _ _ _ _ _ _ _ _ _ _ _ _ _ _ _ CM H AL Sh Hb T (RS hdr)) as [_ IE].
  { intros src dst taddr R L. split; [|split].
    - intros x [Hx|Hx]; [apply Kp; auto|exact (proj1 (Fn src dst taddr R L x Hx))].
    - intros x Hx Hv. exact (proj1 (proj2 (Fn src dst taddr R L x Hv)) Hx).
    - intros x Hx. apply (Fn src dst taddr R L x Hx). }
  destruct (IE eq_refl) as (li & src & dst & taddr & SU & _ & Rd & L & _ & (_ & ST) & JB). destruct (ST info Hi) as (I1 & I2 & I3). split; [exact I1|].
  exists src, dst, taddr. split; [exact Rd|]. split; [exact L|]. split; [exact I3|]. rewrite (proj2 (info_is f len li Hb SU) info Hi). exact JB.
Qed.

Theorem C172_same_number : forall cA cB w ps sA sB w0 w0' wA wB fA lenA hA stopA fB lenB hB stopB sA' wA' logA sB' wB' logB iA iB,
  opened (c_e cA) w ps sA w0 -> opened (c_e cB) w ps sB w0' ->
  run_ok cA wA [] fA lenA hA stopA -> run_ok cB wB [] fB lenB hB stopB ->
  do_patch cA sA wA = Some (0, sA', Some hA, wA', logA) -> do_patch cB sB wB = Some (0, sB', Some hB, wB', logB) ->
  info_at fA iA -> info_at fB iB -> ld 4 (t_mem (w_t wA')) (hA + iA) = ld 4 (t_mem (w_t wB')) (hB + iB).
Proof.
  intros cA cB w ps sA sB w0 w0' wA wB fA lenA hA stopA fB lenB hB stopB sA' wA' logA sB' wB' logB iA iB OA OB RA RB HA HB IA IB.
  rewrite (proj1 (number_of _ _ _ _ _ _ _ _ _ _ _ RA HA IA)), (proj1 (number_of _ _ _ _ _ _ _ _ _ _ _ RB HB IB)).
  rewrite (opened_max _ _ _ _ _ OA), (opened_max _ _ _ _ _ OB). reflexivity.
Qed.
Print Assumptions C172_same_number.

(** However old its session: a patch applied successfully has saved the code that its jump
    replaced. *)
Theorem C172_tools_partial : forall c s w f len hdr stop s' w' log info, run_ok c w [] f len hdr stop ->
  do_patch c s w = Some (0, s', Some hdr, w', log) -> info_at f info ->
  exists src dst taddr, redirects f src dst /\ c_lookup c dst = Some taddr /\
    (forall i, 0 <= i < 16 -> t_mem (w_t w') (hdr + info + 28 + i) = t_mem (w_t w) (taddr mod 2 ^ 64 + i)) /\
    (forall i, 0 <= i < 16 -> t_mem (w_t w') (taddr mod 2 ^ 64 + i) = nth (Z.to_nat i) (le_bytes 8 (c_jmp c) ++ le_bytes 8 (ld 8 (t_mem (w_t w')) (hdr + info + 12))) 0).
Proof. intros c s w f len hdr stop s' w' log info R H I. exact (proj2 (number_of _ _ _ _ _ _ _ _ _ _ _ R H I)). Qed.
Print Assumptions C172_tools_partial.

Lemma tool_ok a w : 0x6000000 <= a -> shared a = true -> 
  (match task_attach 4 (pa_env a) w with
   | Some (_, w1) => match task_malloc 4 x86_arch x86_nrs (pa_env a) 0x7000 0 w1 (Z.of_nat (List.length (str "/tmp/ulp-1-x")) + 1) with Some (n, _) => n =? 0x5000000 | None => false end
   | None => false end) = true -> run_ok (pa_run (pa_env a) ex_file) w [] ex_img ex_len a (a + 0x1000).
Proof.
  intros Ha Sh B. apply mk_ok; [apply pa_good|apply ex_redirects|exact Sh|unfold ex_len; lia|lia| |exact B|exact Ha]. intros x (v & [] & _).
Qed.
Lemma tw_ok : run_ok toolB (restart tw_ma) [] ex_img ex_len 0x7000000 0x7001000.
Proof. apply (tool_ok 0x7000000); [lia|reflexivity|vm_compute; reflexivity]. Qed.
Lemma tw_ok_a : run_ok toolA (p_world open1) [] ex_img ex_len 0x7100000 0x7101000.
Proof. apply (tool_ok 0x7100000); [lia|reflexivity|vm_compute; reflexivity]. Qed.
Example C172_ex : opened (c_e run1) pa_w [] (p_sess open1) (p_world open1) /\ run_ok toolA (p_world open1) [] ex_img ex_len 0x7100000 0x7101000 /\
  run_ok toolB (restart tw_ma) [] ex_img ex_len 0x7000000 0x7001000 /\
  do_patch toolA (p_sess open1) (p_world open1) = Some (0, o_sess tw_a, Some 0x7100000, o_world tw_a, o_log tw_a) /\
  do_patch toolB (p_sess open1) (restart tw_ma) = Some (0, o_sess tw_b, Some 0x7000000, o_world tw_b, o_log tw_b) /\ info_at ex_img 80.
Proof.
  split; [exact opened1|]. split; [exact tw_ok_a|]. split; [exact tw_ok|]. split; [exact tw_a_is|]. split; [exact tw_b_is|].
  apply lay_info_at; [apply ex_layout|apply string_check; vm_compute; reflexivity].
Qed.
