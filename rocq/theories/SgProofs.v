(** Lemmas about signals. *)
From Coq Require Import ZArith String List Bool Lia.
From Verif Require Import Word WordLemmas Str ScModel ScSpec ScProofs ScProps SgModel SgSpec.
Import ListNotations.
Open Scope Z_scope.

(** ** The loops with a log are the loops *)

Lemma wait_log_result fuel : forall e w status,
  wait_for_stop fuel e w status = match wait_log fuel e w status with Some (ret, w', _) => Some (ret, w') | None => None end.
Proof.
  induction fuel as [|fuel IH]; intros e w status; [reflexivity|]. cbn [wait_for_stop wait_log].
  destruct (e_cont e (w_n w)); [reflexivity|]. destruct (e_wait _ _ _ _ _) as [|sig r m|s r m]; [reflexivity| |].
  - destruct ((sig =? SIGSTOP) || (sig =? SIGTRAP)); [reflexivity|]. destruct (sig =? SIGSEGV); [reflexivity|].
    rewrite IH. destruct (wait_log _ _ _ _) as [[[ret w'] l]|]; reflexivity.
  - rewrite IH. destruct (wait_log _ _ _ _) as [[[ret w'] l]|]; reflexivity.
Qed.

Lemma attach_loop_log_result fuel : forall e w,
  attach_loop fuel e w = match attach_loop_log fuel e w with Some (ret, w', _) => Some (ret, w') | None => None end.
Proof.
  induction fuel as [|fuel IH]; intros e w; [reflexivity|]. cbn [attach_loop attach_loop_log].
  destruct (e_attach_wait _ _ _ _) as [|sig r m|s r m]; [reflexivity| |].
  - destruct (sig =? SIGSTOP); [reflexivity|]. destruct (e_cont _ _); [reflexivity|].
    rewrite IH. destruct (attach_loop_log _ _ _) as [[[ret w'] l]|]; reflexivity.
  - destruct (e_cont _ _); [reflexivity|].
    rewrite IH. destruct (attach_loop_log _ _ _) as [[[ret w'] l]|]; reflexivity.
Qed.

Lemma attach_log_result fuel e w :
  task_attach fuel e w = match attach_log fuel e w with Some (ret, w', _) => Some (ret, w') | None => None end.
Proof. unfold task_attach, attach_log. destruct (e_attach _ _); [reflexivity|]. apply attach_loop_log_result. Qed.

(** ** Lost and invented signals *)

Lemma lost_skip ev log s : lost (ev :: log) s -> (forall x, ev <> Stopped x) -> lost log s.
Proof.
  intros ([|y l1] & l2 & E & H) N; cbn in E; injection E as E1 E2; [destruct (N s); auto|]. exists l1, l2. auto.
Qed.

Lemma lost_pair a b log s : lost (Stopped a :: Resumed b :: log) s -> (s = a /\ b <> Some a) \/ lost log s.
Proof.
  intros ([|y l1] & l2 & E & H); cbn in E; injection E as E1 E2.
  - left. subst. split; auto. intros ->. apply (H log). reflexivity.
  - right. assert (L : lost (Resumed b :: log) s) by (exists l1, l2; auto). apply lost_skip in L; auto. discriminate.
Qed.

Lemma lost_nil s : ~ lost [] s.
Proof. intros ([|y l1] & l2 & E & _); discriminate. Qed.

Lemma lost_one ev s : lost [ev] s -> ev = Stopped s.
Proof. intros ([|y [|z l1]] & l2 & E & _); cbn in E; [injection E as E _; auto|discriminate|discriminate]. Qed.

(** [invented] after the event [d]. *)
Definition invented_after (d : event) (log : list event) (s : Z) : Prop :=
  exists l1 l2, log = l1 ++ Resumed (Some s) :: l2 /\ last l1 d <> Stopped s /\ last l1 d <> Gone (Some s).

Lemma last_cons {A} (x : A) l d : last (x :: l) d = last l x.
Proof. revert x d. induction l as [|y l IH]; intros x d; [reflexivity|]. change (last (x :: y :: l) d) with (last (y :: l) d). rewrite !IH. reflexivity. Qed.

Lemma invented_cons d ev log s : invented_after d (ev :: log) s ->
  (ev = Resumed (Some s) /\ d <> Stopped s /\ d <> Gone (Some s)) \/ invented_after ev log s.
Proof.
  intros ([|y l1] & l2 & E & H1 & H2); cbn in E; injection E as E1 E2; [left; auto|].
  right. subst ev. rewrite last_cons in H1, H2. exists l1, l2. auto.
Qed.

Lemma invented_nil d s : ~ invented_after d [] s.
Proof. intros ([|y l1] & l2 & E & _); discriminate. Qed.

(** The log of a remote call: it is empty or starts by handing over [status]. *)
Lemma wait_log_lost fuel : forall e w status ret w' log, wait_log fuel e w status = Some (ret, w', log) ->
  ((log = [] /\ ret = -1) \/ exists l, log = Resumed (Some status) :: l) /\
  forall s, lost log s ->
    (exists l, log = l ++ [Stopped s]) /\ ((ret = 0 /\ (s = SIGSTOP \/ s = SIGTRAP)) \/ ret = -1).
Proof.
  induction fuel as [|fuel IH]; intros e w status ret w' log H; [discriminate|]. cbn [wait_log] in H.
  destruct (e_cont e (w_n w)).
  { injection H as <- <- <-. split; [auto|]. intros s L. destruct (lost_nil _ L). }
  destruct (e_wait _ _ _ _ _) as [|sig r m|sg r m].
  - injection H as <- <- <-. split; [eauto|]. intros s L. apply lost_one in L. discriminate.
  - destruct ((sig =? SIGSTOP) || (sig =? SIGTRAP)) eqn:E.
    { injection H as <- <- <-. split; [eauto|]. intros s L. apply lost_skip in L; [|discriminate]. apply lost_one in L.
      injection L as ->. split; [exists [Resumed (Some status)]; reflexivity|].
      left. split; [auto|]. apply orb_true_iff in E. rewrite !Z.eqb_eq in E. exact E. }
    destruct (sig =? SIGSEGV) eqn:E2.
    { injection H as <- <- <-. split; [eauto|]. intros s L. apply lost_skip in L; [|discriminate]. apply lost_one in L.
      injection L as ->. split; [exists [Resumed (Some status)]; reflexivity|auto]. }
    destruct (wait_log fuel e _ sig) as [[[ret' w2] l]|] eqn:Er; [|discriminate]. injection H as <- <- <-.
    apply IH in Er. destruct Er as (S1 & S2). split; [right; eexists; reflexivity|]. intros s L. cbn [app] in L.
    apply lost_skip in L; [|discriminate]. destruct S1 as [(-> & ->)|(l' & ->)].
    + apply lost_one in L. injection L as ->. split; [exists [Resumed (Some status)]; reflexivity|auto].
    + apply lost_pair in L. destruct L as [(_ & C)|L]; [destruct C; reflexivity|].
      assert (L' : lost (Resumed (Some sig) :: l') s).
      { destruct L as (l1 & l2 & -> & L). exists (Resumed (Some sig) :: l1), l2. auto. }
      destruct (S2 s L') as ((l0 & ->) & R). split; [exists ([Resumed (Some status); Stopped sig] ++ l0); reflexivity|exact R].
  - destruct (wait_log fuel e _ _) as [[[ret' w2] l]|] eqn:Er; [|discriminate]. injection H as <- <- <-.
    apply IH in Er. destruct Er as (S1 & S2). split; [right; eexists; reflexivity|]. intros s L. cbn [app] in L.
    apply lost_skip in L; [|discriminate]. apply lost_skip in L; [|discriminate].
    destruct (S2 s L) as ((l0 & ->) & R). split; [exists ([Resumed (Some status); Gone sg] ++ l0); reflexivity|exact R].
Qed.

Lemma wait_log_invented fuel : forall e w status ret w' log, wait_log fuel e w status = Some (ret, w', log) ->
  forall d s, s <> 0 -> invented_after d log s -> status = s /\ d <> Stopped s /\ d <> Gone (Some s).
Proof.
  induction fuel as [|fuel IH]; intros e w status ret w' log H d s N I; [discriminate|].
  cbn [wait_log] in H.
  destruct (e_cont e (w_n w)).
  { injection H as <- <- <-. destruct (invented_nil _ _ I). }
  assert (K : forall ev l, log = Resumed (Some status) :: ev :: l -> (forall x, ev <> Resumed x) ->
                (invented_after ev l s -> False) -> status = s /\ d <> Stopped s /\ d <> Gone (Some s)).
  { intros ev l -> Nr F. apply invented_cons in I. destruct I as [(C & D)|I]; [injection C as ->; auto|].
    apply invented_cons in I. destruct I as [(C & _)|I]; [destruct (Nr (Some s)); auto|destruct (F I)]. }
  destruct (e_wait _ _ _ _ _) as [|sig r m|sg r m].
  - injection H as <- <- <-. apply invented_cons in I.
    destruct I as [(C & D)|I]; [injection C as ->; auto|destruct (invented_nil _ _ I)].
  - destruct ((sig =? SIGSTOP) || (sig =? SIGTRAP)).
    { injection H as <- <- <-. apply (K (Stopped sig) []); [reflexivity|discriminate|apply invented_nil]. }
    destruct (sig =? SIGSEGV).
    { injection H as <- <- <-. apply (K (Stopped sig) []); [reflexivity|discriminate|apply invented_nil]. }
    destruct (wait_log fuel e _ sig) as [[[ret' w2] l]|] eqn:Er; [|discriminate]. injection H as <- <- <-.
    apply (K (Stopped sig) l); [reflexivity|discriminate|]. intros J. 
    destruct (IH _ _ _ _ _ _ Er _ _ N J) as (-> & C & _). apply C. reflexivity.
  - destruct (wait_log fuel e _ _) as [[[ret' w2] l]|] eqn:Er; [|discriminate]. injection H as <- <- <-.
    apply (K (Gone sg) l); [reflexivity|discriminate|]. intros J.
    destruct (IH _ _ _ _ _ _ Er _ _ N J) as (E & _ & C). destruct sg as [x|]; [subst x; apply C; reflexivity|auto].
Qed.

Lemma attach_log_lost fuel : forall e w ret w' log, (forall n x, e_cont e n = Some x -> 0 < x) -> attach_loop_log fuel e w = Some (ret, w', log) ->
  forall s, lost log s -> s = SIGTRAP \/ (exists l, log = l ++ [Stopped s]) /\ (ret = 0 -> s = SIGSTOP).
Proof.
  induction fuel as [|fuel IH]; intros e w ret w' log Er0 H s L; [discriminate|]. cbn [attach_loop_log] in H.
  destruct (e_attach_wait _ _ _ _) as [|sig r m|sg r m].
  - injection H as <- <- <-. destruct (lost_nil _ L).
  - destruct (Z.eqb_spec sig SIGSTOP) as [E|E].
    { injection H as <- <- <-. apply lost_one in L. injection L as ->. right. split; [exists []; reflexivity|auto]. }
    destruct (e_cont _ _) as [x|] eqn:Ec.
    { injection H as <- <- <-. apply lost_one in L. injection L as ->.
      right. split; [exists []; reflexivity|]. intros R. apply Er0 in Ec. lia. }
    destruct (attach_loop_log _ _ _) as [[[ret' w2] l]|] eqn:Er; [|discriminate]. injection H as <- <- <-.
    cbn [app] in L. apply lost_pair in L. destruct L as [(-> & C)|L].
    + left. destruct (Z.eqb_spec sig SIGTRAP); [auto|]. destruct C. reflexivity.
    + destruct (IH _ _ _ _ _ Er0 Er s L) as [F|((l0 & ->) & F)]; [auto|]. right. split; [|exact F].
      eexists (_ :: _ :: l0). reflexivity.
  - destruct (e_cont _ _) as [x|] eqn:Ec.
    { injection H as <- <- <-. apply lost_one in L. discriminate. }
    destruct (attach_loop_log _ _ _) as [[[ret' w2] l]|] eqn:Er; [|discriminate]. injection H as <- <- <-.
    cbn [app] in L. apply lost_skip in L; [|discriminate]. apply lost_skip in L; [|discriminate].
    destruct (IH _ _ _ _ _ Er0 Er s L) as [F|((l0 & ->) & F)]; [auto|]. right. split; [|exact F].
    eexists (_ :: _ :: l0). reflexivity.
Qed.

Lemma attach_log_invented fuel : forall e w ret w' log, attach_loop_log fuel e w = Some (ret, w', log) ->
  forall d s, s <> 0 -> ~ invented_after d log s.
Proof.
  induction fuel as [|fuel IH]; intros e w ret w' log H d s N I; [discriminate|]. cbn [attach_loop_log] in H.
  destruct (e_attach_wait _ _ _ _) as [|sig r m|sg r m].
  - injection H as <- <- <-. destruct (invented_nil _ _ I).
  - destruct (Z.eqb_spec sig SIGSTOP) as [E|E].
    { injection H as <- <- <-. apply invented_cons in I. destruct I as [(C & _)|I]; [discriminate|destruct (invented_nil _ _ I)]. }
    destruct (e_cont _ _) as [x|] eqn:Ec.
    { injection H as <- <- <-. apply invented_cons in I. destruct I as [(C & _)|I]; [discriminate|destruct (invented_nil _ _ I)]. }
    destruct (attach_loop_log _ _ _) as [[[ret' w2] l]|] eqn:Er; [|discriminate]. injection H as <- <- <-.
    cbn [app] in I. apply invented_cons in I. destruct I as [(C & _)|I]; [discriminate|].
    apply invented_cons in I. destruct I as [(C & D & _)|I].
    + destruct (sig =? SIGTRAP); injection C as C; [auto|]. subst. apply D. reflexivity.
    + destruct (IH _ _ _ _ _ Er _ _ N I).
  - destruct (e_cont _ _) as [x|] eqn:Ec.
    { injection H as <- <- <-. apply invented_cons in I. destruct I as [(C & _)|I]; [discriminate|destruct (invented_nil _ _ I)]. }
    destruct (attach_loop_log _ _ _) as [[[ret' w2] l]|] eqn:Er; [|discriminate]. injection H as <- <- <-.
    cbn [app] in I. apply invented_cons in I. destruct I as [(C & _)|I]; [discriminate|].
    apply invented_cons in I. destruct I as [(C & _ & D)|I].
    + injection C as ->. apply D. reflexivity.
    + destruct (IH _ _ _ _ _ Er _ _ N I).
Qed.

(** ** A remote call that is interrupted *)

Lemma wait_signals exec arrive h e : runs_signals exec arrive h e -> forall l fuel w status r' m',
  Forall harmless l -> (List.length l < fuel)%nat -> arrivals arrive (S (w_n w)) l ->
  exec (t_regs (w_t w)) (fold_left (fun m s => h s m) l (if status =? 0 then t_mem (w_t w) else h status (t_mem (w_t w)))) = Some (r', m') ->
  exists w', wait_for_stop fuel e w status = Some (0, w') /\ w_t w' = Tg r' m' (t_attached (w_t w)) /\
    map snd (w_conts w') = map snd (w_conts w) ++ status :: l.
Proof.
  intros (R1 & R2 & R3 & R4 & R5). induction l as [|s l IH]; intros fuel w status r' m' F Hf A Hx.
  - destruct fuel as [|fuel]; [cbn in Hf; lia|]. cbn [wait_for_stop]. rewrite R3. cbn [w_n w_t w_conts].
    inversion A as [n An|]; subst. specialize (R5 (S (w_n w)) (t_regs (w_t w)) (t_mem (w_t w)) status). cbv zeta in R5. rewrite An in R5.
    cbn [fold_left] in Hx. rewrite (R5 _ _ Hx). change ((SIGTRAP =? SIGSTOP) || (SIGTRAP =? SIGTRAP)) with true. cbn iota.
    eexists. split; [reflexivity|]. cbn [tick set_t w_t w_conts]. split; [reflexivity|].
    rewrite map_app. reflexivity.
  - destruct fuel as [|fuel]; [cbn in Hf; lia|]. cbn [wait_for_stop]. rewrite R3. cbn [w_n w_t w_conts].
    inversion A as [|n s' l' As Al]; subst. specialize (R5 (S (w_n w)) (t_regs (w_t w)) (t_mem (w_t w)) status). cbv zeta in R5. rewrite As in R5.
    rewrite R5. inversion F as [|? ? (N0 & N1 & N2 & N3) F']; subst.
    destruct (Z.eqb_spec s SIGSTOP); [tauto|]. destruct (Z.eqb_spec s SIGTRAP); [tauto|]. cbn [orb].
    destruct (Z.eqb_spec s SIGSEGV); [tauto|].
    set (w1 := tick (set_t _ _)).
    destruct (IH fuel w1 s r' m') as (w' & E1 & E2 & E3); auto.
    + cbn in Hf. lia.
    + cbn [fold_left] in Hx. subst w1. cbn [tick set_t w_t t_regs t_mem]. destruct (Z.eqb_spec s 0); [tauto|]. exact Hx.
    + exists w'. split; [exact E1|]. split; [rewrite E2; reflexivity|]. rewrite E3. subst w1. cbn [tick set_t w_conts].
      rewrite map_app, <- app_assoc. reflexivity.
Qed.

Lemma syscall_signals exec arrive h a e base w nr args res l fuel r' m' :
  runs_signals exec arrive h e -> Forall harmless l -> (List.length l < fuel)%nat -> arrivals arrive (5 + w_n w) l ->
  let rg := copy_regs a (setr (t_regs (w_t w)) (a_ip a) base) (prepare a nr args) in
  let m0 := fold_left (fun m s => h s m) l (with_code (t_mem (w_t w)) base (a_code a)) in
  exec rg m0 = Some (r', m') ->
  exists w', task_syscall fuel a e base w nr args res = Some (0, r' (a_ret a), w') /\
    t_regs (w_t w') = t_regs (w_t w) /\ t_attached (w_t w') = t_attached (w_t w) /\
    (forall x, t_mem (w_t w') x = if (base <=? x) && (x <? base + Z.of_nat (List.length (a_code a))) then t_mem (w_t w) x else m' x) /\
    map snd (w_conts w') = map snd (w_conts w) ++ 0 :: l.
Proof.
  intros R F Hf A rg m0 Hx. pose proof R as (R1 & R2 & R3 & R4 & R5).
  unfold task_syscall, getregs. rewrite R1. unfold memcpy_from_task. cbn [tick w_n w_t].
  rewrite (proj1 (R4 _ _ _)). unfold memcpy_to_task at 1. cbn [tick w_n w_t]. rewrite (proj2 (R4 _ _ _)).
  unfold setregs at 1. cbn [tick set_t w_n w_t t_regs t_mem t_attached w_conts]. rewrite R2.
  match goal with |- context [wait_for_stop fuel e ?W 0] => set (w1 := W) end.
  destruct (wait_signals _ _ _ _ R l fuel w1 0 r' m' F Hf) as (w' & E1 & E2 & E3).
  { exact A. }
  { exact Hx. }
  rewrite E1. change (0 <? 0) with false. cbn iota.
  cbn [tick set_t w_n w_t t_regs t_mem t_attached w_conts]. rewrite R1.
  unfold setregs. cbn [tick set_t w_n w_t t_regs t_mem t_attached w_conts]. rewrite R2.
  unfold memcpy_to_task. cbn [tick set_t w_n w_t t_regs t_mem t_attached w_conts]. rewrite (proj2 (R4 _ _ _)).
  rewrite E2. cbn [t_regs t_mem t_attached].
  eexists. split; [reflexivity|]. cbn [tick set_t w_n w_t t_regs t_mem t_attached w_conts]. rewrite ?E2. cbn [t_attached].
  split; auto. split; auto. split; [|exact E3].
  intros x. destruct (Z.leb_spec base x); [|reflexivity].
  destruct (Z.ltb_spec x (base + Z.of_nat (List.length (a_code a)))); [|reflexivity]. cbn [andb].
  destruct (Z.leb_spec 0 (x - base)); [|lia].
  destruct (Z.ltb_spec (x - base) (Z.of_nat (List.length (a_code a)))); [|lia]. cbn [andb]. f_equal. lia.
Qed.

Lemma handlers_at h base size l : handlers_keep h base size -> forall m x, within base size x ->
  fold_left (fun m s => h s m) l m x = m x.
Proof. intros H. induction l as [|s l IH]; intros m x Hx; [reflexivity|]. cbn [fold_left]. rewrite IH by auto. apply H; auto. Qed.

Lemma signals_done exec arrive h a k e base w nr args l :
  runs_signals exec arrive h e -> Forall harmless l -> arrivals arrive (5 + w_n w) l ->
  (let rg := copy_regs a (setr (t_regs (w_t w)) (a_ip a) base) (prepare a nr args) in
   let m0 := fold_left (fun m s => h s m) l (with_code (t_mem (w_t w)) base (a_code a)) in
   exists r', exec rg m0 = Some (r', snd (k (u64 nr) args m0)) /\ r' (a_ret a) = fst (k (u64 nr) args m0)) ->
  undisturbed a k e h base w nr args l.
Proof.
  intros R F A (r' & Hx & Hr) fuel res Hf.
  destruct (syscall_signals exec arrive h a e base w nr args res l fuel r' _ R F Hf A Hx) as (w' & A1 & B & B' & C & D).
  exists (with_code (t_mem (w_t w)) base (a_code a)), w'. rewrite Hr in A1.
  split.
  { intros x Hx'. unfold with_code, within in *.
    destruct (Z.leb_spec base x), (Z.ltb_spec x (base + Z.of_nat (List.length (a_code a)))); cbn; auto; lia. }
  split.
  { split; [exact A1|].
    intros x Hx'. rewrite C. unfold within in Hx'.
    destruct (Z.leb_spec base x), (Z.ltb_spec x (base + Z.of_nat (List.length (a_code a)))); cbn; auto; lia. }
  split; [auto|]. split; [auto|]. split; [|exact D].
  intros x Hx'. rewrite C. unfold within in Hx'.
  destruct (Z.leb_spec base x), (Z.ltb_spec x (base + Z.of_nat (List.length (a_code a)))); cbn; auto; lia.
Qed.

