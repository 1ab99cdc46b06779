(** Proofs for the small modules. *)
From Coq Require Import ZArith String List Bool Lia ZifyBool.
From Verif Require Import Word Str SymProofs ListModel ListSpec ListProps ScModel MiscModel MiscSpec.
Import ListNotations.
Open Scope Z_scope.

(** ** Auxiliary vector *)

Fixpoint fold_av (p : auxv) (l : list (Z * Z)) : auxv := match l with [] => p | (t, v) :: r => fold_av (record_entry p t v) r end.

Lemma loop_all rd f l : vector_file f l -> reads_all rd (16 * Z.of_nat (List.length l)) ->
  forall R L i cur p fuel, l = L ++ R -> (List.length R < fuel)%nat ->
  auxv_loop fuel rd f i (16 * Z.of_nat (List.length L)) cur p = Some (fold_av p R).
Proof.
  intros Hf Hr. induction R as [|[t v] R IH]; intros L i cur p fuel E Hl.
  - destruct fuel as [|fuel]; [cbn in Hl; lia|]. cbn [auxv_loop fold_av].
    rewrite app_nil_r in E. subst L. rewrite Hr by lia. replace (Z.min 16 (16 * Z.of_nat (List.length l) - 16 * Z.of_nat (List.length l))) with 0 by lia. reflexivity.
  - destruct fuel as [|fuel]; [cbn in Hl; lia|]. cbn [auxv_loop fold_av].
    assert (HL : Z.of_nat (List.length l) = Z.of_nat (List.length L) + 1 + Z.of_nat (List.length R)) by (rewrite E, app_length; cbn [List.length]; lia).
    assert (E16 : rd i (16 * Z.of_nat (List.length L)) = 16) by (rewrite Hr; lia).
    rewrite !E16. change (u64 16 <? 16) with false. cbv iota. change (16 =? -1) with false. cbv iota.
    destruct (Hf (List.length L) t v) as [-> ->].
    { rewrite E, nth_error_app2, Nat.sub_diag by lia. reflexivity. }
    cbn [fst snd].
    replace (16 * Z.of_nat (List.length L) + 16) with (16 * Z.of_nat (List.length (L ++ [(t, v)]))) by (rewrite app_length; cbn [List.length]; lia).
    apply IH. { rewrite E, <- app_assoc. reflexivity. } cbn [List.length] in Hl. lia.
Qed.

Lemma last_given_cons t v l k x y : last_given l k y -> (forall v', ~ In (k, v') l) -> y = 0 ->
  (k = t -> x = v) -> (k <> t -> x = 0) -> last_given ((t, v) :: l) k x.
Proof.
  intros _ H _ E1 E2. destruct (Z.eq_dec k t) as [->|Hne].
  - left. exists [], l. rewrite (E1 eq_refl). auto.
  - right. split; auto. intros v' [Q|Q]; [congruence|]. eapply H; eauto.
Qed.

Lemma given_dec (l : list (Z * Z)) k : (exists v, In (k, v) l) \/ (forall v, ~ In (k, v) l).
Proof.
  induction l as [|[t v] l IH]. { right. intros v []. }
  destruct IH as [(v0 & H)|H]. { left. exists v0. right. auto. }
  destruct (Z.eq_dec t k) as [->|Hne]. { left. exists v. left. auto. }
  right. intros v0 [Q|Q]; [congruence|eapply H; eauto].
Qed.

(** The value the fold leaves in a field that starts as [x]. *)
Definition fin (l : list (Z * Z)) (t x v : Z) : Prop :=
  (exists L R, l = L ++ (t, v) :: R /\ forall v', ~ In (t, v') R) \/ ((forall v', ~ In (t, v') l) /\ v = x).

Lemma fin_nil t x : fin [] t x x.
Proof. right. split; auto. Qed.

Lemma fin_cons t v l k x y : fin l k (if k =? t then v else x) y -> fin ((t, v) :: l) k x y.
Proof.
  intros [(L & R & -> & H)|[H ->]].
  - left. exists ((t, v) :: L), R. auto.
  - destruct (Z.eqb_spec k t) as [->|Hne].
    + left. exists [], l. auto.
    + right. split; auto. intros v' [Q|Q]; [congruence|eapply H; eauto].
Qed.

Lemma fold_fields l : forall p,
  fin l AT_PHDR (av_phdr p) (av_phdr (fold_av p l)) /\ fin l AT_PHENT (av_phent p) (av_phent (fold_av p l)) /\
  fin l AT_PHNUM (av_phnum p) (av_phnum (fold_av p l)) /\ fin l AT_BASE (av_interp p) (av_interp (fold_av p l)) /\
  fin l AT_ENTRY (av_entry p) (av_entry (fold_av p l)).
Proof.
  induction l as [|[t v] l IH]; intros p. { repeat split; apply fin_nil. }
  cbn [fold_av]. destruct (IH (record_entry p t v)) as (A & B & C & D & E). destruct p as [a b c d e].
  unfold record_entry in *. unfold AT_PHDR, AT_PHENT, AT_PHNUM, AT_BASE, AT_ENTRY in *.
  repeat split; apply fin_cons;
    destruct (Z.eqb_spec t 3); [subst t; assumption| |subst t; assumption| |subst t; assumption| |subst t; assumption| |subst t; assumption| ];
    (destruct (Z.eqb_spec t 4); [subst t; assumption|]);
    (destruct (Z.eqb_spec t 5); [subst t; assumption|]);
    (destruct (Z.eqb_spec t 7); [subst t; assumption|]);
    (destruct (Z.eqb_spec t 9); [subst t; assumption|]);
    match goal with |- fin _ _ (if ?x =? t then _ else _) _ => destruct (Z.eqb_spec x t); [congruence|assumption] end.
Qed.

Lemma auxv_ok rd f l junk fuel : vector_file f l -> reads_all rd (16 * Z.of_nat (List.length l)) -> (List.length l < fuel)%nat ->
  exists ret p, load_task_auxv fuel None rd f junk = Some (ret, p) /\
    last_given l 3 (av_phdr p) /\ last_given l 4 (av_phent p) /\ last_given l 5 (av_phnum p) /\
    last_given l 7 (av_interp p) /\ last_given l 9 (av_entry p) /\
    ((ret = 0 /\ av_phdr p <> 0 /\ av_phent p <> 0 /\ av_phnum p <> 0 /\ av_interp p <> 0 /\ av_entry p <> 0) \/
     (ret = - ENOENT /\ (av_phdr p = 0 \/ av_phent p = 0 \/ av_phnum p = 0 \/ av_interp p = 0 \/ av_entry p = 0))).
Proof.
  intros Hf Hr Hl. unfold load_task_auxv.
  pose proof (loop_all rd f l Hf Hr l [] O junk (Auxv 0 0 0 0 0) fuel eq_refl Hl) as E. cbn [List.length] in E. change (16 * Z.of_nat 0) with 0 in E. rewrite E.
  destruct (fold_fields l (Auxv 0 0 0 0 0)) as (A & B & C & D & F). cbn [av_phdr av_phent av_phnum av_interp av_entry] in A, B, C, D, F.
  set (p := fold_av (Auxv 0 0 0 0 0) l) in *. clearbody p.
  destruct (Z.eqb_spec (av_phdr p) 0); [eexists; exists p; split; [reflexivity|]; auto 15|].
  destruct (Z.eqb_spec (av_phent p) 0); [eexists; exists p; split; [reflexivity|]; auto 15|].
  destruct (Z.eqb_spec (av_phnum p) 0); [eexists; exists p; split; [reflexivity|]; auto 15|].
  destruct (Z.eqb_spec (av_interp p) 0); [eexists; exists p; split; [reflexivity|]; auto 15|].
  destruct (Z.eqb_spec (av_entry p) 0); [eexists; exists p; split; [reflexivity|]; auto 15|].
  eexists; exists p; split; [reflexivity|]. repeat (split; [assumption|]). left. auto 10.
Qed.

Lemma auxv_stuck f fuel : forall i off cur p, auxv_loop fuel (fun _ _ => -1) f i off cur p = None.
Proof. induction fuel; intros; auto. cbn [auxv_loop]. change (u64 (-1) <? 16) with false. cbv iota. apply IHfuel. Qed.

(** Once the reads stop failing the loop ends. *)
Lemma auxv_term rd f len n : reads_all (fun i => rd (n + i)%nat) (16 * Z.of_nat len) ->
  (forall i off, 0 <= off <= 16 * Z.of_nat len -> rd i off = -1 \/ rd i off = Z.min 16 (16 * Z.of_nat len - off)) ->
  forall fuel i k cur p, (k <= len)%nat -> (n - i + (len - k) + 1 <= fuel)%nat ->
  exists q, auxv_loop fuel rd f i (16 * Z.of_nat k) cur p = Some q.
Proof.
  intros Hr Hany. induction fuel as [|fuel IH]; intros i k cur p Hk Hf; [lia|]. cbn [auxv_loop].
  destruct (Hany i (16 * Z.of_nat k) ltac:(lia)) as [E|E].
  - assert (i < n)%nat.
    { destruct (Nat.lt_ge_cases i n) as [H|H]; auto. exfalso. specialize (Hr (i - n)%nat (16 * Z.of_nat k) ltac:(lia)). cbv beta in Hr.
      replace (n + (i - n))%nat with i in Hr by lia. rewrite E in Hr. lia. }
    rewrite E. change (u64 (-1) <? 16) with false. cbv iota. change (-1 =? -1) with true. cbv iota. apply IH; lia.
  - rewrite E. destruct (Nat.eq_dec k (len)) as [->|Hne].
    + rewrite !Z.sub_diag. change (u64 (Z.min 16 0) <? 16) with true. cbv iota. eauto.
    + replace (Z.min 16 (16 * Z.of_nat len - 16 * Z.of_nat k)) with 16 by lia. change (u64 16 <? 16) with false. cbv iota. change (16 =? -1) with false. cbv iota.
      replace (16 * Z.of_nat k + 16) with (16 * Z.of_nat (S k)) by lia. apply IH; lia.
Qed.

(** ** Callback chains *)

Lemma launch_path c head : forall l a pos n fuel, path (c_heap c) a l head -> Forall (fun x => live (c_heap c) x = true) (head :: l) ->
  ~ In head l -> pos = match l with x :: _ => x | [] => head end -> n = nx (c_heap c) pos -> (List.length l < fuel)%nat ->
  launch_from fuel c pos n head = Some (map (fun x => (c_cb c x, c_arg c x)) l).
Proof.
  induction l as [|x l IH]; intros a pos n fuel P F N -> -> Hl; (destruct fuel as [|fuel]; [cbn in Hl; lia|]); cbn [launch_from].
  - rewrite Z.eqb_refl. reflexivity.
  - destruct (Z.eqb_spec x head) as [->|Hne]. { exfalso. apply N. left. auto. }
    destruct P as (P1 & P2 & P3).
    assert (E : nx (c_heap c) x = match l with y :: _ => y | [] => head end) by (destruct l; destruct P3 as (Q & _); auto).
    rewrite E. unfold get_next. assert (L : live (c_heap c) (match l with y :: _ => y | [] => head end) = true).
    { inversion F as [|? ? F1 F2]; subst. destruct l as [|y l]; auto. inversion F2 as [|? ? F3 F4]; subst. inversion F4; auto. }
    rewrite L. rewrite (IH x (match l with y :: _ => y | [] => head end) (nx (c_heap c) (match l with y :: _ => y | [] => head end)) fuel).
    + reflexivity.
    + exact P3.
    + inversion F as [|? ? F1 F2]; subst. inversion F2; subst. constructor; auto.
    + intros Q. apply N. right. auto.
    + reflexivity.
    + reflexivity.
    + cbn [List.length] in Hl. lia.
Qed.

Lemma launch_ok c head l fuel : ring (c_heap c) head l -> (List.length l < fuel)%nat ->
  callback_launch_chain fuel c head = Some (map (fun x => (c_cb c x, c_arg c x)) l).
Proof.
  intros (P & N & F) Hl. unfold callback_launch_chain, get_next.
  assert (F' : Forall (fun x => live (c_heap c) x = true) (head :: l)) by (eapply Forall_impl; [|exact F]; intros x [Q _]; exact Q).
  assert (Hh : live (c_heap c) head = true) by (inversion F'; auto). rewrite Hh.
  assert (E : nx (c_heap c) head = match l with x :: _ => x | [] => head end) by (destruct l; destruct P as (Q & _); auto).
  rewrite E. assert (L : live (c_heap c) (match l with y :: _ => y | [] => head end) = true).
  { destruct l as [|y l]; auto. inversion F' as [|? ? F1 F2]; subst. inversion F2; auto. }
  rewrite L. apply launch_path with (a := head); auto. inversion N; auto.
Qed.

(** ** Strings *)

Lemma tolower_same a b : tolower a = tolower b <-> same_letter a b \/ same_letter b a.
Proof.
  unfold tolower. split.
  - intros H. destruct ((65 <=? a) && (a <=? 90)) eqn:A; destruct ((65 <=? b) && (b <=? 90)) eqn:B.
    + assert (a = b) by lia. subst. left. constructor.
    + subst b. left. apply UpLow. lia.
    + subst a. left. apply LowUp. lia.
    + subst. left. constructor.
  - intros [H|H]; inversion H; subst; auto;
    repeat match goal with |- context [if ?c then _ else _] => let E := fresh in destruct c eqn:E end; lia.
Qed.

Lemma same_letter_sym a b : same_letter a b -> same_letter b a.
Proof. intros H; inversion H; subst; constructor; auto. Qed.

Lemma strcasecmp_ok a b : strcasecmp_eq a b = true <-> same_name a b.
Proof.
  unfold strcasecmp_eq, same_name. revert b. induction a as [|x a IH]; intros [|y b]; cbn [map str_eqb].
  - split; auto.
  - split; [discriminate|intros H; inversion H].
  - split; [discriminate|intros H; inversion H].
  - rewrite andb_true_iff, Z.eqb_eq, IH, tolower_same. split.
    + intros [[H|H] Q]; constructor; auto using same_letter_sym.
    + intros H; inversion H; subst; auto.
Qed.

(** ** Insertion *)

Lemma path_ext h h' : (forall x, nx h' x = nx h x) -> (forall x, pv h' x = pv h x) -> forall l a b, path h a l b -> path h' a l b.
Proof.
  intros Hn Hp. induction l as [|x l IH]; intros a b; cbn [path]; rewrite ?Hn, ?Hp; intuition auto.
Qed.

Lemma ring_alloc h a head l : ring h head l -> ring (alloc_live h a) head l.
Proof.
  intros (P & N & F). split; [|split]; auto.
  - eapply path_ext; [| |exact P]; reflexivity.
  - eapply Forall_impl; [|exact F]. intros x [Q1 Q2]. split; auto. cbn [alloc_live live]. destruct (x =? a); auto.
Qed.

Lemma ring_live h head l x : ring h head l -> In x (head :: l) -> live h x = true.
Proof. intros (_ & _ & F) H. rewrite Forall_forall in F. apply F in H. tauto. Qed.

Lemma insert_ok c head l cb arg a : ring (c_heap c) head l -> head <> 0 -> cb <> 0 -> a <> 0 -> live (c_heap c) a = false ->
  exists c', insert_callback c head cb arg (Some a) = Some (0, c') /\ ring (c_heap c') head (l ++ [a]) /\
    map (fun x => (c_cb c' x, c_arg c' x)) (l ++ [a]) = map (fun x => (c_cb c x, c_arg c x)) l ++ [(cb, arg)] /\
    (forall x, live (c_heap c') x = if x =? a then true else live (c_heap c) x).
Proof.
  intros R Hh Hcb Ha Hl. unfold insert_callback.
  destruct (Z.eqb_spec head 0); [contradiction|]. destruct (Z.eqb_spec cb 0); [contradiction|]. cbn [orb].
  assert (Hn : ~ In a (head :: l)) by (intros Q; pose proof (ring_live _ _ _ _ R Q); congruence).
  destruct (C06_append (alloc_live (c_heap c) a) head l a) as (h' & E & R' & O & _).
  - apply ring_alloc, R.
  - split; [|auto]. cbn [alloc_live live]. rewrite Z.eqb_refl. auto.
  - cbn [c_heap]. rewrite E. eexists. split; [reflexivity|]. cbn [c_heap c_cb c_arg]. split; auto. split.
    + rewrite map_app. cbn [map]. unfold set. rewrite Z.eqb_refl. f_equal. apply map_ext_in. intros x Hx.
      destruct (Z.eqb_spec x a); auto. subst. exfalso. apply Hn. right. auto.
    + intros x. rewrite O. reflexivity.
Qed.

Lemma insert_all_ok head ops : head <> 0 -> forall c l, ring (c_heap c) head l -> NoDup (allocated ops) ->
  (forall a, In a (allocated ops) -> a <> 0 /\ live (c_heap c) a = false) ->
  exists c', insert_all c head ops = Some (map insert_result ops, c') /\ ring (c_heap c') head (l ++ allocated ops) /\
    map (fun x => (c_cb c' x, c_arg c' x)) (l ++ allocated ops) = map (fun x => (c_cb c x, c_arg c x)) l ++ registered ops.
Proof.
  intros Hh. induction ops as [|[[cb arg] new] ops IH]; intros c l R N F.
  - exists c. cbn [insert_all map allocated registered]. rewrite !app_nil_r. auto.
  - cbn [insert_all map allocated registered insert_result] in *. destruct (Z.eqb_spec cb 0) as [->|Hcb].
    + unfold insert_callback. rewrite orb_true_r. destruct (IH c l R N F) as (c' & E & Q). exists c'. rewrite E. auto.
    + destruct new as [a|].
      * cbn [In] in F. inversion N as [|? ? N1 N2]; subst. destruct (F a (or_introl eq_refl)) as [F1 F2].
        destruct (insert_ok c head l cb arg a R Hh Hcb F1 F2) as (c1 & E1 & R1 & M1 & L1).
        destruct (IH c1 (l ++ [a]) R1 N2) as (c' & E & R' & M).
        { intros x Hx. destruct (F x (or_intror Hx)) as [G1 G2]. split; auto. rewrite L1. destruct (Z.eqb_spec x a); auto. subst. contradiction. }
        exists c'. rewrite E1, E. rewrite M1 in M. rewrite <- !app_assoc in *. auto.
      * assert (E0 : insert_callback c head cb arg None = Some (- ENOMEM, c)).
        { unfold insert_callback. destruct (Z.eqb_spec head 0); [contradiction|]. destruct (Z.eqb_spec cb 0); [contradiction|]. reflexivity. }
        rewrite E0. destruct (IH c l R N F) as (c' & E & Q). exists c'. rewrite E. auto.
Qed.

(** ** Log *)

Definition said_of (l : list lop) : list said :=
  flat_map (fun o => match o with SetLevel n => [Level n] | SetPrefix _ => [] | Log k _ m => [Message k m] end) l.
Definition levels_ok (l : list lop) : Prop :=
  Forall (fun o => match o with SetLevel n => 0 <= n <= 7 | SetPrefix _ => True | Log k _ _ => 0 <= k <= 7 end) l.

Lemma upto_bit level k : 0 <= level <= 7 -> 0 <= k <= 7 -> Z.testbit (2 ^ (level + 1) - 1) (k mod 8) = (k <=? level).
Proof.
  intros Hl Hk. rewrite Z.mod_small by lia. replace (2 ^ (level + 1) - 1) with (Z.ones (level + 1)) by (rewrite Z.ones_equiv; lia).
  destruct (Z.leb_spec k level).
  - apply Z.ones_spec_low. lia.
  - apply Z.ones_spec_high. lia.
Qed.

Definition linv (s : lstate) : Prop := 0 <= l_level s <= 7 /\ l_mask s = 2 ^ (l_level s + 1) - 1.

Lemma init_inv level p m : 0 <= level <= 7 -> exists s, init_syslog (Ls level p m) = Some s /\ linv s /\ l_level s = level.
Proof.
  intros H. unfold init_syslog, log_upto. cbn [l_level l_prefix l_mask].
  assert (E : (0 <=? level + 1) && (level + 1 <=? 30) = true) by lia. rewrite E.
  eexists. split; [reflexivity|]. unfold linv. cbn [l_level l_mask]. split; [|auto]. split; auto.
  unfold setlogmask. assert (2 ^ 1 <= 2 ^ (level + 1)) by (apply Z.pow_le_mono_r; lia).
  destruct (Z.eqb_spec (2 ^ (level + 1) - 1) 0); [change (2 ^ 1) with 2 in *; lia|auto].
Qed.

Lemma lrun_ok l : forall s, linv s -> levels_ok l ->
  lrun s l = Some (visible (l_level s) (said_of l), visible (l_level s) (said_of l)).
Proof.
  induction l as [|o l IH]; intros s I F; [reflexivity|]. inversion F as [|? ? F1 F2]; subst. destruct o as [n|on|k hp m]; cbn [lrun].
  - unfold set_log_level. destruct (Z.eqb_spec (l_level s) n) as [<-|Hne].
    + rewrite (IH s I F2). reflexivity.
    + destruct (init_inv n (l_prefix s) (l_mask s) F1) as (s' & -> & I' & E). rewrite (IH s' I' F2), E. reflexivity.
  - rewrite (IH (Ls (l_level s) on (l_mask s)) I F2). reflexivity.
  - destruct I as [I1 I2]. unfold ulp_log. rewrite I2, upto_bit by auto.
    pose proof (IH s (conj I1 I2) F2) as E. cbn [said_of flat_map app visible]. fold (said_of l).
    destruct (Z.leb_spec k (l_level s)).
    + destruct (Z.ltb_spec (l_level s) k); [lia|]. destruct (hp && l_prefix s).
      * unfold level_prefix. assert (E7 : (0 <=? k) && (k <=? 7) = true) by lia. rewrite E7, E. reflexivity.
      * rewrite E. reflexivity.
    + destruct (Z.ltb_spec (l_level s) k); [|lia]. rewrite E. reflexivity.
Qed.

(** ** Code modification *)

Lemma write_mem e w addr v : addr mod 4 = 0 ->
  exists r w', aarch64_insn_write e w addr v = (r, w') /\ (r = 0 \/ r = -1) /\ t_regs (w_t w') = t_regs (w_t w) /\
  match e_write e (w_n w) addr 4 with
  | None => r = 0 /\ t_mem (w_t w') = t_mem (w_t w)
  | Some k => (r = 0 <-> k <> 0) /\ forall a, t_mem (w_t w') a = if (addr <=? a) && (a <? addr + k) then word4 v (a - addr) else t_mem (w_t w) a
  end.
Proof.
  intros H. unfold aarch64_insn_write. rewrite H. cbn [Z.eqb negb]. unfold memcpy_to_task. destruct (e_write e (w_n w) addr 4) as [k|].
  - exists (if k =? 0 then -1 else 0). eexists. split; [reflexivity|]. split; [destruct (k =? 0); auto|]. split; [reflexivity|]. split.
    + destruct (Z.eqb_spec k 0); split; intros; try lia; congruence.
    + intros a. reflexivity.
  - exists 0. eexists. split; [reflexivity|]. auto.
Qed.

Lemma ld4 m a : ld 4 m a = m a + 256 * m (a + 1) + 65536 * m (a + 2) + 16777216 * m (a + 3).
Proof. cbn [ld]. replace (a + 1 + 1) with (a + 2) by lia. replace (a + 2 + 1) with (a + 3) by lia. lia. Qed.

Lemma word4_val v : 0 <= v < 2 ^ 32 -> word4 v 0 + 256 * word4 v 1 + 65536 * word4 v 2 + 16777216 * word4 v 3 = v.
Proof.
  intros H. unfold word4. change (2 ^ (8 * 0)) with 1. change (2 ^ (8 * 1)) with 256. change (2 ^ (8 * 2)) with 65536. change (2 ^ (8 * 3)) with 16777216.
  change (2 ^ 32) with 4294967296 in H. Z.div_mod_to_equations. lia.
Qed.
