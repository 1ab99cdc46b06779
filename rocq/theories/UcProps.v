(** Property C218: the flags that ulpconfig prints. *)
From Coq Require Import ZArith String List Bool Lia.
From Verif Require Import Word WordLemmas Str.
From Verif Require Import ArModel ArSpec ArProofs ArProps UcModel UcSpec.
Import ListNotations.
Open Scope Z_scope.

Lemma uc_tables : distinct_long uc_long /\ distinct_short uc_short.
Proof. split; nodup. Qed.

Definition ok_event (e : event) : Prop :=
  match e with
  | Unknown => False
  | Opt v None => In v [U_CFLAGS; U_LDFLAGS; U_LIBS; 104; 118; 86]
  | Opt v (Some _) => In v [U_CC; U_LD]
  end.
Lemma says_ok ws es : says uc_long uc_short ws es -> Forall ok_event es.
Proof.
  assert (FL : forall fs, Forall (is_short uc_short NoArg) fs -> Forall ok_event (map flag fs)).
  { intros fs F. induction F as [|c fs C F IH]; cbn [map]; constructor; auto. unfold is_short, uc_short in C. cbn in C.
    destruct C as [C|[C|[C|[]]]]; injection C as E; subst c; cbn; auto 10. }
  assert (NR : forall k c, is_short uc_short k c -> k = NoArg).
  { intros k c C. unfold is_short, uc_short in C. cbn in C. destruct C as [C|[C|[C|[]]]]; injection C; auto. }
  assert (LT : forall n o a, names uc_long n o -> (l_arg o = match a with None => false | Some _ => true end) -> ok_event (Opt (l_val o) a)).
  { intros n o a (_ & I & _) A. unfold uc_long in I. cbn [In] in I. repeat (destruct I as [I|I]; [subst o|]); try destruct I; destruct a; cbn in A; try discriminate; cbn; auto 10. }
  intros H. induction H as [|ws|w ws es W H IH|n o ws es N0 N A H IH|n o x ws es N A H IH|n o x ws es N0 N A H IH
                            |fs ws es F0 F1 F H IH|fs c x ws es F1 F R V H IH|fs c x ws es F1 F R H IH|fs c x ws es F1 F R H IH]; auto.
  - constructor; auto. eapply LT; eauto.
  - constructor; auto. eapply LT; eauto.
  - constructor; auto. eapply LT; eauto.
  - apply Forall_app. split; auto.
  - apply NR in R. discriminate.
  - apply NR in R. discriminate.
  - apply NR in R. discriminate.
Qed.

Lemma blank_no c : c <> 32 -> c <> 9 -> c <> 10 -> blank c = false.
Proof. intros. unfold blank. rewrite !(proj2 (Z.eqb_neq _ _)) by auto. reflexivity. Qed.
Lemma until_word w : ~ In 32 w -> ~ In 9 w -> ~ In 10 w -> until_blank w = w.
Proof.
  induction w as [|c w IH]; cbn; intros A B C; auto. rewrite blank_no by (intros ->; tauto). rewrite IH; tauto.
Qed.
Lemma first_one w : one_word w -> first_word w = w.
Proof.
  intros (N & A & B & C). destruct w as [|c w]; [congruence|]. cbn in A, B, C. cbn [first_word]. rewrite blank_no by (intros ->; tauto).
  apply until_word; cbn; tauto.
Qed.

Definition usable_all (e : uenv) (es : list event) : Prop := forall v w, In (Opt v (Some w)) es -> usable e w.

(** The state after the options: what was asked for, and what was chosen last. *)
Definition after (d : list Z) (v : Z) (es : list event) : list Z := match last_arg v es with Some (Some w) => w | _ => d end.
Definition isg (v : Z) (es : list event) : bool := existsb (fun e => match e with Opt w _ => w =? v | Unknown => false end) es.
Lemma isg_iff v es : isg v es = true <-> given v es.
Proof.
  unfold isg, given. rewrite existsb_exists. split.
  - intros ([w a|] & I & E); [|discriminate]. apply Z.eqb_eq in E. subst. eauto.
  - intros (a & I). exists (Opt v a). split; auto. apply Z.eqb_refl.
Qed.
Lemma not_given v e es : ~ given v (e :: es) -> ~ given v es.
Proof. intros N (a & I). apply N. exists a. right. exact I. Qed.

Lemma loop_ok e es : forall s, Forall ok_event es -> usable_all e es -> ~ given 104 es -> ~ given 86 es ->
  exists vb, uc_loop e s es = Go (Us (after (u_cc s) U_CC es) (after (u_ld s) U_LD es) (u_cflags s || isg U_CFLAGS es) (u_ldflags s || isg U_LDFLAGS es)
                                   (u_libs s || isg U_LIBS es) vb (u_version s) (u_out s)).
Proof.
  induction es as [|ev es IH]; intros s F U NH NV.
  - exists (u_verbose s). destruct s; cbn. rewrite !orb_false_r. reflexivity.
  - inversion F as [|? ? O F']; subst. assert (U' : usable_all e es) by (intros v w I; apply (U v w); right; exact I).
    pose proof (not_given _ _ _ NH) as NH'. pose proof (not_given _ _ _ NV) as NV'.
    assert (A : forall v d w a, last_arg v es = None -> after d v (Opt w a :: es) = if w =? v then match a with Some x => x | None => d end else d).
    { intros v d w a L. unfold after. cbn [last_arg]. rewrite L. destruct (w =? v); destruct a; reflexivity. }
    assert (B : forall v d d' w a x, last_arg v es = Some x -> (x <> None) -> after d v (Opt w a :: es) = after d' v es).
    { intros v d d' w a x L N. unfold after. cbn [last_arg]. rewrite L. destruct x; congruence. }
    assert (SM : forall v x, In v [U_CC; U_LD] -> last_arg v es = Some x -> x <> None).
    { intros v x I L. apply last_arg_in in L. rewrite Forall_forall in F'. apply F' in L. destruct x; [discriminate|]. cbn in L, I.
      unfold U_CC, U_LD, U_CFLAGS, U_LDFLAGS, U_LIBS in *. lia. }
    assert (AF : forall v d w a, In v [U_CC; U_LD] -> after d v (Opt w a :: es) = after (if w =? v then match a with Some x => x | None => d end else d) v es).
    { intros v d w a I. destruct (last_arg v es) eqn:L.
      - eapply B; eauto.
      - rewrite A by exact L. unfold after. rewrite L. reflexivity. }
    destruct ev as [v a|]; [|destruct O]. cbn [uc_loop].
    assert (C1 : In U_CC [U_CC; U_LD]) by (cbn; auto). assert (C2 : In U_LD [U_CC; U_LD]) by (cbn; auto).
    rewrite (AF _ _ _ _ C1), (AF _ _ _ _ C2). unfold isg. cbn [existsb]. fold (isg U_CFLAGS es) (isg U_LDFLAGS es) (isg U_LIBS es).
    destruct a as [w|]; cbn in O.
    + assert (W : usable e w) by (apply (U v w); left; reflexivity). destruct W as (W1 & W2).
      destruct O as [<-|[<-|[]]]; unfold uc_step, set_cc, set_ld; cbn [Z.eqb U_CC U_LD U_CFLAGS U_LDFLAGS U_LIBS Pos.eqb]; rewrite (first_one _ W1), W2, app_nil_r; cbv zeta iota beta;
      match goal with |- context [uc_loop e ?s' es] => destruct (IH s' F' U' NH' NV') as (vb & IH'); exists vb; rewrite IH'; destruct s; reflexivity end.
    + repeat (destruct O as [O|O]; [subst v|]); try destruct O; unfold uc_step; cbn [Z.eqb U_CC U_LD U_CFLAGS U_LDFLAGS U_LIBS Pos.eqb];
      try (exfalso; apply NH; exists None; left; reflexivity); try (exfalso; apply NV; exists None; left; reflexivity);
      match goal with |- context [uc_loop e ?s' es] => destruct (IH s' F' U' NH' NV') as (vb & IH'); exists vb; rewrite IH'; destruct s; cbn; rewrite ?orb_true_r, ?orb_true_l; reflexivity end.
Qed.


Lemma chosen_after v d es c : chosen v d es c -> after d v es = c.
Proof.
  intros H. destruct H as [es N|pre w post N]; unfold after.
  - destruct (last_arg v es) as [x|] eqn:L; auto. apply last_arg_in in L. exfalso. eapply N; eauto.
  - assert (P : last_arg v post = None). { destruct (last_arg v post) as [x|] eqn:L; auto. apply last_arg_in in L. exfalso. eapply N; eauto. }
    assert (G : last_arg v (pre ++ Opt v (Some w) :: post) = Some (Some w)); [|rewrite G; reflexivity].
    induction pre as [|x pre IH]; cbn [app last_arg]; [rewrite P, Z.eqb_refl; reflexivity|rewrite IH; reflexivity].
Qed.

Lemma joined_spelled w ws : spelled (w :: ws) (UcModel.join (w :: ws)).
Proof. revert w. induction ws as [|x ws IH]; intros w; [constructor|]. change (UcModel.join (w :: x :: ws)) with (w ++ 32 :: UcModel.join (x :: ws)). constructor. apply IH. Qed.
Lemma filter_accepted (f : list Z -> bool) ws : accepted (fun w => f w = true) ws (filter f ws).
Proof. induction ws as [|w ws IH]; cbn; [constructor|]. destruct (f w) eqn:E; constructor; auto. congruence. Qed.
Lemma cflags_text e cc : compiler_text e cc (UcModel.join (cflags e cc)).
Proof.
  unfold compiler_text, cflags.
  exists (if str_eqb (uc_machine e) (str "x86_64") then x86_flags else if str_eqb (uc_machine e) (str "aarch64") then a64_flags else []).
  eexists. split; [|split; [apply filter_accepted|cbn [map app]; apply joined_spelled]]. unfold wanted.
  destruct (str_eqb (uc_machine e) (str "x86_64")) eqn:E1; [left; split; [apply str_eqb_eq, E1|reflexivity]|].
  destruct (str_eqb (uc_machine e) (str "aarch64")) eqn:E2; [right; left; split; [apply str_eqb_eq, E2|reflexivity]|].
  right; right. repeat split; auto; intros X; apply str_eqb_eq in X; congruence.
Qed.
Lemma ldflags_text e ld : linker_text e ld (UcModel.join (ldflags e ld)).
Proof.
  unfold linker_text, ldflags. exists (if uc_rwx e ld then [str "--no-warn-rwx-segments"] else []).
  split; [destruct (uc_rwx e ld); split; intros; congruence|]. split; [destruct (uc_rwx e ld); auto|]. cbn [map app]. apply joined_spelled.
Qed.

Lemma no_unknown es : Forall ok_event es -> existsb (fun ev => match ev with Unknown => true | _ => false end) es = false.
Proof. intros F. induction F as [|[v a|] es O F IH]; cbn [existsb orb]; auto. destruct O. Qed.
Lemma run_says e argv es : says uc_long uc_short argv es ->
  ulpconfig e argv = match uc_loop e ust0 es with Stop k o => (k, o) | Go s => uc_finish e s end.
Proof.
  intros H. unfold ulpconfig. destruct uc_tables as (D & DS). pose proof (says_ok _ _ H) as O. apply (C154_forms _ _ _ _ D DS) in H. destruct H as (-> & _).
  rewrite (no_unknown _ O). reflexivity.
Qed.
Lemma isg_false v es : ~ given v es -> isg v es = false.
Proof. intros N. destruct (isg v es) eqn:E; auto. apply isg_iff in E. contradiction. Qed.
Lemma asked_if v es (P : list Z -> Prop) t : P t -> if_asked (given v es) P (if isg v es then t ++ [32] else []).
Proof.
  intros H. unfold if_asked. destruct (isg v es) eqn:E.
  - left. split; [apply isg_iff, E|eauto].
  - right. split; auto. intros G. apply isg_iff in G. congruence.
Qed.

(** ** C218: the printed flags are those asked for, for the chosen compiler and linker *)

Theorem C218_flags_partial e argv es cc ld : says uc_long uc_short argv es -> ~ given 104 es -> ~ given 86 es ->
  (given U_CFLAGS es \/ given U_LDFLAGS es \/ given U_LIBS es) ->
  chosen U_CC (str "gcc") es cc -> chosen U_LD (str "ld") es ld -> usable e cc -> usable e ld -> usable_all e es ->
  exists a b, ulpconfig e argv = (0, a ++ b ++ [10]) /\ if_asked (given U_CFLAGS es) (compiler_text e cc) a /\ if_asked (given U_LDFLAGS es) (linker_text e ld) b.
Proof.
  intros H NH NV AS C L UC UL U. rewrite (run_says _ _ _ H). apply chosen_after in C, L.
  destruct (loop_ok e es ust0 (says_ok _ _ H) U NH NV) as (vb & E). rewrite E. unfold ust0. cbn [u_cc u_ld u_cflags u_ldflags u_libs u_version u_out orb]. rewrite C, L.
  destruct UC as (C1 & C2). destruct UL as (L1 & L2).
  exists (if isg U_CFLAGS es then UcModel.join (cflags e cc) ++ [32] else []), (if isg U_LDFLAGS es then UcModel.join (ldflags e ld) ++ [32] else []).
  split; [|split; apply asked_if; [apply cflags_text|apply ldflags_text]].
  unfold uc_finish, set_cc, set_ld. cbn [u_cc u_ld u_cflags u_ldflags u_libs u_version u_verbose u_out]. rewrite (first_one _ C1), C2.
  cbv zeta iota beta. cbn [u_cc u_ld u_cflags u_ldflags u_libs u_version u_verbose u_out]. rewrite (first_one _ L1), L2.
  cbv zeta iota beta. cbn [u_cc u_ld u_cflags u_ldflags u_libs u_version u_verbose u_out app].
  assert (T : isg U_CFLAGS es || isg U_LDFLAGS es || isg U_LIBS es = true).
  { rewrite !orb_true_iff, !isg_iff. tauto. }
  rewrite T. reflexivity.
Qed.
Print Assumptions C218_flags_partial.

Definition quiet (e : uenv) : Prop := forall w, snd (uc_help e w) = [].
Lemma step_quiet e s ev : quiet e -> u_out s = [] -> match uc_step e s ev with Go s' => u_out s' = [] | Stop _ o => o = [] end.
Proof.
  intros Q O. destruct ev as [v a|]; [|reflexivity]. unfold uc_step, set_cc, set_ld.
  destruct (v =? U_CFLAGS); [exact O|]. destruct (v =? U_LDFLAGS); [exact O|]. destruct (v =? U_LIBS); [exact O|].
  set (w := first_word _). pose proof (Q w) as X. destruct (uc_help e w) as [ok err]. cbn in X. subst err. rewrite O.
  destruct (v =? U_CC); [destruct ok; reflexivity|]. destruct (v =? U_LD); [destruct ok; reflexivity|].
  destruct (v =? 104); [reflexivity|]. destruct (v =? 118); reflexivity.
Qed.
Lemma loop_quiet e es : quiet e -> forall s, u_out s = [] -> match uc_loop e s es with Go s' => u_out s' = [] | Stop _ o => o = [] end.
Proof.
  intros Q. induction es as [|ev es IH]; intros s O; [exact O|]. cbn [uc_loop]. pose proof (step_quiet e s ev Q O) as X.
  destruct (uc_step e s ev) as [s'|k o]; [apply IH, X|exact X].
Qed.
Lemma step_status e s ev k o : ok_event ev -> uc_step e s ev = Stop k o -> (k = 0 /\ ev = Opt 104 None) \/ k = 1.
Proof.
  destruct ev as [v [w|]|]; cbn [ok_event]; intros O; [| |destruct O]; cbn [In] in O; repeat (destruct O as [O|O]; [subst v|]); try destruct O;
  unfold uc_step, set_cc, set_ld; cbn [Z.eqb U_CC U_LD U_CFLAGS U_LDFLAGS U_LIBS Pos.eqb]; try discriminate.
  all: try (intros E; injection E as <- _; left; split; reflexivity).
  all: match goal with |- context [first_word ?w] => destruct (uc_help _ (first_word w)) as [[] err]; [discriminate|]; intros E; injection E as <- _; right; reflexivity end.
Qed.
Lemma loop_status e es : Forall ok_event es -> forall s k o, uc_loop e s es = Stop k o -> (k = 0 /\ given 104 es) \/ k = 1.
Proof.
  intros F. induction F as [|ev es O F IH]; intros s k o; [discriminate|]. cbn [uc_loop]. destruct (uc_step e s ev) as [s'|k' o'] eqn:E.
  - intros H. apply IH in H. destruct H as [(-> & a & I)|]; auto. left. split; auto. exists a. right. exact I.
  - intros H. injection H as <- <-. apply step_status in E; auto. destruct E as [(-> & ->)|]; auto. left. split; auto. exists None. left. reflexivity.
Qed.
Lemma loop_go e es : Forall ok_event es -> forall s s', uc_loop e s es = Go s' ->
  (forall v w, In (Opt v (Some w)) es -> fst (uc_help e (first_word w)) = true) /\
  u_cflags s' = u_cflags s || isg U_CFLAGS es /\ u_ldflags s' = u_ldflags s || isg U_LDFLAGS es /\ u_libs s' = u_libs s || isg U_LIBS es /\ u_version s' = u_version s || isg 86 es.
Proof.
  intros F. induction F as [|ev es O F IH]; intros s s'.
  - cbn. intros E. injection E as <-. rewrite !orb_false_r. repeat split; auto; intros v w [].
  - cbn [uc_loop]. destruct (uc_step e s ev) as [t|] eqn:E; [|discriminate]. intros H. apply IH in H. destruct H as (H0 & -> & -> & -> & ->).
    assert (X : (forall v w, ev = Opt v (Some w) -> fst (uc_help e (first_word w)) = true) /\ u_cflags t = u_cflags s || isg U_CFLAGS [ev] /\
      u_ldflags t = u_ldflags s || isg U_LDFLAGS [ev] /\ u_libs t = u_libs s || isg U_LIBS [ev] /\ u_version t = u_version s || isg 86 [ev]).
    { destruct ev as [v [w|]|]; cbn [ok_event] in O; [| |destruct O]; cbn [In] in O; repeat (destruct O as [O|O]; [subst v|]); try destruct O;
      unfold uc_step, set_cc, set_ld in E; cbn [Z.eqb U_CC U_LD U_CFLAGS U_LDFLAGS U_LIBS Pos.eqb] in E; try discriminate.
      all: try (destruct (uc_help _ (first_word w)) as [[] err] eqn:HE; [|discriminate]; injection E as <-; cbn; rewrite ?orb_false_r; repeat split; auto;
           intros v w' X; injection X as _ <-; rewrite HE; reflexivity).
      all: injection E as <-; cbn; rewrite ?orb_false_r, ?orb_true_r; repeat split; auto; intros; discriminate. }
    destruct X as (X0 & -> & -> & -> & ->). split; [intros v w [I|I]; [eapply X0; eauto|eapply H0; eauto]|].
    unfold isg. cbn [existsb]. rewrite !orb_false_r, !orb_assoc. auto.
Qed.

(** A command line that cannot be used ends with status 1 and without flags. *)
Theorem C218_refused e argv :
  ((~ exists es, says uc_long uc_short argv es) -> ulpconfig e argv = (1, [])) /\
  (fst (ulpconfig e argv) = 0 \/ fst (ulpconfig e argv) = 1) /\
  (quiet e -> fst (ulpconfig e argv) <> 0 -> snd (ulpconfig e argv) = []) /\
  (forall es, says uc_long uc_short argv es -> fst (ulpconfig e argv) = 0 -> ~ given 104 es -> ~ given 86 es ->
     (given U_CFLAGS es \/ given U_LDFLAGS es \/ given U_LIBS es) /\
     forall v w, In (Opt v (Some w)) es -> one_word w -> fst (uc_help e w) = true).
Proof.
  destruct uc_tables as (D & DS).
  assert (UK : forall es, existsb (fun ev => match ev with Unknown => true | _ => false end) es = true <-> In Unknown es).
  { intros es. rewrite existsb_exists. split; [intros ([v a|] & I & E); [discriminate|exact I]|intros I; exists Unknown; auto]. }
  assert (N1 : (~ exists es, says uc_long uc_short argv es) -> ulpconfig e argv = (1, [])).
  { intros N. unfold ulpconfig. destruct (existsb _ _) eqn:E; [reflexivity|]. exfalso. apply N. exists (scan uc_long uc_short argv). apply (C154_forms _ _ _ _ D DS).
    split; auto. intros I. apply UK in I. congruence. }
  assert (CASE : (exists es, says uc_long uc_short argv es) \/ ulpconfig e argv = (1, [])).
  { unfold ulpconfig. destruct (existsb _ _) eqn:E; [right; reflexivity|]. left. exists (scan uc_long uc_short argv). apply (C154_forms _ _ _ _ D DS).
    split; auto. intros I. apply UK in I. congruence. }
  split; [exact N1|].
  assert (FIN : forall s, (fst (uc_finish e s) = 0 \/ fst (uc_finish e s) = 1) /\ (u_version s = false -> fst (uc_finish e s) = 0 -> u_cflags s || u_ldflags s || u_libs s = true) /\
     (quiet e -> u_out s = [] -> fst (uc_finish e s) <> 0 -> snd (uc_finish e s) = [])).
  { intros s. unfold uc_finish. destruct (u_version s); [cbn; repeat split; auto; [discriminate|congruence]|]. unfold set_cc.
    destruct (uc_help e (first_word (u_cc s))) as [ok1 r1] eqn:H1. destruct ok1; cbv zeta iota beta.
    2:{ cbn. repeat split; auto; [discriminate|]. intros Q O _. pose proof (Q (first_word (u_cc s))) as X. rewrite H1 in X. cbn in X. rewrite O, X. reflexivity. }
    unfold set_ld. cbn [u_ld u_out]. destruct (uc_help e (first_word (u_ld s))) as [ok2 r2] eqn:H2.
    assert (Z0 : quiet e -> u_out s = [] -> (u_out s ++ r1) ++ r2 = []).
    { intros Q O. pose proof (Q (first_word (u_cc s))) as X. rewrite H1 in X. pose proof (Q (first_word (u_ld s))) as Y. rewrite H2 in Y. cbn in X, Y. rewrite O, X, Y. reflexivity. }
    destruct ok2; cbv zeta iota beta; cbn [u_cflags u_ldflags u_libs u_out fst snd].
    - destruct (u_cflags s || u_ldflags s || u_libs s); cbn [negb fst snd]; repeat split; auto; try congruence; discriminate.
    - repeat split; auto. discriminate. }
  destruct CASE as [(es & S)|E].
  - rewrite (run_says _ _ _ S). pose proof (says_ok _ _ S) as O. destruct (uc_loop e ust0 es) as [s|k o] eqn:LP.
    + destruct (FIN s) as (F1 & F2 & F3). split; [exact F1|]. pose proof (loop_go e es O ust0 s LP) as (G0 & G1 & G2 & G3 & G4). cbn in G1, G2, G3, G4.
      split; [intros Q; apply F3; auto; pose proof (loop_quiet e es Q ust0 eq_refl) as X; rewrite LP in X; exact X|].
      intros es' S' Z0 NH NV. assert (es' = es) as ->.
      { apply (C154_forms _ _ _ _ D DS) in S, S'. destruct S, S'. congruence. }
      split.
      * assert (V : u_version s = false) by (rewrite G4; apply isg_false, NV). specialize (F2 V Z0). rewrite G1, G2, G3, !orb_true_iff, !isg_iff in F2. tauto.
      * intros v w I W. specialize (G0 _ _ I). rewrite (first_one _ W) in G0. exact G0.
    + pose proof (loop_status e es O ust0 k o LP) as K. split; [cbn; destruct K as [(-> & _)| -> ]; auto|].
      split; [intros Q _; pose proof (loop_quiet e es Q ust0 eq_refl) as X; rewrite LP in X; exact X|].
      intros es' S' Z0 NH NV. cbn in Z0. assert (es' = es) as ->.
      { apply (C154_forms _ _ _ _ D DS) in S, S'. destruct S, S'. congruence. }
      destruct K as [(_ & G)| -> ]; [contradiction|discriminate].
  - rewrite E. cbn. split; auto. split; auto. intros; discriminate.
Qed.
Print Assumptions C218_refused.

(** Help and version come before everything else and need no usable defaults. *)
Lemma loop_told e es : forall s, Forall ok_event es -> usable_all e es ->
  match uc_loop e s es with
  | Stop k o => k = 0 /\ o = u_out s /\ given 104 es
  | Go s' => ~ given 104 es /\ u_out s' = u_out s /\ u_version s' = u_version s || isg 86 es /\ u_verbose s' = u_verbose s || isg 118 es
  end.
Proof.
  induction es as [|ev es IH]; intros s F U.
  - cbn. rewrite !orb_false_r. repeat split; auto. intros (a & []).
  - inversion F as [|? ? O F']; subst. assert (U' : usable_all e es) by (intros v w I; apply (U v w); right; exact I).
    destruct ev as [v [w|]|]; cbn [ok_event In] in O; [| |destruct O].
    + assert (W : usable e w) by (apply (U v w); left; reflexivity). destruct W as (W1 & W2).
      assert (ST : exists s', uc_step e s (Opt v (Some w)) = Go s' /\ u_out s' = u_out s /\ u_version s' = u_version s /\ u_verbose s' = u_verbose s).
      { destruct O as [O|[O|[]]]; subst v; unfold uc_step, set_cc, set_ld; cbn [Z.eqb U_CC U_LD U_CFLAGS U_LDFLAGS U_LIBS Pos.eqb];
        rewrite (first_one _ W1), W2, app_nil_r; eexists; split; [reflexivity|cbn; auto|reflexivity|cbn; auto]. }
      destruct ST as (s' & ST & S1 & S2 & S3). cbn [uc_loop]. rewrite ST. specialize (IH s' F' U').
      assert (G : given 104 (Opt v (Some w) :: es) <-> given 104 es).
      { split; [intros (a & [I|I]); [exfalso; injection I as I _; unfold U_CC, U_LD in O; lia|exists a; exact I]|intros (a & I); exists a; right; exact I]. }
      assert (I1 : isg 86 (Opt v (Some w) :: es) = isg 86 es /\ isg 118 (Opt v (Some w) :: es) = isg 118 es).
      { unfold isg. cbn [existsb]. destruct O as [O|[O|[]]]; subst v; auto. }
      destruct I1 as (-> & ->). rewrite S1, S2, S3 in IH. destruct (uc_loop e s' es); rewrite G; exact IH.
    + destruct (Z.eq_dec v 104) as [->|NH].
      { cbn [uc_loop]. change (uc_step e s (Opt 104 None)) with (Stop 0 (u_out s)). cbv iota. repeat split; auto. exists None. left. reflexivity. }
      assert (ST : exists s', uc_step e s (Opt v None) = Go s' /\ u_out s' = u_out s /\ u_version s' = u_version s || (v =? 86) /\ u_verbose s' = u_verbose s || (v =? 118)).
      { destruct O as [O|[O|[O|[O|[O|[O|[]]]]]]]; subst v; try congruence; eexists; (split; [reflexivity|]); cbn; rewrite ?orb_false_r, ?orb_true_r; auto. }
      destruct ST as (s' & ST & S1 & S2 & S3). cbn [uc_loop]. rewrite ST. specialize (IH s' F' U').
      assert (G : given 104 (Opt v None :: es) <-> given 104 es).
      { split; [intros (a & [I|I]); [exfalso; injection I as I _; congruence|exists a; exact I]|intros (a & I); exists a; right; exact I]. }
      unfold isg. cbn [existsb]. fold (isg 86 es) (isg 118 es). rewrite S1, S2, S3 in IH. rewrite !orb_assoc. destruct (uc_loop e s' es); rewrite G; exact IH.
Qed.
Theorem C218_told e argv es : says uc_long uc_short argv es -> usable_all e es ->
  (given 104 es -> ulpconfig e argv = (0, [])) /\
  (~ given 104 es -> given 86 es -> exists more, ulpconfig e argv = (0, str "ulpconfig " ++ uc_version e ++ [10] ++ more) /\
     (given 118 es -> more = uc_numbers e) /\ (~ given 118 es -> more = [])).
Proof.
  intros S U. rewrite (run_says _ _ _ S). pose proof (loop_told e es ust0 (says_ok _ _ S) U) as H. destruct (uc_loop e ust0 es) as [s|k o].
  - destruct H as (NH & O & V & B). split; [intros G; contradiction|]. intros _ G. apply isg_iff in G. cbn in O, V, B. rewrite G in V.
    exists (if isg 118 es then uc_numbers e else []). unfold uc_finish. rewrite V, O, B. split; [reflexivity|].
    split; [intros X; apply isg_iff in X; rewrite X; reflexivity|intros X; rewrite (isg_false _ _ X); reflexivity].
  - destruct H as (-> & -> & G). split; [reflexivity|contradiction].
Qed.
Print Assumptions C218_told.

(** gcc, ld, clang: quiet; ccache: writes a line with every run; clang refuses -mno-3dnow; ld knows
    --no-warn-rwx-segments. *)
Definition env1 : uenv := Ue (fun w => (existsb (str_eqb w) (map str ["gcc"; "ld"; "clang"; "ccache"]%string), if str_eqb w (str "ccache") then str "note" ++ [10] else []))
  (fun cc f => existsb (str_eqb cc) (map str ["gcc"; "clang"; "ccache clang"]%string) && negb (negb (str_eqb cc (str "gcc")) && str_eqb f (str "-mno-3dnow")))
  (fun ld => str_eqb ld (str "ld")) (str "x86_64") (str "0.5.16") [].

(** What a compiler says on its standard error is printed before the flags, on the standard output. *)
Theorem C218_stdout_refuted : exists e argv es, says uc_long uc_short argv es /\ fst (uc_help e (str "ccache")) = true /\
  ulpconfig e argv = (0, str "note" ++ [10] ++ str "note" ++ [10] ++ str "-relocatable --build-id=sha1 -z noexecstack --no-warn-rwx-segments " ++ [10]).
Proof.
  exists env1, [str "--cc=ccache"; str "--ldfl"], [Opt U_CC (Some (str "ccache")); Opt U_LDFLAGS None].
  split; [apply C154_forms; [apply uc_tables|apply uc_tables|split; [vm_compute; reflexivity|cbn; intuition discriminate]]|]. vm_compute. auto.
Qed.
Print Assumptions C218_stdout_refuted.

(** A compiler of two words is cut off after its first one: the flags are not those of the named compiler. *)
Theorem C218_compiler_refuted : exists e argv es out, says uc_long uc_short argv es /\ chosen U_CC (str "gcc") es (str "gcc -m32") /\ ulpconfig e argv = (0, out) /\
  (forall cc, fst (uc_help e cc) = true) /\ quiet e /\
  ~ (exists a, compiler_text e (str "gcc -m32") a /\ out = a ++ [32; 10]).
Proof.
  pose (e := Ue (fun _ => (true, [])) (fun cc f => str_eqb cc (str "gcc")) (fun _ => true) (str "x86_64") [] []).
  exists e, [str "--cflags"; str "--cc"; str "gcc -m32"], [Opt U_CFLAGS None; Opt U_CC (Some (str "gcc -m32"))], (snd (ulpconfig e [str "--cflags"; str "--cc"; str "gcc -m32"])).
  split; [apply C154_forms; [apply uc_tables|apply uc_tables|split; [vm_compute; reflexivity|cbn; intuition discriminate]]|].
  split; [apply (ch_last U_CC (str "gcc") [Opt U_CFLAGS None] (str "gcc -m32") []); intros a []|].
  split; [vm_compute; reflexivity|]. split; [reflexivity|]. split; [intros w; reflexivity|].
  intros (a & (ws & k & W & A & S) & O).
  assert (K : k = []).
  { clear W S O. induction A as [|w l k X A IH|w l k X A IH]; auto. exfalso. vm_compute in X. discriminate. }
  subst k. assert (a = UcModel.join (map str ["-I/usr/include/"; "-D_GNU_SOURCE"; "-D__ULP_DEV=1"]%string)) as ->.
  { inversion S as [|? ? t1 S1]; subst. inversion S1 as [|? ? t2 S2]; subst. inversion S2 as [? E|? ? t3 S3]; subst; [reflexivity|inversion S3]. }
  vm_compute in O. discriminate.
Qed.
Print Assumptions C218_compiler_refuted.

(** ulpconfig --cflags --ldflags --cc clang: clang is asked, though it is named after --cflags. *)
Example C218_ex : says uc_long uc_short [str "--cflags"; str "--ldflags"; str "--cc"; str "clang"] [Opt U_CFLAGS None; Opt U_LDFLAGS None; Opt U_CC (Some (str "clang"))] /\
  usable env1 (str "clang") /\ usable env1 (str "ld") /\
  ulpconfig env1 [str "--cflags"; str "--ldflags"; str "--cc"; str "clang"] =
    (0, str "-I/usr/include/ -D_GNU_SOURCE -D__ULP_DEV=1 -m64 -mno-sse -mno-mmx -mno-sse2 -mno-avx -fcf-protection=branch -fno-jump-tables -falign-jumps=1 " ++
        str "-relocatable --build-id=sha1 -z noexecstack --no-warn-rwx-segments " ++ [10]) /\
  ulpconfig env1 [str "--cc=nocc"; str "--cflags"] = (1, []) /\ ulpconfig env1 [str "--c=gcc"; str "--cflags"] = (1, []) /\ ulpconfig env1 [] = (1, []) /\
  ulpconfig env1 [str "--cc=gcc"; str "-vhV"] = (0, []) /\ ulpconfig env1 [str "-V"; str "--cflags"] = (0, str "ulpconfig 0.5.16" ++ [10]).
Proof.
  split; [apply C154_forms; [apply uc_tables|apply uc_tables|split; [vm_compute; reflexivity|cbn; intuition discriminate]]|].
  split; [split; [split; [discriminate|cbn; intuition discriminate]|vm_compute; reflexivity]|].
  split; [split; [split; [discriminate|cbn; intuition discriminate]|vm_compute; reflexivity]|]. vm_compute. auto 10.
Qed.
