(** Properties C154-C167: the command lines of the tools. *)
From Coq Require Import ZArith String List Bool Lia.
From Verif Require Import Word WordLemmas Str.
From Verif Require TextModel MiscModel MiscProps PrProofs TextSpec TextProps.
From Verif Require Import ArModel ArSpec ArProofs.
Import ListNotations.
Open Scope Z_scope.

Ltac nodup := unfold distinct_long, distinct_short; cbv; repeat (constructor; [intros X; cbn in X; repeat destruct X as [X|X]; try discriminate; try contradiction|]); try constructor.
Lemma tables : (distinct_long ulpatch_long /\ distinct_short ulpatch_short) /\ (distinct_long ulftrace_long /\ distinct_short ulftrace_short) /\
  (distinct_long ulpinfo_long /\ distinct_short ulpinfo_short) /\ (distinct_long ultask_long /\ distinct_short ultask_short).
Proof. repeat split; nodup. Qed.

(** ** C154: options can be written in every documented form and order *)

Theorem C154_forms tab stab ws es : distinct_long tab -> distinct_short stab ->
  (says tab stab ws es <-> scan tab stab ws = es /\ ~ In Unknown es).
Proof.
  intros D DS. split.
  - intros H. split; [apply scan_says; auto|eapply says_known; eauto].
  - intros [H U]. subst es. apply says_scan, U.
Qed.
(** ulpatch -vvu --pat=a.ulp -p 12 -- x: an abbreviation, a value with '=', a cluster. *)
Example C154_ex : says ulpatch_long ulpatch_short [str "-uvv"; str "--pat=a.ulp"; str "-p"; str "-12"; str "--"; str "x"]
  [Opt 117 None; Opt 118 (Some (str "v")); Opt 144 (Some (str "a.ulp")); Opt 112 (Some (str "-12"))].
Proof.
  apply C154_forms; [apply tables|apply tables|]. split; [vm_compute; reflexivity|].
  intros X. cbn in X. repeat destruct X as [X|X]; try discriminate. exact X.
Qed.

(** ** C155: an unusable command line does nothing and is reported *)

Lemma level_exit t : MiscModel.log_level_option t = None -> MiscModel.str2loglevel (Some t) = - EINVAL.
Proof.
  unfold MiscModel.log_level_option. destruct (MiscModel.atoi t =? 0); [|discriminate].
  destruct (Z.ltb_spec (MiscModel.str2loglevel (Some t)) 0) as [H|]; [|discriminate]. intros _.
  apply MiscProps.C59_unknown. intros n v H1 H2.
  assert (K : MiscModel.str2loglevel (Some t) = v /\ 0 <= v) by (apply MiscProps.C59_names; exists n; auto). lia.
Qed.
Definition asks : list Z := [86; 104; 142].
Lemma common_exit c v a k : common_step c (Opt v a) = Some (Exit k) -> status k = 0 -> In v asks.
Proof.
  unfold common_step, asks. intros H S. 
  destruct (Z.eqb_spec v 86); [cbn; auto|]. destruct (Z.eqb_spec v 104); [cbn; auto|].
  destruct (v =? 118); [discriminate|]. destruct (v =? 117); [discriminate|].
  destruct (v =? ARG_LOG_LEVEL).
  { exfalso. destruct (MiscModel.log_level_option (match a with Some t => t | None => [] end)) eqn:L; [discriminate|].
    apply level_exit in L. rewrite L in H. injection H as <-. discriminate S. }
  destruct (v =? ARG_LOG_DEBUG); [discriminate|]. destruct (v =? ARG_LOG_ERR); [discriminate|].
  destruct (Z.eqb_spec v ARG_LOG_INFO) as [->|]; [cbn; auto|]. destruct (v =? 70); discriminate.
Qed.
Lemma common_no_crash c e : common_step c e <> Some Crash.
Proof.
  destruct e as [v a|]; [|discriminate]. unfold common_step.
  destruct (v =? 86); [discriminate|]. destruct (v =? 104); [discriminate|]. destruct (v =? 118); [discriminate|]. destruct (v =? 117); [discriminate|].
  destruct (v =? ARG_LOG_LEVEL); [destruct (MiscModel.log_level_option _); discriminate|].
  destruct (v =? ARG_LOG_DEBUG); [discriminate|]. destruct (v =? ARG_LOG_ERR); [discriminate|]. destruct (v =? ARG_LOG_INFO); [discriminate|]. destruct (v =? 70); discriminate.
Qed.
(** The common options. *)
Lemma common_known c v a : In v [86; 104; 118; 117; 139; 140; 141; 142; 70] -> common_step c (Opt v a) <> None.
Proof. intros H. cbn in H. repeat destruct H as [<-|H]; try discriminate. destruct H. Qed.

Section Tool.
Variables (A : Type) (own : A -> Z -> option (list Z) -> option (step A)) (get : A -> common) (set : A -> common -> A).
Variables (tab : list lopt) (stab : list sopt) (ask : list Z).
Hypothesis own_exit : forall x v a k, own x v a = Some (Exit k) -> status k = 0 -> In v ask.
Hypothesis own_crash : forall x v a, own x v a <> Some Crash.
Hypothesis own_known : forall x v a, val_of tab stab v -> own x v a = None -> In v [86; 104; 118; 117; 139; 140; 141; 142; 70].
Let stepf := tool_step own get set.

Lemma tool_unknown x : stepf x Unknown = Exit 1.
Proof. reflexivity. Qed.
Lemma tool_exit x v a k : val_of tab stab v -> stepf x (Opt v a) = Exit k -> status k = 0 -> In v (ask ++ asks).
Proof.
  intros V H S. unfold stepf, tool_step in H. apply in_or_app. destruct (own x v a) as [r|] eqn:O.
  - left. subst r. eapply own_exit; eauto.
  - right. pose proof (common_known (get x) v a (own_known x v a V O)) as K.
    destruct (common_step (get x) (Opt v a)) as [[c|j|]|] eqn:C; try discriminate; [|contradiction]. injection H as ->. eapply common_exit; eauto.
Qed.
Lemma tool_crash x e : stepf x e <> Crash.
Proof.
  intros H. unfold stepf, tool_step in H. destruct e as [v a|]; [|discriminate]. destruct (own x v a) as [r|] eqn:O.
  - subst r. exact (own_crash _ _ _ O).
  - pose proof (common_no_crash (get x) (Opt v a)) as K. destruct (common_step (get x) (Opt v a)) as [[c|j|]|] eqn:C; try discriminate. contradiction.
Qed.
Lemma tool_run_exit x ws k : run stepf x (scan tab stab ws) = Exit k -> status k = 0 -> exists v, In v (ask ++ asks) /\ given v (scan tab stab ws).
Proof.
  intros H S. apply run_exit in H. destruct H as (y & e & I & H). destruct e as [v a|]; [|rewrite tool_unknown in H; injection H as <-; discriminate S].
  exists v. split; [|exists a; exact I]. eapply tool_exit; eauto. eapply scan_vals; eauto.
Qed.
Lemma tool_run_crash x es : run stepf x es <> Crash.
Proof. intros H. apply run_crash in H. destruct H as (y & e & I & H). exact (tool_crash _ _ H). Qed.
Lemma tool_run_says x y ws : run stepf x (scan tab stab ws) = Next y -> says tab stab ws (scan tab stab ws).
Proof. intros H. apply says_scan. eapply run_known; eauto. exact tool_unknown. Qed.
End Tool.

Ltac vals V := destruct V as [(o & V & <-)|(o & V & <-)]; cbn in V; repeat destruct V as [<-|V]; cbn; try contradiction.
Ltac own_cases := match goal with |- context [if ?b then _ else _] => destruct b eqn:?; own_cases | _ => idtac end.

Lemma ulpatch_own_exit x v a k : ulpatch_own x v a = Some (Exit k) -> status k = 0 -> In v [146].
Proof. unfold ulpatch_own. intros H S. tests H; try discriminate. left. symmetry. apply Z.eqb_eq. assumption. Qed.
Lemma ulpatch_own_crash x v a : ulpatch_own x v a <> Some Crash.
Proof. unfold ulpatch_own. own_cases; discriminate. Qed.
Lemma ulpatch_own_known x v a : val_of ulpatch_long ulpatch_short v -> ulpatch_own x v a = None -> In v [86; 104; 118; 117; 139; 140; 141; 142; 70].
Proof. intros V H. vals V; try discriminate H; tauto. Qed.
Lemma ulftrace_own_exit x v a k : ulftrace_own x v a = Some (Exit k) -> status k = 0 -> In v [].
Proof. unfold ulftrace_own. intros H S. tests H; discriminate. Qed.
Lemma ulftrace_own_crash x v a : ulftrace_own x v a <> Some Crash.
Proof. unfold ulftrace_own. own_cases; discriminate. Qed.
Lemma ulftrace_own_known x v a : val_of ulftrace_long ulftrace_short v -> ulftrace_own x v a = None -> In v [86; 104; 118; 117; 139; 140; 141; 142; 70].
Proof. intros V H. vals V; try discriminate H; tauto. Qed.
Lemma ulpinfo_own_exit x v a k : ulpinfo_own x v a = Some (Exit k) -> status k = 0 -> In v [].
Proof. unfold ulpinfo_own. intros H S. tests H; discriminate. Qed.
Lemma ulpinfo_own_crash x v a : ulpinfo_own x v a <> Some Crash.
Proof. unfold ulpinfo_own. own_cases; discriminate. Qed.
Lemma ulpinfo_own_known x v a : val_of ulpinfo_long ulpinfo_short v -> ulpinfo_own x v a = None -> In v [86; 104; 118; 117; 139; 140; 141; 142; 70].
Proof. intros V H. vals V; try discriminate H; tauto. Qed.

(** An exit with an error. *)
Definition failing {A} (s : step A) : Prop := match s with Next _ => True | Exit k => status k <> 0 | Crash => False end.
Lemma and_then_failing {A B} (s : step A) (k : A -> step B) : failing s -> (forall a, failing (k a)) -> failing (and_then s k).
Proof. intros H K. destruct s; cbn in *; auto. Qed.
Lemma each_failing {A} (f : A -> list Z -> step A) ts : (forall x t, failing (f x t)) -> forall x, failing (each f x ts).
Proof.
  intros F. induction ts as [|t ts IH]; intros x; [exact I|]. cbn. specialize (F x t). destruct (f x t); auto.
Qed.
Ltac fails := repeat match goal with |- context [if ?b then _ else _] => destruct b end; cbn; auto; try discriminate.
Lemma dump_failing d t : failing (dump_option d t).
Proof. apply and_then_failing; [apply each_failing; intros; unfold dump_tok; fails|intros; fails]. Qed.
Lemma jmp_failing j t : failing (jmp_option j t).
Proof. apply and_then_failing; [apply each_failing; intros; unfold jmp_tok; fails|intros; fails]. Qed.
Lemma map_failing m t : failing (map_option m t).
Proof. apply and_then_failing; [apply each_failing; intros; unfold map_tok; fails|intros x; destruct (m_file x); cbn; auto; try discriminate]. Qed.
Lemma prot_failing page p t : failing (prot_option page p t).
Proof. apply and_then_failing; [apply each_failing; intros; unfold prot_tok; fails|intros; fails]. Qed.
Lemma ultask_failing page x v a : match ultask_own page x v a with Some s => failing s | None => True end.
Proof.
  unfold ultask_own. destruct x.
  repeat match goal with |- context [if ?b then _ else _] => destruct b end; try exact I;
    (apply and_then_failing; [first [apply dump_failing|apply jmp_failing|apply map_failing|apply prot_failing]|intros; exact I]).
Qed.
Lemma ultask_own_exit page x v a k : ultask_own page x v a = Some (Exit k) -> status k = 0 -> In v [].
Proof. intros H S. pose proof (ultask_failing page x v a) as F. rewrite H in F. cbn in F. contradiction. Qed.
Lemma ultask_own_crash page x v a : ultask_own page x v a <> Some Crash.
Proof. intros H. pose proof (ultask_failing page x v a) as F. rewrite H in F. exact F. Qed.
Lemma ultask_own_known page x v a : val_of ultask_long ultask_short v -> ultask_own page x v a = None -> In v [86; 104; 118; 117; 139; 140; 141; 142; 70].
Proof. intros V H. destruct x. vals V; try discriminate H; tauto. Qed.

Lemma ulpatch_check_failing e x : failing (ulpatch_check e x).
Proof. unfold ulpatch_check. destruct (p_cmd x); fails. Qed.
Lemma ulftrace_check_failing e x : failing (ulftrace_check e x).
Proof. unfold ulftrace_check. destruct (f_func x), (f_obj x); fails. Qed.
(** No path of an existing file is longer than the system allows. *)
Definition paths_fit (e : env) : Prop := forall p, e_exist e p = true -> Z.of_nat (List.length p) < 4096.
Lemma map_path_failing e pid f : paths_fit e -> failing (map_path e pid f).
Proof.
  intros P. unfold map_path. set (real := match f with [] => _ | _ => _ end). clearbody real.
  destruct (e_exist e real) eqn:E; [|cbn; discriminate]. specialize (P _ E). cbn [negb]. destruct (e_regular e real); [|cbn; discriminate]. cbn [negb].
  destruct (e_size e real =? 0); [cbn; discriminate|]. destruct (Z.leb_spec PATH_MAX (Z.of_nat (List.length real))); [unfold PATH_MAX in *; lia|exact I].
Qed.
Lemma ultask_check_failing e x : paths_fit e -> failing (ultask_check e x).
Proof.
  intros P. unfold ultask_check. 
  destruct (t_pid x =? -1); [cbn; discriminate|]. destruct (e_pid e (t_pid x)); [|cbn; discriminate]. cbn [negb].
  destruct (_ && _); [cbn; discriminate|]. destruct (_ && _); [cbn; discriminate|].
  apply and_then_failing.
  - destruct (m_file (t_map x)); [|exact I]. apply and_then_failing; [apply map_path_failing, P|intros; exact I].
  - intros a. destruct (match t_out x with Some _ => _ | None => _ end); cbn; auto; try discriminate.
Qed.

Lemma config_run {A B} (s : step A) (k : A -> step B) y : and_then s k = Next y -> exists x, s = Next x.
Proof. intros H. apply and_then_next in H. destruct H as (x & H & _). eauto. Qed.
Lemma config_exit {A B} (s : step A) (k : A -> step B) (P : Prop) c : (forall x, failing (k x)) -> (s = Exit c -> status c = 0 -> P) ->
  and_then s k = Exit c -> status c = 0 -> P.
Proof.
  intros F Q H S. apply and_then_exit in H. destruct H as [H|(x & _ & H)]; [auto|]. specialize (F x). rewrite H in F. contradiction.
Qed.

Theorem C155_misuse e argv : paths_fit e ->
  ((forall x, ulpatch_config e argv = Next x -> exists es, says ulpatch_long ulpatch_short argv es) /\
   (forall x, ulftrace_config e argv = Next x -> exists es, says ulftrace_long ulftrace_short argv es) /\
   (forall x, ulpinfo_config argv = Next x -> exists es, says ulpinfo_long ulpinfo_short argv es) /\
   (forall x, ultask_config e argv = Next x -> exists es, says ultask_long ultask_short argv es)) /\
  ((forall k, ulpatch_config e argv = Exit k -> status k = 0 -> exists v, In v [146; 86; 104; 142] /\ given v (scan ulpatch_long ulpatch_short argv)) /\
   (forall k, ulftrace_config e argv = Exit k -> status k = 0 -> exists v, In v [86; 104; 142] /\ given v (scan ulftrace_long ulftrace_short argv)) /\
   (forall k, ulpinfo_config argv = Exit k -> status k = 0 -> exists v, In v [86; 104; 142] /\ given v (scan ulpinfo_long ulpinfo_short argv)) /\
   (forall k, ultask_config e argv = Exit k -> status k = 0 -> exists v, In v [86; 104; 142] /\ given v (scan ultask_long ultask_short argv))) /\
  (ulpatch_config e argv <> Crash /\ ulftrace_config e argv <> Crash /\ ulpinfo_config argv <> Crash /\ ultask_config e argv <> Crash).
Proof.
  intros P. split; [|split].
  - repeat split; intros x H; apply config_run in H; destruct H as (y & H); eexists; eapply tool_run_says; exact H.
  - split; [|split; [|split]]; intros k; unfold ulpatch_config, ulftrace_config, ulpinfo_config, ultask_config; apply config_exit.
    + intros x. apply ulpatch_check_failing.
    + apply (tool_run_exit _ ulpatch_own p_common _ ulpatch_long ulpatch_short [146] ulpatch_own_exit ulpatch_own_known).
    + intros x. apply ulftrace_check_failing.
    + apply (tool_run_exit _ ulftrace_own f_common _ ulftrace_long ulftrace_short [] ulftrace_own_exit ulftrace_own_known).
    + intros x. destruct (i_file x); [exact I|]. destruct (i_pid x =? 0); cbn; auto; try discriminate.
    + apply (tool_run_exit _ ulpinfo_own i_common _ ulpinfo_long ulpinfo_short [] ulpinfo_own_exit ulpinfo_own_known).
    + intros x. apply ultask_check_failing, P.
    + apply (tool_run_exit _ (ultask_own (e_page e)) t_common _ ultask_long ultask_short [] (ultask_own_exit (e_page e)) (ultask_own_known (e_page e))).
  - repeat split; intros H; apply and_then_crash in H; destruct H as [H|(x & _ & H)].
    + eapply (tool_run_crash _ ulpatch_own); [exact ulpatch_own_crash|exact H].
    + pose proof (ulpatch_check_failing e x) as F. rewrite H in F. exact F.
    + eapply (tool_run_crash _ ulftrace_own); [exact ulftrace_own_crash|exact H].
    + pose proof (ulftrace_check_failing e x) as F. rewrite H in F. exact F.
    + eapply (tool_run_crash _ ulpinfo_own); [exact ulpinfo_own_crash|exact H].
    + destruct (i_file x); [discriminate|]. destruct (i_pid x =? 0); discriminate.
    + eapply (tool_run_crash _ (ultask_own (e_page e))); [exact (ultask_own_crash (e_page e))|exact H].
    + pose proof (ultask_check_failing e x P) as F. rewrite H in F. exact F.
Qed.
Print Assumptions C154_forms.
Print Assumptions C155_misuse.
Definition env0 : env :=
  Ev (fun p => p =? 12) (fun f => str_eqb f (str "/t/a.so")) (fun _ => true) (fun _ => 100) (fun _ => Some (str "/t")) 4096 (fun _ => 0) (fun _ => true) (str "/t/a.so").
Lemma env0_fit : paths_fit env0.
Proof. intros p H. cbn in H. apply str_eqb_eq in H. subst p. reflexivity. Qed.
Example C155_ex : paths_fit env0 /\ ulpatch_config env0 [str "-p"; str "12"; str "--unpatch"] = Next (Pc CmdUnpatch 12 None common0) /\
  ulpatch_config env0 [str "--pid=12"; str "--unpatsch"] = Exit 1 /\ ultask_config env0 [str "-p12"; str "--lv=loud"] = Exit (-22) /\
  ulpatch_config env0 [str "--map-pfx"] = Exit 0.
Proof. split; [exact env0_fit|]. vm_compute. auto. Qed.

(** ** C156: the process acted on is the one named *)

Lemma says_arg tab stab ws es v : says tab stab ws es -> In (Opt v None) es ->
  (exists o, In o tab /\ l_val o = v /\ l_arg o = false) \/ (exists o, In o stab /\ s_char o = v /\ s_arg o <> Required).
Proof.
  assert (FL : forall fs es', Forall (is_short stab NoArg) fs -> In (Opt v None) (map flag fs ++ es') ->
    In (Opt v None) es' \/ (exists o, In o stab /\ s_char o = v /\ s_arg o <> Required)).
  { intros fs es' F X. apply in_app_or in X. destruct X as [X|X]; auto. right. apply in_map_iff in X. destruct X as (c & E & X). injection E as ->.
    rewrite Forall_forall in F. specialize (F _ X). exists (So v NoArg). repeat split; auto. discriminate. }
  intros H. induction H as [|ws|w ws es W H IH|n o ws es N0 N A H IH|n o x ws es N A H IH|n o x ws es N0 N A H IH
                            |fs ws es F0 F1 F H IH|fs c x ws es F1 F R V H IH|fs c x ws es F1 F R H IH|fs c x ws es F1 F R H IH]; intros X.
  - destruct X.
  - destruct X.
  - auto.
  - destruct X as [X|X]; auto. injection X as <-. left. exists o. destruct N as (_ & N & _). auto.
  - destruct X as [X|X]; auto. discriminate.
  - destruct X as [X|X]; auto. discriminate.
  - destruct (FL _ _ F X); auto.
  - destruct (FL _ _ F X) as [[Y|Y]|]; auto. discriminate.
  - destruct (FL _ _ F X) as [[Y|Y]|]; auto. discriminate.
  - destruct (FL _ _ F X) as [[Y|Y]|Y]; auto. injection Y as <- _. right. exists (So c Optional). repeat split; auto. discriminate.
Qed.

Ltac in_tab V := cbn in V; repeat match type of V with _ \/ _ => destruct V as [<-|V] end; try contradiction; cbn in *; try discriminate; try congruence.
Lemma pid_text tab stab ws es : says tab stab ws es ->
  Forall (fun o => l_val o = 112 -> l_arg o = true) tab -> Forall (fun o => s_char o = 112 -> s_arg o = Required) stab -> given 112 es ->
  exists t, last_arg 112 es = Some (Some t).
Proof.
  intros S F1 F2 G. destruct (last_arg 112 es) as [[t|]|] eqn:L; [eauto| |exfalso; apply last_arg_none in L; contradiction].
  apply last_arg_in in L. rewrite Forall_forall in F1, F2. destruct (says_arg _ _ _ _ _ S L) as [(o & O1 & O2 & O3)|(o & O1 & O2 & O3)].
  - specialize (F1 _ O1 O2). congruence.
  - specialize (F2 _ O1 O2). congruence.
Qed.
(** The common part of a step is never the tool's. *)
Lemma tool_next {A} own get (set : A -> common -> A) x e y : tool_step own get set x e = Next y ->
  exists v a, e = Opt v a /\ (own x v a = Some (Next y) \/ (own x v a = None /\ exists c, common_step (get x) e = Some (Next c) /\ y = set x c)).
Proof.
  unfold tool_step. destruct e as [v a|]; [|discriminate]. intros H. exists v, a. split; [reflexivity|]. destruct (own x v a) as [r|].
  - left. congruence.
  - right. split; [reflexivity|]. destruct (common_step (get x) (Opt v a)) as [[c|k|]|]; try discriminate. injection H as <-. eauto.
Qed.
Definition pid_of (a : option (list Z)) : Z := MiscModel.atoi (text a).
Lemma ulpatch_pid x e y : ulpatch_step x e = Next y -> p_pid y = on_val 112 pid_of e (p_pid x).
Proof.
  intros H. apply tool_next in H. destruct H as (v & a & -> & [H|(H & c & _ & ->)]); unfold ulpatch_own in H; cbn [on_val].
  - tests H; try discriminate; injection H as <-; reflexivity.
  - tests H; try discriminate. reflexivity.
Qed.
Lemma ulftrace_pid x e y : ulftrace_step x e = Next y -> f_pid y = on_val 112 pid_of e (f_pid x).
Proof.
  intros H. apply tool_next in H. destruct H as (v & a & -> & [H|(H & c & _ & ->)]); unfold ulftrace_own in H; cbn [on_val].
  - tests H; try discriminate; injection H as <-; reflexivity.
  - tests H; try discriminate. reflexivity.
Qed.
Lemma ulpinfo_pid x e y : ulpinfo_step x e = Next y -> i_pid y = on_val 112 pid_of e (i_pid x).
Proof.
  intros H. apply tool_next in H. destruct H as (v & a & -> & [H|(H & c & _ & ->)]); unfold ulpinfo_own in H; cbn [on_val].
  - destruct (Z.eqb_spec v 105) as [->|]; [injection H as <-; reflexivity|]. tests H; try discriminate; injection H as <-; reflexivity.
  - tests H; try discriminate. reflexivity.
Qed.
(** An option of ultask changes only its own part. *)
Ltac ultask_cases H :=
  unfold ultask_own in H;
  repeat match type of H with context [if ?b then _ else _] => let E := fresh "E" in destruct b eqn:E; [apply Z.eqb_eq in E; subst|] end;
  try discriminate H;
  try match type of H with Some (and_then ?s _) = _ => let Q := fresh "Q" in destruct s eqn:Q; try discriminate H end;
  try (cbn [and_then] in H; injection H as <-).
Lemma ultask_pid page x e y : ultask_step page x e = Next y -> t_pid y = on_val 112 pid_of e (t_pid x).
Proof.
  intros H. apply tool_next in H. destruct H as (v & a & -> & [H|(H & c & _ & ->)]); cbn [on_val]; destruct x.
  - ultask_cases H; reflexivity.
  - destruct (Z.eqb_spec v 112) as [->|]; [discriminate H|reflexivity].
Qed.

Theorem C156_pid_partial e argv :
  (forall x, ulpatch_config e argv = Next x -> exists es t, says ulpatch_long ulpatch_short argv es /\ last_arg 112 es = Some (Some t) /\
     e_pid e (p_pid x) = true /\ forall n, 0 <= n < 2 ^ 31 -> t = dec n -> p_pid x = n) /\
  (forall x, ulftrace_config e argv = Next x -> exists es t, says ulftrace_long ulftrace_short argv es /\ last_arg 112 es = Some (Some t) /\
     e_pid e (f_pid x) = true /\ forall n, 0 <= n < 2 ^ 31 -> t = dec n -> f_pid x = n) /\
  (forall x, ultask_config e argv = Next x -> exists es t, says ultask_long ultask_short argv es /\ last_arg 112 es = Some (Some t) /\
     e_pid e (t_pid x) = true /\ forall n, 0 <= n < 2 ^ 31 -> t = dec n -> t_pid x = n) /\
  (forall p, ulpinfo_config argv = Next (ShowTask p) -> exists es t, says ulpinfo_long ulpinfo_short argv es /\ last_arg 112 es = Some (Some t) /\
     p <> 0 /\ forall n, 0 <= n < 2 ^ 31 -> t = dec n -> p = n).
Proof.
  assert (AD : forall t n, 0 <= n < 2 ^ 31 -> t = dec n -> pid_of (Some t) = n).
  { intros t n H ->. unfold pid_of. cbn [text]. apply PrProofs.atoi_dec, H. }
  split; [|split; [|split]].
  - intros x H. apply and_then_next in H. destruct H as (y & R & C). pose proof (tool_run_says _ _ _ _ _ _ _ _ _ R) as S.
    pose proof (run_proj _ _ _ _ ulpatch_pid _ _ R) as P. rewrite fold_last in P. cbn [p_pid] in P.
    unfold ulpatch_check in C. destruct (p_cmd y) eqn:K; [discriminate| |];
      (destruct (Z.eqb_spec (p_pid y) (-1)) as [|NP]; [discriminate|]; destruct (e_pid e (p_pid y)) eqn:EP; [|discriminate]; cbn [negb] in C;
       try (destruct (e_patch e (p_file y) =? 0); [|discriminate]); cbn [negb] in C; injection C as <-;
       destruct (last_arg 112 (scan ulpatch_long ulpatch_short argv)) as [a|] eqn:L; [|contradiction];
       destruct (pid_text _ _ _ _ S) as (t & T);
         [repeat constructor; cbn; intros Q; try discriminate; reflexivity|repeat constructor; cbn; intros Q; try discriminate; reflexivity|exists a; apply last_arg_in, L|];
       assert (a = Some t) by congruence; subst a; exists (scan ulpatch_long ulpatch_short argv), t; repeat split; auto; intros n N E; rewrite P; apply AD; auto).
  - intros x H. apply and_then_next in H. destruct H as (y & R & C). pose proof (tool_run_says _ _ _ _ _ _ _ _ _ R) as S.
    pose proof (run_proj _ _ _ _ ulftrace_pid _ _ R) as P. rewrite fold_last in P. cbn [f_pid] in P.
    unfold ulftrace_check in C. destruct (Z.eqb_spec (f_pid y) (-1)) as [|NP]; [discriminate|]. destruct (f_func y); [|discriminate].
    destruct (e_pid e (f_pid y)) eqn:EP; [|discriminate]. cbn [negb] in C.
    assert (X : f_pid x = f_pid y).
    { destruct (f_obj y); tests C; try discriminate; injection C as <-; reflexivity. }
    destruct (last_arg 112 (scan ulftrace_long ulftrace_short argv)) as [a|] eqn:L; [|contradiction].
    destruct (pid_text _ _ _ _ S) as (t & T);
      [repeat constructor; cbn; intros Q; try discriminate; reflexivity|repeat constructor; cbn; intros Q; try discriminate; reflexivity|exists a; apply last_arg_in, L|].
    assert (a = Some t) by congruence. subst a. exists (scan ulftrace_long ulftrace_short argv), t. rewrite X. repeat split; auto. intros n N E. rewrite P. apply AD; auto.
  - intros x H. apply and_then_next in H. destruct H as (y & R & C). pose proof (tool_run_says _ _ _ _ _ _ _ _ _ R) as S.
    pose proof (run_proj _ _ _ _ (ultask_pid (e_page e)) _ _ R) as P. rewrite fold_last in P. cbn [t_pid tcfg0] in P.
    unfold ultask_check in C. destruct (Z.eqb_spec (t_pid y) (-1)) as [|NP]; [discriminate|].
    destruct (e_pid e (t_pid y)) eqn:EP; [|discriminate]. cbn [negb] in C.
    destruct (_ && _) in C; [discriminate|]. destruct (_ && _) in C; [discriminate|]. apply and_then_next in C. destruct C as (file & _ & C).
    destruct (match t_out y with Some _ => _ | None => _ end) in C; [discriminate|]. injection C as <-. cbn [t_pid].
    destruct (last_arg 112 (scan ultask_long ultask_short argv)) as [a|] eqn:L; [|contradiction].
    destruct (pid_text _ _ _ _ S) as (t & T);
      [repeat constructor; cbn; intros Q; try discriminate; reflexivity|repeat constructor; cbn; intros Q; try discriminate; reflexivity|exists a; apply last_arg_in, L|].
    assert (a = Some t) by congruence. subst a. exists (scan ultask_long ultask_short argv), t. repeat split; auto. intros n N E. rewrite P. apply AD; auto.
  - intros p H. apply and_then_next in H. destruct H as (y & R & C). pose proof (tool_run_says _ _ _ _ _ _ _ _ _ R) as S.
    pose proof (run_proj _ _ _ _ ulpinfo_pid _ _ R) as P. rewrite fold_last in P. cbn [i_pid] in P.
    destruct (i_file y); [discriminate|]. destruct (Z.eqb_spec (i_pid y) 0) as [|NP]; [discriminate|]. injection C as <-.
    destruct (last_arg 112 (scan ulpinfo_long ulpinfo_short argv)) as [a|] eqn:L; [|contradiction].
    destruct (pid_text _ _ _ _ S) as (t & T);
      [repeat constructor; cbn; intros Q; try discriminate; reflexivity|repeat constructor; cbn; intros Q; try discriminate; reflexivity|exists a; apply last_arg_in, L|].
    assert (a = Some t) by congruence. subst a. exists (scan ulpinfo_long ulpinfo_short argv), t. repeat split; auto. intros n N E. rewrite P. apply AD; auto.
Qed.
Print Assumptions C156_pid_partial.
Example C156_pid_partial_ex : exists x, ulpatch_config env0 [str "-p7"; str "--unpatch"; str "--pid"; str "12"] = Next x /\ p_pid x = 12.
Proof. eexists. split; vm_compute; reflexivity. Qed.

(** A text that is no number, or a number of no process, names another process. *)
Theorem C156_pid_refuted : exists e argv1 argv2 x,
  says ulpatch_long ulpatch_short argv1 [Opt 145 None; Opt 112 (Some (str "12x"))] /\
  says ulpatch_long ulpatch_short argv2 [Opt 145 None; Opt 112 (Some (dec 4294967308))] /\
  e_pid e 4294967308 = false /\ ulpatch_config e argv1 = Next x /\ ulpatch_config e argv2 = Next x /\ p_pid x = 12.
Proof.
  exists env0, [str "--unpatch"; str "-p"; str "12x"], [str "--unpatch"; str "-p"; dec 4294967308]. eexists. split; [|split; [|split; [|split; [|split]]]].
  - apply C154_forms; [apply tables|apply tables|]. split; [vm_compute; reflexivity|]. intros [X|[X|[]]]; discriminate.
  - apply C154_forms; [apply tables|apply tables|]. split; [vm_compute; reflexivity|]. intros [X|[X|[]]]; discriminate.
  - reflexivity.
  - vm_compute. reflexivity.
  - vm_compute. reflexivity.
  - reflexivity.
Qed.
Print Assumptions C156_pid_refuted.

(** ** C157: ulpatch does what is asked, once *)

Definition cmd_of (e : event) (c : command) : command :=
  match e with Opt v _ => if v =? 144 then CmdPatch else if v =? 145 then CmdUnpatch else c | Unknown => c end.
Lemma ulpatch_cmd x e y : ulpatch_step x e = Next y -> p_cmd y = cmd_of e (p_cmd x).
Proof.
  intros H. apply tool_next in H. destruct H as (v & a & -> & [H|(H & c & _ & ->)]); unfold ulpatch_own in H; cbn [cmd_of].
  - destruct (Z.eqb_spec v 112) as [->|]; [injection H as <-; reflexivity|]. tests H; try discriminate; injection H as <-; reflexivity.
  - tests H; try discriminate. reflexivity.
Qed.
Lemma ulpatch_file x e y : ulpatch_step x e = Next y -> p_file y = on_val 144 (fun a => a) e (p_file x).
Proof.
  intros H. apply tool_next in H. destruct H as (v & a & -> & [H|(H & c & _ & ->)]); unfold ulpatch_own in H; cbn [on_val].
  - destruct (Z.eqb_spec v 112) as [->|]; [injection H as <-; reflexivity|]. tests H; try discriminate; injection H as <-; reflexivity.
  - tests H; try discriminate. reflexivity.
Qed.
Lemma cmd_fold es : forall c, let r := fold_left (fun c e => cmd_of e c) es c in
  (r = CmdPatch -> c = CmdPatch \/ given 144 es) /\ (r = CmdUnpatch -> c = CmdUnpatch \/ given 145 es) /\
  (r = CmdNone -> c = CmdNone /\ ~ given 144 es /\ ~ given 145 es).
Proof.
  induction es as [|e es IH]; intros c; cbn [fold_left].
  - repeat split; auto; intros [a []].
  - destruct (IH (cmd_of e c)) as (A & B & C).
    assert (G : forall v, given v (e :: es) <-> (exists a, e = Opt v a) \/ given v es).
    { intros v. split; [intros (a & [->|X]); [left|right]; eexists; eauto|intros [(a & ->)|(a & X)]; exists a; cbn; auto]. }
    rewrite !G. cbv zeta. split; [|split].
    + intros R. destruct (A R) as [Q|Q]; auto. unfold cmd_of in Q. destruct e as [v a|]; auto. destruct (Z.eqb_spec v 144) as [->|]; [eauto|]. destruct (v =? 145); [discriminate|auto].
    + intros R. destruct (B R) as [Q|Q]; auto. unfold cmd_of in Q. destruct e as [v a|]; auto. destruct (Z.eqb_spec v 144) as [->|]; [discriminate|]. destruct (Z.eqb_spec v 145) as [->|]; eauto.
    + intros R. destruct (C R) as (Q & N1 & N2). unfold cmd_of in Q. destruct e as [v a|].
      * destruct (Z.eqb_spec v 144) as [->|M1]; [discriminate|]. destruct (Z.eqb_spec v 145) as [->|M2]; [discriminate|].
        repeat split; auto; intros [(b & E)|X]; try contradiction; congruence.
      * repeat split; auto; intros [(b & E)|X]; try contradiction; congruence.
Qed.
Theorem C157_command_partial e argv x es : ulpatch_config e argv = Next x -> says ulpatch_long ulpatch_short argv es ->
  (given 144 es \/ given 145 es) /\
  (given 144 es -> ~ given 145 es -> p_cmd x = CmdPatch /\ Some (p_file x) = last_arg 144 es /\ e_patch e (p_file x) = 0) /\
  (given 145 es -> ~ given 144 es -> p_cmd x = CmdUnpatch).
Proof.
  intros H S. apply C154_forms in S; [|apply tables|apply tables]. destruct S as [S _]. apply and_then_next in H. destruct H as (y & R & C).
  rewrite S in R. pose proof (run_proj _ _ _ _ ulpatch_cmd _ _ R) as P. pose proof (run_proj _ _ _ _ ulpatch_file _ _ R) as Q.
  rewrite fold_last in Q. cbn [p_cmd p_file] in P, Q. destruct (cmd_fold es CmdNone) as (A & B & D). rewrite <- P in A, B, D.
  unfold ulpatch_check in C. destruct (p_cmd y) eqn:K; [discriminate| |].
  - destruct (p_pid y =? -1); [discriminate|]. destruct (negb (e_pid e (p_pid y))); [discriminate|].
    destruct (Z.eqb_spec (e_patch e (p_file y)) 0) as [EP|]; [|discriminate]. cbn [negb] in C. injection C as <-.
    destruct (A eq_refl) as [X|X]; [discriminate|]. split; [auto|]. split.
    + intros _ _. repeat split; auto. rewrite Q. destruct (last_arg 144 es) eqn:L; [reflexivity|]. apply last_arg_none in L. contradiction.
    + intros _ N. contradiction.
  - destruct (p_pid y =? -1); [discriminate|]. destruct (negb (e_pid e (p_pid y))); [discriminate|]. injection C as <-.
    destruct (B eq_refl) as [X|X]; [discriminate|]. split; [auto|]. split; [intros _ N; contradiction|auto].
Qed.
Print Assumptions C157_command_partial.
Example C157_command_partial_ex : exists x, ulpatch_config env0 [str "--patch"; str "a.ulp"; str "-p"; str "12"] = Next x /\ p_file x = Some (str "a.ulp") /\
  says ulpatch_long ulpatch_short [str "--patch"; str "a.ulp"; str "-p"; str "12"] [Opt 144 (Some (str "a.ulp")); Opt 112 (Some (str "12"))].
Proof.
  eexists. split; [vm_compute; reflexivity|]. split; [reflexivity|]. apply C154_forms; [apply tables|apply tables|]. split; [vm_compute; reflexivity|]. intros [X|[X|[]]]; discriminate.
Qed.

(** Both commands, or two patches: all but the last are dropped without a word. *)
Theorem C157_command_refuted : exists e argv1 argv2 x1 x2 es1 es2,
  says ulpatch_long ulpatch_short argv1 es1 /\ given 144 es1 /\ given 145 es1 /\ ulpatch_config e argv1 = Next x1 /\ p_cmd x1 = CmdUnpatch /\
  says ulpatch_long ulpatch_short argv2 es2 /\ In (Opt 144 (Some (str "a.ulp"))) es2 /\ ulpatch_config e argv2 = Next x2 /\ p_file x2 = Some (str "b.ulp").
Proof.
  exists env0, [str "-p12"; str "--patch"; str "a.ulp"; str "--unpatch"], [str "-p12"; str "--patch"; str "a.ulp"; str "--patch"; str "b.ulp"].
  eexists. eexists. eexists. eexists. split; [apply C154_forms; [apply tables|apply tables|]; split; [vm_compute; reflexivity|intros [X|[X|[X|[]]]]; discriminate]|].
  split; [exists (Some (str "a.ulp")); cbn; auto|]. split; [exists None; cbn; auto|]. split; [vm_compute; reflexivity|]. split; [reflexivity|].
  split; [apply C154_forms; [apply tables|apply tables|]; split; [vm_compute; reflexivity|intros [X|[X|[X|[]]]]; discriminate]|].
  split; [cbn; auto|]. split; [vm_compute; reflexivity|]. reflexivity.
Qed.
Print Assumptions C157_command_refuted.

(** ** C158: an existing output file is kept unless forced *)

Lemma ultask_out page x e y : ultask_step page x e = Next y -> t_out y = on_val 111 (fun a => a) e (t_out x).
Proof.
  intros H. apply tool_next in H. destruct H as (v & a & -> & [H|(H & c & _ & ->)]); cbn [on_val]; destruct x.
  - ultask_cases H; reflexivity.
  - destruct (Z.eqb_spec v 111) as [->|]; [discriminate H|reflexivity].
Qed.
Definition force_of (e : event) (b : bool) : bool := match e with Opt v _ => (v =? 70) || b | Unknown => b end.
Lemma ultask_force page x e y : ultask_step page x e = Next y -> o_force (t_common y) = force_of e (o_force (t_common x)).
Proof.
  intros H. apply tool_next in H. destruct H as (v & a & -> & [H|(H & c & C & ->)]); cbn [force_of].
  - destruct x; ultask_cases H; reflexivity.
  - clear H. cbn [set_common t_common]. unfold common_step in C.
    destruct (v =? 86); [discriminate|]. destruct (v =? 104); [discriminate|].
    destruct (Z.eqb_spec v 118) as [->|]; [injection C as <-; reflexivity|]. destruct (Z.eqb_spec v 117) as [->|]; [injection C as <-; reflexivity|].
    destruct (Z.eqb_spec v ARG_LOG_LEVEL) as [->|]; [destruct (MiscModel.log_level_option _); [|discriminate]; injection C as <-; reflexivity|].
    destruct (Z.eqb_spec v ARG_LOG_DEBUG) as [->|]; [injection C as <-; reflexivity|]. destruct (Z.eqb_spec v ARG_LOG_ERR) as [->|]; [injection C as <-; reflexivity|].
    destruct (v =? ARG_LOG_INFO); [discriminate|]. destruct (v =? 70); [injection C as <-; reflexivity|discriminate].
Qed.
Lemma force_fold es : forall b, fold_left (fun b e => force_of e b) es b = true -> b = true \/ given 70 es.
Proof.
  induction es as [|e es IH]; intros b; cbn [fold_left]; auto. intros H. destruct (IH _ H) as [Q|(a & Q)]; [|right; exists a; right; exact Q].
  destruct e as [v a|]; cbn in Q; auto. apply orb_true_iff in Q. destruct Q as [Q|Q]; auto. apply Z.eqb_eq in Q. subst v. right. exists a. left. reflexivity.
Qed.
(** What a run of ultask keeps of the options. *)
Lemma ultask_next e argv x es : ultask_config e argv = Next x -> says ultask_long ultask_short argv es ->
  exists y, run (ultask_step (e_page e)) tcfg0 es = Next y /\ ultask_check e y = Next x.
Proof.
  intros H S. apply C154_forms in S; [|apply tables|apply tables]. destruct S as [S _]. apply and_then_next in H. rewrite S in H. exact H.
Qed.
Lemma ultask_checked e y x : ultask_check e y = Next x ->
  e_pid e (t_pid y) = true /\ (d_vma (t_dump y) = true \/ d_vdso (t_dump y) = true \/ d_mem (t_dump y) = true -> t_out y <> None) /\
  (forall o, t_out y = Some o -> e_exist e o = true -> o_force (t_common y) = true) /\
  match m_file (t_map y) with None => m_file (t_map x) = None | Some f => exists p, map_path e (t_pid y) f = Next p /\ m_file (t_map x) = Some p end /\
  t_pid x = t_pid y /\ t_out x = t_out y /\ t_rdonly x = t_rdonly y /\ t_prot x = t_prot y /\ t_dump x = t_dump y /\ t_jmp x = t_jmp y /\ t_unmap x = t_unmap y /\ t_print x = no_action y.
Proof.
  intros C. unfold ultask_check in C. destruct (Z.eqb_spec (t_pid y) (-1)) as [|NP]; [discriminate|].
  destruct (e_pid e (t_pid y)) eqn:EP; [|discriminate]. cbn [negb] in C.
  destruct ((d_vma (t_dump y) || d_vdso (t_dump y)) && match t_out y with None => true | _ => false end) eqn:D1; [discriminate|].
  destruct (d_mem (t_dump y) && match t_out y with None => true | _ => false end) eqn:D2; [discriminate|].
  apply and_then_next in C. destruct C as (file & M & C).
  destruct (match t_out y with Some o => negb (o_force (t_common y)) && e_exist e o | None => false end) eqn:O; [discriminate|]. injection C as <-.
  cbn [t_pid t_out t_rdonly t_prot t_dump t_jmp t_unmap t_print t_map m_file]. split; [reflexivity|]. split; [|split; [|split; [|repeat split]]].
  - intros X E. rewrite E in D1, D2. rewrite andb_true_r in D1, D2. apply orb_false_iff in D1. destruct D1 as [D1 D3]. intuition congruence.
  - intros o E X. rewrite E in O. rewrite X, andb_true_r in O. destruct (o_force (t_common y)); [reflexivity|discriminate].
  - destruct (m_file (t_map y)) as [f|].
    + apply and_then_next in M. destruct M as (p & M1 & M2). injection M2 as <-. eauto.
    + injection M as <-. reflexivity.
Qed.
Theorem C158_output e argv x es : ultask_config e argv = Next x -> says ultask_long ultask_short argv es ->
  t_out x = match last_arg 111 es with Some a => a | None => None end /\
  (forall o, t_out x = Some o -> e_exist e o = true -> given 70 es) /\
  (d_vma (t_dump x) = true \/ d_vdso (t_dump x) = true \/ d_mem (t_dump x) = true -> t_out x <> None).
Proof.
  intros H S. destruct (ultask_next _ _ _ _ H S) as (y & R & C). apply ultask_checked in C. destruct C as (_ & D & O & _ & _ & E & _ & _ & E2 & _).
  pose proof (run_proj _ _ _ _ (ultask_out (e_page e)) _ _ R) as P. rewrite fold_last in P. cbn [t_out tcfg0] in P.
  pose proof (run_proj _ _ _ _ (ultask_force (e_page e)) _ _ R) as Q. cbn [t_common tcfg0 common0 o_force] in Q.
  rewrite E, E2. split; [exact P|]. split; [|exact D]. intros o X F. specialize (O o X F). rewrite O in Q. symmetry in Q. destruct (force_fold es false Q) as [Z|Z]; [discriminate|exact Z].
Qed.
Print Assumptions C158_output.
Example C158_ex : (exists x, ultask_config env0 [str "-p12"; str "--dump"; str "vdso"; str "-F"; str "-o"; str "/t/a.so"] = Next x /\ t_out x = Some (str "/t/a.so")) /\
  ultask_config env0 [str "-p12"; str "--dump"; str "vdso"; str "-o"; str "/t/a.so"] = Exit 1 /\
  ultask_config env0 [str "-p12"; str "--dump"; str "vdso"] = Exit 1.
Proof. split; [eexists; split; vm_compute; reflexivity|]. vm_compute. auto. Qed.

(** ** C159: the target is opened for reading only, unless a change is asked for *)

Definition changing (v : Z) : bool := (v =? 144) || (v =? 147) || (v =? 148) || (v =? 149).
Definition ro_of (e : event) (b : bool) : bool := match e with Opt v _ => negb (changing v) && b | Unknown => b end.
Lemma ultask_ro page x e y : ultask_step page x e = Next y -> t_rdonly y = ro_of e (t_rdonly x).
Proof.
  intros H. apply tool_next in H. destruct H as (v & a & -> & [H|(H & c & C & ->)]); cbn [ro_of].
  - destruct x; ultask_cases H; reflexivity.
  - cbn [set_common t_rdonly]. unfold changing. destruct x. destruct (Z.eqb_spec v 144) as [->|]; [discriminate H|]. destruct (Z.eqb_spec v 147) as [->|]; [discriminate H|].
    destruct (Z.eqb_spec v 148) as [->|]; [discriminate H|]. destruct (Z.eqb_spec v 149) as [->|]; [discriminate H|]. reflexivity.
Qed.
Lemma ro_fold es : forall b, fold_left (fun b e => ro_of e b) es b = true <-> b = true /\ forall v, In v [144; 147; 148; 149] -> ~ given v es.
Proof.
  induction es as [|e es IH]; intros b; cbn [fold_left].
  - split; [intros ->; split; auto; intros v _ [a []]|tauto].
  - rewrite IH. clear IH. destruct e as [v a|]; cbn [ro_of].
    + rewrite andb_true_iff, negb_true_iff. split.
      * intros ((C & B) & N). split; auto. intros w W [z [E|E]]; [|apply (N w W); exists z; exact E]. injection E as -> ->.
        unfold changing in C. cbn in W. repeat destruct W as [<-|W]; try discriminate C. exact W.
      * intros (B & N). split; [split; auto|].
        -- unfold changing. destruct (Z.eqb_spec v 144) as [->|]; [exfalso; apply (N 144); [cbn; auto|exists a; left; reflexivity]|].
           destruct (Z.eqb_spec v 147) as [->|]; [exfalso; apply (N 147); [cbn; auto|exists a; left; reflexivity]|].
           destruct (Z.eqb_spec v 148) as [->|]; [exfalso; apply (N 148); [cbn; auto|exists a; left; reflexivity]|].
           destruct (Z.eqb_spec v 149) as [->|]; [exfalso; apply (N 149); [cbn; auto|exists a; left; reflexivity]|]. reflexivity.
        -- intros w W [z E]. apply (N w W). exists z. right. exact E.
    + split; intros (B & N); split; auto; intros w W [z E]; apply (N w W).
      * destruct E as [E|E]; [discriminate|]. exists z. exact E.
      * exists z. right. exact E.
Qed.
Theorem C159_read_only e argv x es : ultask_config e argv = Next x -> says ultask_long ultask_short argv es ->
  (t_rdonly x = true <-> forall v, In v [144; 147; 148; 149] -> ~ given v es).
Proof.
  intros H S. destruct (ultask_next _ _ _ _ H S) as (y & R & C). apply ultask_checked in C. destruct C as (_ & _ & _ & _ & _ & _ & E & _).
  pose proof (run_proj _ _ _ _ (ultask_ro (e_page e)) _ _ R) as P. cbn [t_rdonly tcfg0] in P. rewrite E, P, ro_fold. tauto.
Qed.
Print Assumptions C159_read_only.
Example C159_ex : exists x y, ultask_config env0 [str "-p12"; str "--vmas"; str "--fds"] = Next x /\ t_rdonly x = true /\
  ultask_config env0 [str "-p12"; str "--vmas"; str "--unmap"; str "0x1000"] = Next y /\ t_rdonly y = false.
Proof. eexists. eexists. split; [vm_compute; reflexivity|]. split; [reflexivity|]. split; [vm_compute; reflexivity|reflexivity]. Qed.

(** ** C160: sub-options of --mprotect in any order *)

Theorem C160_protect page p us q : Forall sub_ok us ->
  let A := num_of "addr" us TextModel.str2addr (r_addr p) in
  let L := num_of "len" us TextModel.str2addr (r_len p) in
  (prot_option page p (joined us) = Next q <->
   only prot_words us /\ (hasb "none" us = true -> hasb "read" us = false /\ hasb "write" us = false /\ hasb "exec" us = false) /\
   A <> 0 /\ L <> 0 /\ A mod page = 0 /\ L mod page = 0 /\
   q = Rc A L (b2 (hasb "read" us) 1 + b2 (hasb "write" us) 2 + b2 (hasb "exec" us) 4) (hasb "none" us)).
Proof.
  intros F A L. unfold prot_option. rewrite (toks_joined us F).
  destruct (each_prot us F (Rc (r_addr p) (r_len p) 0 false) false false false eq_refl) as [K1 K2].
  assert (DO : only prot_words us \/ ~ only prot_words us).
  { clear. induction us as [|u us [IH|IH]]; [left; constructor| |right; intros H; apply IH; inversion H; auto].
    destruct (existsb (fun n => str_eqb (u_name u) (str n)) prot_words) eqn:E.
    - left. constructor; auto. apply existsb_exists in E. destruct E as (n & N1 & N2). apply str_eqb_eq in N2. exists n. auto.
    - right. intros H. apply Forall_inv in H. destruct H as (n & N1 & N2). assert (T : existsb (fun n => str_eqb (u_name u) (str n)) prot_words = true).
      { apply existsb_exists. exists n. rewrite N2. split; auto. apply str_eqb_refl. } congruence. }
  destruct DO as [O|O]; [|rewrite (K2 O); cbn; split; [discriminate|intros (X & _); contradiction]].
  rewrite (K1 O). cbn [and_then r_addr r_len r_prot r_none orb]. fold A. fold L. clear K1 K2. clearbody A L. unfold bits3.
  destruct (hasb "none" us), (hasb "read" us), (hasb "write" us), (hasb "exec" us); cbn [b2 andb negb Z.add Z.eqb Pos.add Pos.eqb];
    try (split; [discriminate|intros (_ & X & _); destruct (X eq_refl) as (X1 & X2 & X3); discriminate]);
    (destruct (Z.eqb_spec A 0); [split; [discriminate|tauto]|]; destruct (Z.eqb_spec L 0); [split; [discriminate|tauto]|]; cbn [orb];
     destruct (Z.eqb_spec (A mod page) 0); [|split; [discriminate|tauto]]; destruct (Z.eqb_spec (L mod page) 0); [|split; [discriminate|tauto]]; cbn [orb negb];
     split; [intros H; injection H as <-; repeat split; auto|intros (_ & _ & _ & _ & _ & _ & ->); reflexivity]).
Qed.
Print Assumptions C160_protect.

Lemma last_sub_in n us : NoDup (map u_name us) -> forall v, last_sub n us = Some v <-> In (Su n v) us.
Proof.
  induction us as [|u us IH]; intros N v; [cbn; split; [discriminate|intros []]|]. cbn [map] in N. inversion N as [|? ? N1 N2]; subst.
  rewrite last_sub_cons. cbn [In]. rewrite <- (IH N2 v). destruct (last_sub n us) as [w|] eqn:L.
  - split; auto. intros [E|E]; auto. exfalso. apply N1. subst u. cbn. pose proof (proj1 (IH N2 w) eq_refl) as J. apply (in_map u_name) in J. exact J.
  - destruct u as [m w]. cbn [u_name u_val]. destruct (str_eqb m n) eqn:E.
    + apply str_eqb_eq in E. subst m. split; [intros H; injection H as ->; auto|intros [H|H]; congruence].
    + split; [discriminate|intros [H|H]; [|discriminate]]. injection H as -> ->. rewrite str_eqb_refl in E. discriminate.
Qed.
Lemma last_sub_perm n us us' : NoDup (map u_name us) -> Permutation.Permutation us us' -> last_sub n us = last_sub n us'.
Proof.
  intros N P. assert (N' : NoDup (map u_name us')) by (eapply Permutation.Permutation_NoDup; [apply Permutation.Permutation_map; exact P|exact N]).
  destruct (last_sub n us) as [v|] eqn:E.
  - symmetry. apply (last_sub_in _ _ N'). apply (last_sub_in _ _ N) in E. eapply Permutation.Permutation_in; eauto.
  - destruct (last_sub n us') as [v|] eqn:E'; auto. apply (last_sub_in _ _ N') in E'. apply Permutation.Permutation_sym in P.
    assert (X : last_sub n us = Some v) by (apply (last_sub_in _ _ N); eapply Permutation.Permutation_in; eauto). congruence.
Qed.
Lemma hasb_perm n us us' : Permutation.Permutation us us' -> hasb n us = hasb n us'.
Proof.
  intros P. unfold hasb. destruct (existsb _ us') eqn:E.
  - apply existsb_exists in E. destruct E as (u & U & E). apply existsb_exists. exists u. split; auto. eapply Permutation.Permutation_in; [apply Permutation.Permutation_sym|]; eauto.
  - destruct (existsb _ us) eqn:E'; auto. apply existsb_exists in E'. destruct E' as (u & U & E'). rewrite <- E. symmetry. apply existsb_exists. exists u. split; auto.
    eapply Permutation.Permutation_in; eauto.
Qed.
Theorem C160_order page p us us' q : Forall sub_ok us -> NoDup (map u_name us) -> Permutation.Permutation us us' ->
  prot_option page p (joined us) = Next q -> prot_option page p (joined us') = Next q.
Proof.
  intros F N P H. assert (F' : Forall sub_ok us') by (rewrite Forall_forall in *; intros u U; apply F; eapply Permutation.Permutation_in; [apply Permutation.Permutation_sym|]; eauto).
  apply (C160_protect page p us q F) in H. apply (C160_protect page p us' q F'). cbv zeta in *.
  assert (A : forall n f b, num_of n us f b = num_of n us' f b) by (intros; unfold num_of; rewrite (last_sub_perm _ _ _ N P); reflexivity).
  rewrite <- !A, <- !(hasb_perm _ _ _ P). destruct H as (O & H). split; auto. unfold only in *. rewrite Forall_forall in *. intros u U. apply O.
  eapply Permutation.Permutation_in; [apply Permutation.Permutation_sym|]; eauto.
Qed.
Print Assumptions C160_order.
Example C160_ex : prot_option 4096 (Rc 0 0 7 false) (str "write,len=8192,addr=0x1000,read") = Next (Rc 4096 8192 3 false) /\
  prot_option 4096 (Rc 0 0 7 false) (str "addr=0x1000,len=8192,none,read") = Exit 22 /\
  str "write,len=8192,addr=0x1000,read" = joined [Su (str "write") None; Su (str "len") (Some (str "8192")); Su (str "addr") (Some (str "0x1000")); Su (str "read") None].
Proof. vm_compute. auto. Qed.

(** ** C161: the length for --mprotect can be written as the help says *)

(** Plain numbers, decimal or hexadecimal. *)
Theorem C161_length_partial page p q us : Forall sub_ok us -> prot_option page p (joined us) = Next q ->
  (forall d ds, 0 < d < 10 -> Forall (fun d => 0 <= d < 10) ds -> TextSpec.value 10 (d :: ds) < 2 ^ 64 ->
     last_sub (str "len") us = Some (Some (TextSpec.dec_text (d :: ds))) -> r_len q = TextSpec.value 10 (d :: ds)) /\
  (forall ds cs, ds <> [] -> Forall (fun d => 0 <= d < 16) ds -> Forall2 TextSpec.hex_char ds cs -> TextSpec.value 16 ds < 2 ^ 64 ->
     last_sub (str "len") us = Some (Some (str "0x" ++ cs)) -> r_len q = TextSpec.value 16 ds).
Proof.
  intros F H. apply (C160_protect page p us q F) in H. cbv zeta in H. destruct H as (_ & _ & _ & _ & _ & _ & ->). cbn [r_len]. unfold num_of.
  destruct TextProps.C50_address as (D & _ & X & _). split.
  - intros d ds H1 H2 H3 ->. apply D; auto.
  - intros ds cs H1 H2 H3 H4 ->. apply X; auto.
Qed.
Print Assumptions C161_length_partial.
Example C161_length_partial_ex : prot_option 4096 (Rc 0 0 7 false) (str "addr=0x1000,len=8192") = Next (Rc 4096 8192 0 false).
Proof. vm_compute. reflexivity. Qed.

(** The suffixes of sizes are dropped: of 4 megabytes only one page changes, and 4KB is refused. *)
Theorem C161_length_refuted : exists arg q,
  arg = joined [Su (str "addr") (Some (str "0x1000")); Su (str "len") (Some (str "4096KB")); Su (str "read") None] /\
  prot_option 4096 (Rc 0 0 7 false) arg = Next q /\ TextModel.str2size (str "4096KB") = 4194304 /\ r_len q = 4096 /\
  prot_option 4096 (Rc 0 0 7 false) (str "addr=0x1000,len=4KB,read") = Exit 1.
Proof. eexists. eexists. split; [reflexivity|]. split; [vm_compute; reflexivity|]. repeat split. Qed.
Print Assumptions C161_length_refuted.

(** ** C162: any file can be mapped *)

Definition map_words : list string := ["file"; "ro"; "noexec"; "addr"]%string.
Lemma each_map us : Forall sub_ok us -> only map_words us -> (forall u, In u us -> u_name u = str "addr" -> addr_of (u_val u) <> 0) -> forall m,
  each map_tok m (map sub_text us) =
    Next (Mc (match last_sub (str "file") us with Some v => v | None => m_file m end) (m_ro m || hasb "ro" us) (m_noexec m || hasb "noexec" us)
             (num_of "addr" us TextModel.str2addr (m_addr m))).
Proof.
  induction us as [|u us IH]; intros F O A m.
  - cbn. rewrite !orb_false_r. destruct m. reflexivity.
  - pose proof (Forall_inv F) as F1. pose proof (Forall_inv O) as (n & N1 & N2).
    specialize (IH (Forall_inv_tail F) (Forall_inv_tail O) (fun u' I => A u' (or_intror I))).
    cbn [map each]. unfold map_tok at 1. rewrite (val_sub u F1), !(is_tok_sub u _ F1). rewrite !num_of_cons, last_sub_cons. unfold hasb in *. cbn [existsb].
    pose proof (A u (or_introl eq_refl)) as AU. rewrite N2 in *. cbn in N1. destruct N1 as [<-|[<-|[<-|[<-|[]]]]].
    + change (str_eqb (str "file") (str "file")) with true. change (str_eqb (str "file") (str "ro")) with false. change (str_eqb (str "file") (str "noexec")) with false.
      change (str_eqb (str "file") (str "addr")) with false. cbn [orb]. rewrite IH. cbn [m_file m_ro m_noexec m_addr]. destruct (last_sub (str "file") us); reflexivity.
    + change (str_eqb (str "ro") (str "ro")) with true. change (str_eqb (str "ro") (str "file")) with false. change (str_eqb (str "ro") (str "noexec")) with false.
      change (str_eqb (str "ro") (str "addr")) with false. cbn [orb]. rewrite IH. cbn [m_file m_ro m_noexec m_addr]. rewrite orb_true_r. destruct (last_sub (str "file") us); reflexivity.
    + change (str_eqb (str "noexec") (str "noexec")) with true. change (str_eqb (str "noexec") (str "file")) with false. change (str_eqb (str "noexec") (str "ro")) with false.
      change (str_eqb (str "noexec") (str "addr")) with false. cbn [orb]. rewrite IH. cbn [m_file m_ro m_noexec m_addr]. rewrite orb_true_r. destruct (last_sub (str "file") us); reflexivity.
    + change (str_eqb (str "addr") (str "addr")) with true. change (str_eqb (str "addr") (str "file")) with false. change (str_eqb (str "addr") (str "ro")) with false.
      change (str_eqb (str "addr") (str "noexec")) with false. cbn [orb]. destruct (Z.eqb_spec (addr_of (u_val u)) 0) as [E|_]; [exfalso; apply AU; auto|].
      rewrite IH. cbn [m_file m_ro m_noexec m_addr]. destruct (last_sub (str "file") us); reflexivity.
Qed.
Theorem C162_map_partial us f : Forall sub_ok us -> only map_words us -> last_sub (str "file") us = Some (Some f) ->
  (forall u, In u us -> u_name u = str "addr" -> addr_of (u_val u) <> 0) ->
  map_option (Mc None false false 0) (joined us) =
    Next (Mc (Some f) (hasb "ro" us) (hasb "noexec" us) (num_of "addr" us TextModel.str2addr 0)).
Proof.
  intros F O L A. unfold map_option. rewrite (toks_joined us F), (each_map us F O A). cbn [and_then m_file m_ro m_noexec m_addr orb]. rewrite L. reflexivity.
Qed.
Print Assumptions C162_map_partial.
Example C162_map_partial_ex : map_option (Mc None false false 0) (str "ro,file=/t/a=b.so,addr=0x7000") = Next (Mc (Some (str "/t/a=b.so")) true false 28672).
Proof. vm_compute. reflexivity. Qed.

Lemma toks_no44 s : forall cur, ~ In 44 cur -> Forall (fun t => ~ In 44 t) (toks s cur).
Proof.
  induction s as [|c s IH]; intros cur H; cbn [toks].
  - destruct cur; constructor; auto.
  - destruct (Z.eqb_spec c 44) as [->|N]; [constructor; auto|]. apply IH. intros X. apply in_app_or in X. destruct X as [X|[X|[]]]; auto.
Qed.
(** A file with a comma in its name cannot be named. *)
Theorem C162_map_refuted : exists f, In 44 f /\ ~ In 0 f /\ ~ In 47 f /\ forall arg m, map_option (Mc None false false 0) arg = Next m -> m_file m <> Some f.
Proof.
  exists (str "a,b.so"). split; [cbn; auto|]. split; [intros X; cbn in X; repeat destruct X as [X|X]; try discriminate; exact X|].
  split; [intros X; cbn in X; repeat destruct X as [X|X]; try discriminate; exact X|].
  intros arg m H E. unfold map_option in H. apply and_then_next in H. destruct H as (m' & H & K). destruct (m_file m') eqn:M; [|discriminate]. injection K as <-.
  assert (G : forall ts x y, Forall (fun t => ~ In 44 t) ts -> match m_file x with Some f => ~ In 44 f | None => True end -> each map_tok x ts = Next y ->
    match m_file y with Some f => ~ In 44 f | None => True end).
  { clear. induction ts as [|t ts IH]; intros x y F I H; [injection H as <-; exact I|]. cbn in H. destruct (map_tok x t) as [z| |] eqn:T; try discriminate.
    apply (IH z y (Forall_inv_tail F)); auto. apply Forall_inv in F. unfold map_tok in T. tests T; try discriminate; injection T as <-; cbn [m_file]; auto.
    destruct (upto_eq_inv t) as [_ U]. destruct (snd (upto_eq t)) as [v|]; [|exact Logic.I]. intros X. apply F. rewrite U. apply in_or_app. right. right. exact X. }
  specialize (G (toks arg []) (Mc None false false 0) m' (toks_no44 arg [] ltac:(intros [])) Logic.I H). rewrite E in G. apply G. cbn. auto.
Qed.
Print Assumptions C162_map_refuted.

(** ** C163: the file mapped is the one meant *)

Theorem C163_path_partial e argv x es f : ultask_config e argv = Next x -> says ultask_long ultask_short argv es -> m_file (t_map x) = Some f ->
  exists g, (match g with 47 :: _ => f = g | _ => forall d, e_cwd e (t_pid x) = Some d -> Z.of_nat (List.length d) + 1 + Z.of_nat (List.length g) < 4096 -> f = d ++ [47] ++ g end) /\
  e_exist e f = true /\ e_regular e f = true /\ e_size e f <> 0 /\ Z.of_nat (List.length f) < 4096.
Proof.
  intros H S M. destruct (ultask_next _ _ _ _ H S) as (y & R & C). apply ultask_checked in C. destruct C as (_ & _ & _ & C & E & _). rewrite E. clear E H S R.
  destruct (m_file (t_map y)) as [g|]; [|congruence]. destruct C as (p & P & Q). assert (p = f) by congruence. subst p. exists g. unfold map_path in P.
  set (real := match g with c :: _ => _ | [] => _ end) in P. 
  destruct (e_exist e real) eqn:E1; [|discriminate]. destruct (e_regular e real) eqn:E2; [|discriminate]. cbn [negb] in P.
  destruct (Z.eqb_spec (e_size e real) 0); [discriminate|]. destruct (Z.leb_spec PATH_MAX (Z.of_nat (List.length real))); [discriminate|]. injection P as P.
  split; [|rewrite <- P; auto]. 
  assert (G : forall d, e_cwd e (t_pid y) = Some d -> Z.of_nat (List.length d) + 1 + Z.of_nat (List.length g) < 4096 ->
    firstn (Z.to_nat (PATH_MAX - 1)) (match e_cwd e (t_pid y) with Some d => d | None => str "(null)" end ++ [47] ++ g) = d ++ [47] ++ g).
  { intros d D L. rewrite D. apply firstn_all2. rewrite !app_length. cbn [List.length]. unfold PATH_MAX. lia. }
  rewrite <- P. subst real. destruct g as [|c g]; [exact G|]. destruct (Z.eqb_spec c 47) as [->|N]; [reflexivity|].
  destruct c as [|c|c]; try exact G. repeat (destruct c as [c|c|]; try exact G). contradiction.
Qed.
Print Assumptions C163_path_partial.
Example C163_path_partial_ex : exists x, ultask_config env0 [str "-p12"; str "--map"; str "file=a.so"] = Next x /\ m_file (t_map x) = Some (str "/t/a.so").
Proof. eexists. split; vm_compute; reflexivity. Qed.

(** Without permission to see the target's directory, a file of another directory is taken; a long path is cut. *)
Theorem C163_path_refuted : exists e argv x y, 
  e_cwd e 12 = None /\ ultask_config e argv = Next x /\ m_file (t_map x) = Some (str "(null)/a.so") /\
  (exists e2 d g argv2, e_cwd e2 12 = Some d /\ says ultask_long ultask_short argv2 [Opt 112 (Some (str "12")); Opt 147 (Some (str "file=" ++ g))] /\ hd 0 g <> 47 /\
     ultask_config e2 argv2 = Next y /\ exists p, m_file (t_map y) = Some p /\ p <> d ++ [47] ++ g).
Proof.
  exists (Ev (fun p => p =? 12) (fun f => true) (fun _ => true) (fun _ => 100) (fun _ => None) 4096 (fun _ => 0) (fun _ => true) []), [str "-p12"; str "--map"; str "file=a.so"].
  eexists. eexists. split; [reflexivity|]. split; [vm_compute; reflexivity|]. split; [reflexivity|].
  exists (Ev (fun p => p =? 12) (fun f => true) (fun _ => true) (fun _ => 100) (fun _ => Some (str "/t")) 4096 (fun _ => 0) (fun _ => true) []), (str "/t"), (repeat 97 (Z.to_nat 4093)),
    [str "-p12"; str "--map"; str "file=" ++ repeat 97 (Z.to_nat 4093)].
  split; [reflexivity|]. split; [apply C154_forms; [apply tables|apply tables|]; split; [vm_compute; reflexivity|intros [X|[X|[]]]; discriminate]|].
  split; [vm_compute; discriminate|]. split; [vm_compute; reflexivity|]. eexists. split; [reflexivity|]. intros E. apply (f_equal (@List.length Z)) in E. vm_compute in E. discriminate.
Qed.
Print Assumptions C163_path_refuted.

(** ** C164: a call does not depend on the calls before *)

Theorem C164_again_partial prev e argv es : says ulpatch_long ulpatch_short argv es -> given 144 es \/ given 145 es ->
  match ulpatch_config e argv, ulpatch_again prev e argv with
  | Next x, Next y => p_cmd x = p_cmd y /\ p_pid x = p_pid y /\ p_file x = p_file y /\ o_level (p_common x) = o_level (p_common y) /\
                      o_verbose (p_common x) = o_verbose (p_common y) /\ o_force (p_common x) = o_force (p_common y)
  | Exit a, Exit b => a = b
  | _, _ => False
  end.
Proof.
  intros S G. apply C154_forms in S; [|apply tables|apply tables]. destruct S as [S _]. unfold ulpatch_config, ulpatch_again. rewrite S. clear S.
  set (sim := fun x y => p_pid x = p_pid y /\ p_file x = p_file y /\ o_level (p_common x) = o_level (p_common y) /\
                      o_verbose (p_common x) = o_verbose (p_common y) /\ o_force (p_common x) = o_force (p_common y)).
  assert (ST : forall x y ev, sim x y -> match ulpatch_step x ev, ulpatch_step y ev with
     | Next x', Next y' => sim x' y' /\ (p_cmd x = p_cmd y \/ (exists a, ev = Opt 144 a \/ ev = Opt 145 a) -> p_cmd x' = p_cmd y')
     | Exit a, Exit b => a = b | _, _ => False end).
  { intros [c1 p1 f1 [l1 v1 d1 o1]] [c2 p2 f2 [l2 v2 d2 o2]] ev (A & B & C & D & E). cbn [p_pid p_file p_common o_level o_verbose o_force] in *. subst.
    unfold ulpatch_step, tool_step. destruct ev as [v a|]; [|reflexivity]. unfold ulpatch_own, common_step, sim. cbn [p_cmd p_pid p_file p_common o_level o_verbose o_force].
    destruct (Z.eqb_spec v 112) as [->|]; [cbn; repeat split; auto; intros [|(z & [X|X])]; auto; discriminate|].
    destruct (Z.eqb_spec v 144) as [->|]; [cbn; repeat split; auto|].
    destruct (Z.eqb_spec v 145) as [->|]; [cbn; repeat split; auto|].
    destruct (v =? 146); [reflexivity|]. destruct (v =? 86); [reflexivity|]. destruct (v =? 104); [reflexivity|].
    assert (K : c1 = c2 \/ (exists a0, Opt v a = Opt 144 a0 \/ Opt v a = Opt 145 a0) -> c1 = c2) by (intros [|(z & [X|X])]; auto; congruence).
    destruct (v =? 118); [repeat split; auto|]. destruct (v =? 117); [repeat split; auto|].
    destruct (v =? ARG_LOG_LEVEL); [destruct (MiscModel.log_level_option _); [repeat split; auto|reflexivity]|].
    destruct (v =? ARG_LOG_DEBUG); [repeat split; auto|]. destruct (v =? ARG_LOG_ERR); [repeat split; auto|]. destruct (v =? ARG_LOG_INFO); [reflexivity|].
    destruct (v =? 70); [repeat split; auto|reflexivity]. }
  assert (RN : forall es x y, sim x y -> match run ulpatch_step x es, run ulpatch_step y es with
     | Next x', Next y' => sim x' y' /\ (p_cmd x = p_cmd y \/ given 144 es \/ given 145 es -> p_cmd x' = p_cmd y')
     | Exit a, Exit b => a = b | _, _ => False end).
  { clear G es. induction es as [|ev es IH]; intros x y Q; cbn [run].
    - split; auto. intros [|[[a []]|[a []]]]; auto.
    - specialize (ST x y ev Q). destruct (ulpatch_step x ev) as [x1| |], (ulpatch_step y ev) as [y1| |]; try contradiction; auto.
      destruct ST as [ST1 ST2]. specialize (IH x1 y1 ST1). destruct (run ulpatch_step x1 es) as [x2| |], (run ulpatch_step y1 es) as [y2| |]; try contradiction; auto.
      destruct IH as [IH1 IH2]. split; auto. intros H. apply IH2. destruct H as [H|[(a & [H|H])|(a & [H|H])]].
      + left. apply ST2. left. exact H.
      + left. apply ST2. right. exists a. left. exact H.
      + right. left. exists a. exact H.
      + left. apply ST2. right. exists a. right. exact H.
      + right. right. exists a. exact H. }
  specialize (RN es (Pc CmdNone (-1) None common0) (ulpatch_reset prev) ltac:(repeat split)).
  destruct (run ulpatch_step (Pc CmdNone (-1) None common0) es) as [x| |], (run ulpatch_step (ulpatch_reset prev) es) as [y| |]; try contradiction; auto.
  destruct RN as [(A & B & C & D & E) K]. specialize (K (or_intror G)). cbn [and_then]. unfold ulpatch_check. rewrite <- K, <- A, <- B.
  destruct (p_cmd x) eqn:PX; [reflexivity| |]; (destruct (p_pid x =? -1); [reflexivity|]; destruct (negb (e_pid e (p_pid x))); [reflexivity|]; try (destruct (negb (e_patch e (p_file x) =? 0)); [reflexivity|]); repeat split; auto; congruence).
Qed.
Print Assumptions C164_again_partial.
Example C164_again_partial_ex : exists x y, ulpatch_config env0 [str "-p12"; str "--unpatch"] = Next x /\ 
  ulpatch_again (Pc CmdPatch 7 (Some (str "a.ulp")) (Co 7 3 false true)) env0 [str "-p12"; str "--unpatch"] = Next y /\ x = y.
Proof. eexists. eexists. split; [vm_compute; reflexivity|]. split; [vm_compute; reflexivity|]. reflexivity. Qed.

(** Without a command, the command of the call before is done. *)
Theorem C164_again_refuted : exists e argv0 argv prev y, ulpatch_config e argv0 = Next prev /\ ulpatch_config e argv = Exit 1 /\
  ulpatch_again prev e argv = Next y /\ p_cmd y = CmdUnpatch.
Proof.
  exists env0, [str "-p12"; str "--unpatch"], [str "-p12"]. eexists. eexists. split; [vm_compute; reflexivity|]. split; [vm_compute; reflexivity|].
  split; [vm_compute; reflexivity|]. reflexivity.
Qed.
Print Assumptions C164_again_refuted.

(** ** C165: the directory for all processes can be used by every user *)

(** Write and search permission of others. *)
Definition usable (mode : Z) : Prop := Z.testbit mode 1 = true /\ Z.testbit mode 0 = true.
Theorem C165_directory_partial dir uid umask : 0 <= umask < 512 ->
  (uid = 0 \/ dir = None \/ exists m, dir = Some (m, uid)) -> (dir <> None \/ Z.land umask 3 = 0) ->
  exists m o, env_init true dir uid umask = inl (Some (m, o)) /\ usable m.
Proof.
  intros U W V. unfold env_init. cbn [negb]. destruct dir as [[m o]|].
  - exists 511, o. assert (E : (uid =? 0) || (uid =? o) = true).
    { destruct W as [->|[W|(m' & W)]]; [reflexivity|discriminate|]. injection W as -> ->. rewrite Z.eqb_refl. apply orb_true_r. }
    rewrite E. split; [reflexivity|]. split; reflexivity.
  - destruct V as [V|V]; [contradiction|]. eexists. eexists. split; [reflexivity|].
    assert (B0 : Z.testbit umask 0 = false) by (pose proof (Z.land_spec umask 3 0) as E; rewrite V in E; rewrite Z.bits_0 in E; change (Z.testbit 3 0) with true in E; rewrite andb_true_r in E; auto).
    assert (B1 : Z.testbit umask 1 = false) by (pose proof (Z.land_spec umask 3 1) as E; rewrite V in E; rewrite Z.bits_0 in E; change (Z.testbit 3 1) with true in E; rewrite andb_true_r in E; auto).
    split; rewrite Z.land_spec, Z.lxor_spec, Z.land_spec, ?B0, ?B1; reflexivity.
Qed.
Print Assumptions C165_directory_partial.
Example C165_directory_partial_ex : env_init true None 1000 64 = inl (Some (447, 1000)) /\ env_init true (Some (448, 1000)) 0 18 = inl (Some (511, 1000)).
Proof. split; reflexivity. Qed.

(** The first run under the usual umask leaves a directory others cannot write in; a run of another user then fails. *)
Theorem C165_directory_refuted : exists m, env_init true None 1000 18 = inl (Some (m, 1000)) /\ Z.testbit m 1 = false /\
  env_init true (Some (m, 1000)) 1001 18 = inr 1 /\ env_init true (Some (511, 1000)) 1001 18 = inr 1.
Proof. eexists. split; [reflexivity|]. repeat split. Qed.
Print Assumptions C165_directory_refuted.

(** ** C166: ulpinfo shows everything asked for *)

Lemma ulpinfo_file x e y : ulpinfo_step x e = Next y -> i_file y = on_val 105 (fun a => a) e (i_file x).
Proof.
  intros H. apply tool_next in H. destruct H as (v & a & -> & [H|(H & c & _ & ->)]); unfold ulpinfo_own in H; cbn [on_val].
  - tests H; try discriminate; injection H as <-; reflexivity.
  - tests H; try discriminate. reflexivity.
Qed.
Theorem C166_shown_partial argv es s : ulpinfo_config argv = Next s -> says ulpinfo_long ulpinfo_short argv es ->
  (given 105 es \/ given 112 es) /\
  (~ given 105 es -> exists p, s = ShowTask p /\ p <> 0) /\
  (~ given 112 es -> exists f, s = ShowFile f /\ last_arg 105 es = Some (Some f)).
Proof.
  intros H S. apply C154_forms in S; [|apply tables|apply tables]. destruct S as [S _]. apply and_then_next in H. destruct H as (y & R & C).
  rewrite S in R. pose proof (run_proj _ _ _ _ ulpinfo_pid _ _ R) as P. pose proof (run_proj _ _ _ _ ulpinfo_file _ _ R) as Q.
  rewrite fold_last in P. rewrite fold_last in Q. cbn [i_pid i_file] in P, Q.
  destruct (i_file y) as [f|].
  - injection C as <-. destruct (last_arg 105 es) as [a|] eqn:L; [|discriminate]. subst a. pose proof (last_arg_in _ _ _ L) as I. split; [left; exists (Some f); exact I|].
    split; [intros N; exfalso; apply N; exists (Some f); exact I|]. intros _. exists f. auto.
  - destruct (Z.eqb_spec (i_pid y) 0) as [|NP]; [discriminate|]. injection C as <-. destruct (last_arg 112 es) as [a|] eqn:L; [|contradiction].
    pose proof (last_arg_in _ _ _ L) as I. split; [right; exists a; exact I|]. split; [intros _; exists (i_pid y); auto|]. intros N. exfalso. apply N. exists a. exact I.
Qed.
Print Assumptions C166_shown_partial.
Example C166_shown_partial_ex : ulpinfo_config [str "-i"; str "a.ulp"] = Next (ShowFile (str "a.ulp")) /\ ulpinfo_config [str "--pid=12"] = Next (ShowTask 12).
Proof. vm_compute. auto. Qed.
(** With a file and a process only the file is shown. *)
Theorem C166_shown_refuted : exists argv es f, says ulpinfo_long ulpinfo_short argv es /\ given 112 es /\ ulpinfo_config argv = Next (ShowFile f).
Proof.
  exists [str "-p12"; str "-i"; str "a.ulp"]. eexists. eexists. split; [apply C154_forms; [apply tables|apply tables|]; split; [vm_compute; reflexivity|intros [X|[X|[]]]; discriminate]|].
  split; [exists (Some (str "12")); cbn; auto|]. vm_compute. reflexivity.
Qed.
Print Assumptions C166_shown_refuted.

(** ** C167: --dump dumps what is named *)

Definition dump_words : list string := ["vma"; "vdso"; "disasm"; "addr"; "size"]%string.
Definition dump0 : dcfg := Dc false false false false 0 0 0 0 0.
Lemma each_dump us : Forall sub_ok us -> only dump_words us -> forall d,
  each dump_tok d (map sub_text us) =
    Next (Dc (d_vma d || hasb "vma" us) (d_vdso d || hasb "vdso" us) (d_disasm d || hasb "disasm" us) (d_mem d)
             (num_of "addr" us TextModel.str2addr (d_addr d)) (num_of "size" us TextModel.str2size (d_size d)) (d_vaddr d) (d_daddr d) (d_dsize d)).
Proof.
  induction us as [|u us IH]; intros F O d.
  - cbn. rewrite !orb_false_r. destruct d. reflexivity.
  - pose proof (Forall_inv F) as F1. pose proof (Forall_inv O) as (n & N1 & N2).
    specialize (IH (Forall_inv_tail F) (Forall_inv_tail O)).
    cbn [map each]. unfold dump_tok at 1. rewrite (val_sub u F1), !(is_tok_sub u _ F1). rewrite !num_of_cons. unfold hasb in *. cbn [existsb].
    rewrite N2. unfold dump_words in N1. cbn [In] in N1. destruct N1 as [<-|[<-|[<-|[<-|[<-|[]]]]]];
      repeat match goal with |- context [str_eqb (str ?a) (str ?b)] => let v := eval vm_compute in (str_eqb (str a) (str b)) in change (str_eqb (str a) (str b)) with v end;
      cbn [orb]; cbv beta iota zeta; rewrite IH; cbn [d_vma d_vdso d_disasm d_mem d_addr d_size d_vaddr d_daddr d_dsize]; rewrite ?orb_true_r; reflexivity.
Qed.
(** One --dump: exactly the four forms are accepted, each for what it names. *)
Theorem C167_dump_partial us d : Forall sub_ok us -> only dump_words us ->
  let A := num_of "addr" us TextModel.str2addr 0 in
  let S := num_of "size" us TextModel.str2size 0 in
  dump_option dump0 (joined us) = Next d ->
  (hasb "vma" us = true /\ hasb "vdso" us = false /\ hasb "disasm" us = false /\ A <> 0 /\
     d_vma d = true /\ d_vdso d = false /\ d_disasm d = false /\ d_mem d = false /\ d_vaddr d = A) \/
  (hasb "vma" us = false /\ hasb "vdso" us = true /\ hasb "disasm" us = false /\
     d_vma d = false /\ d_vdso d = true /\ d_disasm d = false /\ d_mem d = false) \/
  (hasb "vma" us = false /\ hasb "vdso" us = false /\ hasb "disasm" us = true /\ A <> 0 /\ S <> 0 /\
     d_vma d = false /\ d_vdso d = false /\ d_disasm d = true /\ d_mem d = false /\ d_daddr d = A /\ d_dsize d = S) \/
  (hasb "vma" us = false /\ hasb "vdso" us = false /\ hasb "disasm" us = false /\ A <> 0 /\ S <> 0 /\
     d_vma d = false /\ d_vdso d = false /\ d_disasm d = false /\ d_mem d = true /\ d_addr d = A /\ d_size d = S).
Proof.
  intros F O A S H. unfold dump_option in H. rewrite (toks_joined us F), (each_dump us F O) in H.
  cbn [and_then d_vma d_vdso d_disasm d_mem d_addr d_size d_vaddr d_daddr d_dsize orb dump0] in H. fold A S in H. clearbody A S.
  destruct (hasb "vma" us), (hasb "vdso" us), (hasb "disasm" us); cbn [orb andb negb] in H; try discriminate.
  - left. destruct (Z.eqb_spec A 0); [discriminate|]. injection H as <-. cbn. repeat split; auto.
  - right; left. destruct (_ || _); [discriminate|]. injection H as <-. cbn. repeat split; auto.
  - right; right; left. destruct (Z.eqb_spec A 0); [discriminate|]. destruct (Z.eqb_spec S 0); [discriminate|]. injection H as <-. cbn. repeat split; auto.
  - right; right; right. destruct (Z.eqb_spec A 0); [discriminate|]. destruct (Z.eqb_spec S 0); [discriminate|]. injection H as <-. cbn. repeat split; auto.
Qed.
Print Assumptions C167_dump_partial.
Example C167_dump_partial_ex : dump_option dump0 (str "size=2KB,addr=0x1000") = Next (Dc false false false true 4096 2048 0 0 0) /\
  dump_option dump0 (str "addr=0x1000,vma") = Next (Dc true false false false 4096 0 4096 0 0) /\ dump_option dump0 (str "vma,disasm") = Exit 1.
Proof. vm_compute. auto. Qed.
(** Of two dumps, a mapping and a range, neither is done: the mapping at the address of the range is dumped. *)
Theorem C167_dump_refuted : exists e argv x,
  says ultask_long ultask_short argv [Opt 112 (Some (str "12")); Opt 146 (Some (str "vma,addr=0x1000")); Opt 146 (Some (str "addr=0x2000,size=16")); Opt 111 (Some (str "out"))] /\
  ultask_config e argv = Next x /\ d_vma (t_dump x) = true /\ d_vaddr (t_dump x) = 8192 /\ d_mem (t_dump x) = false.
Proof.
  exists env0, [str "-p12"; str "--dump"; str "vma,addr=0x1000"; str "--dump"; str "addr=0x2000,size=16"; str "-o"; str "out"]. eexists.
  split; [apply C154_forms; [apply tables|apply tables|]; split; [vm_compute; reflexivity|intros [X|[X|[X|[X|[]]]]]; discriminate]|].
  split; [vm_compute; reflexivity|]. repeat split.
Qed.
Print Assumptions C167_dump_refuted.
