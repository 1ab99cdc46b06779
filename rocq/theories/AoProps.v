(** Properties C195-C197: what the options of the tools settle. *)
From Coq Require Import ZArith String List Bool Lia.
From Verif Require Import Word WordLemmas Str.
From Verif Require TextModel MiscModel.
From Verif Require Import ArModel ArSpec ArProofs ArProps AoSpec.
Import ListNotations.
Open Scope Z_scope.

(** ** C195: the tracing tool settles function and object *)

Lemma ulftrace_func x e y : ulftrace_step x e = Next y -> f_func y = on_val 102 (fun a => a) e (f_func x).
Proof.
  intros H. apply tool_next in H. destruct H as (v & a & -> & [H|(H & c & _ & ->)]); unfold ulftrace_own in H; cbn [on_val].
  - destruct (Z.eqb_spec v 112) as [->|]; [injection H as <-; reflexivity|]. tests H; try discriminate; injection H as <-; reflexivity.
  - tests H; try discriminate. reflexivity.
Qed.
Lemma ulftrace_obj x e y : ulftrace_step x e = Next y -> f_obj y = on_val 106 (fun a => a) e (f_obj x).
Proof.
  intros H. apply tool_next in H. destruct H as (v & a & -> & [H|(H & c & _ & ->)]); unfold ulftrace_own in H; cbn [on_val].
  - destruct (Z.eqb_spec v 112) as [->|]; [injection H as <-; reflexivity|]. destruct (Z.eqb_spec v 102) as [->|]; [injection H as <-; reflexivity|].
    tests H; try discriminate; injection H as <-; reflexivity.
  - tests H; try discriminate. reflexivity.
Qed.
Lemma arg_text k tab stab ws es : says tab stab ws es ->
  Forall (fun o => l_val o = k -> l_arg o = true) tab -> Forall (fun o => s_char o = k -> s_arg o = Required) stab -> given k es ->
  exists t, last_arg k es = Some (Some t).
Proof.
  intros S F1 F2 G. destruct (last_arg k es) as [[t|]|] eqn:L; [eauto| |exfalso; apply last_arg_none in L; contradiction].
  apply last_arg_in in L. rewrite Forall_forall in F1, F2. destruct (says_arg _ _ _ _ _ S L) as [(o & O1 & O2 & O3)|(o & O1 & O2 & O3)].
  - specialize (F1 _ O1 O2). congruence.
  - specialize (F2 _ O1 O2). congruence.
Qed.
Theorem C195_trace e argv es : says ulftrace_long ulftrace_short argv es ->
  (forall x, ulftrace_config e argv = Next x ->
     (exists t, last_arg 102 es = Some (Some t) /\ f_func x = Some t) /\
     (exists o, f_obj x = Some o /\ e_exist e o = true /\ e_relo e o = true /\
        ((given 106 es /\ last_arg 106 es = Some (Some o)) \/ (~ given 106 es /\ o = e_default e)))) /\
  (~ given 102 es -> forall x, ulftrace_config e argv <> Next x) /\
  (forall o, last_arg 106 es = Some (Some o) -> e_exist e o = false \/ e_relo e o = false -> forall x, ulftrace_config e argv <> Next x).
Proof.
  intros S. assert (M : forall x, ulftrace_config e argv = Next x ->
     (exists t, last_arg 102 es = Some (Some t) /\ f_func x = Some t) /\
     (exists o, f_obj x = Some o /\ e_exist e o = true /\ e_relo e o = true /\
        ((given 106 es /\ last_arg 106 es = Some (Some o)) \/ (~ given 106 es /\ o = e_default e)))).
  { intros x H. pose proof S as S'. apply C154_forms in S'; [|apply tables|apply tables]. destruct S' as [S' _]. apply and_then_next in H. destruct H as (y & R & C).
    rewrite S' in R. pose proof (run_proj _ _ _ _ ulftrace_func _ _ R) as P. pose proof (run_proj _ _ _ _ ulftrace_obj _ _ R) as Q.
    rewrite fold_last in P, Q. cbn [f_func f_obj] in P, Q. unfold ulftrace_check in C. destruct (f_pid y =? -1); [discriminate|].
    destruct (f_func y) as [t|] eqn:FY; [|discriminate]. destruct (negb (e_pid e (f_pid y))); [discriminate|].
    assert (X : f_func x = Some t).
    { destruct (f_obj y); tests C; try discriminate; injection C as <-; [exact FY|cbn [f_func]; reflexivity]. }
    split.
    - exists t. split; [|exact X]. destruct (last_arg 102 es) as [a|]; [congruence|discriminate].
    - destruct (f_obj y) as [o|] eqn:OY.
      + destruct (e_exist e o) eqn:E1; [|discriminate]. destruct (e_relo e o) eqn:E2; [|discriminate]. cbn [negb] in C. injection C as <-.
        exists o. split; [exact OY|]. split; [exact E1|]. split; [exact E2|]. left.
        destruct (last_arg 106 es) as [a|] eqn:L; [|discriminate]. subst a. split; [|reflexivity]. exists (Some o). apply last_arg_in, L.
      + destruct (e_exist e (e_default e)) eqn:E1; [|discriminate]. destruct (e_relo e (e_default e)) eqn:E2; [|discriminate]. cbn [negb] in C. injection C as <-. cbn [f_obj].
        exists (e_default e). split; [reflexivity|]. split; [exact E1|]. split; [exact E2|]. right. split; [|reflexivity]. intros G.
        destruct (arg_text 106 _ _ _ _ S) as (t' & L); [repeat constructor; cbn; intros Z; try discriminate; reflexivity|repeat constructor; cbn; intros Z; try discriminate; reflexivity|exact G|].
        rewrite L in Q. discriminate. }
  split; [exact M|]. split.
  - intros G x H. destruct (M x H) as ((t & L & _) & _). apply G. exists (Some t). apply last_arg_in, L.
  - intros o L B x H. destruct (M x H) as (_ & o' & _ & E1 & E2 & [(_ & L')|(G & _)]).
    + assert (o' = o) by congruence. subst o'. destruct B; congruence.
    + apply G. exists (Some o). apply last_arg_in, L.
Qed.
Print Assumptions C195_trace.
Example C195_ex : exists x, ulftrace_config env0 [str "-p12"; str "-f"; str "main"; str "--function=open"; str "-j/t/a.so"] = Next x /\ f_func x = Some (str "open") /\ f_obj x = Some (str "/t/a.so").
Proof. eexists. split; [vm_compute; reflexivity|]. split; reflexivity. Qed.

(** ** C196: the settings shared by the tools *)

Definition level_of (e : event) (n : Z) : Z :=
  match e with
  | Opt v a => if v =? 139 then match MiscModel.log_level_option (match a with Some t => t | None => [] end) with Some k => k | None => n end
               else if v =? 140 then 7 else if v =? 141 then 3 else n
  | Unknown => n
  end.
Definition flag_of (k : Z) (e : event) (b : bool) : bool := match e with Opt v _ => (v =? k) || b | Unknown => b end.
Definition verb_of (a : option (list Z)) : Z := s32 (TextModel.str2verbose a + 1).

Ltac common_cases C v :=
  unfold common_step in C;
  destruct (v =? 86) eqn:?; [discriminate|]; destruct (v =? 104) eqn:?; [discriminate|];
  destruct (Z.eqb_spec v 118) as [->|]; [injection C as <-|
  destruct (Z.eqb_spec v 117) as [->|]; [injection C as <-|
  destruct (Z.eqb_spec v ARG_LOG_LEVEL) as [->|]; [destruct (MiscModel.log_level_option _) eqn:?; [|discriminate]; injection C as <-|
  destruct (Z.eqb_spec v ARG_LOG_DEBUG) as [->|]; [injection C as <-|
  destruct (Z.eqb_spec v ARG_LOG_ERR) as [->|]; [injection C as <-|
  destruct (v =? ARG_LOG_INFO) eqn:?; [discriminate|];
  destruct (Z.eqb_spec v 70) as [->|]; [injection C as <-|discriminate]]]]]].
Definition owns (v : Z) : Prop := ~ In v [118; 117; 139; 140; 141; 70].
Lemma common_sets c v a c' : common_step c (Opt v a) = Some (Next c') ->
  o_level c' = level_of (Opt v a) (o_level c) /\ o_verbose c' = on_val 118 verb_of (Opt v a) (o_verbose c) /\
  o_dry c' = flag_of 117 (Opt v a) (o_dry c) /\ o_force c' = flag_of 70 (Opt v a) (o_force c).
Proof.
  intros C. cbn [level_of on_val flag_of]. common_cases C v; cbn [o_level o_verbose o_dry o_force]; unfold ARG_LOG_LEVEL, ARG_LOG_DEBUG, ARG_LOG_ERR in *;
    try (cbn; repeat split; reflexivity).
Qed.
Lemma owns_sets v a c : owns v -> level_of (Opt v a) (o_level c) = o_level c /\ on_val 118 verb_of (Opt v a) (o_verbose c) = o_verbose c /\
  flag_of 117 (Opt v a) (o_dry c) = o_dry c /\ flag_of 70 (Opt v a) (o_force c) = o_force c.
Proof.
  unfold owns. intros O. cbn [level_of on_val flag_of]. cbn [In] in O.
  destruct (Z.eqb_spec v 139); [exfalso; apply O; subst v; auto 10|]. destruct (Z.eqb_spec v 140); [exfalso; apply O; subst v; auto 10|]. destruct (Z.eqb_spec v 141); [exfalso; apply O; subst v; auto 10|]. destruct (Z.eqb_spec v 118); [exfalso; apply O; subst v; auto 10|].
  destruct (Z.eqb_spec v 117); [exfalso; apply O; subst v; auto 10|]. destruct (Z.eqb_spec v 70); [exfalso; apply O; subst v; auto 10|]. repeat split; reflexivity.
Qed.

Section Shared.
Variables (A : Type) (own : A -> Z -> option (list Z) -> option (step A)) (get : A -> common) (set : A -> common -> A).
Hypothesis own_keeps : forall x v a y, own x v a = Some (Next y) -> get y = get x /\ owns v.
Hypothesis get_set : forall x c, get (set x c) = c.
Lemma tool_sets x e y : tool_step own get set x e = Next y ->
  o_level (get y) = level_of e (o_level (get x)) /\ o_verbose (get y) = on_val 118 verb_of e (o_verbose (get x)) /\
  o_dry (get y) = flag_of 117 e (o_dry (get x)) /\ o_force (get y) = flag_of 70 e (o_force (get x)).
Proof.
  intros H. apply tool_next in H. destruct H as (v & a & -> & [H|(H & c & C & ->)]).
  - destruct (own_keeps _ _ _ _ H) as [G O]. rewrite G. destruct (owns_sets v a (get x) O) as (E1 & E2 & E3 & E4). repeat split; symmetry; assumption.
  - rewrite get_set. apply common_sets, C.
Qed.
End Shared.

Lemma given_cons v e es : given v (e :: es) <-> (exists a, e = Opt v a) \/ given v es.
Proof. split; [intros (a & [->|X]); [left|right]; eexists; eauto|intros [(a & ->)|(a & X)]; exists a; cbn; auto]. Qed.
Lemma flag_fold k es : forall b, fold_left (fun b e => flag_of k e b) es b = true <-> b = true \/ given k es.
Proof.
  induction es as [|e es IH]; intros b; cbn [fold_left].
  - split; auto. intros [H|(a & [])]. exact H.
  - rewrite IH, given_cons. destruct e as [v a|]; cbn [flag_of].
    + rewrite orb_true_iff, Z.eqb_eq. split; [intros [[->|H]|H]; eauto|]. intros [H|[(b' & E)|H]]; auto. injection E as -> ->. auto.
    + split; [tauto|]. intros [H|[(b' & E)|H]]; auto. discriminate.
Qed.
(** A run goes on only past levels it can name, and with a text for them. *)
Lemma level_fold es : forall n, (forall a, In (Opt 139 a) es -> exists t, a = Some t /\ MiscModel.log_level_option t <> None) ->
  let r := fold_left (fun n e => level_of e n) es n in
  (r = n /\ forall v, In v about_level -> ~ given v es) \/
  (exists before e after, es = before ++ e :: after /\ level_says e r /\ forall v, In v about_level -> ~ given v after).
Proof.
  induction es as [|e es IH]; intros n L; cbn [fold_left].
  - left. split; [reflexivity|]. intros v _ (a & []).
  - cbv zeta. destruct (IH (level_of e n) (fun a X => L a (or_intror X))) as [[R G]|(b & e' & af & -> & S & G)].
    2:{ right. exists (e :: b), e', af. auto. }
    cbv zeta in R. rewrite R. clear IH R.
    destruct e as [v a|].
    2:{ left. split; [reflexivity|]. intros v V X. rewrite given_cons in X. destruct X as [(a & X)|X]; [discriminate|exact (G v V X)]. }
    cbn [level_of]. destruct (Z.eqb_spec v 139) as [->|N1].
    { destruct (L a (or_introl eq_refl)) as (t & -> & K). destruct (MiscModel.log_level_option t) as [k|] eqn:E; [|contradiction].
      right. exists [], (Opt 139 (Some t)), es. split; [reflexivity|]. split; [constructor; exact E|exact G]. }
    destruct (Z.eqb_spec v 140) as [->|N2]; [right; exists [], (Opt 140 a), es; split; [reflexivity|]; split; [constructor|exact G]|].
    destruct (Z.eqb_spec v 141) as [->|N3]; [right; exists [], (Opt 141 a), es; split; [reflexivity|]; split; [constructor|exact G]|].
    left. split; [reflexivity|]. intros w W X. rewrite given_cons in X. destruct X as [(b & X)|X]; [|exact (G w W X)]. injection X as -> ->.
    cbn in W. intuition congruence.
Qed.
Lemma count_bound s : 0 <= count_v s <= Z.of_nat (List.length s).
Proof. unfold count_v. induction s as [|c s IH]; cbn [filter List.length]; [lia|]. destruct (c =? 118); cbn [List.length]; lia. Qed.
Lemma s32_small x : - 2 ^ 31 <= x < 2 ^ 31 -> s32 x = x.
Proof. intros H. apply (sgn_id 32); [lia|exact H]. Qed.
Lemma verbose_count s : forall v, 0 <= v -> v + Z.of_nat (List.length s) < 2 ^ 31 -> TextModel.verbose_loop s v = v + count_v s.
Proof.
  unfold count_v. induction s as [|c s IH]; intros v V L; cbn [TextModel.verbose_loop filter]; [cbn; lia|].
  cbn [List.length] in L. destruct (c =? 118).
  - rewrite s32_small by lia. rewrite IH by lia. cbn [List.length]. lia.
  - rewrite IH by lia. lia.
Qed.
Lemma verb_left s : Z.of_nat (List.length s) < 2 ^ 31 - 1 -> verb_of (Some s) = count_v s + 1.
Proof.
  intros L. unfold verb_of, TextModel.str2verbose. pose proof (count_bound s). destruct (Z.eqb_spec (TextModel.len s) 0) as [E|_].
  - unfold TextModel.len in E. destruct s; [reflexivity|cbn [List.length] in E; lia].
  - rewrite verbose_count by lia. rewrite Z.add_0_l. apply s32_small. lia.
Qed.
Lemma run_level {A} own get (set : A -> common -> A) es : forall x y a, (forall x a, own x 139 a = None) -> run (tool_step own get set) x es = Next y ->
  In (Opt 139 a) es -> MiscModel.log_level_option (match a with Some t => t | None => [] end) <> None.
Proof.
  induction es as [|e es IH]; intros x y a O R I; [destruct I|]. cbn [run] in R. destruct (tool_step own get set x e) as [z|k|] eqn:T; try discriminate.
  destruct I as [->|I]; [|eapply IH; eauto]. unfold tool_step in T. rewrite O in T. unfold common_step in T. cbn - [MiscModel.log_level_option] in T.
  intros E. rewrite E in T. discriminate.
Qed.
Lemma no_flag k tab stab ws es a : says tab stab ws es -> Forall (fun o => l_val o = k -> l_arg o = true) tab -> Forall (fun o => s_char o = k -> s_arg o = Required) stab ->
  In (Opt k a) es -> exists t, a = Some t.
Proof.
  intros S F1 F2 I. destruct a as [t|]; [eauto|]. exfalso. rewrite Forall_forall in F1, F2. destruct (says_arg _ _ _ _ _ S I) as [(o & O1 & O2 & O3)|(o & O1 & O2 & O3)].
  - specialize (F1 _ O1 O2). congruence.
  - specialize (F2 _ O1 O2). congruence.
Qed.
Lemma run_settings {A} own get (set : A -> common -> A) tab stab ws es x y :
  (forall x v a y, own x v a = Some (Next y) -> get y = get x /\ owns v) -> (forall x c, get (set x c) = c) -> (forall x a, own x 139 a = None) ->
  Forall (fun o => l_val o = 139 -> l_arg o = true) tab -> Forall (fun o => s_char o = 139 -> s_arg o = Required) stab ->
  says tab stab ws es -> short_words es -> get x = common0 -> run (tool_step own get set) x es = Next y -> settings es (get y).
Proof.
  intros K GS O F1 F2 S W G R.
  assert (T1 : forall x e y, tool_step own get set x e = Next y -> o_level (get y) = level_of e (o_level (get x))) by (intros; eapply tool_sets; eauto).
  assert (T2 : forall x e y, tool_step own get set x e = Next y -> o_verbose (get y) = on_val 118 verb_of e (o_verbose (get x))) by (intros; eapply tool_sets; eauto).
  assert (T3 : forall x e y, tool_step own get set x e = Next y -> o_dry (get y) = flag_of 117 e (o_dry (get x))) by (intros; eapply tool_sets; eauto).
  assert (T4 : forall x e y, tool_step own get set x e = Next y -> o_force (get y) = flag_of 70 e (o_force (get x))) by (intros; eapply tool_sets; eauto).
  unfold settings. rewrite (run_proj _ _ _ _ T1 _ _ R), (run_proj _ _ _ _ T2 _ _ R), (run_proj _ _ _ _ T3 _ _ R), (run_proj _ _ _ _ T4 _ _ R).
  rewrite G. cbn [common0 o_level o_verbose o_dry o_force]. split; [|split; [|split]].
  - apply level_fold. intros a I. destruct (no_flag _ _ _ _ _ _ S F1 F2 I) as (t & ->). exists t. split; [reflexivity|].
    exact (run_level _ _ _ _ _ _ _ O R I).
  - unfold verbose_left. rewrite fold_last. destruct (last_arg 118 es) as [[s|]|] eqn:L; [|reflexivity|reflexivity].
    apply verb_left. apply (W 118). apply last_arg_in, L.
  - rewrite flag_fold. intuition discriminate.
  - rewrite flag_fold. intuition discriminate.
Qed.
Ltac tab139 := repeat constructor; cbn; intros Q; try discriminate; reflexivity.
Ltac owned := unfold owns; cbn [In]; intuition discriminate.
Theorem C196_settings e argv :
  (forall x es, ulpatch_config e argv = Next x -> says ulpatch_long ulpatch_short argv es -> short_words es -> settings es (p_common x)) /\
  (forall x es, ulftrace_config e argv = Next x -> says ulftrace_long ulftrace_short argv es -> short_words es -> settings es (f_common x)) /\
  (forall x es, ultask_config e argv = Next x -> says ultask_long ultask_short argv es -> short_words es -> settings es (t_common x)) /\
  (forall x es, run ulpinfo_step (Ic None 0 common0) (scan ulpinfo_long ulpinfo_short argv) = Next x -> says ulpinfo_long ulpinfo_short argv es -> short_words es -> settings es (i_common x)).
Proof.
  split; [|split; [|split]]; intros x es H S W; pose proof S as S'; (apply C154_forms in S'; [|apply tables|apply tables]); destruct S' as [S' _].
  - apply and_then_next in H. destruct H as (y & R & C). rewrite S' in R.
    assert (E : p_common x = p_common y) by (unfold ulpatch_check in C; destruct (p_cmd y); tests C; try discriminate; injection C as <-; reflexivity). rewrite E.
    eapply (run_settings ulpatch_own p_common _ ulpatch_long ulpatch_short argv es); try exact R; try exact S; auto; try tab139; try reflexivity.
    intros z v a w Q. unfold ulpatch_own in Q. tests Q; try discriminate; injection Q as <-; (split; [reflexivity|]); match goal with E : (v =? _) = true |- _ => apply Z.eqb_eq in E; subst v; owned end.
  - apply and_then_next in H. destruct H as (y & R & C). rewrite S' in R.
    assert (E : f_common x = f_common y) by (unfold ulftrace_check in C; destruct (f_func y); [|destruct (f_pid y =? -1); discriminate]; destruct (f_obj y); tests C; try discriminate; injection C as <-; reflexivity). rewrite E.
    eapply (run_settings ulftrace_own f_common _ ulftrace_long ulftrace_short argv es); try exact R; try exact S; auto; try tab139; try reflexivity.
    intros z v a w Q. unfold ulftrace_own in Q. tests Q; try discriminate; injection Q as <-; (split; [reflexivity|]); match goal with E : (v =? _) = true |- _ => apply Z.eqb_eq in E; subst v; owned end.
  - apply and_then_next in H. destruct H as (y & R & C). rewrite S' in R.
    assert (E : t_common x = t_common y).
    { unfold ultask_check in C. destruct (t_pid y =? -1); [discriminate|]. destruct (negb _); [discriminate|]. destruct (_ && _) in C; [discriminate|]. destruct (_ && _) in C; [discriminate|].
      apply and_then_next in C. destruct C as (f & _ & C). destruct (match t_out y with Some _ => _ | None => _ end) in C; [discriminate|]. injection C as <-. reflexivity. }
    rewrite E. eapply (run_settings (ultask_own (e_page e)) t_common _ ultask_long ultask_short argv es); try exact R; try exact S; auto; try tab139; try reflexivity.
    + intros z v a w Q. destruct z. ultask_cases Q; (split; [reflexivity|]); owned.
    + intros z a. destruct z. reflexivity.
  - rewrite S' in H. eapply (run_settings ulpinfo_own i_common _ ulpinfo_long ulpinfo_short argv es); try exact H; try exact S; auto; try tab139; try reflexivity.
    intros z v a w Q. unfold ulpinfo_own in Q. tests Q; try discriminate; injection Q as <-; (split; [reflexivity|]); match goal with E : (v =? _) = true |- _ => apply Z.eqb_eq in E; subst v; owned end.
Qed.
Print Assumptions C196_settings.
Example C196_ex : exists x, ultask_config env0 [str "-p12"; str "--log-debug"; str "-uvvv"; str "--lv=warn"; str "-F"] = Next x /\ t_common x = Co 4 3 true true /\
  says ultask_long ultask_short [str "-p12"; str "--log-debug"; str "-uvvv"; str "--lv=warn"; str "-F"]
    [Opt 112 (Some (str "12")); Opt 140 None; Opt 117 None; Opt 118 (Some (str "vv")); Opt 139 (Some (str "warn")); Opt 70 None].
Proof.
  eexists. split; [vm_compute; reflexivity|]. split; [reflexivity|]. apply C154_forms; [apply tables|apply tables|]. split; [vm_compute; reflexivity|].
  intros X. cbn in X. repeat destruct X as [X|X]; try discriminate. exact X.
Qed.

(** ** C197: the summary is shown when nothing else is asked for *)

(** After an option that asks for something, something is to be done. *)
Lemma each_inv {A} (P : A -> Prop) f ts : (forall x t y, f x t = Next y -> P x -> P y) -> forall x y, each f x ts = Next y -> P x -> P y.
Proof.
  intros F. induction ts as [|t ts IH]; intros x y; cbn [each]; [intros E; injection E as <-; auto|].
  destruct (f x t) as [z|k|] eqn:E; try discriminate. intros R X. eapply IH; eauto.
Qed.
Definition busy (d : dcfg) : bool := d_vma d || d_vdso d || d_mem d || d_disasm d.
Lemma dump_busy d t d' : dump_option d t = Next d' -> busy d' = true.
Proof.
  unfold dump_option, busy. intros H. apply and_then_next in H. destruct H as (y & _ & H).
  destruct ((d_vma y || d_vdso y) && d_disasm y); [discriminate|]. destruct (d_vma y) eqn:E1, (d_vdso y) eqn:E2; cbn [andb] in H; try discriminate.
  all: repeat match type of H with context [if ?b then _ else _] => destruct b eqn:?; try discriminate end; injection H as <-; cbn;
    repeat match goal with E : _ = true |- _ => rewrite E end; cbn; rewrite ?orb_true_r; reflexivity.
Qed.
Lemma jmp_busy j t j' : jmp_option j t = Next j' -> fst j' <> 0 /\ snd j' <> 0.
Proof.
  unfold jmp_option. intros H. apply and_then_next in H. destruct H as (y & _ & H). destruct (Z.eqb_spec (fst y) 0); [discriminate|].
  destruct (Z.eqb_spec (snd y) 0); [discriminate|]. injection H as <-. auto.
Qed.
Lemma map_busy m t m' : map_option m t = Next m' -> m_file m' <> None.
Proof. unfold map_option. intros H. apply and_then_next in H. destruct H as (y & _ & H). destruct (m_file y) eqn:E; [|discriminate]. injection H as <-. congruence. Qed.
Lemma prot_busy page p t p' : prot_option page p t = Next p' -> r_addr p' <> 0.
Proof.
  unfold prot_option. intros H. apply and_then_next in H. destruct H as (y & _ & H). destruct (_ && _); [discriminate|].
  destruct (Z.eqb_spec (r_addr y) 0); [discriminate|]. destruct (_ || _); [discriminate|]. destruct (_ || _); [discriminate|]. injection H as <-. assumption.
Qed.
Definition idle_of (e : event) (b : bool) : bool := match e with Opt v _ => negb (existsb (fun w => w =? v) actions) && b | Unknown => b end.
Lemma no_action_dump x : busy (t_dump x) = true -> no_action x = false.
Proof. unfold no_action, busy. destruct (d_vma (t_dump x)), (d_vdso (t_dump x)), (d_mem (t_dump x)), (d_disasm (t_dump x)); cbn [orb negb andb]; try discriminate; intros _; rewrite ?andb_false_r; reflexivity. Qed.
Lemma ultask_idle page x e y : ultask_step page x e = Next y -> no_action y = idle_of e (no_action x).
Proof.
  intros H. apply tool_next in H. destruct H as (v & a & -> & [H|(H & c & C & ->)]); cbn [idle_of].
  - destruct x as [pid vmas threads fds auxv status syms dump jmp map unmap prot out rdonly common print]. ultask_cases H; try reflexivity;
      cbn [existsb actions Z.eqb Pos.eqb orb negb andb].
    all: first
      [ apply no_action_dump; cbn [t_dump]; eapply dump_busy; eassumption
      | unfold no_action; cbn [t_vmas t_dump t_jmp t_map t_unmap t_prot t_syms t_auxv t_status t_threads t_fds];
        try (apply jmp_busy in Q; destruct Q as [Q1 Q2]; rewrite (proj2 (Z.eqb_neq _ _) Q1), (proj2 (Z.eqb_neq _ _) Q2); cbn [orb]);
        try (apply map_busy in Q; match type of Q with m_file ?m <> None => destruct (m_file m); [|contradiction] end);
        try (apply prot_busy in Q; rewrite (proj2 (Z.eqb_neq _ _) Q));
        cbn [negb]; rewrite ?andb_false_r; reflexivity ].
  - assert (N : existsb (fun w => w =? v) actions = false).
    { clear C. destruct x. unfold actions. cbn [existsb]. 
      repeat match goal with |- context [?k =? v] => destruct (Z.eqb_spec k v) as [<-|]; [discriminate H|]; cbn [orb] end. reflexivity. }
    rewrite N. cbn [negb andb]. reflexivity.
Qed.
Lemma idle_fold es : forall b, fold_left (fun b e => idle_of e b) es b = true <-> b = true /\ forall v, In v actions -> ~ given v es.
Proof.
  induction es as [|e es IH]; intros b; cbn [fold_left].
  - split; [intros ->; split; auto; intros v _ [a []]|tauto].
  - rewrite IH. clear IH. destruct e as [v a|]; cbn [idle_of].
    + rewrite andb_true_iff, negb_true_iff. split.
      * intros ((C & B) & N). split; auto. intros w W X. rewrite given_cons in X. destruct X as [(z & E)|X]; [|exact (N w W X)]. injection E as -> ->.
        assert (T : existsb (fun k => k =? w) actions = true) by (apply existsb_exists; exists w; split; [exact W|apply Z.eqb_refl]). congruence.
      * intros (B & N). split; [split; auto|].
        -- destruct (existsb (fun w => w =? v) actions) eqn:E; [|reflexivity]. exfalso. apply existsb_exists in E. destruct E as (w & W & E). apply Z.eqb_eq in E. subst w.
           apply (N v W). exists a. left. reflexivity.
        -- intros w W (z & X). apply (N w W). exists z. right. exact X.
    + split; intros (B & N); split; auto; intros w W X.
      * rewrite given_cons in X. destruct X as [(z & E)|X]; [discriminate|exact (N w W X)].
      * apply (N w W). rewrite given_cons. auto.
Qed.
Theorem C197_summary e argv x es : ultask_config e argv = Next x -> says ultask_long ultask_short argv es ->
  (t_print x = true <-> forall v, In v actions -> ~ given v es).
Proof.
  intros H S. destruct (ultask_next _ _ _ _ H S) as (y & R & C). apply ultask_checked in C.
  destruct C as (_ & _ & _ & _ & _ & _ & _ & _ & _ & _ & _ & E). rewrite E, (run_proj _ _ _ _ (ultask_idle (e_page e)) _ _ R).
  rewrite idle_fold. split; [tauto|]. intros Q. split; [reflexivity|exact Q].
Qed.
Print Assumptions C197_summary.
Example C197_ex : exists x y, ultask_config env0 [str "-p12"; str "-v"; str "x"] = Next x /\ t_print x = true /\
  ultask_config env0 [str "-p12"; str "--fds"; str "--jmp"; str "from=1,to=2"] = Next y /\ t_print y = false.
Proof. eexists. eexists. split; [vm_compute; reflexivity|]. split; [reflexivity|]. split; [vm_compute; reflexivity|reflexivity]. Qed.
