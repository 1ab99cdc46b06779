(** Properties C219-C221: the program ulpatch_test. *)
From Coq Require Import ZArith String List Bool Lia.
From Verif Require TextModel.
From Verif Require Import Word WordLemmas Str TextSpec TextProps RtModel RtSpec.
Import ListNotations.
Open Scope Z_scope.

Lemma passes_iff t r : (r =? t_expect t) || (t_expect t =? RET_SKIP) = true <-> passes t r.
Proof. unfold passes. rewrite orb_true_iff, !Z.eqb_eq. reflexivity. Qed.
Lemma passes_no t r : (r =? t_expect t) || (t_expect t =? RET_SKIP) = false <-> ~ passes t r.
Proof. rewrite <- passes_iff. destruct (_ || _); split; congruence. Qed.

(** No test is ever skipped. *)
Lemma never_skipped fs t : should_skip fs t = false.
Proof.
  unfold should_skip. destruct (negb (has_filter fs)); [reflexivity|]. cbv zeta.
  destruct (if negb _ && filter_matched_skip fs (category_name t) then true else _); reflexivity.
Qed.

Lemma run_course run fs stop ts : forall o, exists rs, course run stop (map fst (o_ran o)) ts rs /\ o_ran (each_test run fs false stop ts o) = o_ran o ++ rs.
Proof.
  induction ts as [|t ts IH]; intros o; cbn [each_test].
  - exists []. split; [constructor|]. rewrite app_nil_r. reflexivity.
  - rewrite never_skipped. unfold execute_one_test. set (real := run (map fst (o_ran o)) t).
    destruct ((real =? t_expect t) || (t_expect t =? RET_SKIP)) eqn:P.
    + apply passes_iff in P. match goal with |- context [each_test run fs false stop ts ?o'] => destruct (IH o') as (rs & C & E) end. cbn [o_ran] in C, E. rewrite map_app in C.
      exists ((t, real) :: rs). split; [apply co_pass; [exact P|exact C]|]. rewrite E, <- app_assoc. reflexivity.
    + apply passes_no in P. destruct stop; cbn [negb].
      * exists [(t, real)]. split; [apply co_stop; [exact P|reflexivity]|reflexivity].
      * match goal with |- context [each_test run fs false false ts ?o'] => destruct (IH o') as (rs & C & E) end. cbn [o_ran] in C, E. rewrite map_app in C.
        exists ((t, real) :: rs). split; [apply co_fail; [exact P|reflexivity|exact C]|]. rewrite E, <- app_assoc. reflexivity.
Qed.
Lemma list_course run fs stop ts : forall o, each_test run fs true stop ts o = Oc (o_shown o ++ ts) (o_ran o) (o_ok o) (o_bad o) (o_failed o).
Proof.
  induction ts as [|t ts IH]; intros o; cbn [each_test].
  - rewrite app_nil_r. destruct o; reflexivity.
  - rewrite never_skipped, IH. cbn. rewrite <- app_assoc. reflexivity.
Qed.
Lemma course_all run before ts rs : course run false before ts rs -> map fst rs = ts.
Proof. intros C. remember false as st. induction C; cbn; subst; try discriminate; f_equal; auto. Qed.

(** ** C219: the tests that are selected are run *)

Definition filters1 : filters := [(str "Misc.", false); (str "slow", true)].
Definition tests1 : list test := [Te (str "Misc") (str "version") 0; Te (str "Misc") (str "slow_path") 0; Te (str "Task") (str "open") (-2)].

(** Tests that are not selected are run as well. *)
Theorem C219_selected_refuted : exists run fs ts t, In t ts /\ ~ selected fs t /\ In t (map fst (o_ran (fst (ulpatch_test run fs false false ts)))) /\
  In t (o_shown (fst (ulpatch_test run fs true false ts))).
Proof.
  exists (fun _ _ => 0), filters1, tests1, (Te (str "Task") (str "open") (-2)). split; [cbn; auto|]. split; [|vm_compute; auto].
  intros (S & _). destruct S as [S|(p & I & (a & b & E))].
  - apply (S (str "Misc.")). cbn. auto.
  - cbn in I. destruct I as [I|[I|[]]]; [|discriminate]. injection I as <-.
    assert (X : strstrb (full_name (Te (str "Task") (str "open") (-2))) (str "Misc.") = true) by (apply strstrb_iff; eauto). vm_compute in X. discriminate.
Qed.
Print Assumptions C219_selected_refuted.

(** If all of the tests are selected (without options for example) they are run one after the other, each once,
    up to the first failure with --error-exit; whatever the options, no selected test is left out. *)
Theorem C219_selected_partial run fs stop ts :
  ((forall t, In t ts -> selected fs t) -> course run stop [] ts (o_ran (fst (ulpatch_test run fs false stop ts))) /\
     o_shown (fst (ulpatch_test run fs true stop ts)) = ts) /\
  (forall t, In t ts -> selected fs t -> In t (map fst (o_ran (fst (ulpatch_test run fs false false ts)))) /\ In t (o_shown (fst (ulpatch_test run fs true stop ts)))) /\
  o_shown (fst (ulpatch_test run fs false stop ts)) = [] /\ o_ran (fst (ulpatch_test run fs true stop ts)) = [].
Proof.
  unfold ulpatch_test. cbn [fst]. rewrite !list_course. cbn [o_shown o_ran outcome0 app].
  split; [|split; [|split; [|reflexivity]]].
  - intros _. destruct (run_course run fs stop ts outcome0) as (rs & C & E). cbn in C, E. rewrite E. auto.
  - intros t I _. split; [|exact I]. destruct (run_course run fs false ts outcome0) as (rs & C & E). cbn in C, E. rewrite E, (course_all _ _ _ _ C). exact I.
  - assert (G : forall o, o_shown (each_test run fs false stop ts o) = o_shown o); [|rewrite G; reflexivity].
    induction ts as [|t ts IH]; intros o; cbn [each_test]; [reflexivity|]. rewrite never_skipped. unfold execute_one_test.
    destruct (_ || _); [rewrite IH; reflexivity|]. destruct (negb stop); [rewrite IH; reflexivity|reflexivity].
Qed.
Print Assumptions C219_selected_partial.
Example C219_ex : (forall t, In t tests1 -> selected [(str "s", false); (str "slower", true)] t) /\
  map fst (o_ran (fst (ulpatch_test (fun _ t => t_expect t) [(str "s", false); (str "slower", true)] false true tests1))) = tests1 /\
  map fst (o_ran (fst (ulpatch_test (fun before _ => Z.of_nat (List.length before)) [] false true tests1))) = firstn 2 tests1.
Proof.
  split; [|vm_compute; auto]. intros t I. split.
  - right. exists (str "s"). split; [cbn; auto|]. assert (X : strstrb (full_name t) (str "s") = true); [|apply strstrb_iff in X; exact X].
    cbn in I. repeat (destruct I as [<-|I]; [vm_compute; reflexivity|]). destruct I.
  - intros (p & J & C). cbn in J. destruct J as [J|[J|[]]]; [discriminate|]. injection J as <-. apply strstrb_iff in C.
    cbn in I. repeat (destruct I as [<-|I]; [vm_compute in C; discriminate|]). destruct I.
Qed.

(** ** C220: the summary and the status tell the truth about the tests that were run *)

Lemma failing_app rs f n t r : failing rs f n -> (passes t r -> failing (rs ++ [(t, r)]) f (n + 1)) /\ (~ passes t r -> failing (rs ++ [(t, r)]) (f ++ [t]) n).
Proof.
  intros F. induction F as [|t' r' rs f n P F IH|t' r' rs f n P F IH]; cbn [app].
  - split; intros P; [apply (fa_pass t r [] [] 0); [exact P|constructor]|apply fa_fail; [exact P|constructor]].
  - destruct IH as (I1 & I2). split; intros Q; [apply fa_pass; auto|]. apply fa_pass; auto.
  - destruct IH as (I1 & I2). split; intros Q; [apply fa_fail; auto|]. apply fa_fail; auto.
Qed.
Definition honest (o : outcome) : Prop := failing (o_ran o) (o_failed o) (o_ok o) /\ o_bad o = Z.of_nat (List.length (o_failed o)).
Lemma each_honest run fs jl stop ts : forall o, honest o -> honest (each_test run fs jl stop ts o).
Proof.
  induction ts as [|t ts IH]; intros o H; cbn [each_test]; [exact H|]. destruct (should_skip fs t); [apply IH, H|]. destruct jl; [apply IH, H|].
  unfold execute_one_test. set (real := run (map fst (o_ran o)) t). destruct H as (F & B). destruct (failing_app _ _ _ t real F) as (F1 & F2).
  destruct ((real =? t_expect t) || (t_expect t =? RET_SKIP)) eqn:P.
  - apply IH. split; cbn; [apply F1, passes_iff, P|exact B].
  - assert (H : honest (Oc (o_shown o) (o_ran o ++ [(t, real)]) (o_ok o) (o_bad o + 1) (o_failed o ++ [t]))).
    { split; cbn; [apply F2, passes_no, P|]. rewrite B, app_length. cbn. lia. }
    destruct (negb stop); [apply IH, H|exact H].
Qed.
Lemma failing_none rs f n : failing rs f n -> (f = [] <-> forall t r, In (t, r) rs -> passes t r).
Proof.
  intros F. induction F as [|t r rs f n P F IH|t r rs f n P F IH].
  - split; auto. intros _ t r [].
  - rewrite IH. split; intros H t' r' I; [destruct I as [I|I]; [injection I as <- <-; exact P|apply H, I]|apply H; right; exact I].
  - split; [discriminate|]. intros H. exfalso. apply P, H. left. reflexivity.
Qed.
Theorem C220_status run fs just_list stop ts o status : ulpatch_test run fs just_list stop ts = (o, status) ->
  failing (o_ran o) (o_failed o) (o_ok o) /\ o_bad o = Z.of_nat (List.length (o_failed o)) /\
  (status = 0 \/ status = 1) /\ (status = 0 <-> forall t r, In (t, r) (o_ran o) -> passes t r) /\
  (stop = false -> just_list = false -> status = 0 -> forall t, In t ts -> selected fs t -> exists r, In (t, r) (o_ran o) /\ passes t r).
Proof.
  unfold ulpatch_test. intros E. injection E as <- <-.
  assert (H : honest (each_test run fs just_list stop ts outcome0)) by (apply each_honest; split; [constructor|reflexivity]).
  set (o := each_test run fs just_list stop ts outcome0) in *. destruct H as (F & B). pose proof (failing_none _ _ _ F) as N.
  assert (Z0 : (o_bad o =? 0) = true <-> o_failed o = []).
  { rewrite Z.eqb_eq, B. destruct (o_failed o); cbn; split; intros; try congruence; try lia. }
  assert (Q : (if o_bad o =? 0 then 0 else 1) = 0 <-> forall t r, In (t, r) (o_ran o) -> passes t r).
  { rewrite <- N, <- Z0. destruct (o_bad o =? 0); split; congruence. }
  split; [exact F|]. split; [exact B|]. split; [destruct (o_bad o =? 0); auto|]. split; [exact Q|].
  intros -> -> S t I _. destruct (run_course run fs false ts outcome0) as (rs & C & E). cbn in C, E. fold o in E. rewrite <- (course_all _ _ _ _ C), <- E in I.
  apply in_map_iff in I. destruct I as ((t' & r) & X & I). cbn in X. subst t'. exists r. split; [exact I|]. apply Q; auto.
Qed.
Print Assumptions C220_status.
(** The second test crashes, the third may do anything. *)
Example C220_ex : let ts := [Te (str "A") (str "a") 0; Te (str "A") (str "b") 0; Te (str "A") (str "c") RET_SKIP] in
  let run := fun (before : list test) (t : test) => if (List.length before =? 1)%nat then RET_EMERG else 0 in
  (let '(o, status) := ulpatch_test run [] false false ts in o_ok o = 2 /\ o_bad o = 1 /\ o_failed o = [Te (str "A") (str "b") 0] /\ status = 1) /\
  snd (ulpatch_test (fun _ _ => 0) [] false true ts) = 0.
Proof. vm_compute. auto. Qed.

(** ** C221: the roles named are played *)

(** Two options -r with several roles: the first one is not replaced. *)
Theorem C221_last_refuted : exists a b rs, means b rs /\ play [b] = (rs, true) /\ play [a; b] <> (rs, true).
Proof.
  exists (str "sleeper,wait"), (str "printer,trigger"), [Printer; Trigger]. split; [|split; [vm_compute; reflexivity|vm_compute; discriminate]].
  apply (me_mix [str "printer"; str "trigger"]); [cbn; lia|repeat constructor; cbn; intuition discriminate|].
  cbn [filter nonempty]. constructor; [exists "printer"%string; split; [reflexivity|constructor]|]. constructor; [exists "trigger"%string; split; [reflexivity|constructor]|]. constructor.
Qed.
Print Assumptions C221_last_refuted.
(** Several threads among several roles: accepted, but given up half-way. *)
Theorem C221_mix_refuted : exists a rs, means a rs /\ In Multi rs /\ play [a] = ([Sleeper], false) /\ rs = [Sleeper; Multi; Printer].
Proof.
  exists (str "sleeper,multi-threads,printer"), [Sleeper; Multi; Printer]. split; [|split; [cbn; auto|split; [vm_compute; reflexivity|reflexivity]]].
  apply (me_mix [str "sleeper"; str "multi-threads"; str "printer"]); [cbn; lia|repeat constructor; cbn; intuition discriminate|].
  cbn [filter nonempty]. constructor; [exists "sleeper"%string; split; [reflexivity|constructor]|]. constructor; [exists "multi-threads"%string; split; [reflexivity|constructor]|].
  constructor; [exists "printer"%string; split; [reflexivity|constructor]|]. constructor.
Qed.
Print Assumptions C221_mix_refuted.

Lemma by_name_role n r : role_name n r -> by_name (str n) = Some r.
Proof. intros H. destruct H; vm_compute; reflexivity. Qed.
Lemma role_not r n : role_name n r -> r <> Tester /\ r <> Mix.
Proof. intros H. destruct H; split; discriminate. Qed.
Lemma alone_role n r : role_name n r -> alone (str n) = Some r /\ in_mix (str n) = true.
Proof. intros H. unfold in_mix, alone. rewrite (by_name_role _ _ H). destruct H; auto. Qed.
Lemma by_name_in s r : by_name s = Some r -> In (s, r) role_string.
Proof.
  unfold by_name. destruct (find _ role_string) as [[k v]|] eqn:E; [|discriminate]. intros H. injection H as <-. apply find_some in E. destruct E as (I & E).
  apply str_eqb_eq in E. cbn in E. subst k. exact I.
Qed.
Lemma in_mix_role s : in_mix s = true -> exists n r, s = str n /\ role_name n r /\ alone s = Some r.
Proof.
  unfold in_mix, alone. destruct (by_name s) as [r|] eqn:B; [|discriminate]. apply by_name_in in B. unfold role_string in B. cbn [In] in B.
  destruct B as [B|[B|[B|[B|[B|[B|[B|[B|[]]]]]]]]]; injection B as <- <-; intros H; try discriminate.
  - exists "sleeper"%string, Sleeper. repeat split; constructor.
  - exists "wait"%string, Waiting. repeat split; constructor.
  - exists "trigger"%string, Trigger. repeat split; constructor.
  - exists "printer"%string, Printer. repeat split; constructor.
  - exists "multi-threads"%string, Multi. repeat split; constructor.
  - exists "listener"%string, Listener. repeat split; constructor.
Qed.
Lemma comma_in pieces : (2 <= List.length pieces)%nat -> In 44 (join pieces).
Proof. destruct pieces as [|a [|b r]]; cbn [List.length]; try lia. intros _. cbn [join]. apply in_or_app. right. left. reflexivity. Qed.
Lemma comma_strstr s : strstrb s [44] = true <-> In 44 s.
Proof.
  rewrite strstrb_iff. split.
  - intros (a & b & ->). apply in_or_app. right. left. reflexivity.
  - intros I. apply in_split in I. destruct I as (a & b & ->). exists a, b. reflexivity.
Qed.
Lemma by_name_comma s : In 44 s -> by_name s = None.
Proof.
  intros I. destruct (by_name s) as [r|] eqn:B; auto. exfalso. apply by_name_in in B. unfold role_string in B. cbn [In] in B.
  repeat (destruct B as [B|B]; [injection B as <- _; vm_compute in I; intuition discriminate|]). destruct B.
Qed.
Lemma parsed pieces : pieces <> [] -> Forall (fun p => ~ In 44 p) pieces ->
  TextModel.parse_strstr (S (List.length (join pieces))) (join pieces) = Some (filter nonempty pieces, 0) .
Proof.
  intros N F. destruct (C48_comma_list (join pieces)) as (_ & H). destruct (H pieces N F eq_refl (S (List.length (join pieces))) (Nat.lt_succ_diag_r _)) as (r & E). rewrite E.
  unfold TextModel.parse_strstr in E. destruct (TextModel.parse_loop _ _ _); [|discriminate]. injection E as _ <-. reflexivity.
Qed.
Lemma mix_ok items rs : Forall2 (fun p r => exists n, p = str n /\ role_name n r) items rs -> forallb in_mix items = true /\ (~ In Multi rs -> launch_mix items = (rs, true)).
Proof.
  intros F. induction F as [|p r items rs (n & -> & R) F (IH1 & IH2)]; [split; auto|]. destruct (alone_role _ _ R) as (A & M). cbn [forallb]. rewrite M, IH1.
  split; [reflexivity|]. intros NM. cbn [launch_mix]. rewrite A, IH2 by (intros X; apply NM; right; exact X). destruct R; try reflexivity. exfalso. apply NM. left. reflexivity.
Qed.
Lemma mix_named items : forallb in_mix items = true -> exists rs, Forall2 (fun p r => exists n, p = str n /\ role_name n r) items rs.
Proof.
  induction items as [|p items IH]; cbn [forallb]; [exists []; constructor|]. intros H. apply andb_true_iff in H. destruct H as (H1 & H2).
  destruct (IH H2) as (rs & F). destruct (in_mix_role _ H1) as (n & r & E & R & _). exists (r :: rs). constructor; [exists n; auto|exact F].
Qed.

(** With one option -r: the roles it names, in their order, unless several threads are one of several roles; anything
    else is refused, and nothing is played. *)
Theorem C221_roles_partial text :
  (forall rs, means text rs -> (List.length rs = 1%nat /\ ~ In 44 text \/ ~ In Multi rs) -> play [text] = (rs, true)) /\
  ((~ exists rs, means text rs) -> play [text] = ([], false)).
Proof.
  unfold play. cbn [role_options]. split.
  - intros rs M. destruct M as [|n r R|pieces rs L F G].
    + intros _. vm_compute. reflexivity.
    + intros _. unfold who_am_i. rewrite (by_name_role _ _ R). destruct R; reflexivity.
    + intros NM. pose proof (comma_in _ L) as C. destruct NM as [(_ & X)|NM]; [contradiction|]. unfold who_am_i. rewrite (by_name_comma _ C), (proj2 (comma_strstr _) C).
      rewrite parsed by (auto; intros ->; cbn in L; lia). cbn [app]. destruct (mix_ok _ _ G) as (M1 & M2). rewrite M1. apply M2, NM.
  - intros N. unfold who_am_i. destruct (by_name text) as [r|] eqn:B.
    + apply by_name_in in B. unfold role_string in B. cbn [In] in B.
      destruct B as [B|[B|[B|[B|[B|[B|[B|[B|[]]]]]]]]]; injection B as <- <-; try reflexivity; exfalso; apply N.
      * exists [Tester]. apply me_tester.
      * exists [Sleeper]. apply (me_one "sleeper"). constructor.
      * exists [Waiting]. apply (me_one "wait"). constructor.
      * exists [Trigger]. apply (me_one "trigger"). constructor.
      * exists [Printer]. apply (me_one "printer"). constructor.
      * exists [Multi]. apply (me_one "multi-threads"). constructor.
      * exists [Listener]. apply (me_one "listener"). constructor.
    + destruct (strstrb text [44]) eqn:C; [|reflexivity]. apply comma_strstr in C.
      destruct (C48_comma_list text) as ((pieces & NE & F & ->) & _). rewrite parsed by auto. cbn [app].
      destruct (forallb in_mix (filter nonempty pieces)) eqn:M; [|reflexivity]. exfalso. apply N. destruct (mix_named _ M) as (rs & G). exists rs. apply me_mix; auto.
      destruct pieces as [|a [|b r]]; cbn [List.length]; try lia; [congruence|]. exfalso. cbn [join] in C. inversion F; subst. contradiction.
Qed.
Print Assumptions C221_roles_partial.
Example C221_ex : play [str "sleeper,,wait"] = ([Sleeper; Waiting], true) /\ play [str "multi-threads"] = ([Multi], true) /\ play [] = ([Tester], true) /\
  play [str "sleeper,tester"] = ([], false) /\ play [str "mix"] = ([], false) /\ play [str ","] = ([], true).
Proof. vm_compute. auto 10. Qed.
