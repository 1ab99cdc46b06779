(** The program ulpatch_test: which tests it runs, its summary and status, and its roles:
    src/tests/main.c, src/tests/engine/test.c. *)
From Coq Require Import ZArith String List Bool.
From Verif Require Import Word Str TextModel.
Import ListNotations.
Open Scope Z_scope.

(** ** Tests: struct test, test-api.h 39-109 (the names and the expected result). *)
Record test := Te { t_cat : list Z; t_name : list Z; t_expect : Z }.
(** test_special_ret, test-api.h 26-32, as int. *)
Definition RET_SKIP : Z := 0xdead0002 - 0x100000000.
Definition RET_EMERG : Z := 0xdead0003 - 0x100000000.

(** --filter and --skip, 133-182: list_add appends (C06).  true: --skip. *)
Definition filters := list (list Z * bool).
Definition has_filter (fs : filters) : bool := match fs with [] => false | _ => true end.
Definition has_filter_match (fs : filters) : bool := existsb (fun f => negb (snd f)) fs.
Definition filter_matched (fs : filters) (n : list Z) : bool := existsb (fun f => strstrb n (fst f) && negb (snd f)) fs.
Definition filter_matched_skip (fs : filters) (n : list Z) : bool := existsb (fun f => strstrb n (fst f) && snd f) fs.

(** snprintf into 256 bytes, 484. *)
Definition category_name (t : test) : list Z := firstn 255 (t_cat t ++ [46] ++ t_name t).

(** should_skip, 474-498. *)
Definition should_skip (fs : filters) (t : test) : bool :=
  if negb (has_filter fs) then false
  else
    let skip := false in
    let n := category_name t in
    let skip := if has_filter_match fs && filter_matched fs n then false else if has_filter_match fs then true else skip in
    let skip := if negb skip && filter_matched_skip fs n then true else skip in
    let skip := if skip then false else skip in
    skip.

(** What a run leaves: the lines of the list, the tests run with their results (real_ret), the
    two counters (numbers of tests, far below 2^64) and the list of failed tests. *)
Record outcome := Oc { o_shown : list test; o_ran : list (test * Z); o_ok : Z; o_bad : Z; o_failed : list test }.
Definition outcome0 : outcome := Oc [] [] 0 0 [].

Section Run.
(** What a test leaves in real_ret, given the tests run before it: the value its function returns, or
    RET_EMERG after SIGSEGV or SIGILL (siglongjmp, test-api.h 65-70).  SIGINT ends the program and is left out. *)
Variable run : list test -> test -> Z.

(** execute_one_test, 500-564: the callback is there (TEST sets it); true: go on. *)
Definition execute_one_test (error_exit : bool) (t : test) (o : outcome) : outcome * bool :=
  let real := run (map fst (o_ran o)) t in
  let ran := o_ran o ++ [(t, real)] in
  if (real =? t_expect t) || (t_expect t =? RET_SKIP) then (Oc (o_shown o) ran (o_ok o + 1) (o_bad o) (o_failed o), true)
  else (Oc (o_shown o) ran (o_ok o) (o_bad o + 1) (o_failed o ++ [t]), negb error_exit).

(** launch_tester, 566-646: its loop. *)
Fixpoint each_test (fs : filters) (just_list error_exit : bool) (ts : list test) (o : outcome) : outcome :=
  match ts with
  | [] => o
  | t :: r =>
      if should_skip fs t then each_test fs just_list error_exit r o
      else if just_list then each_test fs just_list error_exit r (Oc (o_shown o ++ [t]) (o_ran o) (o_ok o) (o_bad o) (o_failed o))
      else let '(o, go) := execute_one_test error_exit t o in if (go : bool) then each_test fs just_list error_exit r o else o
  end.

(** main, 928-982, for the role of the tester. *)
Definition ulpatch_test (fs : filters) (just_list error_exit : bool) (ts : list test) : outcome * Z :=
  let o := each_test fs just_list error_exit ts outcome0 in (o, if o_bad o =? 0 then 0 else 1).
End Run.

(** ** Roles *)
Inductive role := Tester | Sleeper | Waiting | Trigger | Printer | Multi | Listener | Mix.
(** role_string, 99-109. *)
Definition role_string : list (list Z * role) :=
  [(str "tester", Tester); (str "sleeper", Sleeper); (str "wait", Waiting); (str "trigger", Trigger); (str "printer", Printer);
   (str "multi-threads", Multi); (str "listener", Listener); (str "mix", Mix)].
(** who_am_i, 193-224; None is ROLE_NONE.  Without a comma it is the table alone. *)
Definition by_name (s : list Z) : option role := match find (fun e => str_eqb s (fst e)) role_string with Some (_, r) => Some r | None => None end.
Definition alone (s : list Z) : option role := match by_name s with Some Mix => None | r => r end.
Definition in_mix (s : list Z) : bool := match alone s with None | Some Tester | Some Mix => false | _ => true end.
(** The items of mix_role_list have no comma. *)
Definition who_am_i (mix : list (list Z)) (s : list Z) : option role * list (list Z) :=
  match by_name s with
  | Some Mix => (None, mix)
  | Some r => (Some r, mix)
  | None =>
      if strstrb s [44] then
        let mix := mix ++ match parse_strstr (S (List.length s)) s with Some (l, _) => l | None => [] end in
        (if forallb in_mix mix then Some Mix else None, mix)
      else (None, mix)
  end.
(** The options -r in their order, 370; the role is the tester at first. *)
Fixpoint role_options (args : list (list Z)) (r : option role) (mix : list (list Z)) : option role * list (list Z) :=
  match args with
  | [] => (r, mix)
  | a :: rest => let '(r, mix) := who_am_i mix a in role_options rest r mix
  end.

(** launch_mix_role, launch_mix, 742-780: the roles played; false: ended with exit(1).  Playing a role is
    taken to come to an end; the conditions on other options (416-455) are met. *)
Fixpoint launch_mix (mix : list (list Z)) : list role * bool :=
  match mix with
  | [] => ([], true)
  | a :: rest =>
      match alone a with
      | Some Sleeper => let '(l, ok) := launch_mix rest in (Sleeper :: l, ok)
      | Some Waiting => let '(l, ok) := launch_mix rest in (Waiting :: l, ok)
      | Some Trigger => let '(l, ok) := launch_mix rest in (Trigger :: l, ok)
      | Some Printer => let '(l, ok) := launch_mix rest in (Printer :: l, ok)
      | Some Listener => let '(l, ok) := launch_mix rest in (Listener :: l, ok)
      | _ => ([], false)
      end
  end.
(** parse_config 411-414, main 954-975. *)
Definition play (args : list (list Z)) : list role * bool :=
  match role_options args (Some Tester) [] with
  | (None, _) => ([], false)
  | (Some Mix, mix) => launch_mix mix
  | (Some r, _) => ([r], true)
  end.
