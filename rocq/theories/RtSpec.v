(** Running tests and playing roles, as the usage text describes them; independent of the functions of RtModel. *)
From Coq Require Import ZArith String List Bool.
From Verif Require Import Word Str TextSpec RtModel.
Import ListNotations.
Open Scope Z_scope.

Definition full_name (t : test) : list Z := t_cat t ++ str "." ++ t_name t.
Definition contains (s p : list Z) : Prop := exists a b, s = a ++ p ++ b.
(** Some --filter fits, if there is any, and no --skip does. *)
Definition selected (fs : filters) (t : test) : Prop :=
  ((forall p, ~ In (p, false) fs) \/ exists p, In (p, false) fs /\ contains (full_name t) p) /\
  ~ exists p, In (p, true) fs /\ contains (full_name t) p.

Definition passes (t : test) (real : Z) : Prop := real = t_expect t \/ t_expect t = RET_SKIP.

(** The course of a run: the tests one after the other, each once, up to the first failure if that is asked for. *)
Inductive course (run : list test -> test -> Z) (stop : bool) : list test -> list test -> list (test * Z) -> Prop :=
| co_end before : course run stop before [] []
| co_pass before t ts rs : passes t (run before t) -> course run stop (before ++ [t]) ts rs -> course run stop before (t :: ts) ((t, run before t) :: rs)
| co_fail before t ts rs : ~ passes t (run before t) -> stop = false -> course run stop (before ++ [t]) ts rs -> course run stop before (t :: ts) ((t, run before t) :: rs)
| co_stop before t ts : ~ passes t (run before t) -> stop = true -> course run stop before (t :: ts) [(t, run before t)].

(** The failed ones among results, in their order, and the number of the others. *)
Inductive failing : list (test * Z) -> list test -> Z -> Prop :=
| fa_nil : failing [] [] 0
| fa_pass t r rs f n : passes t r -> failing rs f n -> failing ((t, r) :: rs) f (n + 1)
| fa_fail t r rs f n : ~ passes t r -> failing rs f n -> failing ((t, r) :: rs) (t :: f) n.

(** The roles that a text names: one role, or several with commas between them. *)
Inductive role_name : string -> role -> Prop :=
| rn_sleeper : role_name "sleeper" Sleeper
| rn_wait : role_name "wait" Waiting
| rn_trigger : role_name "trigger" Trigger
| rn_printer : role_name "printer" Printer
| rn_multi : role_name "multi-threads" Multi
| rn_listener : role_name "listener" Listener.
Inductive means : list Z -> list role -> Prop :=
| me_tester : means (str "tester") [Tester]
| me_one n r : role_name n r -> means (str n) [r]
| me_mix pieces rs : (2 <= List.length pieces)%nat -> Forall (fun p => ~ In 44 p) pieces ->
    Forall2 (fun p r => exists n, p = str n /\ role_name n r) (filter nonempty pieces) rs -> means (join pieces) rs.
