(** What the options shared by the tools ask for, and what a command line of ultask asks for at all. *)
From Coq Require Import ZArith String List Bool.
From Verif Require Import Word Str.
From Verif Require MiscModel TextModel.
From Verif Require Import ArModel ArSpec.
Import ListNotations.
Open Scope Z_scope.

(** An option that sets the level of messages, and the level it names. *)
Inductive level_says : event -> Z -> Prop :=
| says_level t n : MiscModel.log_level_option t = Some n -> level_says (Opt 139 (Some t)) n
| says_debug a : level_says (Opt 140 a) 7
| says_error a : level_says (Opt 141 a) 3.
Definition about_level : list Z := [139; 140; 141].

(** The level the options leave: that of the last of them, errors only without one. *)
Definition level_left (es : list event) (n : Z) : Prop :=
  (n = 3 /\ forall v, In v about_level -> ~ given v es) \/
  (exists before e after, es = before ++ e :: after /\ level_says e n /\ forall v, In v about_level -> ~ given v after).

(** The characters v behind the last -v, and one for itself. *)
Definition count_v (s : list Z) : Z := Z.of_nat (List.length (filter (fun c => c =? 118) s)).
Definition verbose_left (es : list event) (n : Z) : Prop :=
  match last_arg 118 es with
  | None => n = 0
  | Some None => n = 1
  | Some (Some s) => n = count_v s + 1
  end.

(** The common settings are those the options name. *)
Definition settings (es : list event) (c : common) : Prop :=
  level_left es (o_level c) /\ verbose_left es (o_verbose c) /\ (o_dry c = true <-> given 117 es) /\ (o_force c = true <-> given 70 es).
(** No argument is as long as an int can count. *)
Definition short_words (es : list event) : Prop := forall v s, In (Opt v (Some s)) es -> Z.of_nat (List.length s) < 2 ^ 31 - 1.

(** The options of ultask that ask for something: --jmp --vmas --dump --map --mprotect --unmap --threads --fds --auxv --status --symbols. *)
Definition actions : list Z := [144; 145; 146; 147; 148; 149; 150; 151; 152; 153; 154].
