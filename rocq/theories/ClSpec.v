(** Functions and variables; independent of ClModel. *)
From Coq Require Import ZArith String List Bool.
From Verif Require Import Word Str ClModel.
Import ListNotations.
Open Scope Z_scope.

(** By the gABI: the section is in memory when the program runs, its bytes are
    instructions, it takes no space in the file. *)
Definition in_memory (s : bsec) : Prop := Z.testbit (b_flags s) 1 = true.
Definition executable (s : bsec) : Prop := Z.testbit (b_flags s) 2 = true.
Definition no_bytes (s : bsec) : Prop := b_type s = 8.

(** One of the sections with a reserved name has the attributes that the gABI gives it. *)
Definition proper_names (s : bsec) : Prop :=
  (b_name s = str ".text" -> executable s) /\
  (b_name s = str ".data" \/ b_name s = str ".data.rel.ro" \/ b_name s = str ".bss" -> ~ executable s).
