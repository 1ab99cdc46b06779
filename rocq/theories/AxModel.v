(** The listing of the auxiliary vector: print_task_auxv, task/auxv.c 93-118. *)
From Coq Require Import ZArith String List Bool.
From Verif Require Import Word Str ScModel MiscModel EcModel.
Import ListNotations.
Open Scope Z_scope.

(** "%#lx": no prefix for 0. *)
Definition alt (v : Z) : list Z := if v =? 0 then [48] else str "0x" ++ hexn 1 v.

(** auxv.c 108, 113, 114: "%-8s %-#16lx\n". *)
Definition wide_line (name : list Z) (v : Z) : list Z := padr 8 name ++ [32] ++ padr 16 (alt v) ++ [10].
(** auxv.c 109-112: "%-8s %ld (%-#lx)\n". *)
Definition both_line (name : list Z) (v : Z) : list Z := padr 8 name ++ [32] ++ dec (s64 v) ++ str " (" ++ alt v ++ str ")" ++ [10].

(** print_task_auxv, auxv.c 93-118: the result and what is written; [asked] is whether the
    process was opened with FTO_AUXV (a NULL process counts as not). *)
Definition print_task_auxv (asked : bool) (p : auxv) : Z * list Z :=
  if negb asked then (- EINVAL, [])
  else (0, padr 8 (str "TYPE") ++ [32] ++ padr 16 (str "VALUE") ++ [10]
           ++ wide_line (str "AT_PHDR") (av_phdr p) ++ both_line (str "AT_PHENT") (av_phent p)
           ++ both_line (str "AT_PHNUM") (av_phnum p) ++ wide_line (str "AT_BASE") (av_interp p)
           ++ wide_line (str "AT_ENTRY") (av_entry p)).
