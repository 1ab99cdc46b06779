(** What the kernel puts under /proc/PID and what opening a process should make of it;
    independent of PrModel.  [dec] of Str is the kernel's "%d" and "%u". *)
From Coq Require Import ZArith String List Bool.
From Verif Require Import Str.
Import ListNotations.
Open Scope Z_scope.

(** A line of /proc/PID/status other than those of the identifiers, without its newline: any text; what
    comes after the first 1023 bytes (in a long list of groups) has no colon. *)
Definition starts (p l : list Z) : Prop := exists r, l = p ++ r.
Definition other_line (l : list Z) : Prop :=
  ~ In 10 l /\ ~ starts (str "Uid:") l /\ ~ starts (str "Gid:") l /\ forall j, (1023 <= Z.of_nat j) -> nth j l 0 <> 58.

Definition id_line (label : string) (i : Z * Z * Z * Z) : list Z :=
  let '(a, b, c, d) := i in
  str label ++ [9] ++ dec a ++ [9] ++ dec b ++ [9] ++ dec c ++ [9] ++ dec d.
Definition text_of (lines : list (list Z)) : list Z := flat_map (fun l => l ++ [10]) lines.

(** Identifiers: 32 bits, (uid_t)-1 is not a valid one. *)
Definition valid_id (x : Z) : Prop := 0 <= x < 2 ^ 32 - 1.
Definition valid_ids (i : Z * Z * Z * Z) : Prop :=
  let '(a, b, c, d) := i in valid_id a /\ valid_id b /\ valid_id c /\ valid_id d.

(** White space, as the scanf family sees it. *)
Definition blank (c : Z) : Prop := c = 32 \/ 9 <= c <= 13.
