(** What a patch says about itself; independent of the functions of MtModel. *)
From Coq Require Import ZArith String List Bool.
From Verif Require Import Word Str MtModel.
Import ListNotations.
Open Scope Z_scope.

(** The first text of each kind in the source. *)
Inductive first_info (src dst : list Z) : list macro -> Prop :=
| fi_here r : first_info src dst (MInfo src dst :: r)
| fi_next m r : (forall a b, m <> MInfo a b) -> first_info src dst r -> first_info src dst (m :: r).
Inductive first_author (t : list Z) : list macro -> Prop :=
| fa_here r : first_author t (MAuthor t :: r)
| fa_next m r : (forall a, m <> MAuthor a) -> first_author t r -> first_author t (m :: r).
Inductive first_license (t : list Z) : list macro -> Prop :=
| fl_here r : first_license t (MLicense t :: r)
| fl_next m r : (forall a, m <> MLicense a) -> first_license t r -> first_license t (m :: r).

(** A text without quotes and backslashes. *)
Definition plain (s : list Z) : Prop := ~ In 34 s /\ ~ In 92 s /\ ~ In 0 s.

(** The section is at [p] in the file. *)
Definition at_offset (img : mem) (len p : Z) (sec : list Z) : Prop :=
  0 <= p /\ p + Z.of_nat (List.length sec) <= len /\ forall i, (i < List.length sec)%nat -> img (p + Z.of_nat i) = nth i sec 0.
