(** Which mapping of a process is the C library; independent of LbModel. *)
From Coq Require Import ZArith String List Bool.
From Verif Require Import Str MpSpec.
Import ListNotations.
Open Scope Z_scope.

(** The last component of a path. *)
Definition last_component (path b : list Z) : Prop := b <> [] /\ ~ In 47 b /\ (path = b \/ exists d, path = d ++ 47 :: b).

(** Code of the C library of GNU. *)
Definition c_library (m : mapping) : Prop := p_x m = true /\ last_component (p_path m) (str "libc.so.6").

(** The first of a list with a property. *)
Definition first_with {A} (P : A -> Prop) (l : list A) (x : A) : Prop :=
  exists L R, l = L ++ x :: R /\ P x /\ forall y, In y L -> ~ P y.

(** Code of a file with a name like that of a C library, other than the executable. *)
Definition libc_name (b : list Z) : Prop := exists p r, In p [str "libc.so"; str "libssp"; str "libc-"] /\ b = p ++ r.
Definition like_libc (exe : list Z) (m : mapping) : Prop :=
  p_x m = true /\ p_path m <> exe /\ exists b, last_component (p_path m) b /\ libc_name b.
Definition stack_of (exe : list Z) (m : mapping) : Prop := p_path m <> exe /\ p_path m = str "[stack]".
