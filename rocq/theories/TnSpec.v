(** Files of patches; independent of TnModel. *)
From Coq Require Import ZArith String List Bool.
From Verif Require Import Str FsModel FsSpec.
Import ListNotations.
Open Scope Z_scope.

(** The directory of the files of the patches of a process, and such a file. *)
Definition patch_dir (pid : Z) : path := private_dir pid ++ [str "map_files"].
Definition patch_name (rnd : list Z) : list Z := str "ulp-" ++ rnd.

(** What was there is there as it was. *)
Definition kept (f g : fs) : Prop := forall q n, lookup f q = Some n -> lookup g q = Some n.
