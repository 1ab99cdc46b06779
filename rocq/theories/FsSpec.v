(** What the file properties mean: a file system seen as a function from paths. *)
From Coq Require Import ZArith String List Bool.
From Verif Require Import Str VmaModel FsModel.
Import ListNotations.
Open Scope Z_scope.

(** The same files, but perhaps for the paths [ps]. *)
Definition same_but (ps : list path) (f g : fs) : Prop := forall q, ~ In q ps -> lookup g q = lookup f q.
Definition same (f g : fs) : Prop := forall q, lookup g q = lookup f q.

(** [q] is somewhere below [p]. *)
Definition below (p q : path) : Prop := exists c r, q = p ++ c :: r.

(** The process has a mapping of a patch: one whose file was made for it. *)
Definition patched (info : Z -> vinfo) (vs : list Z) (pid : Z) (exe : list Z) : Prop :=
  exists v rnd, In v vs /\ ~ In 47 rnd /\ vm_name (info v) = make_pid_ulpname pid rnd /\ vm_name (info v) <> exe.

(** No mapping's name has the prefix of patches in it. *)
Definition unpatched (info : Z -> vinfo) (vs : list Z) : Prop :=
  forall v, In v vs -> strstrb (vm_name (info v)) PATCH_VMA_TEMP_PREFIX = false.

(** The private directory of process [pid], /tmp/ulpatch/PID, and what belongs to it. *)
Definition private_dir (pid : Z) : path := [str "tmp"; str "ulpatch"; dec pid].
Definition own (pid : Z) : list path :=
  [private_dir pid; private_dir pid ++ [str "comm"]; private_dir pid ++ [str "map_files"]].
(** There is nothing in it but a regular file comm and an empty directory map_files. *)
Definition nothing_else (f : fs) (pid : Z) : Prop :=
  (forall q, below (private_dir pid) q -> lookup f q <> None -> In q (own pid)) /\
  lookup f (private_dir pid) = Some Dir /\
  lookup f (private_dir pid ++ [str "comm"]) <> Some Dir /\
  (lookup f (private_dir pid ++ [str "map_files"]) = None \/ lookup f (private_dir pid ++ [str "map_files"]) = Some Dir).

(** A tree of regular files and directories: whatever exists is in a directory. *)
Definition wf (f : fs) : Prop :=
  (forall q, match lookup f q with Some (Lnk _) | Some Spec => False | _ => True end) /\
  (forall q c, q <> [] -> lookup f (q ++ [c]) <> None -> lookup f q = Some Dir).
