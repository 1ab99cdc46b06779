(** Names of new files: src/utils/file.c 260-282, src/patch/patch.c 149-175, 976-1038.

    mkstemp(3) of glibc tries names until open(O_CREAT | O_EXCL) succeeds or fails with an
    error other than EEXIST: [tries] are the characters it puts in place of XXXXXX, in
    order, and [ok] says that the directory can be written.  [first_fd]: the descriptor is
    0 (standard input was closed).  The buffers are longer than the names. *)
From Coq Require Import ZArith String List Bool.
From Verif Require Import Word RbModel Str VmaModel FsModel ToolModel.
Import ListNotations.
Open Scope Z_scope.

(** mkstemp in directory [dir] for the template [prefix]XXXXXX: whether a file was made, the
    name in the buffer afterwards, the file system. *)
Fixpoint mkstemp (f : fs) (dir : path) (prefix : list Z) (ok : bool) (last : list Z) (tries : list (list Z)) : bool * list Z * fs :=
  match tries with
  | [] => (false, last, f)
  | r :: rest =>
      let name := prefix ++ r in
      if negb ok then (false, name, f)
      else if fexist f (dir ++ [name]) then mkstemp f dir prefix ok name rest
      else (true, name, put f (dir ++ [name]) (Reg []))
  end.

(** fmktempfile, file.c 260-275: success (else NULL), the name in the buffer.  [fd <= 0] is
    taken for an error. *)
Definition fmktempfile (f : fs) (dir : path) (prefix : list Z) (ok first_fd : bool) (tries : list (list Z)) : bool * list Z * fs :=
  let '(made, name, f') := mkstemp f dir prefix ok (prefix ++ str "XXXXXX") tries in
  (made && negb first_fd, name, f').

(** fmktempname, file.c 277-282: unlink of a null pointer fails; the name in the buffer is
    the result in any case. *)
Definition fmktempname (f : fs) (dir : path) (prefix : list Z) (ok first_fd : bool) (tries : list (list Z)) : list Z * fs :=
  let '(r, name, f') := fmktempfile f dir prefix ok first_fd tries in
  (name, if (r : bool) then snd (unlink f' (dir ++ [name])) else f').

(** __make_pid_ulpname, patch.c 149-175: the template has no directory, so that the name is
    looked for in the working directory [cwd].  fmktempname never returns NULL: no second
    round. *)
Definition make_ulpname (f : fs) (cwd : path) (pid : Z) (ok first_fd : bool) (tries : list (list Z)) : path * fs :=
  let '(name, f') := fmktempname f cwd PATCH_VMA_TEMP_PREFIX ok first_fd tries in
  (proc_maps pid ++ [name], f').

(** init_patch, patch.c 976-1038, on the files: success, the name, the file system; None if
    alloc_patch_file crashes.  [mm], [cp] as in ToolModel; [later]: what comes after
    alloc_patch_file succeeds. *)
Definition init_files (f : fs) (cwd : path) (pid : Z) (ok first_fd : bool) (tries : list (list Z)) (obj : path) (mm cp later : bool) : option (bool * path * fs) :=
  let '(tmp, f) := make_ulpname f cwd pid ok first_fd tries in
  let '(r, f) := alloc_on f obj tmp mm cp in
  r <- r ;;
  if (fst r =? 0) && later then Some (true, tmp, f)
  else Some (false, tmp, if fexist f tmp then snd (fremove f tmp) else f).
