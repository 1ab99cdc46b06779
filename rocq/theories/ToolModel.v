(** The tools ulpatch, ulftrace and ulpinfo around the patch machinery: src/ulpatch.c,
    src/ulftrace.c, src/ulpinfo.c.

    Parsing of the command line is not modelled: its results are arguments.  The patch
    machinery is PaModel, the files are FsModel. *)
From Coq Require Import ZArith String List Bool.
From Verif Require Import Word Str LdModel ScModel PaModel PaHist FsModel.
Import ListNotations.
Open Scope Z_scope.

Local Notation "x <- e ;; b" := (match e with Some x => b | None => None end) (at level 60, e at level 60, right associativity).

Inductive command := CmdPatch | CmdUnpatch.

(** ulpatch, ulpatch.c 190-243, from the opened session on.  [dry] is the flag --dry-run,
    set by args-common.c 76-78 (enable_dry_run, init.c 117-120) and read by nothing. *)
Definition ulpatch (dry : bool) (cmd : command) (c : run) (s : session) (w : world) : option (Z * world) :=
  match cmd with
  | CmdPatch => r <- do_patch c s w ;; let '(err, _, _, w', _) := r in Some (err, w')
  | CmdUnpatch => r <- do_unpatch c s w ;; let '(err, w', _, _) := r in Some (err, w')
  end.

(** [c] with another object file. *)
Definition with_object (c : run) (o : alloc_env) : run :=
  Run (c_fuel c) (c_a c) (c_nn c) (c_x86 c) (c_e c) (c_libc c) (c_garbage c) (c_lookup c) (c_reloc c) (c_jmp c) (c_now c) o (c_chown c) (c_path c) (c_span c).

(** ulftrace, ulftrace.c 163-206, from the opened session on: [found] says whether the
    function has a symbol, [given] is the object of option -j, [default] the installed one. *)
Definition ulftrace (found : bool) (given : option alloc_env) (default : alloc_env) (c : run) (s : session) (w : world)
  : option (Z * world) :=
  if negb found then Some (1, w)
  else
    r <- do_patch (with_object c default) s w ;;
    let '(_, s', _, w', _) := r in
    r <- do_unpatch c s' w' ;;
    let '(ret, w'', _, _) := r in
    Some (ret, w'').

(** alloc_patch_file, patch.c 189-246, on the file system, for a new file [tmp]:
    fmmap_shmem_create (file.c 356-361) empties the file and gives it the length of [obj],
    then the content of [obj] is copied into the shared mapping.  [mm], [cp]: the mapping
    and the copying succeed (a failing mapping leaves the new file too). *)
Definition alloc_on (f : fs) (obj tmp : path) (mm cp : bool) : option (Z * option (mem * Z)) * fs :=
  match lookup f obj with
  | Some (Reg c) =>
      let flen := u64 (s32 (Z.of_nat (List.length c))) in
      if (flen <? 64) || (2 ^ 63 <=? flen) then (alloc_patch_file (AEnv (Some c) mm cp), f)
      else
        let f1 := put f tmp (Reg (repeat 0 (Z.to_nat flen))) in
        match lookup f1 obj with
        | Some (Reg c1) =>
            (alloc_patch_file (AEnv (Some c1) mm cp),
             if mm && cp then put f1 tmp (Reg (firstn (Z.to_nat flen) c1)) else f1)
        | _ => (alloc_patch_file (AEnv None mm cp), f1)
        end
  | _ => (alloc_patch_file (AEnv None mm cp), f)
  end.

Definition ENODATA := 61.
Definition temp_ulp (cwd : path) : path := cwd ++ [str "temp.ulp"].

(** check_patch_file, ulpatch.c 154-188: None if the tool crashes.  The comparison of the
    magic text has been done by setup_load_info. *)
Definition check_patch_file (f : fs) (cwd obj : path) (mm cp : bool) : option (Z * fs) :=
  if negb (fexist f obj) then Some (- EEXIST, f)
  else
    let '(r, f') := alloc_on f obj (temp_ulp cwd) mm cp in
    r <- r ;;
    let '(err, o) := r in
    if negb (err =? 0) then Some (err, f')
    else
      o <- o ;;
      let '(img, len) := o in
      s <- setup_load_info img len ;;
      match s with
      | inl _ => Some (- ENODATA, f')
      | inr _ => Some (0, f')
      end.

(** show_file_patch_info, ulpinfo.c 94-132; what is printed is not modelled. *)
Definition show_file_patch_info (f : fs) (cwd obj : path) (mm cp : bool) : option (Z * fs) :=
  if negb (fexist f obj) then Some (1, f)
  else
    let '(r, f') := alloc_on f obj (temp_ulp cwd) mm cp in
    r <- r ;;
    let '(err, o) := r in
    if negb (err =? 0) then Some (err, f')
    else
      o <- o ;;
      let '(img, len) := o in
      s <- setup_load_info img len ;;
      match s with
      | inl e => Some (e, f')
      | inr _ => Some (0, snd (fremove f' (temp_ulp cwd)))
      end.
