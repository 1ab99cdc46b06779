(** Files: src/utils/file.c, and the private directory of a process in src/task/core.c.

    A path is the list of its components from the root.  A file system is a list of
    (path, node); the first entry for a path counts.  Permissions, hard links and mount
    points are not modelled; parents of new files are taken to exist.  Errors of the
    device are oracle arguments. *)
From Coq Require Import ZArith String List Bool.
From Verif Require Import Word RbModel Str VmaModel.
Import ListNotations.
Open Scope Z_scope.

Definition path := list (list Z).
Inductive node := Reg (content : list Z) | Dir | Lnk (target : path) | Spec.
Definition fs := list (path * node).

Fixpoint path_eqb (a b : path) : bool :=
  match a, b with
  | [], [] => true
  | x :: a', y :: b' => str_eqb x y && path_eqb a' b'
  | _, _ => false
  end.
(** [p] is a proper prefix of [q]. *)
Fixpoint under (p q : path) : bool :=
  match p, q with
  | [], _ :: _ => true
  | x :: p', y :: q' => str_eqb x y && under p' q'
  | _, _ => false
  end.

Definition lookup (f : fs) (p : path) : option node :=
  match find (fun x => path_eqb (fst x) p) f with Some x => Some (snd x) | None => None end.
Definition remove (f : fs) (p : path) : fs := filter (fun x => negb (path_eqb (fst x) p)) f.
Definition put (f : fs) (p : path) (n : node) : fs := (p, n) :: remove f p.

(** unlink(2), rmdir(2), mkdir(2): success and the file system after. *)
Definition unlink (f : fs) (p : path) : bool * fs :=
  match lookup f p with Some Dir | None => (false, f) | Some _ => (true, remove f p) end.
Definition rmdir (f : fs) (p : path) : bool * fs :=
  match lookup f p with
  | Some Dir => if existsb (fun x => under p (fst x)) f then (false, f) else (true, remove f p)
  | _ => (false, f)
  end.
Definition mkdir (f : fs) (p : path) : bool * fs :=
  match lookup f p with None => (true, put f p Dir) | Some _ => (false, f) end.

(** access(path, F_OK) == 0 (fexist, file.c 42-49) for a path without symbolic links. *)
Definition fexist (f : fs) (p : path) : bool := match lookup f p with Some _ => true | None => false end.

(** ** The private directory *)

(** ULP_PROC_ROOT_DIR/PID and its entries, core.c 548-569, 589-607. *)
Definition proc_dir (pid : Z) : path := [str "tmp"; str "ulpatch"; dec pid].
Definition proc_comm (pid : Z) : path := proc_dir pid ++ [str "comm"].
Definition proc_maps (pid : Z) : path := proc_dir pid ++ [str "map_files"].

(** The FTO_PROC part of open_task, core.c 542-569: None if the tool crashes (fopen fails
    and its result is used), else success.  [comm] is the name of the process.  mkdirat
    fails with an error other than EEXIST never, as parents exist. *)
Definition open_proc (f : fs) (pid : Z) (comm : list Z) : option fs :=
  let f := snd (mkdir f (proc_dir pid)) in
  match lookup f (proc_comm pid) with
  | Some Dir => None
  | _ => Some (snd (mkdir (put f (proc_comm pid) (Reg comm)) (proc_maps pid)))
  end.

(** __clean_task_proc, core.c 583-611. *)
Definition clean_task_proc (f : fs) (pid : Z) : fs :=
  let f := if fexist f (proc_comm pid) then snd (unlink f (proc_comm pid)) else f in
  let f := if fexist f (proc_maps pid) then snd (rmdir f (proc_maps pid)) else f in
  if fexist f (proc_dir pid) then snd (rmdir f (proc_dir pid)) else f.

(** The loop of __check_and_free_task_proc, core.c 621-623 with task_for_each_vma,
    vma.h 141-142: counts the mappings of type VMA_ULPATCH. *)
Fixpoint count_ulp (n fuel : nat) (info : Z -> vinfo) (s : vroot) (pid : Z) (exe : list Z) (v : Z) : option Z :=
  match n with
  | O => None
  | S n' =>
      if v =? 0 then Some 0
      else
        next <- next_vma fuel s v ;;
        c <- count_ulp n' fuel info s pid exe next ;;
        Some (match get_vma_type pid exe (vm_name (info v)) with VMA_ULPATCH => 1 | _ => 0 end + c)
  end.

(** __check_and_free_task_proc, core.c 613-627. *)
Definition check_and_free_task_proc (n fuel : nat) (info : Z -> vinfo) (s : vroot) (pid : Z) (exe : list Z) (f : fs) : option fs :=
  first <- next_vma fuel s 0 ;;
  cnt <- count_ulp n fuel info s pid exe first ;;
  Some (if cnt =? 0 then clean_task_proc f pid else f).

(** ** Copying *)

(** The loop of _file_copy, file.c 218-231: [rd i], [wr i] say whether the i-th fread and
    fwrite succeed.  The result is what was written and [nbytes]. *)
Fixpoint copy_loop (c : list Z) (rd wr : nat -> bool) (i : nat) (nbytes : Z) : list Z * Z :=
  match c with
  | [] => ([], nbytes)
  | b :: r =>
      if negb (rd i) then ([], nbytes)
      else if negb (wr i) then ([], nbytes)
      else let '(o, n) := copy_loop r rd wr (S i) (s32 (nbytes + 1)) in (b :: o, n)
  end.

(** _file_copy, file.c 202-239; [ein], [eout] are the errors of fopen (0: none).  fopen for reading opens a
    directory too; the first fread then fails. *)
Definition file_copy (f : fs) (src dst : path) (ein eout : Z) (rd wr : nat -> bool) : Z * fs :=
  match lookup f src with
  | Some (Reg c) =>
      if negb (ein =? 0) then (- ein, f)
      else if negb (eout =? 0) then (- eout, f)
      else let '(o, n) := copy_loop c rd wr 0 0 in (n, put f dst (Reg o))
  | Some Dir =>
      if negb (ein =? 0) then (- ein, f)
      else if negb (eout =? 0) then (- eout, f)
      else (0, put f dst (Reg []))
  | _ => (- ein, f)
  end.

(** fcopy, file.c 241-258. *)
Definition fcopy (f : fs) (src dst : path) (ein eout : Z) (rd wr : nat -> bool) : Z * fs :=
  if negb (fexist f src) || fexist f dst then (- EEXIST, f)
  else
    let '(err, f') := file_copy f src dst ein eout rd wr in
    ((if err <=? 0 then err else 0), f').

(** fsize, file.c 22-40: [size] is st_size, the result is an int; the failures of open and
    fstat give -1. *)
Definition fsize (f : fs) (p : path) : Z :=
  match lookup f p with
  | Some (Reg c) => s32 (Z.of_nat (List.length c))
  | _ => -1
  end.

(** fmemcpy, file.c 285-299, on a readable file: what is written to the buffer and the
    result.  fread of one element of the given size either delivers it or not ([ok]). *)
Definition fmemcpy (f : fs) (p : path) (mem_len : Z) (ok : bool) : option (list Z * Z) :=
  match lookup f p with
  | Some (Reg c) =>
      let size := Z.min mem_len (fsize f p) in
      if size <? 0 then None
      else if (size =? 0) || negb ok then Some ([], 0)
      else Some (firstn (Z.to_nat size) c, size)
  | _ => None
  end.

(** ** Removal *)

(** stat(2): follow symbolic links, in every component.  [n] bounds the number of steps. *)
Fixpoint resolve (n : nat) (f : fs) (done rest : path) : option path :=
  match n with
  | O => None
  | S n' =>
      match rest with
      | [] => Some done
      | c :: r =>
          match lookup f (done ++ [c]) with
          | Some (Lnk t) => resolve n' f [] (t ++ r)
          | Some _ => resolve n' f (done ++ [c]) r
          | None => None
          end
      end
  end.

(** The path with all components but the last resolved, as unlink(2) and rmdir(2) do. *)
Definition resolve_parent (n : nat) (f : fs) (p : path) : option path :=
  match rev p with
  | [] => Some []
  | c :: r => match resolve n f [] (rev r) with Some d => Some (d ++ [c]) | None => None end
  end.

(** fremove, file.c 64-82 (paths as given). *)
Definition fremove (f : fs) (p : path) : bool * fs :=
  match lookup f p with
  | None => (true, f)
  | Some Dir => rmdir f p
  | Some _ => unlink f p
  end.

(** The names in a directory, as readdir lists them. *)
Fixpoint child_of (p q : path) : option (list Z) :=
  match p, q with
  | [], [c] => Some c
  | x :: p', y :: q' => if str_eqb x y then child_of p' q' else None
  | _, _ => None
  end.
Fixpoint children (f : fs) (p : path) : list (list Z) :=
  match f with
  | [] => []
  | (q, _) :: r => match child_of p q with Some c => c :: children r p | None => children r p end
  end.

(** __remove_recursive, file.c 115-157.  The entries of a directory are those at the time
    it is opened.  [m] bounds the steps of one resolution of a path, [n] the depth of the
    recursion; None: out of steps. *)
Fixpoint remove_recursive (m n : nat) (f : fs) (p : path) : option fs :=
  match n with
  | O => None
  | S n' =>
      match resolve m f [] p with
      | None => Some f
      | Some q =>
          match lookup f q with
          | Some (Reg _) => match resolve_parent m f p with Some r => Some (remove f r) | None => Some f end
          | Some Dir =>
              let fix go (l : list (list Z)) (f : fs) : option fs :=
                match l with
                | [] => Some f
                | c :: l' => f' <- remove_recursive m n' f (p ++ [c]) ;; go l' f'
                end in
              f' <- go (children f q) f ;;
              match resolve_parent m f' p with Some r => Some (snd (rmdir f' r)) | None => Some f' end
          | _ => Some f
          end
      end
  end.

(** The loop of ftouch, file.c 106-107: [wr i] is what write returns. *)
Fixpoint touch_loop (n : nat) (wr : nat -> bool) (i : nat) : list Z :=
  match n with
  | O => []
  | S n' => (if wr i then [255] else []) ++ touch_loop n' wr (S i)
  end.

(** ftouch, file.c 84-113; [err] is the error of open (0: none). *)
Definition ftouch (f : fs) (p : path) (size : nat) (err : Z) (wr : nat -> bool) : Z * fs :=
  match lookup f p with
  | Some (Reg _) => (0, f)
  | Some _ => (-1, f)
  | None => if negb (err =? 0) then (- err, f) else (0, put f p (Reg (touch_loop size wr 0)))
  end.
