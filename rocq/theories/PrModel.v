(** Opening and closing a process: src/task/proc.c, thread.c, fd.c, current.c and the order of
    the steps of open_task and close_task in src/task/core.c.

    What the kernel answers is an argument.  None is a crash of the tool, or a write outside a
    buffer.  The steps that read the memory map and the ELF headers are modelled in VmaModel, PkModel, SymModel;
    here they are their results. *)
From Coq Require Import ZArith String List Bool.
From Verif Require Import Word RbModel Str FsModel.
From Verif Require TextModel MiscModel ShModel.
Import ListNotations.
Open Scope Z_scope.

Notation buffer := TextModel.buffer.
Notation bput := TextModel.put.
Notation len := TextModel.len.
Notation atoi := MiscModel.atoi.

(** ** proc.c *)

(** snprintf(buf, size, ...) of the text [t]. *)
Definition snprintf (size : Z) (t : list Z) : list Z := firstn (Z.to_nat (size - 1)) t.

(** The name opened by open_pid_maps, 22-34: the buffer is as large as "/proc/1234567890/maps". *)
Definition maps_path (pid : Z) : list Z :=
  snprintf (len (str "/proc/1234567890/maps") + 1) (str "/proc/" ++ dec pid ++ str "/maps").
(** The name opened by open_pid_mem_flags, 36-46. *)
Definition mem_path (pid : Z) : list Z :=
  snprintf (len (str "/proc/1234567890/mem") + 1) (str "/proc/" ++ dec pid ++ str "/mem").

(** asm-generic/errno-base.h *)
Definition EACCES := 13.
Definition PATH_MAX := 4096.
Definition TASK_COMM_LEN := 128.

(** strncpy(b, s, n). *)
Definition strncpy (b : buffer) (s : list Z) (n : Z) : buffer :=
  fun x => if (0 <=? x) && (x <? n) then nth (Z.to_nat x) s 0 else b x.

(** read_proc_pid_symlink, 65-89: [link] is what readlink(2) stores, at most PATH_MAX bytes without a NUL;
    then [realpath] is terminated at that index.  Some None is the NULL result. *)
Definition read_proc_pid_symlink (link : option (list Z)) (exist : list Z -> bool) (b : buffer) (bufsz : Z) : option (option buffer) :=
  match link with
  | None => Some None
  | Some l => if PATH_MAX <=? len l then None
              else if exist l then Some (Some (strncpy b l bufsz)) else Some None
  end.

Definition is_space := MiscModel.is_space.
Definition skip_space := MiscModel.skip_space.
Fixpoint word (s : list Z) : list Z := match s with c :: r => if is_space c then [] else c :: word r | [] => [] end.
Fixpoint after_word (s : list Z) : list Z := match s with c :: r => if is_space c then s else after_word r | [] => [] end.

(** fscanf and sscanf "%s" into a buffer of [size] bytes: the word and the rest of the input; Some None is EOF. *)
Definition scan_s (size : Z) (s : list Z) : option (option (list Z * list Z)) :=
  let s := skip_space s in
  match s with
  | [] => Some None
  | _ => if size <=? len (word s) then None else Some (Some (word s, after_word s))
  end.

(** proc_pid_comm, 101-124: the value returned, the string in [comm], and whether the stream is left open.
    [file] is the content of /proc/PID/comm, None if it cannot be opened; [errno] is the value errno has. *)
Definition proc_pid_comm (file : option (list Z)) (errno : Z) (comm : list Z) : option (Z * list Z * bool) :=
  match file with
  | None => None
  | Some f =>
      match scan_s TASK_COMM_LEN f with
      | None => None
      | Some None => Some (- errno, comm, true)
      | Some (Some (w, _)) => Some (0, w, false)
      end
  end.

(** sscanf "%d": the digits after blanks and a sign. *)
Fixpoint span_digits (s : list Z) : list Z := match s with c :: r => if MiscModel.is_digit c then c :: span_digits r else [] | [] => [] end.
Fixpoint after_digits (s : list Z) : list Z := match s with c :: r => if MiscModel.is_digit c then after_digits r else s | [] => [] end.
Definition scan_d (s : list Z) : option (Z * list Z) :=
  let s := skip_space s in
  let '(neg, s) := match s with 45 :: r => (true, r) | 43 :: r => (false, r) | _ => (false, s) end in
  match span_digits s with
  | [] => None
  | ds => let v := MiscModel.digits_val ds 0 in
          Some (s32 (if neg : bool then Z.max (- 2 ^ 63) (- v) else Z.min (2 ^ 63 - 1) v), after_digits s)
  end.

(** Four identifiers (uid_t, gid_t are unsigned). *)
Record ids := Ids { i_r : Z; i_e : Z; i_s : Z; i_fs : Z }.
Definition no_ids := Ids (u32 (-1)) (u32 (-1)) (u32 (-1)) (u32 (-1)).

(** sscanf(line, "%s %d %d %d %d", label, ...), 157-162, 170-175: the identifiers after, and the value returned. *)
Definition scan_ids (line : list Z) (o : ids) : option (ids * Z) :=
  match scan_s 128 line with
  | None => None
  | Some None => Some (o, -1)
  | Some (Some (_, s)) =>
      Some match scan_d s with
           | None => (o, 1)
           | Some (a, s) =>
               let o := Ids (u32 a) (i_e o) (i_s o) (i_fs o) in
               match scan_d s with
               | None => (o, 2)
               | Some (b, s) =>
                   let o := Ids (i_r o) (u32 b) (i_s o) (i_fs o) in
                   match scan_d s with
                   | None => (o, 3)
                   | Some (c, s) =>
                       let o := Ids (i_r o) (i_e o) (u32 c) (i_fs o) in
                       match scan_d s with
                       | None => (o, 4)
                       | Some (d, _) => (Ids (i_r o) (i_e o) (i_s o) (u32 d), 5)
                       end
                   end
               end
           end
  end.

(** The loop over the lines of the file, 148-184; fgets takes at most 1023 bytes.  The error exits
    return -errno. *)
Fixpoint status_loop (fuel : nat) (f : list Z) (errno : Z) (u g : ids) : option (Z + ids * ids) :=
  match fuel with
  | O => None
  | S fuel' =>
      match f with
      | [] => Some (inr (u, g))
      | _ =>
          let '(line, f) := ShModel.fgets (Z.to_nat 1023) f in
          match (if prefixb (str "Uid:") line then scan_ids line u else Some (u, 1)) with
          | None => None
          | Some (u, r) =>
              if r <=? 0 then Some (inl (- errno))
              else match (if prefixb (str "Gid:") line then scan_ids line g else Some (g, 1)) with
                   | None => None
                   | Some (g, r) => if r <=? 0 then Some (inl (- errno)) else status_loop fuel' f errno u g
                   end
          end
      end
  end.

Definition unset (i : ids) : bool :=
  (i_r i =? u32 (-1)) || (i_e i =? u32 (-1)) || (i_s i =? u32 (-1)) || (i_fs i =? u32 (-1)).

(** proc_get_pid_status, 126-199: when the file cannot be opened fclose gets a null pointer. *)
Definition proc_get_pid_status (fuel : nat) (file : option (list Z)) (errno : Z) (old : ids * ids) : option (Z * (ids * ids)) :=
  match file with
  | None => None
  | Some f =>
      match status_loop fuel f errno no_ids no_ids with
      | None => None
      | Some (inl e) => Some (e, old)
      | Some (inr (u, g)) => if unset u || unset g then Some (- ENOENT, old) else Some (0, (u, g))
      end
  end.

(** print_task_status, 201-213: "%d" of each. *)
Definition ids_line (label : list Z) (i : ids) : list Z :=
  label ++ 9 :: dec (s32 (i_r i)) ++ 9 :: dec (s32 (i_e i)) ++ 9 :: dec (s32 (i_s i)) ++ 9 :: dec (s32 (i_fs i)) ++ [10].
Definition print_task_status (s : ids * ids) : list Z := ids_line (str "Uid:") (fst s) ++ ids_line (str "Gid:") (snd s).

(** ** thread.c *)

(** task_load_threads, 51-60, with its callback, 29-49: list_add of this code appends (C06). *)
Definition load_threads (entries : option (list (list Z))) : list Z :=
  fold_left (fun l n => l ++ [atoi n]) (snd (ShModel.dir_iter entries)) [].

(** print_thread and dump_task_threads, 62-82. *)
Definition dump_threads (pid : Z) (l : list Z) : list Z :=
  flat_map (fun t => str "pid " ++ dec pid ++ str ", tid " ++ dec t ++ [10]) l.

(** ** fd.c *)

(** alloc_fd, 16-40, and the callback of task_load_fds, 48-55: a descriptor whose link cannot be read
    gives a null pointer, the node of which is linked. *)
Fixpoint load_fds_loop (names : list (list Z)) (readlink : Z -> option (list Z)) (l : list (Z * list Z)) : option (list (Z * list Z)) :=
  match names with
  | [] => Some l
  | n :: r => let fd := atoi n in
              match readlink fd with
              | None => None
              | Some t => load_fds_loop r readlink (l ++ [(fd, t)])
              end
  end.
Definition load_fds (entries : option (list (list Z))) (readlink : Z -> option (list Z)) : option (list (Z * list Z)) :=
  load_fds_loop (snd (ShModel.dir_iter entries)) readlink [].

(** print_fd and dump_task_fds, 66-85. *)
Definition dump_fds (l : list (Z * list Z)) : list Z :=
  flat_map (fun x => str "fd " ++ dec (fst x) ++ str " -> " ++ snd x ++ [10]) l.

(** ** flags.h 13-52 *)
Definition FTO_PROC := 1.
Definition FTO_VMA_ELF := 2.
Definition FTO_VMA_ELF_FILE := Z.lor 4 FTO_VMA_ELF.
Definition FTO_VMA_ELF_SYMBOLS := Z.lor (Z.lor 8 FTO_VMA_ELF) FTO_VMA_ELF_FILE.
Definition FTO_THREADS := 16.
Definition FTO_RDWR := 32.
Definition FTO_FD := 64.
Definition FTO_AUXV := 128.
Definition FTO_STATUS := 256.
(** [flag & F] as a condition. *)
Definition has (flag f : Z) : bool := negb (Z.land flag f =? 0).

(** ** current.c, core.c 452-576, 630-679 *)

(** current_task: NULL, the fallback task, or a task. *)
Inductive cur := CNull | CFallback | CTask (h : Z).

Record task := Task {
  t_h : Z; t_pid : Z; t_flag : Z; t_comm : list Z; t_exe : buffer; t_status : ids * ids; t_mem_fd : Z;
  t_ulp : Z;                       (* number of mappings of type VMA_ULPATCH read so far *)
  t_hdrs : bool; t_files : bool; t_syms : bool;
  t_threads : list Z; t_fds : list (Z * list Z) }.

(** The state of the tool: open descriptors, allocated tasks, current_task, file system. *)
Record tool := Tool { o_fds : list Z; o_live : list Z; o_cur : cur; o_fs : fs }.

(** get_current_task, current.c 55-65; the fallback task is 0. *)
Definition get_current_task (s : tool) : Z := match o_cur s with CNull | CFallback => 0 | CTask h => h end.

(** What the kernel answers during one open_task. *)
Record kernel := Kn {
  k_exist : bool;                        (* /proc/PID *)
  k_malloc : option Z;                   (* the new task *)
  k_auxv : Z;                            (* result of load_task_auxv (C57) *)
  k_status : option (list Z); k_comm : option (list Z); k_comm_fd : Z; k_errno : Z;
  k_exe : option (list Z); k_exe_exists : list Z -> bool;
  k_mem : Z; k_mem_errno : Z;            (* open(2) of mem, errno if it fails *)
  k_vmas : Z; k_ulp : Z; k_libc : bool; k_stack : bool;     (* read_task_vmas and what it found *)
  k_mkdir1 : bool; k_mkdir2 : bool;      (* mkdirat fails with an error other than EEXIST *)
  k_threads : option (list (list Z)); k_fds : option (list (list Z)); k_readlink : Z -> option (list Z) }.

(** reset_current_task, current.c 42-45, called at the end of close_task, core.c 630-679. *)
Definition close_task (t : task) (s : tool) : tool :=
  let fds := if 2 <? t_mem_fd t then List.remove Z.eq_dec (t_mem_fd t) (o_fds s) else o_fds s in
  let f := if has (t_flag t) FTO_PROC then if t_ulp t =? 0 then clean_task_proc (o_fs s) (t_pid t) else o_fs s else o_fs s in
  Tool fds (List.remove Z.eq_dec (t_h t) (o_live s)) CFallback f.

(** The exits of open_task: the task, or NULL and errno. *)
Inductive outcome := Opened (t : task) | Failed (errno : Z).

(** free_task: close_task(task), errno = -err. *)
Definition fail (t : task) (err : Z) (s : tool) : option (outcome * tool) := Some (Failed (- err), close_task t s).

Definition set_comm t c := Task (t_h t) (t_pid t) (t_flag t) c (t_exe t) (t_status t) (t_mem_fd t) (t_ulp t) (t_hdrs t) (t_files t) (t_syms t) (t_threads t) (t_fds t).
Definition set_exe t e := Task (t_h t) (t_pid t) (t_flag t) (t_comm t) e (t_status t) (t_mem_fd t) (t_ulp t) (t_hdrs t) (t_files t) (t_syms t) (t_threads t) (t_fds t).
Definition set_status t e := Task (t_h t) (t_pid t) (t_flag t) (t_comm t) (t_exe t) e (t_mem_fd t) (t_ulp t) (t_hdrs t) (t_files t) (t_syms t) (t_threads t) (t_fds t).
Definition set_mem t e := Task (t_h t) (t_pid t) (t_flag t) (t_comm t) (t_exe t) (t_status t) e (t_ulp t) (t_hdrs t) (t_files t) (t_syms t) (t_threads t) (t_fds t).
Definition set_ulp t e := Task (t_h t) (t_pid t) (t_flag t) (t_comm t) (t_exe t) (t_status t) (t_mem_fd t) e (t_hdrs t) (t_files t) (t_syms t) (t_threads t) (t_fds t).
Definition set_elf t a b c := Task (t_h t) (t_pid t) (t_flag t) (t_comm t) (t_exe t) (t_status t) (t_mem_fd t) (t_ulp t) a b c (t_threads t) (t_fds t).
Definition set_lists t a b := Task (t_h t) (t_pid t) (t_flag t) (t_comm t) (t_exe t) (t_status t) (t_mem_fd t) (t_ulp t) (t_hdrs t) (t_files t) (t_syms t) a b.
Definition set_fds (s : tool) (l : list Z) : tool := Tool l (o_live s) (o_cur s) (o_fs s).
Definition set_fs (s : tool) (f : fs) : tool := Tool (o_fds s) (o_live s) (o_cur s) f.

(** After the map was read, core.c 513-569. *)
Definition open_rest (k : kernel) (t : task) (s : tool) : option (outcome * tool) :=
  if negb (k_libc k) || negb (k_stack k) then fail t 0 s
  else
    (* 518-531; vma_load_elf_file opens the file under flag & FTO_VMA_ELF_FILE, 389 *)
    let flag := t_flag t in
    let hdrs := has flag FTO_VMA_ELF in
    let files := hdrs && has flag FTO_VMA_ELF_FILE in
    let syms := has flag FTO_VMA_ELF_SYMBOLS && files in
    let t := set_elf t hdrs files syms in
    (* 534-562 *)
    let proc : option (bool * tool) :=
      if has flag FTO_PROC then
        if k_mkdir1 k then Some (false, s)
        else if k_mkdir2 k then
          let f := snd (mkdir (o_fs s) (proc_dir (t_pid t))) in
          match lookup f (proc_comm (t_pid t)) with
          | Some Dir => None
          | _ => Some (false, set_fs s (put f (proc_comm (t_pid t)) (Reg (t_comm t))))
          end
        else match open_proc (o_fs s) (t_pid t) (t_comm t) with
             | None => None
             | Some f => Some (true, set_fs s f)
             end
      else Some (true, s) in
    match proc with
    | None => None
    | Some (false, s) => fail t 0 s
    | Some (true, s) =>
        (* 564-569 *)
        let threads := if has flag FTO_THREADS then load_threads (k_threads k) else [] in
        match (if has flag FTO_FD then load_fds (k_fds k) (k_readlink k) else Some []) with
        | None => None
        | Some fds => let t := set_lists t threads fds in
                      Some (Opened t, Tool (o_fds s) (o_live s) (CTask (t_h t)) (o_fs s))
        end
    end.

(** open_task, core.c 452-576. *)
Definition open_task (fuel : nat) (k : kernel) (pid flag : Z) (s : tool) : option (outcome * tool) :=
  if negb (k_exist k) then Some (Failed ENOENT, s)
  else match k_malloc k with
  | None => Some (Failed 0, s)
  | Some h =>
      let s := Tool (o_fds s) (h :: o_live s) (o_cur s) (o_fs s) in
      let t := Task h pid flag [] (fun _ => 0) (Ids 0 0 0 0, Ids 0 0 0 0) 0 0 false false false [] [] in
      let err := if has flag FTO_AUXV then k_auxv k else 0 in
      if negb (err =? 0) then fail t err s
      else
      match (if has flag FTO_STATUS then proc_get_pid_status fuel (k_status k) (k_errno k) (t_status t) else Some (0, t_status t)) with
      | None => None
      | Some (err, st) =>
          let t := set_status t st in
          if negb (err =? 0) then fail t err s
          else
          match proc_pid_comm (k_comm k) (k_errno k) (t_comm t) with
          | None => None
          | Some (err, comm, leak) =>
              let t := set_comm t comm in
              let s := if leak then set_fds s (k_comm_fd k :: o_fds s) else s in
              if negb (err =? 0) then fail t err s
              else
              match read_proc_pid_symlink (k_exe k) (k_exe_exists k) (t_exe t) PATH_MAX with
              | None => None
              | Some None => fail t 0 s
              | Some (Some exe) =>
                  let t := set_exe t exe in
                  (* open_pid_mem_flags, proc.c 36-46, and 505-508 *)
                  let s := if k_mem k <? 0 then s else set_fds s (k_mem k :: o_fds s) in
                  let t := set_mem t (if k_mem k <=? 0 then - k_mem_errno k else k_mem k) in
                  if t_mem_fd t <=? 0 then fail t 0 s
                  else
                    let t := set_ulp t (k_ulp k) in
                    if negb (k_vmas k =? 0) then fail t (k_vmas k) s
                    else open_rest k t s
              end
          end
      end
  end.
