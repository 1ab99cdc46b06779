(** The commands of ultask that change or dump a process: src/ultask.c, src/task/memcpy.c.

    The memory map is the index of VmaModel, the target and the requests made to it are
    those of ScModel.  Messages, disassembly and reading the memory map again after a
    mapping was made are not modelled.  malloc does not fail. *)
From Coq Require Import ZArith String List Bool.
From Verif Require Import Word RbModel Str VmaModel ScModel.
From Verif Require InsnModel.
Import ListNotations.
Open Scope Z_scope.

Section Cmd.
(** The tool: its architecture, the environment, the address of the C library's code. *)
Variable fuel : nat.
Variable a : arch.
Variable nn : nrs.
Variable x86 : bool.
Variable e : env.
Variable libc garbage : Z.
(** The memory map as read. *)
Variable info : Z -> vinfo.
Variable s : vroot.

(** The address check of mmap_a_file, ultask.c 612-621: true is "already in use". *)
Definition map_in_use (map_addr map_len : Z) : option bool :=
  if map_addr =? 0 then Some false
  else
    v <- find_vma fuel info s map_addr ;;
    if negb (v =? 0) then Some true
    else
      v' <- find_vma fuel info s (u64 (map_addr + map_len)) ;;
      Some (negb (v' =? 0)).

(** mmap_a_file, ultask.c 595-661; [size] is the result of fsize (600), O_RDWR is 2,
    MAP_PRIVATE 2; task_open2 opens with mode 0 (syscall.c 342-345).  The protection is 7
    without the bits removed by the options (643-649). *)
Definition mmap_a_file (w : world) (map_addr size : Z) (map_ro map_noexec : bool) (file : list Z) : option (Z * world) :=
  used <- map_in_use map_addr size ;;
  if used then Some (- EINVAL, w)
  else
    r <- task_attach fuel e w ;;
    let '(ret, w) := r in
    if negb (ret =? 0) then Some (ret, w)
    else
      r <- task_open fuel a nn e libc garbage x86 w file 2 0 ;;
      let '(map_fd, w) := r in
      if map_fd <=? 0 then Some (-1, w)
      else
        r <- task_ftruncate fuel a nn e libc garbage w map_fd size ;;
        let '(ret, w) := r in
        r <- (if negb (ret =? 0) then Some (0, w)
              else
                let prot := 7 in
                let prot := if map_ro then Z.land prot (Z.lnot 2) else prot in
                let prot := if map_noexec then Z.land prot (Z.lnot 4) else prot in
                task_mmap fuel a nn e libc garbage w map_addr size prot 2 map_fd 0) ;;
        let '(_, w) := r in
        r <- task_close fuel a nn e libc garbage w map_fd ;;
        let '(_, w) := r in
        let '(_, w) := task_detach e w in
        Some (ret, w).

(** The address check of mprotect_a_region, ultask.c 672-681: true is "exists". *)
Definition region_exists (addr len : Z) : option bool :=
  if (addr =? 0) || (len =? 0) then Some false
  else
    v <- find_vma fuel info s addr ;;
    if v =? 0 then Some false
    else
      v' <- find_vma fuel info s (u64 (addr + len)) ;;
      Some (negb (v' =? 0)).

(** mprotect_a_region, ultask.c 663-693. *)
Definition mprotect_a_region (w : world) (addr len prot : Z) : option (Z * world) :=
  ok <- region_exists addr len ;;
  if negb ok then Some (- EINVAL, w)
  else
    r <- task_attach fuel e w ;;
    let '(ret, w) := r in
    if negb (ret =? 0) then Some (ret, w)
    else
      r <- task_mprotect fuel a nn e libc garbage w addr len prot ;;
      let '(ret, w) := r in
      let '(_, w) := task_detach e w in
      Some (ret, w).

(** munmap_an_vma, ultask.c 695-722; [fsz] gives the size of the file of that name if it
    exists (fexist, fsize).  The second component is the range that is unmapped. *)
Definition munmap_range (fsz : list Z -> option Z) (unmap_addr : Z) : option (option (Z * Z)) :=
  v <- find_vma fuel info s unmap_addr ;;
  if v =? 0 then Some None
  else
    let size := match fsz (vm_name (info v)) with
                | Some n => u64 n
                | None => u64 (vm_end (info v) - vm_start (info v))
                end in
    Some (Some (vm_start (info v), size)).
Definition munmap_an_vma (w : world) (fsz : list Z -> option Z) (unmap_addr : Z) : option (Z * world) :=
  o <- munmap_range fsz unmap_addr ;;
  match o with
  | None => Some (-1, w)
  | Some (addr, size) =>
      r <- task_attach fuel e w ;;
      let '(err, w) := r in
      if negb (err =? 0) then Some (err, w)
      else
        r <- task_munmap fuel a nn e libc garbage w addr size ;;
        let '(_, w) := r in
        let '(_, w) := task_detach e w in
        Some (0, w)
  end.

(** run_jmp, ultask.c 766-824; [n] is a size_t, so that -1 is the largest value. *)
Definition run_jmp (ia : InsnModel.arch) (w : world) (from to : Z) : option (Z * world) :=
  if (from =? 0) || (to =? 0) then Some (0, w)
  else
    vf <- find_vma fuel info s from ;;
    vt <- find_vma fuel info s to ;;
    if (vf =? 0) || (vt =? 0) then Some (- ENOENT, w)
    else
      let new := InsnModel.jmp_table_entry (InsnModel.arch_jmp_table_jmp ia) to in
      let '(n, _, w) := memcpy_from_task e w (fun _ => 0) from 16 in
      if (u64 n =? u64 (-1)) || (u64 n <? 16) then Some (- ENOMEM, w)
      else
        let '(n, w) := memcpy_to_task e w from (of_list new) 16 in
        if (u64 n =? u64 (-1)) || (u64 n <? 16) then Some (- ENOMEM, w)
        else Some (0, w).

(** write(2) at the start of a file with content [old] of the first [k] of the bytes [b]. *)
Fixpoint bytes_of (n : nat) (b : arr) (i : Z) : list Z :=
  match n with O => [] | S n' => b i :: bytes_of n' b (i + 1) end.
Definition write_file (old : list Z) (b : arr) (k : Z) : list Z :=
  bytes_of (Z.to_nat k) b 0 ++ skipn (Z.to_nat k) old.

(** dump_task_addr_to_file, memcpy.c 115-159, to a file: [old] is the content of the
    file ([] if open creates it), [wr] the result of write (None: -1, with errno
    [err]).  The result is the return value and the content of the file, None if it is
    not written. *)
Definition dump_task_addr_to_file (w : world) (old : list Z) (opens : bool) (wr : option Z) (err addr size : Z)
    : option (Z * option (list Z) * world) :=
  v <- find_vma fuel info s addr ;;
  if v =? 0 then Some (- ENOENT, None, w)
  else if negb opens then Some (- err, None, w)
  else
    let '(_, mem, w) := memcpy_from_task e w (e_junk e) addr size in
    match wr with
    | None => Some (- err, Some old, w)
    | Some k =>
        let content := write_file old mem k in
        if s32 k =? size then Some (0, Some content, w) else Some (- err, Some content, w)
    end.

(** dump_task_vma_to_file, memcpy.c 161-174. *)
Definition dump_task_vma_to_file (w : world) (old : list Z) (opens : bool) (wr : option Z) (err addr : Z)
    : option (Z * option (list Z) * world) :=
  v <- find_vma fuel info s addr ;;
  if v =? 0 then Some (- ENOENT, None, w)
  else dump_task_addr_to_file w old opens wr err (vm_start (info v)) (u64 (vm_end (info v) - vm_start (info v))).

(** strcpy_from_task, memcpy.c 96-106: the loop runs at most 1025 times. *)
Fixpoint strcpy_loop (n : nat) (w : world) (dst : arr) (src i : Z) : arr * world :=
  let '(_, b, w) := memcpy_from_task e w (fun j => dst (i + j)) (u64 (src + i)) 1 in
  let dst := fun j => if j =? i then b 0 else dst j in
  match n with
  | O => (dst, w)
  | S n' => if (dst i =? 0) then (dst, w) else strcpy_loop n' w dst src (i + 1)
  end.
Definition MAX_STR_LEN := 1024%nat.
Definition strcpy_from_task (w : world) (dst : arr) (src : Z) : arr * world := strcpy_loop MAX_STR_LEN w dst src 0.

(** strcpy_to_task, memcpy.c 108-113; [src] without its terminating NUL. *)
Definition strcpy_to_task (w : world) (dst : Z) (src : list Z) : world :=
  snd (memcpy_to_task e w dst (of_list (src ++ [0])) (Z.of_nat (List.length src) + 1)).

(** What was asked of ultask: change of protection (address, length, protection), mapping
    (address, size, read only, not executable, file), unmapping (address), dump
    (old content, write result, errno, address, size), redirection (from, to). *)
Record request := Rq {
  rq_protect : option (Z * Z * Z);
  rq_map : option (Z * Z * bool * bool * list Z);
  rq_unmap : option (Z * (list Z -> option Z));
  rq_dump : option (list Z * option Z * Z * Z * Z);
  rq_jmp : option (Z * Z) }.

(** The commands in the order of ultask(), ultask.c 886-929, those that only print left
    out: the exit status, the results of the commands, the target. *)
Definition ultask_actions (ia : InsnModel.arch) (w : world) (rq : request) : option (Z * list Z * world) :=
  r <- (match rq_protect rq with
        | None => Some (0, [], w)
        | Some (addr, len, prot) => x <- mprotect_a_region w addr len prot ;; Some (0 + fst x, [fst x], snd x)
        end) ;;
  let '(ret, rs, w) := r in
  r <- (match rq_map rq with
        | None => Some (ret, rs, w)
        | Some (addr, size, ro, nx, file) => x <- mmap_a_file w addr size ro nx file ;; Some (ret + fst x, rs ++ [fst x], snd x)
        end) ;;
  let '(ret, rs, w) := r in
  r <- (match rq_unmap rq with
        | None => Some (ret, rs, w)
        | Some (addr, fsz) => x <- munmap_an_vma w fsz addr ;; Some (ret + fst x, rs ++ [fst x], snd x)
        end) ;;
  let '(ret, rs, w) := r in
  r <- (match rq_dump rq with
        | None => Some (ret, rs, w)
        | Some (old, wr, err, addr, size) =>
            x <- dump_task_addr_to_file w old true wr err addr size ;;
            let '(d, _, w) := x in Some (ret, rs ++ [d], w)
        end) ;;
  let '(ret, rs, w) := r in
  match rq_jmp rq with
  | None => Some (ret, rs, w)
  | Some (from, to) => x <- run_jmp ia w from to ;; Some (ret, rs ++ [fst x], snd x)
  end.
End Cmd.
