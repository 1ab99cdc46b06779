(** The memory map of the target process: src/task/vma.c.

    A mapping is named by the address of its [node_rb]; the fields that the code
    reads (start, end, name) are given by a function from that address, because
    they never change after the mapping was created.  The list of all mappings
    ([vma_root.list]) is kept as a sequence; C06 shows that the intrusive list
    represents sequences.  The sibling ring of a leader is not modelled, only the
    [leader] pointer is.  The text of /proc/PID/maps is modelled after sscanf: a
    sequence of parsed entries.  Reading through the result of rb_first of an empty
    tree is undefined and gives [None]. *)
From Coq Require Import ZArith String List Bool.
From Verif Require Import Word RbModel Str.
Import ListNotations.
Open Scope Z_scope.

(** struct vm_area_struct, vma.h 44-121, the fields used here. *)
Record vinfo := Vi { vm_start : Z; vm_end : Z; vm_name : list Z }.

(** struct vm_area_root, vma.h: the index, the list, and the leader of each mapping. *)
Record vroot := Vr { v_rb : rbs; v_list : list Z; v_leader : Z -> Z }.

(** __vma_rb_cmp, vma.c 46-63. *)
Definition vma_rb_cmp (info : Z -> vinfo) (new node : Z) : Z :=
  if vm_end (info new) <=? vm_start (info node) then -1
  else if (vm_start (info node) <? vm_end (info new)) && (vm_start (info new) <? vm_end (info node)) then 0
  else if vm_end (info node) <=? vm_start (info new) then 1
  else 0.

(** insert_vma, vma.c 65-77; [prev = 0] is NULL.  The result of rb_insert_node is
    ignored by the code. *)
Definition insert_vma (fuel : nat) (info : Z -> vinfo) (s : vroot) (v prev : Z) : option vroot :=
  let leader :=
    if negb (prev =? 0) && str_eqb (vm_name (info prev)) (vm_name (info v))
    then fun x => if x =? v then v_leader s prev else v_leader s x
    else v_leader s in
  r <- rb_insert_node fuel (v_rb s) v (vma_rb_cmp info v) ;;
  Some (Vr (snd r) (v_list s ++ [v]) leader).

(** unlink_vma, vma.c 79-84, without the sibling ring. *)
Definition unlink_vma (fuel : nat) (s : vroot) (v : Z) : option vroot :=
  rb <- rb_erase fuel (v_rb s) v ;;
  Some (Vr rb (remove Z.eq_dec v (v_list s)) (v_leader s)).

(** __find_vma_cmp, vma.c 94-106. *)
Definition find_vma_cmp (info : Z -> vinfo) (vaddr node : Z) : Z :=
  if vaddr <? vm_start (info node) then -1
  else if (vm_start (info node) <=? vaddr) && (vaddr <? vm_end (info node)) then 0
  else 1.

(** find_vma, vma.c 108-118; 0 is NULL with errno ENOENT. *)
Definition find_vma (fuel : nat) (info : Z -> vinfo) (s : vroot) (vaddr : Z) : option Z :=
  r <- rb_search_node fuel (v_rb s) (find_vma_cmp info vaddr) ;; Some (fst r).

(** next_vma, vma.c 120-126. *)
Definition next_vma (fuel : nat) (s : vroot) (prev : Z) : option Z :=
  if prev =? 0 then rb_first fuel (v_rb s) else rb_next fuel (v_rb s) prev.

(** MIN_ULP_START_VMA_ADDR, patch.h 22. *)
Definition MIN_ULP_START_VMA_ADDR := 4194304.

(** The loop of find_vma_span_area, vma.c 145-159; [n] bounds the number of
    iterations. *)
Fixpoint span_loop (n fuel : nat) (info : Z -> vinfo) (s : vroot) (size rnode : Z) : option Z :=
  match n with
  | O => None
  | S n' =>
      if rnode =? 0 then Some 0
      else
        next <- rb_next fuel (v_rb s) rnode ;;
        if next =? 0 then Some 0
        else if size <=? u64 (vm_start (info next) - vm_end (info rnode)) then Some (vm_end (info rnode))
        else span_loop n' fuel info s size next
  end.

(** find_vma_span_area, vma.c 128-163. *)
Definition find_vma_span_area (n fuel : nat) (info : Z -> vinfo) (s : vroot) (size base : Z) : option Z :=
  first <- rb_first fuel (v_rb s) ;;
  if negb (base =? 0) && (MIN_ULP_START_VMA_ADDR <=? base) then
    if first =? 0 then None
    else if (base <? vm_start (info first)) && (size <=? u64 (vm_start (info first) - base))
    then Some base
    else span_loop n fuel info s size first
  else span_loop n fuel info s size first.

(** sys/mman.h and elf.h. *)
Definition PROT_READ := 1.
Definition PROT_WRITE := 2.
Definition PROT_EXEC := 4.
Definition PF_X := 1.
Definition PF_W := 2.
Definition PF_R := 4.

(** vma_perms2prot, vma.c 165-177; the string has at least three characters
    (or the NUL of a shorter one is read as an ordinary byte). *)
Definition vma_perms2prot (p0 p1 p2 : Z) : Z :=
  let prot := 0 in
  let prot := if p0 =? 114 then Z.lor prot PROT_READ else prot in
  let prot := if p1 =? 119 then Z.lor prot PROT_WRITE else prot in
  if p2 =? 120 then Z.lor prot PROT_EXEC else prot.

(** vma_prot2flags, vma.c 179-188. *)
Definition vma_prot2flags (prot : Z) : Z :=
  let flags := 0 in
  let flags := Z.lor flags (if Z.land prot PROT_READ =? 0 then 0 else PF_R) in
  let flags := Z.lor flags (if Z.land prot PROT_WRITE =? 0 then 0 else PF_W) in
  Z.lor flags (if Z.land prot PROT_EXEC =? 0 then 0 else PF_X).

(** enum vma_type, vma.h 15-41. *)
Inductive vma_type :=
  VMA_NONE | VMA_SELF | VMA_LIBC | VMA_HEAP | VMA_LD | VMA_STACK | VMA_UPROBES | VMA_VVAR
| VMA_VVAR_VCLOCK | VMA_VDSO | VMA_VSYSCALL | VMA_LIB_UNKNOWN | VMA_ANON | VMA_ULPATCH.

(** PATCH_VMA_TEMP_PREFIX, patch.h 81; ULP_PROC_ROOT_DIR, macros.h 117;
    TASK_PROC_MAP_FILES, task.h 39. *)
Definition PATCH_VMA_TEMP_PREFIX := str "ulp-".
Definition ULP_PROC_ROOT_DIR := str "/tmp/ulpatch".
Definition TASK_PROC_MAP_FILES := str "map_files".

(** get_vma_type, vma.c 207-257.  [basename] is the libgen one; that it cuts
    trailing slashes off [name] in place is not modelled. *)
Definition get_vma_type (pid : Z) (exe name : list Z) : vma_type :=
  if str_eqb name exe then VMA_SELF
  else if prefixb (str "libc.so") (basename name) || prefixb (str "libssp") (basename name)
          || prefixb (str "libc-") (basename name) then VMA_LIBC
  else if str_eqb name (str "[heap]") then VMA_HEAP
  else if prefixb (str "ld-linux") (basename name) then VMA_LD
  else if str_eqb name (str "[stack]") then VMA_STACK
  else if str_eqb name (str "[uprobes]") then VMA_UPROBES
  else if str_eqb name (str "[vvar]") then VMA_VVAR
  else if str_eqb name (str "[vvar_vclock]") then VMA_VVAR_VCLOCK
  else if str_eqb name (str "[vdso]") then VMA_VDSO
  else if str_eqb name (str "[vsyscall]") then VMA_VSYSCALL
  else if prefixb (str "lib") (basename name) && strstrb name (str ".so") then VMA_LIB_UNKNOWN
  else if Z.of_nat (length name) =? 0 then VMA_ANON
  else if strstrb name PATCH_VMA_TEMP_PREFIX && strstrb name (dec pid) then VMA_ULPATCH
  else VMA_NONE.

(** __make_pid_ulpname, patch.c 149-175; [rnd] are the characters mkstemp put
    in place of XXXXXX.  The buffer is longer than any such name. *)
Definition make_pid_ulpname (pid : Z) (rnd : list Z) : list Z :=
  ULP_PROC_ROOT_DIR ++ str "/" ++ dec pid ++ str "/" ++ TASK_PROC_MAP_FILES ++ str "/" ++
  PATCH_VMA_TEMP_PREFIX ++ rnd.

(** read_task_vmas, vma.c 321-405: one iteration for the parsed line of mapping [v]
    and the whole loop.  [v] is the address the mapping gets if it is allocated. *)
Definition read_one (fuel : nat) (info : Z -> vinfo) (update : bool) (s : vroot) (prev v : Z)
  : option (vroot * Z) :=
  skip <- (if update then
             old <- find_vma fuel info s (u64 (vm_start (info v) + 1)) ;;
             Some (negb (old =? 0) && (vm_start (info old) =? vm_start (info v))
                   && (vm_end (info old) =? vm_end (info v)))
           else Some false) ;;
  if skip : bool then Some (s, prev)
  else
    s' <- insert_vma fuel info
            (Vr (v_rb s) (v_list s) (fun x => if x =? v then v else v_leader s x)) v prev ;;
    Some (s', v).

Fixpoint read_loop (fuel : nat) (info : Z -> vinfo) (update : bool) (s : vroot) (prev : Z) (vs : list Z)
  : option vroot :=
  match vs with
  | [] => Some s
  | v :: vs' => r <- read_one fuel info update s prev v ;; read_loop fuel info update (fst r) (snd r) vs'
  end.

Definition read_task_vmas (fuel : nat) (info : Z -> vinfo) (update : bool) (s : vroot) (vs : list Z)
  : option vroot :=
  read_loop fuel info update s 0 vs.
