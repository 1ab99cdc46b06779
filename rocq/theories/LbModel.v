(** The mappings that a process must have: the C library, whose code is borrowed for remote
    calls (src/task/syscall.c 137), and the stack.  src/task/vma.c 385-394, src/task/core.c
    509-516. *)
From Coq Require Import ZArith String List Bool.
From Verif Require Import Word Str VmaModel MpModel.
Import ListNotations.
Open Scope Z_scope.

(** task->vma_root.libc_code and stack after the loop of read_task_vmas, vma.c 385-394. *)
Definition is_libc (t : vma_type) : bool := match t with VMA_LIBC => true | _ => false end.
Definition is_stack (t : vma_type) : bool := match t with VMA_STACK => true | _ => false end.
Definition note_vma (roots : option mvma * option mvma) (v : mvma) : option mvma * option mvma :=
  let '(libc, stack) := roots in
  (match libc with
   | None => if is_libc (m_type v) && negb (Z.land (m_prot v) PROT_EXEC =? 0) then Some v else None
   | Some _ => libc
   end,
   match stack with None => if is_stack (m_type v) then Some v else None | Some _ => stack end).
Definition find_roots (vs : list mvma) : option mvma * option mvma := fold_left note_vma vs (None, None).

(** open_task, core.c 509-516, for the text of the memory map: the two mappings, or NULL
    ([Some None]); None: undefined behaviour, as in MpModel. *)
Definition open_roots (fuel : nat) (shift pid : Z) (exe f : list Z) : option (option (mvma * mvma)) :=
  match read_maps fuel shift pid exe f with
  | None => None
  | Some (false, _) => Some None
  | Some (true, vs) =>
      match find_roots vs with
      | (Some l, Some s) => Some (Some (l, s))
      | _ => Some None
      end
  end.
