(** What the listing of mappings says about the files they belong to: src/task/vma.c 64-77,
    335-400 (groups of mappings), src/task/core.c 37-110, 288-364 (which mapping is which
    segment of its file), 193-214, 422-444 (the summary of a process).

    Mappings are named by their place in the list, from 0.  The page size is 4096. *)
From Coq Require Import ZArith String List Bool.
From Verif Require Import Word Str VmaModel PkModel MpModel.
From Verif Require EcModel.
Import ListNotations.
Open Scope Z_scope.

(** ** Groups *)

(** vma->leader of the mappings in the order of the list: insert_vma, vma.c 64-77, called with
    the mapping before, 335-400 (first reading: nothing is skipped, and prev is NULL for the
    first).  [prev] is its name and its leader.  The ring of siblings of a mapping is made of
    the mappings with the same leader (C06: list_add appends to the ring of the leader). *)
Fixpoint leaders (i : nat) (prev : option (list Z * nat)) (l : list mvma) : list nat :=
  match l with
  | [] => []
  | v :: r =>
      let ld := match prev with
                | Some (n, k) => if str_eqb n (m_name v) then k else i
                | None => i
                end in
      ld :: leaders (S i) (Some (m_name v, ld)) r
  end.

(** ** Segments *)

(** A program header with its p_align. *)
Record aph := Ap { a_ph : phdr; a_align : Z }.

(** ALIGN_DOWN, macros.h 58-68, of unsigned longs. *)
Definition align_down (x a : Z) : Z :=
  let m := u64 (a - 1) in Z.ldiff (u64 (u64 (x - m) + m)) m.

(** gnu_relro_phdr after the loop of core.c 292-329: PT_LOAD falls through to PT_GNU_RELRO. *)
Fixpoint relro_of (acc : option phdr) (l : list aph) : option phdr :=
  match l with
  | [] => acc
  | a :: r => relro_of (if (p_type (a_ph a) =? PT_LOAD) || (p_type (a_ph a) =? PT_GNU_RELRO) then Some (a_ph a) else acc) r
  end.

(** _relro_dl_mprotect, core.c 37-72, of a mapping that starts at [start]: its end is compared
    with itself. *)
Definition relro_rest (start load : Z) (r : phdr) : bool :=
  pagestart (u64 (u64 (load + p_vaddr r) + p_memsz r)) =? start.

(** match_vma_phdr, core.c 77-114. *)
Definition match_vma_phdr (v : mvma) (p : phdr) (load : Z) (relro : option phdr) : bool :=
  match_phdr (m_start v) (m_end v) (m_prot v) p load ||
  ((p_type p =? PT_LOAD) && match relro with Some r => relro_rest (m_start v) load r | None => false end).

(** What a mapping got: vma->is_matched_phdr with vma->phdr, and vma->voffset; alloc_vma
    clears both. *)
Record role := Ro { o_phdr : option phdr; o_voffset : Z }.
Definition no_role := Ro None 0.

(** One round of the loop 292-329: a mapping [v] (of the ring, other than the one with the
    header, whose protection is [prot]) and the program header [a]. *)
Definition set_voffset (shift prot : Z) (v : mvma) (o : role) (a : aph) : role :=
  if (p_type (a_ph a) =? PT_LOAD) && negb (prot =? 0)
     && (u64 (Z.shiftl (m_pgoff v) shift) =? align_down (p_vaddr (a_ph a)) (a_align a))
  then Ro (o_phdr o) (p_vaddr (a_ph a)) else o.
(** One round of the loop 340-364. *)
Definition set_phdr (load : Z) (relro : option phdr) (v : mvma) (o : role) (a : aph) : role :=
  if (p_type (a_ph a) =? PT_LOAD) || (p_type (a_ph a) =? PT_GNU_RELRO)
  then if match_vma_phdr v (a_ph a) load relro then Ro (Some (a_ph a)) (o_voffset o) else o
  else o.

(** What the loops of vma_peek_elf_hdrs, 288-364, do to a mapping [v] when they are run for the
    mapping [u] whose memory starts with an ELF header and the program headers [l]; [same] is
    whether they are the same mapping.  Without a PT_LOAD nothing is kept, 331-342. *)
Definition peek_role (shift : Z) (same : bool) (u v : mvma) (l : list aph) (o : role) : role :=
  let low := lowest ULONG_MAX (map a_ph l) in
  let o := if same then o else fold_left (set_voffset shift (m_prot u) v) l o in
  if low =? ULONG_MAX then o
  else fold_left (set_phdr (u64 (m_start u - low)) (relro_of None l) v) l o.

(** open_task, 518-524, over all mappings in order ([heads]: index, mapping and, where it is one, its program
    headers): what the mapping [v] with index [i] in the ring of [ld] ends with. *)
Fixpoint roles (shift : Z) (i ld : nat) (v : mvma) (heads : list (nat * nat * mvma * option (list aph))) (o : role) : role :=
  match heads with
  | [] => o
  | (j, lj, u, Some l) :: r =>
      roles shift i ld v r (if (lj =? ld)%nat then peek_role shift (j =? i)%nat u v l o else o)
  | (_, _, _, None) :: r => roles shift i ld v r o
  end.

(** The heads for the mappings [l]; [elf] tells what is in the memory of each. *)
Fixpoint zip3 (i : nat) (l : list mvma) (lds : list nat) (elf : nat -> option (list aph)) : list (nat * nat * mvma * option (list aph)) :=
  match l, lds with
  | v :: l, d :: lds => (i, d, v, elf i) :: zip3 (S i) l lds elf
  | _, _ => []
  end.

(** The whole: for each mapping whether it is a leader, and its role. *)
Definition listing (shift : Z) (elf : nat -> option (list aph)) (l : list mvma) : list (mvma * bool * role) :=
  let hs := zip3 0 l (leaders 0 None l) elf in
  map (fun '(i, d, v, _) => (v, (d =? i)%nat, roles shift i d v hs no_role)) hs.

(** ** Summary *)

(** task->is_pie: vma_peek_elf_hdrs, core.c 193-214, over the mappings in order (each with its
    type and, if one was found in its memory, the ELF header); open_task clears it. *)
Definition is_pie (l : list (vma_type * option header)) : bool :=
  fold_left (fun b '(t, h) => match t, h with VMA_SELF, Some h => h_type h =? ET_DYN | _, _ => b end) l false.

(** print_task, core.c 422-444; [max] is max_id, an unsigned int shown with %d. *)
Definition print_task (detail : bool) (comm exe : list Z) (pid : Z) (pie : bool) (max flag memfd : Z) : list Z :=
  str "Command: " ++ EcModel.padr 32 comm ++ [10] ++
  str "Exe:     " ++ EcModel.padr 32 exe ++ [10] ++
  str "Pid:     " ++ EcModel.padr 32 (dec pid) ++ [10] ++
  str "PIE:     " ++ EcModel.padr 32 (if pie then str "YES" else str "NO") ++ [10] ++
  (if max =? 0 then [] else str "Patched: YES (num " ++ dec (s32 max) ++ str ")" ++ [10]) ++
  (if detail then str "FTO:     " ++ EcModel.padr 32 (EcModel.hexn 1 (u32 flag)) ++ [10] ++
                  str "MemFD:   " ++ EcModel.padr 32 (dec memfd) ++ [10] else []).
