(** ELF headers found in the memory of a process: src/task/core.c 78-377, 411-420.

    Allocation does not fail.  PAGE_SIZE is 4096.  Whether a pointer is null, valid or
    released is tracked; None is a use of a null or released pointer. *)
From Coq Require Import ZArith String List Bool.
From Verif Require Import Word Str VmaModel.
From Verif Require ElfModel.
Import ListNotations.
Open Scope Z_scope.

(** Program headers (Elf64_Phdr), and the header fields looked at. *)
Record phdr := Ph { p_type : Z; p_flags : Z; p_offset : Z; p_vaddr : Z; p_filesz : Z; p_memsz : Z }.
Record header := Hd { h_ok : bool; h_type : Z; h_phnum : Z }.
Definition PT_LOAD := 1. Definition PT_INTERP := 3. Definition PT_GNU_RELRO := 0x6474e552.
Definition ET_DYN := 3.
Definition ULONG_MAX := 2 ^ 64 - 1.

Inductive ptr := Null | Valid | Released.
(** The fields of struct vm_area_struct: is_elf, vma_elf, vma_elf->phdrs, is_share_lib,
    vma_elf->ehdr.e_phnum, vma_elf->phdrs[], vma_elf->load_addr. *)
Record velf := Ve { v_is_elf : bool; v_elf : ptr; v_phdrs : ptr; v_share : bool; v_num : Z; v_ph : list phdr; v_load : Z }.
Definition fresh_elf := Ve false Null Null false 0 [] 0.

(** elf_vma_is_interp_exception, vma.c 288-317.  The names have at least three characters
    (shorter ones would be read before their begin; they cannot have one of the prefixes). *)
Definition interp_exception (name : list Z) : bool :=
  let so := str_eqb (skipn (List.length name - 3) name) (str ".so") in
  (prefixb (str "libc") name && so) || prefixb (str "libssp") name ||
  (prefixb (str "libpthread") name && so) || (prefixb (str "libdl") name && so).

(** The lowest p_vaddr of the PT_LOADs, core.c 292-329. *)
Fixpoint lowest (acc : Z) (l : list phdr) : Z :=
  match l with
  | [] => acc
  | p :: r => lowest (if p_type p =? PT_LOAD then (if acc <=? p_vaddr p then acc else p_vaddr p) else acc) r
  end.

(** core.c 258-286. *)
Definition is_share_lib (type : vma_type) (name : list Z) (h : header) (l : list phdr) : bool :=
  let exe := negb (h_type h =? ET_DYN) || match type with VMA_SELF => true | _ => false end ||
             existsb (fun p => (p_type p =? PT_INTERP) && negb (interp_exception name)) l in
  negb exe || match type with VMA_LIBC | VMA_LIB_UNKNOWN => true | _ => false end.

Definition skipped (type : vma_type) : bool :=
  match type with VMA_VVAR | VMA_VVAR_VCLOCK | VMA_STACK | VMA_UPROBES | VMA_VSYSCALL => true | _ => false end.

(** vma_peek_elf_hdrs, core.c 118-377, for mappings other than patches.  [r1] is the result
    of reading the header (-1 or the number of bytes), [h] the header in memory; [r2] that
    of reading the program headers, [ph] those in memory, [junk] what malloc delivered.
    The comparisons of the results are between unsigned numbers: -1 passes.  The voffset
    of the siblings and the matching are left out (the latter is [match_phdr]). *)
Definition peek (type : vma_type) (name : list Z) (start : Z) (v : velf)
  (r1 : Z) (h : header) (r2 : Z) (ph junk : list phdr) : Z * velf :=
  if skipped type then (0, v)
  else if match v_elf v with Null => v_is_elf v | _ => true end then (0, v)
  else if prefixb (str "/etc") name || prefixb (str "/sys") name then (0, v)
  else if u64 r1 <? 64 then (- EAGAIN, v)
  else
    let h := if r1 =? -1 then Hd false 0 0 else h in
    if negb (h_ok h) then (0, v)
    else
      let num := h_phnum h in
      let phsz := u32 (num * 56) in
      if negb (num =? 0) && (u32 r2 <? phsz) then
        (- EAGAIN, Ve true Released Released false num [] 0)
      else
        let l := if num =? 0 then [] else if r2 =? -1 then junk else ph in
        let low := lowest ULONG_MAX l in
        if low =? ULONG_MAX then (-1, Ve false Null Null false num [] 0)
        else (0, Ve true Valid (if num =? 0 then Null else Valid) (is_share_lib type name h l) num l (u64 (start - low))).

(** vma_free_elf, core.c 411-420, for mappings other than patches: done by close_task for every mapping. *)
Definition vma_free_elf (v : velf) : option velf :=
  if negb (v_is_elf v) then Some v
  else match v_elf v with
       | Valid => match v_phdrs v with Released => None | _ => Some (Ve true Released Released (v_share v) (v_num v) [] 0) end
       | _ => None
       end.

(** task_load_vma_elf_syms, task/symbol.c 291-344: the address a symbol of value [value]
    gets, for a mapping whose file was opened. *)
Definition sym_addr (v : velf) (value : Z) : option Z :=
  match v_elf v with Valid => Some (u64 (value + v_load v)) | _ => None end.

(** ELF_PAGESTART, ELF_PAGEOFFSET, ELF_PAGEALIGN, macros.h 28-30, for 64-bit numbers. *)
Definition pagestart (x : Z) : Z := x - x mod 4096.
Definition pageoffset (x : Z) : Z := x mod 4096.
Definition pagealign (x : Z) : Z := pagestart (u64 (x + 4095)).

(** match_vma_phdr without the relro case, core.c 78-97. *)
Definition match_phdr (start stop prot : Z) (p : phdr) (load : Z) : bool :=
  let addr := pagestart (u64 (load + p_vaddr p)) in
  let size := pagealign (u64 (p_filesz p + pageoffset (p_vaddr p))) in
  (addr =? start) && (u64 (addr + size) =? stop) && (Z.land (p_flags p) 7 =? vma_prot2flags prot).
