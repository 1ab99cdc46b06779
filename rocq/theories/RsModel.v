(** What a name used by a patch or a tool denotes in the target: the symbols of the patches
    that are in the process (src/patch/patch.c 248-304), then those of the mapped files
    (src/elf/symbol-bfd.c, ElfModel) are copied into the table of the process
    (src/task/symbol.c 290-343, SymModel), both in the order of the mappings (src/task/core.c
    517-531), and the name is looked up there. *)
From Coq Require Import ZArith String List Bool.
From Verif Require TextModel LdModel PaModel.
From Verif Require Import Word RbModel Str ElfDefs ElfModel SymModel.
Import ListNotations.
Open Scope Z_scope.

(** struct vm_area_struct as far as looked at: is_elf; whether bfd_elf_file is set
    (vma_load_elf_file, core.c 377-409: the file of that name exists and libbfd reads it);
    type == VMA_ULPATCH; vma_elf->load_addr; what libbfd delivers for the file; and, for a
    mapping of that type, the copy that alloc_ulp makes of it, with vm_start and the length,
    None if its ELF header cannot be read or is none (vma_load_ulp, task/patch.c 98-112).  A
    copy that fails is the crash of PaModel.vma_load_ulp and not considered here. *)
Record image := Im { im_start : Z; im_len : Z; im_mem : mem }.
Record mapping := Mp { m_elf : bool; m_open : bool; m_patch : bool; m_load : Z;
                       m_syms : list asym; m_dynsyms : list asym; m_synth : list asym;
                       m_image : option image }.

(** The loop of load_ulp_info_from_vma, patch.c 273-293, from symbol [p] on, with
    is_undef_symbol, src/elf/symbol.c 127-130: names and addresses handed to alloc_task_sym. *)
Definition SHN_LORESERVE := 0xff00.
Fixpoint patch_loop (img : mem) (len strtab p : Z) (n : nat) : option (list bsym) :=
  match n with
  | O => Some []
  | S n' =>
      st_name <- LdModel.rd 4 img len p ;;
      shndx <- LdModel.rd 2 img len (p + 6) ;;
      if (shndx =? SHN_UNDEF) || (SHN_LORESERVE <=? shndx) then patch_loop img len strtab (p + 24) n'
      else
        v <- LdModel.rd 8 img len (p + 8) ;;
        name <- LdModel.cstr img len (strtab + st_name) ;;
        l <- patch_loop img len strtab (p + 24) n' ;;
        Some ((name, v) :: l)
  end.

(** vma_load_ulp, task/patch.c 87-122, as far as symbols are concerned, with
    load_ulp_info_from_vma, patch.c 248-304.  The errors are ignored, except that a missing
    metadata section is a null pointer (PaModel.vma_load_ulp). *)
Definition patch_syms (im : image) : option (list bsym) :=
  let img := im_mem im in let len := im_len im in
  c <- LdModel.chk_load_info_len img len ;;
  if negb (c =? 0) then None else
  r <- LdModel.setup_load_info img len ;;
  match r with
  | inl _ => f <- PaModel.info_found img len ;; p <- f ;; id <- LdModel.rd 4 img len p ;; Some []
  | inr li =>
      a <- LdModel.g_addr img len (LdModel.sec (LdModel.li_sechdrs li) (LdModel.li_sym li)) ;;
      size <- LdModel.g_size img len (LdModel.sec (LdModel.li_sechdrs li) (LdModel.li_sym li)) ;;
      l <- patch_loop img len (LdModel.li_strtab li) (u64 (a - im_start im)) (Z.to_nat (size / 24)) ;;
      bid <- LdModel.li_bid li ;;
      if LdModel.inb len (LdModel.li_info li) 64 then Some l else None
  end.

(** The loop of open_task, core.c 517-523. *)
Fixpoint load_patches (ms : list mapping) : option (list bsym) :=
  match ms with
  | [] => Some []
  | m :: r =>
      x <- (if m_patch m then match m_image m with Some im => patch_syms im | None => Some [] end else Some []) ;;
      y <- load_patches r ;;
      Some (x ++ y)
  end.

(** The loop "for (bsym = bfd_next_x_sym(bfile, NULL); bsym; bsym = bfd_next_x_sym(bfile, bsym))",
    symbol.c 312, 322, 332, with next_bfd_sym, symbol-bfd.c 111-116: the nodes visited. *)
Fixpoint each (next : Z -> option Z) (n : nat) (a : Z) : option (list Z) :=
  match n with
  | O => None
  | S m => if a =? 0 then Some []
           else match next a with
                | None => None
                | Some b => match each next m b with None => None | Some l => Some (a :: l) end
                end
  end.

(** One of the three loops of task_load_vma_elf_syms, symbol.c 312-340, over the tree that
    file_load filled for the class: names and addresses handed to alloc_task_sym.
    [b] is the stack buffer of file_load; [s] and [nodes] are the tree, empty, and the
    nodes malloc returns. *)
Definition class_syms (fuel : nat) (c : cls) (m : mapping) (b : buffer) (s : rbs) (nodes : list Z) : option (list bsym) :=
  r <- load_class fuel c (m_syms m) (m_dynsyms m) (m_synth m) b s nodes ;;
  a <- rb_first fuel (snd r) ;;
  l <- each (rb_next fuel (snd r)) fuel a ;;
  Some (map (fun n => (fst (fst r n), u64 (snd (fst r n) + m_load m))) l).

(** task_load_vma_elf_syms, symbol.c 290-343. *)
Definition load_vma_elf_syms (fuel : nat) (m : mapping) (b : buffer) (h : cls -> rbs * list Z) : option (list bsym) :=
  if negb (m_elf m) || negb (m_open m) then Some [] else
  if m_patch m then Some [] else
  t <- class_syms fuel CText m b (fst (h CText)) (snd (h CText)) ;;
  d <- class_syms fuel CData m b (fst (h CData)) (snd (h CData)) ;;
  p <- class_syms fuel CPlt m b (fst (h CPlt)) (snd (h CPlt)) ;;
  Some (t ++ d ++ p).

(** The loop of open_task, core.c 525-530, over the mappings in address order (C70). *)
Fixpoint load_all (fuel : nat) (ms : list mapping) (b : buffer) (heap : nat -> cls -> rbs * list Z) (k : nat) : option (list bsym) :=
  match ms with
  | [] => Some []
  | m :: r =>
      x <- (if m_elf m then load_vma_elf_syms fuel m b (heap k) else Some []) ;;
      y <- load_all fuel r b heap (S k) ;;
      Some (x ++ y)
  end.

(** The symbols allocated by alloc_task_sym, symbol.c 74-93, at the addresses [ns]. *)
Definition tinfo_of (ns : list Z) (l : list bsym) (n : Z) : tinfo :=
  Ti (fst (info_of ns l n)) (snd (info_of ns l n)).

(** open_task followed by resolve_symbol, patch.c 658-682, or by the look-up of the function
    to be replaced, patch.c 818-823 and ulftrace.c 188-193: the address, 0 if there is none. *)
Definition resolve (fuel : nat) (ms : list mapping) (b : buffer) (heap : nat -> cls -> rbs * list Z)
    (ts : tsyms) (pool : list Z) (name : list Z) : option Z :=
  p <- load_patches ms ;;
  l <- load_all fuel ms b heap 0 ;;
  let l := p ++ l in
  let ns := firstn (List.length l) pool in
  ts <- SymModel.link_all fuel (tinfo_of ns l) ts ns ;;
  r <- find_task_sym fuel (tinfo_of ns l) ts name ;;
  Some (if fst r =? 0 then 0 else ts_addr (tinfo_of ns l (fst r))).
