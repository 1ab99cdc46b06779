(** What is read from an ELF file when it is opened, and how it is listed: src/elf/note.c 221-354,
    src/elf/phdr.c, src/elf/section.c, src/elf/symbol.c, src/elf/ehdr.c 57-188.

    The file comes through libelf: its section and program headers, the bytes of each section
    (elf_getdata, None for NULL).  gelf_getnote, gelf_getsymshndx and elf_strptr are elfutils'; the definitions
    below are their meaning on a little-endian 64-bit file whose notes are aligned to 4.  The index of symbols is
    the list of its entries (that the tree behaves so is C53).  None as a result of a function that can fail
    otherwise is an access outside the memory the tool has. *)
From Coq Require Import ZArith String List Bool.
From Verif Require Import Word Str ElfDefs.
From Verif Require ElfModel TextModel MpModel.
Import ListNotations.
Open Scope Z_scope.

Definition ENODATA := 61. Definition ENOENT := 2.
Definition len (l : list Z) : Z := Z.of_nat (List.length l).

(** ** Notes *)

(** NOTE_ALIGN4 of libelf, on a 32-bit word. *)
Definition note_align (n : Z) : Z := u32 (n + 3) / 4 * 4.
(** The note at the beginning of [s]: n_namesz, n_descsz, n_type; the bytes from the name on, from the descriptor on, and
    behind the note. *)
Record gnote := Gn { n_namesz : Z; n_descsz : Z; n_type : Z; n_at_name : list Z; n_at_desc : list Z; n_rest : list Z }.
Definition getnote (s : list Z) : option gnote :=
  if len s <? 12 then None
  else
    let namesz := le_word (firstn 4 s) in
    let descsz := le_word (firstn 4 (skipn 4 s)) in
    let type := le_word (firstn 4 (skipn 8 s)) in
    let name := skipn 12 s in
    let an := note_align namesz in
    if (len name <? an) || ((an =? 0) && negb (namesz =? 0)) then None
    else
      let desc := skipn (Z.to_nat an) name in
      let ad := note_align descsz in
      if (len desc <? ad) || ((ad =? 0) && negb (descsz =? 0)) then None
      else Some (Gn namesz descsz type name desc (skipn (Z.to_nat ad) desc)).

(** strcmp(p, m) == 0 for a literal [p] (with its NUL) and memory [m]. *)
Fixpoint cmp_lit (p m : list Z) : option bool :=
  match p, m with
  | [], _ => Some true
  | _, [] => None
  | c :: p', x :: m' => if x =? c then cmp_lit p' m' else Some false
  end.

(** elf_object_note, note.c 253-300: the build id afterwards.  The size of the string is computed in 32 bits. *)
Definition elf_object_note (name : list Z) (type descsz : Z) (desc : list Z) (bid : option (list Z)) : option (option (list Z)) :=
  if (descsz =? 0) && (type =? 1) then Some bid
  else
    match cmp_lit (str "GNU" ++ [0]) name with
    | None => None
    | Some false => Some bid
    | Some true =>
        if (type =? 3) && (0 <? descsz) then
          if u32 (descsz * 2 + 1) <? descsz * 2 + 1 then None
          else if len desc <? descsz then None
          else Some (Some (flat_map TextModel.hex2 (firstn (Z.to_nat descsz) desc)))
        else Some bid
    end.

(** handle_notes, note.c 302-354, for a file that is no core file. *)
Fixpoint notes_loop (fuel : nat) (s : list Z) (bid : option (list Z)) : option (Z * option (list Z)) :=
  match fuel with
  | O => None
  | S fuel' =>
      match s with
      | [] => Some (0, bid)
      | _ =>
          match getnote s with
          | None => Some (- ENODATA, bid)
          | Some n =>
              match elf_object_note (if n_namesz n =? 0 then [0] else n_at_name n) (n_type n) (n_descsz n) (n_at_desc n) bid with
              | None => None
              | Some bid => notes_loop fuel' (n_rest n) bid
              end
          end
      end
  end.
Definition handle_notes (data : option (list Z)) (bid : option (list Z)) : option (Z * option (list Z)) :=
  match data with
  | None => Some (- ENODATA, bid)
  | Some d => notes_loop (S (List.length d)) d bid
  end.

(** ** The file *)

Record phdr := Ph { p_type : Z; p_offset : Z; p_vaddr : Z; p_paddr : Z; p_filesz : Z; p_memsz : Z; p_flags : Z; p_align : Z }.
Record efile := Ef { f_shdrs : list shdr; f_phdrs : list phdr; f_data : Z -> option (list Z); f_shstrndx : Z; f_raw : list Z }.

(** The string at the beginning of some bytes. *)
Fixpoint cstring (m : list Z) : option (list Z) :=
  match m with
  | [] => None
  | c :: r => if c =? 0 then Some [] else match cstring r with Some t => Some (c :: t) | None => None end
  end.
(** elf_strptr. *)
Definition strptr (f : efile) (sec off : Z) : option (list Z) :=
  match f_data f sec with
  | None => None
  | Some d => if len d <=? off then None else cstring (skipn (Z.to_nat off) d)
  end.

(** handle_phdrs, phdr.c 85-108: the interpreter as an offset into the raw file.  Its text is read when [debug]
    messages are on. *)
Fixpoint handle_phdrs (debug : bool) (f : efile) (l : list phdr) (interp : option Z) : option (option Z) :=
  match l with
  | [] => Some interp
  | p :: r =>
      if p_type p =? 3 then
        if debug && match cstring (skipn (Z.to_nat (p_offset p)) (f_raw f)) with None => true | _ => false end then None
        else handle_phdrs debug f r (Some (p_offset p))
      else handle_phdrs debug f r interp
  end.

(** ** Symbols *)

(** GElf_Sym. *)
Record sym := Sy { y_name : Z; y_info : Z; y_other : Z; y_shndx : Z; y_value : Z; y_size : Z }.
(** gelf_getsymshndx; 24 bytes each. *)
Definition sym_at (d : list Z) (i : Z) : option sym :=
  if len d <? (i + 1) * 24 then None
  else
    let s := skipn (Z.to_nat (i * 24)) d in
    Some (Sy (le_word (firstn 4 s)) (le_word (firstn 1 (skipn 4 s))) (le_word (firstn 1 (skipn 5 s))) (le_word (firstn 2 (skipn 6 s)))
             (le_word (firstn 8 (skipn 8 s))) (le_word (firstn 8 (skipn 16 s)))).

(** gelf_getversym: a half word for each symbol; NULL without data. *)
Definition getversym (d : option (list Z)) (i : Z) : option Z :=
  match d with
  | None => None
  | Some d => if len d <? (i + 1) * 2 then None else Some (le_word (firstn 2 (skipn (Z.to_nat (i * 2)) d)))
  end.
(** The version get_next_symbol, symbol.c 141-283, finds for a symbol.  [versym] is the data of the section with
    versions, NULL if there is none, and [look] what the tables of versions needed and defined say (180-277, left out):
    with the section it is skipped (171-172). *)
Definition sym_version (versym : option (list Z)) (look : Z -> option (list Z)) (isym : Z) : option (list Z) :=
  match versym with
  | Some _ => None
  | None =>
      match getversym versym isym with
      | Some v => if (0x8000 <=? v) || (1 <? v) then look v else None
      | None => None
      end
  end.

(** struct symbol: name, kind, the ELF symbol, the program headers remembered. *)
Record entry := En { n_name : list Z; n_kind : Z; n_sym : sym; n_phdrs : list phdr }.

(** link_symbol, symbol.c 458-496: whether a program header is remembered. *)
Definition holds (h : shdr) (p : phdr) : bool :=
  (p_offset p <=? sh_offset h) && (u64 (sh_offset h + sh_size h) <=? u64 (p_offset p + p_filesz p)).
Definition sym_phdrs (f : efile) (s : sym) : option (list phdr) :=
  if is_undef_symbol (y_shndx s) then Some []
  else match f_phdrs f, nth_error (f_shdrs f) (Z.to_nat (y_shndx s)) with
       | [], _ => Some []
       | _, None => None
       | l, Some h => Some (filter (holds h) l)
       end.
Definition same_entry (k : Z) (nm : list Z) (e : entry) : bool := (n_kind e =? k) && str_eqb (n_name e) nm.
Definition link_symbol (f : efile) (tab : list entry) (nm : list Z) (s : sym) : option (bool * list entry) :=
  let k := ElfModel.s_type (ElfModel.alloc_symbol nm (ElfModel.Gs (y_info s) (y_shndx s))) in
  match sym_phdrs f s with
  | None => None
  | Some ph => Some (if existsb (same_entry k nm) tab then (false, tab) else (true, tab ++ [En nm k s ph]))
  end.

(** is_ftrace_entry, symbol.c 102-125. *)
Definition is_ftrace_entry (nm : list Z) : bool :=
  existsb (str_eqb nm) [str "__cyg_profile_func_enter"; str "__fentry__"; str "mcount"; str "_mcount"; str "__gnu_mcount_nc"].

(** handle_symtab, symbol.c 285-326: [n] symbols are left; strdup of a NULL name is an invalid access.  mcount_name is
    the one found last. *)
Fixpoint symtab_loop (n : nat) (f : efile) (d : list Z) (link isym : Z) (x : list entry * option (list Z)) : option (list entry * option (list Z)) :=
  match n with
  | O => Some x
  | S n' =>
      match sym_at d isym with
      | None => symtab_loop n' f d link (isym + 1) x
      | Some s =>
          match strptr f link (y_name s) with
          | None => None
          | Some nm =>
              match link_symbol f (fst x) nm s with
              | None => None
              | Some (linked, tab) =>
                  symtab_loop n' f d link (isym + 1)
                    (tab, if linked && (st_type (y_info s) =? 2) && is_ftrace_entry nm then Some nm else snd x)
              end
          end
      end
  end.
Definition handle_symtab (f : efile) (idx : Z) (x : list entry * option (list Z)) : option (list entry * option (list Z)) :=
  match f_data f idx with
  | None => None
  | Some d => symtab_loop (Z.to_nat (len d / 24)) f d (sh_link (nth (Z.to_nat idx) (f_shdrs f) shdr0)) 0 x
  end.
(** find_symbol, find_undef_symbol, find_extern_symbol, symbol.c 403-435. *)
Definition find_kind (tab : list entry) (k : Z) (nm : list Z) : option entry := find (same_entry k nm) tab.

(** ** Sections *)

Record secs := Sx { x_plt : Z; x_got : Z; x_symtab : Z; x_dynsym : Z; x_bid : option (list Z) }.
(** The loop of handle_sections, section.c 19-109; relocation sections are only looked at; the results of
    handle_notes and handle_relocs are ignored. *)
Fixpoint sections_loop (f : efile) (l : list shdr) (i : Z) (x : secs) : option (Z * secs) :=
  match l with
  | [] => Some (0, x)
  | h :: r =>
      match strptr f (f_shstrndx f) (sh_name h) with
      | None => Some (- ENOENT, x)
      | Some nm =>
          if sh_type h =? 1 then
            sections_loop f r (i + 1)
              (if str_eqb nm (str ".plt") then Sx i (x_got x) (x_symtab x) (x_dynsym x) (x_bid x)
               else if str_eqb nm (str ".got") then Sx (x_plt x) i (x_symtab x) (x_dynsym x) (x_bid x)
               else x)
          else if sh_type h =? SHT_SYMTAB then sections_loop f r (i + 1) (Sx (x_plt x) (x_got x) i (x_dynsym x) (x_bid x))
          else if sh_type h =? 11 then sections_loop f r (i + 1) (Sx (x_plt x) (x_got x) (x_symtab x) i (x_bid x))
          else if sh_type h =? SHT_NOTE then
            match handle_notes (f_data f i) (x_bid x) with
            | None => None
            | Some (_, bid) => sections_loop f r (i + 1) (Sx (x_plt x) (x_got x) (x_symtab x) (x_dynsym x) bid)
            end
          else sections_loop f r (i + 1) x
      end
  end.
(** handle_sections, section.c 19-118: the value returned, the sections found and the symbols. *)
Record ctx := Cx { c_secs : secs; c_tab : list entry; c_mcount : option (list Z) }.
Definition handle_sections (f : efile) : option (Z * ctx) :=
  match sections_loop f (f_shdrs f) 0 (Sx 0 0 0 0 None) with
  | None => None
  | Some (r, x) =>
      if negb (r =? 0) then Some (r, Cx x [] None)
      else
        match (if x_symtab x =? 0 then Some ([], None) else handle_symtab f (x_symtab x) ([], None)) with
        | None => None
        | Some y =>
            match (if x_dynsym x =? 0 then Some y else handle_symtab f (x_dynsym x) y) with
            | None => None
            | Some (tab, mc) => Some (0, Cx x tab mc)
            end
        end
  end.
(** The end of elf_file_open, open.c 98-171, for a file with a good header: the build id and what was read, or NULL. *)
Definition elf_contents (debug : bool) (etype : Z) (f : efile) : option (option (list Z * ctx)) :=
  match handle_phdrs debug f (f_phdrs f) None with
  | None => None
  | Some _ =>
      match handle_sections f with
      | None => None
      | Some (r, c) =>
          if negb (r =? 0) then Some None
          else match x_bid (c_secs c) with
               | Some b => Some (Some (b, c))
               | None => if etype =? 1 then Some (Some (str "No Build ID", c)) else Some None
               end
      end
  end.

(** ** Listing *)

(** "%-Ns". *)
Definition padr (n : nat) (t : list Z) : list Z := t ++ repeat 32 (n - List.length t).
(** "%#018lx": no prefix for 0. *)
Definition alt18 (v : Z) : list Z := if v =? 0 then repeat 48 18 else str "0x" ++ MpModel.hex16 v.
(** "%x", and "%08lx" with [n] = 8. *)
Definition hexn (n : nat) (v : Z) : list Z :=
  let t := map TextModel.hex_digit (digits (S (Z.to_nat (Z.log2 v))) 16 v) in repeat 48 (n - List.length t) ++ t.

(** st_bind_string, symbol.c 17-33. *)
Definition st_bind_string (info : Z) : list Z :=
  let b := st_bind info in
  if b =? 0 then str "LOCAL" else if b =? 1 then str "GLOBAL" else if b =? 2 then str "WEAK" else if b =? 3 then str "NUM"
  else if b =? 10 then str "LOOS" else if b =? 12 then str "HIOS" else if b =? 13 then str "LOPROC" else if b =? 15 then str "HIPROC"
  else str "UNKNOWN".
(** i_st_type_string and st_type_string, symbol.c 35-60. *)
Definition st_type_string (info : Z) : list Z :=
  let t := st_type info in
  if t =? 0 then str "NOTYPE" else if t =? 1 then str "OBJECT" else if t =? 2 then str "FUNC" else if t =? 3 then str "SECTION"
  else if t =? 4 then str "FILE" else if t =? 5 then str "COMMON" else if t =? 6 then str "TLS" else if t =? 7 then str "NUM"
  else if t =? 10 then str "LOOS" else if t =? 12 then str "HIOS" else if t =? 13 then str "LOPROC" else if t =? 15 then str "HIPROC"
  else str "UNKNOWN".
(** st_visibility_string, symbol.c 62-71: of st_info. *)
Definition st_visibility_string (info : Z) : list Z :=
  let v := Z.land info 3 in
  if v =? 0 then str "DEFAULT" else if v =? 1 then str "INTERNAL" else if v =? 2 then str "HIDDEN" else if v =? 3 then str "PROTECTED"
  else str "UNKNOWN".
(** fprint_sym, symbol.c 73-100, without the head line. *)
Definition fprint_sym (prefix : list Z) (s : sym) (nm : list Z) (ver : option (list Z)) : list Z :=
  prefix ++ [32] ++ alt18 (y_value s) ++ [32] ++ padr 7 (dec (s64 (y_size s))) ++ [32] ++ padr 8 (st_type_string (y_info s)) ++ [32]
    ++ padr 8 (st_bind_string (y_info s)) ++ [32] ++ padr 12 (st_visibility_string (y_info s)) ++ [32] ++ padr 4 (dec (y_shndx s)) ++ [32]
    ++ nm ++ match ver with Some v => str "@" ++ v | None => [] end ++ [10].

(** phdr_type_str, phdr.c 14-47, with the constants of elf.h. *)
Definition phdr_types : list (Z * list Z) :=
  [(0, str "NULL"); (1, str "LOAD"); (2, str "DYNAMIC"); (3, str "INTERP"); (4, str "NOTE"); (5, str "SHLIB"); (6, str "PHDR"); (7, str "TLS");
   (8, str "NUM"); (0x60000000, str "LOOS"); (0x6474e550, str "GNU_EH_FRAME"); (0x6474e551, str "GNU_STACK"); (0x6474e552, str "GNU_RELRO");
   (0x6474e553, str "GNU_PROPERTY"); (0x6474e554, str "GNU_SFRAME"); (0x6ffffffa, str "LOSUNW"); (0x6ffffffb, str "SUNWSTACK");
   (0x6fffffff, str "HIOS"); (0x70000000, str "LOPROC"); (0x7fffffff, str "HIPROC")].
Definition phdr_type_str (t : Z) : list Z :=
  match find (fun x => fst x =? t) phdr_types with Some x => snd x | None => str "UNKNOWN" end.
(** phdr_flags_str_unsafe, phdr.c 49-57. *)
Definition phdr_flags_str (fl : Z) : list Z :=
  [if Z.testbit fl 2 then 82 else 32; if Z.testbit fl 1 then 87 else 32; if Z.testbit fl 0 then 88 else 32].
(** print_phdr, phdr.c 59-83, without the head lines. *)
Definition print_phdr (prefix : list Z) (p : phdr) : list Z :=
  prefix ++ [32; 32] ++ padr 16 (phdr_type_str (p_type p)) ++ [32] ++ alt18 (p_offset p) ++ [32] ++ alt18 (p_vaddr p) ++ [32] ++ MpModel.hex16 (p_paddr p) ++ [10]
  ++ prefix ++ [32; 32] ++ padr 16 [] ++ [32] ++ alt18 (p_filesz p) ++ [32] ++ alt18 (p_memsz p) ++ [32] ++ padr 8 (phdr_flags_str (p_flags p)) ++ [32]
  ++ hexn 8 (p_align p) ++ [10].

(** The ELF header, and print_ehdr, ehdr.c 123-188; -EINVAL and nothing for bytes that do not begin like an ELF file. *)
Record ehdr := Eh { e_ident : list Z; e_type : Z; e_machine : Z; e_version : Z; e_entry : Z; e_phoff : Z; e_shoff : Z; e_flags : Z;
                    e_ehsize : Z; e_phentsize : Z; e_phnum : Z; e_shentsize : Z; e_shnum : Z; e_shstrndx : Z }.
Definition name_in (l : list (Z * list Z)) (d : list Z) (v : Z) : list Z := match find (fun x => fst x =? v) l with Some x => snd x | None => d end.
(** ei_class_string, ei_data_string, ei_osabi_string, e_type_string, e_machine_string, ehdr.c 57-121. *)
Definition ei_class_string := name_in [(0, str "NONE"); (1, str "ELF32"); (2, str "ELF64")] (str "Unknown").
Definition ei_data_string := name_in [(0, str "Invalid data encoding"); (1, str "2's complement, little endian"); (2, str "2's complement, big endian")] (str "Unknown").
Definition ei_osabi_string := name_in
  [(0, str "UNIX - System V"); (1, str "HP-UX"); (2, str "NetBSD"); (3, str "Object uses GNU ELF extensions"); (6, str "Sun Solaris"); (7, str "IBM AIX");
   (8, str "SGI Irix"); (9, str "FreeBSD"); (10, str "Compaq TRU64 UNIX"); (11, str "Novell Modesto"); (12, str "OpenBSD"); (64, str "ARM EABI"); (97, str "ARM");
   (255, str "Standalone (embedded) application")] (str "Unknown").
Definition e_type_string := name_in
  [(0, str "No file type"); (1, str "Relocatable file"); (2, str "Executable file"); (3, str "Shared object file"); (4, str "Core file"); (5, str "Number of defined types");
   (0xfe00, str "OS-specific range start"); (0xfeff, str "OS-specific range end"); (0xff00, str "Processor-specific range start"); (0xffff, str "Processor-specific range end")] (str "Unknown").
Definition e_machine_string := name_in [(0, str "No machine type"); (40, str "arm"); (183, str "aarch64"); (62, str "x86_64")] (str "Unknown").
Definition print_ehdr (h : ehdr) : Z * list Z :=
  if negb ((nth 0 (e_ident h) 0 =? 127) && (nth 1 (e_ident h) 0 =? 69) && (nth 2 (e_ident h) 0 =? 76) && (nth 3 (e_ident h) 0 =? 70)) then (- EINVAL, [])
  else
    (0, str "ELF Header:" ++ [10] ++ str " Magic:  " ++ flat_map (fun b => [32] ++ TextModel.hex2 b) (firstn 16 (e_ident h)) ++ [10] ++
        str " Class:                             " ++ ei_class_string (nth 4 (e_ident h) 0) ++ [10] ++
        str " Data:                              " ++ ei_data_string (nth 5 (e_ident h) 0) ++ [10] ++
        str " Version:                           1 (current)" ++ [10] ++
        str " OS/ABI:                            " ++ ei_osabi_string (nth 7 (e_ident h) 0) ++ [10] ++
        str " ABI Version:                       " ++ dec (nth 8 (e_ident h) 0) ++ [10] ++
        str " Type:                              " ++ e_type_string (e_type h) ++ [10] ++
        str " Machine:                           " ++ e_machine_string (e_machine h) ++ [10] ++
        str " Version:                           0x" ++ hexn 1 (e_version h) ++ [10] ++
        str " Entry point address:               0x" ++ hexn 1 (e_entry h) ++ [10] ++
        str " Start of program headers:          " ++ dec (s64 (e_phoff h)) ++ str " (bytes into file)" ++ [10] ++
        str " Start of section headers:          " ++ dec (s64 (e_shoff h)) ++ str " (bytes into file)" ++ [10] ++
        str " Flags:                             0x" ++ hexn 1 (e_flags h) ++ [10] ++
        str " Size of this header:               " ++ dec (e_ehsize h) ++ str " (bytes)" ++ [10] ++
        str " Size of program headers:           " ++ dec (e_phentsize h) ++ str " (bytes)" ++ [10] ++
        str " Number of program headers:         " ++ dec (e_phnum h) ++ [10] ++
        str " Size of section headers:           " ++ dec (e_shentsize h) ++ str " (bytes)" ++ [10] ++
        str " Number of section headers:         " ++ dec (e_shnum h) ++ [10] ++
        str " Section header string table index: " ++ dec (e_shstrndx h) ++ [10]).
