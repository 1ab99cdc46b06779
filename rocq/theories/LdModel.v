(** The patch loader: src/patch/patch.c 126-857, src/patch/meta.h.

    A patch image is its bytes (offset to byte; offset 0 is info->hdr) and its length
    info->len.  Every access made through a pointer into the image is checked: a result
    [None] means that the tool reads or writes outside the image (or through a null
    pointer), which is undefined behaviour of the tool.  Addresses in the image are the
    offsets; pointer arithmetic wraps at 2^64, where it cannot come back into the image. *)
From Coq Require Import ZArith String List Bool.
From Verif Require Import Word Str ElfDefs TextModel.
Import ListNotations.
Open Scope Z_scope.

(** Checked accesses of [n] bytes. *)
Definition inb (len off : Z) (n : nat) : bool := (0 <=? off) && (off + Z.of_nat n <=? len).
Definition rd (n : nat) (img : mem) (len off : Z) : option Z := if inb len off n then Some (ld n img off) else None.
Definition wr (n : nat) (img : mem) (len off v : Z) : option mem := if inb len off n then Some (st n img off v) else None.

(** The NUL-terminated string at an offset. *)
Fixpoint cstr_loop (n : nat) (img : mem) (off : Z) : option (list Z) :=
  match n with
  | O => None
  | S n' => if img off =? 0 then Some [] else (l <- cstr_loop n' img (off + 1) ;; Some (img off :: l))
  end.
Definition cstr (img : mem) (len off : Z) : option (list Z) :=
  if 0 <=? off then cstr_loop (Z.to_nat (len - off)) img off else None.

(** strcmp(p, name) == 0 for a pointer into the image: reads up to the first difference. *)
Fixpoint eq_at (img : mem) (len off : Z) (name : list Z) : option bool :=
  match name with
  | [] => c <- rd 1 img len off ;; Some (c =? 0)
  | x :: r => c <- rd 1 img len off ;; if c =? x then eq_at img len (off + 1) r else Some false
  end.

(** strncmp(p, name, strlen(name)) == 0. *)
Fixpoint prefix_at (img : mem) (len off : Z) (name : list Z) : option bool :=
  match name with
  | [] => Some true
  | x :: r => c <- rd 1 img len off ;; if c =? x then prefix_at img len (off + 1) r else Some false
  end.

(** ** The ELF header and the section headers (Elf64_Ehdr, Elf64_Shdr) *)
Definition sizeof_ehdr := 64.
Definition sizeof_shdr := 64.
Definition e_shoff (img : mem) (len : Z) := rd 8 img len 40.
Definition e_shnum (img : mem) (len : Z) := rd 2 img len 60.
Definition e_shstrndx (img : mem) (len : Z) := rd 2 img len 62.

(** A field of section header [i], the table being at offset [sechdrs]. *)
Definition sec (sechdrs i : Z) : Z := sechdrs + sizeof_shdr * i.
Definition g_name (img : mem) (len p : Z) := rd 4 img len p.
Definition g_type (img : mem) (len p : Z) := rd 4 img len (p + 4).
Definition g_flags (img : mem) (len p : Z) := rd 8 img len (p + 8).
Definition g_addr (img : mem) (len p : Z) := rd 8 img len (p + 16).
Definition g_offset (img : mem) (len p : Z) := rd 8 img len (p + 24).
Definition g_size (img : mem) (len p : Z) := rd 8 img len (p + 32).
Definition g_link (img : mem) (len p : Z) := rd 4 img len (p + 40).
Definition g_info (img : mem) (len p : Z) := rd 4 img len (p + 44).

(** ehdr_magic_ok, elf/ehdr.c 14-24. *)
Definition magic_ok (img : mem) : bool := (img 0 =? 0x7f) && (img 1 =? 69) && (img 2 =? 76) && (img 3 =? 70).

(** __chk_load_info_len, 177-186. *)
Definition chk_load_info_len (img : mem) (len : Z) : option Z :=
  shoff <- e_shoff img len ;;
  shnum <- e_shnum img len ;;
  Some (if (len <=? shoff) || (u64 (len - shoff) <? u64 (shnum * sizeof_shdr)) then - EFAULT else 0).

(** ** alloc_patch_file, 189-243.

    The file system answers: the contents of the object file if it exists, whether the
    shared mapping could be created, whether the copy succeeded.  fsize returns an int, so
    the length is the file's size as an int; a negative one is refused by ftruncate in
    fmmap_shmem_create (file.c 326-332).  The result is the return
    value, and the image if info->patch.mmap is set (not released). *)
Record alloc_env := AEnv { ae_file : option (list Z); ae_mmap : bool; ae_copy : bool }.
Definition of_bytes (l : list Z) : mem := fun i => if (0 <=? i) && (i <? len l) then nth (Z.to_nat i) l 0 else 0.

Definition alloc_patch_file (e : alloc_env) : option (Z * option (mem * Z)) :=
  match ae_file e with
  | None => Some (- EEXIST, None)
  | Some f =>
      let flen := u64 (s32 (len f)) in
      if flen <? sizeof_ehdr then Some (- ENOEXEC, None)
      else if negb (ae_mmap e) || (2 ^ 63 <=? flen) then Some (- ENOMEM, None)
      else
        let img := of_bytes (firstn (Z.to_nat flen) f) in
        if negb (ae_copy e) then Some (- EFAULT, Some (img, flen))
        else if negb (magic_ok img) then Some (- ENOENT, None)
        else r <- chk_load_info_len img flen ;;
             if negb (r =? 0) then Some (0, None) else Some (0, Some (img, flen))
  end.

(** ** find_sec, 382-394: the loop from [i], [n] sections left. *)
Fixpoint find_sec_loop (img : mem) (len sechdrs secstrings : Z) (name : list Z) (i : Z) (n : nat) : option Z :=
  match n with
  | O => Some 0
  | S n' =>
      nm <- g_name img len (sec sechdrs i) ;;
      b <- eq_at img len (secstrings + nm) name ;;
      if (b : bool) then Some i else find_sec_loop img len sechdrs secstrings name (i + 1) n'
  end.
Definition find_sec (img : mem) (len sechdrs secstrings : Z) (name : list Z) : option Z :=
  n <- e_shnum img len ;; find_sec_loop img len sechdrs secstrings name 0 (Z.to_nat n).

(** ** parse_ulpatch_strtab, 396-414: the offsets of the two names.
    [while ( *(p++));] leaves p behind the NUL. *)
Definition SEC_MAGIC := str ".ULPATCH".
Definition after_nul (img : mem) (len p : Z) : option Z := l <- cstr img len p ;; Some (p + TextModel.len l + 1).
Definition parse_ulpatch_strtab (img : mem) (len p : Z) : option (Z * Z * Z) :=
  b <- eq_at img len p SEC_MAGIC ;;
  if negb b then Some (- ENOENT, 0, 0)
  else
    src <- after_nul img len p ;;
    dst <- after_nul img len src ;;
    Some (0, src, dst).

(** ** struct ulpatch_info, meta.h 112-132 (packed): offsets of the fields *)
Definition ui_id := 0. Definition ui_target := 4. Definition ui_patch := 12. Definition ui_virtual := 20.
Definition ui_orig := 28. Definition ui_time := 44. Definition ui_flags := 52. Definition ui_version := 56. Definition ui_pad := 60.
Definition sizeof_ulpatch_info := 64.
Definition ULPATCH_FILE_VERSION := 5.
Definition NT_GNU_BUILD_ID := 3.

(** What setup_load_info leaves in struct load_info.  [li_bid] is str_build_id (None: NULL). *)
Record linfo := Li {
  li_sechdrs : Z; li_secstrings : Z; li_info_idx : Z; li_info : Z;
  li_src : Z; li_dst : Z; li_author : Z; li_license : Z; li_bid : option (list Z);
  li_sym : Z; li_strtab : Z }.

(** The text of a build id: "%02x" for each byte (elf_strbuildid, C49). *)
Definition bid_text (img : mem) (off n : Z) : list Z := flat_map hex2 (bytes_at img off (Z.to_nat n)).

(** The search for the symbol table, 544-556: its index and the offset of the string table. *)
Fixpoint find_symtab (img : mem) (len sechdrs i : Z) (n : nat) : option (option (Z * Z)) :=
  match n with
  | O => Some None
  | S n' =>
      t <- g_type img len (sec sechdrs i) ;;
      if t =? SHT_SYMTAB then
        lk <- g_link img len (sec sechdrs i) ;;
        o <- g_offset img len (sec sechdrs lk) ;;
        Some (Some (i, o))
      else find_symtab img len sechdrs (i + 1) n'
  end.

(** setup_load_info, 435-570: an error or the filled structure.  The debug dump of the
    string table (552) is left out, as are the allocation failures. *)
Definition setup_load_info (img : mem) (len : Z) : option (Z + linfo) :=
  sechdrs <- e_shoff img len ;;
  strndx <- e_shstrndx img len ;;
  secstrings <- g_offset img len (sec sechdrs strndx) ;;
  let fs name := find_sec img len sechdrs secstrings (str name) in
  info <- fs ".ulpatch.info"%string ;;
  if info =? 0 then Some (inl (- EEXIST)) else
  infop <- g_offset img len (sec sechdrs info) ;;
  ver <- rd 4 img len (infop + ui_version) ;;
  if negb (ver =? ULPATCH_FILE_VERSION) then Some (inl (- EINVAL)) else
  strt <- fs ".ulpatch.strtab"%string ;;
  if strt =? 0 then Some (inl (- EEXIST)) else
  strp <- g_offset img len (sec sechdrs strt) ;;
  auth <- fs ".ulpatch.author"%string ;;
  if auth =? 0 then Some (inl (- EEXIST)) else
  authp <- g_offset img len (sec sechdrs auth) ;;
  lic <- fs ".ulpatch.license"%string ;;
  if lic =? 0 then Some (inl (- EEXIST)) else
  licp <- g_offset img len (sec sechdrs lic) ;;
  bidx <- fs ".note.gnu.build-id"%string ;;
  if bidx =? 0 then Some (inl (- EEXIST)) else
  bty <- g_type img len (sec sechdrs bidx) ;;
  if negb (bty =? SHT_NOTE) then Some (inl (- EEXIST)) else
  note <- g_offset img len (sec sechdrs bidx) ;;
  ntype <- rd 4 img len (note + 8) ;;
  bid <- (if ntype =? NT_GNU_BUILD_ID then
            namesz <- rd 4 img len note ;;
            descsz <- rd 4 img len (note + 4) ;;
            let p := note + 12 + namesz in
            if inb len p (Z.to_nat descsz) then Some (Some (bid_text img p descsz)) else None
          else Some None) ;;
  r <- parse_ulpatch_strtab img len strp ;;
  let '(err, src, dst) := r in
  if negb (err =? 0) then Some (inl (- ENOENT)) else
  n <- e_shnum img len ;;
  st <- find_symtab img len sechdrs 1 (Z.to_nat n - 1) ;;
  match st with
  | None => Some (inl (- ENOEXEC))
  | Some (sym, strtab) => Some (inr (Li sechdrs secstrings info infop src dst authp licp bid sym strtab))
  end.

(** ** rewrite_section_headers, 572-614.

    e_shnum is read once: the stores are to 64-bit fields, which the language lets the
    compiler assume not to change a 16-bit one.  The result is the return value and the
    image at that time. *)
Definition SHF_RELA_LIVEPATCH := 0x00100000.

Fixpoint rewrite_loop (img : mem) (len target_hdr : Z) (li : linfo) (i : Z) (n : nat) : option (Z * mem) :=
  match n with
  | O => Some (0, img)
  | S n' =>
      let p := sec (li_sechdrs li) i in
      nm <- g_name img len p ;;
      ty <- g_type img len p ;;
      off <- g_offset img len p ;;
      size <- g_size img len p ;;
      if negb (ty =? SHT_NOBITS) && (len <? u64 (off + size)) then Some (- ENOEXEC, img)
      else
        bss <- (if ty =? SHT_NOBITS then Some true else eq_at img len (li_secstrings li + nm) (str ".bss")) ;;
        if (bss : bool) && (0 <? size) then Some (- EFAULT, img)
        else
          img <- wr 8 img len (p + 16) (u64 (target_hdr + off)) ;;
          rewrite_loop img len target_hdr li (i + 1) n'
  end.

Definition rewrite_section_headers (img : mem) (len target_hdr : Z) (li : linfo) : option (Z * mem) :=
  img <- wr 8 img len (sec (li_sechdrs li) 0 + 16) 0 ;;
  n <- e_shnum img len ;;
  r <- rewrite_loop img len target_hdr li 1 (Z.to_nat n - 1) ;;
  let '(err, img) := r in
  if negb (err =? 0) then Some (err, img)
  else
    let p := sec (li_sechdrs li) (li_info_idx li) in
    fl <- g_flags img len p ;;
    img <- wr 8 img len (p + 8) (Z.lor (Z.land fl (u64 (Z.lnot SHF_ALLOC))) SHF_RELA_LIVEPATCH) ;;
    Some (0, img).

(** ** simplify_symbols, 687-756, with resolve_symbol, 658-684.

    [lookup name] is the address of the symbol found in the target (find_task_sym, C12),
    None if there is none; the task was opened with its symbols.  sh_size of the symbol
    table is read once. *)
Definition resolve_symbol (lookup : list Z -> option Z) (name : list Z) : Z :=
  match lookup name with Some a => a | None => 0 end.

Definition symtab_off (img : mem) (len target_hdr : Z) (li : linfo) : option Z :=
  a <- g_addr img len (sec (li_sechdrs li) (li_sym li)) ;; Some (u64 (a - target_hdr)).
Definition symtab_num (img : mem) (len : Z) (li : linfo) : option Z :=
  s <- g_size img len (sec (li_sechdrs li) (li_sym li)) ;; Some (s / sizeof_sym).

(** One iteration: the image and ret afterwards. *)
Definition simplify_one (lookup : list Z -> option Z) (img : mem) (len : Z) (li : linfo) (p ret : Z) : option (Z * mem) :=
  st_name <- rd 4 img len p ;;
  info <- rd 1 img len (p + 4) ;;
  shndx <- rd 2 img len (p + 6) ;;
  let nm := li_strtab li + st_name in
  if shndx =? SHN_COMMON then
    b <- prefix_at img len nm (str "__gnu_lto") ;;
    Some (if (b : bool) then ret else - ENOEXEC, img)
  else if shndx =? SHN_ABS then Some (ret, img)
  else if shndx =? SHN_UNDEF then
    name <- cstr img len nm ;;
    let addr := resolve_symbol lookup name in
    if addr =? 0 then
      if st_bind info =? STB_WEAK then Some (ret, img) else Some (- ENOENT, img)
    else
      img <- wr 8 img len (p + 8) addr ;; Some (0, img)
  else
    secbase <- g_addr img len (sec (li_sechdrs li) shndx) ;;
    v <- rd 8 img len (p + 8) ;;
    img <- wr 8 img len (p + 8) (u64 (v + secbase)) ;;
    Some (ret, img).

Fixpoint simplify_loop (lookup : list Z -> option Z) (img : mem) (len : Z) (li : linfo) (p : Z) (n : nat) (ret : Z) : option (Z * mem) :=
  match n with
  | O => Some (ret, img)
  | S n' =>
      r <- simplify_one lookup img len li p ret ;;
      let '(ret, img) := r in simplify_loop lookup img len li (p + sizeof_sym) n' ret
  end.

Definition simplify_symbols (lookup : list Z -> option Z) (img : mem) (len target_hdr : Z) (li : linfo) : option (Z * mem) :=
  p <- symtab_off img len target_hdr li ;;
  n <- symtab_num img len li ;;
  simplify_loop lookup img len li (p + sizeof_sym) (Z.to_nat n - 1) 0.

(** ** apply_relocations, 765-798.  [reloc img i] is arch_apply_relocate_add for the
    relocation section [i] (X86RelocModel, A64Model). *)
Fixpoint apply_loop (reloc : mem -> Z -> Z * mem) (img : mem) (len shnum : Z) (li : linfo) (i : Z) (n : nat) (err : Z) : option (Z * mem) :=
  match n with
  | O => Some (err, img)
  | S n' =>
      let p := sec (li_sechdrs li) i in
      infosec <- g_info img len p ;;
      if shnum <=? infosec then apply_loop reloc img len shnum li (i + 1) n' err
      else
        fl <- g_flags img len (sec (li_sechdrs li) infosec) ;;
        if Z.land fl SHF_ALLOC =? 0 then apply_loop reloc img len shnum li (i + 1) n' err
        else
          ty <- g_type img len p ;;
          if ty =? SHT_REL then Some (- ENOEXEC, img)
          else
            let '(err, img) := if ty =? SHT_RELA then reloc img i else (err, img) in
            if err <? 0 then Some (err, img) else apply_loop reloc img len shnum li (i + 1) n' err
  end.
Definition apply_relocations (reloc : mem -> Z -> Z * mem) (img : mem) (len : Z) (li : linfo) : option (Z * mem) :=
  n <- e_shnum img len ;; apply_loop reloc img len n li 0 (Z.to_nat n) 0.

(** ** solve_patch_symbols, 807-857.  The search keeps the last match (832-839). *)
Fixpoint find_src (img : mem) (len : Z) (li : linfo) (src : list Z) (p : Z) (n : nat) (found : option Z) : option (option Z) :=
  match n with
  | O => Some found
  | S n' =>
      st_name <- rd 4 img len p ;;
      b <- eq_at img len (li_strtab li + st_name) src ;;
      find_src img len li src (p + sizeof_sym) n' (if (b : bool) then Some p else found)
  end.

(** The result: return value, image, max_id. *)
Definition solve_patch_symbols (lookup : list Z -> option Z) (img : mem) (len : Z) (li : linfo) (max_id now : Z) : option (Z * mem * Z) :=
  dst <- cstr img len (li_dst li) ;;
  src <- cstr img len (li_src li) ;;
  match lookup dst with
  | None => Some (- ENOENT, img, max_id)
  | Some taddr =>
      p <- g_offset img len (sec (li_sechdrs li) (li_sym li)) ;;
      n <- symtab_num img len li ;;
      f <- find_src img len li src p (Z.to_nat n) None ;;
      match f with
      | None => Some (- ENOENT, img, max_id)
      | Some sp =>
          let max_id := u32 (max_id + 1) in
          img <- wr 4 img len (li_info li + ui_id) max_id ;;
          img <- wr 8 img len (li_info li + ui_target) taddr ;;
          v <- rd 8 img len (sp + 8) ;;
          img <- wr 8 img len (li_info li + ui_patch) v ;;
          t <- rd 8 img len (li_info li + ui_target) ;;
          img <- wr 8 img len (li_info li + ui_virtual) t ;;
          img <- wr 8 img len (li_info li + ui_time) now ;;
          Some (0, img, max_id)
      end
  end.

(** ** The metadata written by the macros, meta.h 41-60 *)
Definition strtab_bytes (src dst : list Z) : list Z := SEC_MAGIC ++ [0] ++ src ++ [0] ++ dst ++ [0].
Definition info_bytes : list Z :=
  le_bytes 4 0 ++ le_bytes 8 0 ++ le_bytes 8 0 ++ le_bytes 8 0 ++ le_bytes 8 0 ++ le_bytes 8 0 ++ le_bytes 8 0
  ++ le_bytes 4 0 ++ le_bytes 4 ULPATCH_FILE_VERSION ++ [0x11; 0x22; 0x33; 0x44].
