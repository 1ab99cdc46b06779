(** Reading ELF files: src/elf/ehdr.c, src/elf/symbol.c, src/elf/symbol-bfd.c and
    src/elf/open.c.  libelf and libbfd are not modelled: what they deliver (header
    fields, symbols, section names, failures) is the input. *)
From Coq Require Import ZArith String List Bool.
From Verif Require TextModel.
From Verif Require Import Word RbModel Str ElfDefs.
Import ListNotations.
Open Scope Z_scope.

Notation buffer := TextModel.buffer.
Notation put := TextModel.put.

(** ** The header *)

(** Elf64_Ehdr: the bytes of e_ident and the three fields that are looked at. *)
Record ehdr := Eh { e_ident : Z -> Z; e_type : Z; e_machine : Z; e_version : Z }.

Definition ET_NONE := 0. Definition ET_REL := 1. Definition EM_NONE := 0. Definition EV_CURRENT := 1.
Definition EI_CLASS := 4. Definition EI_DATA := 5. Definition ELFCLASS64 := 2. Definition ELFDATA2LSB := 1.

(** ehdr_magic_ok, ehdr.c 14-24. *)
Definition ehdr_magic_ok (h : ehdr) : bool :=
  negb (negb (e_ident h 0 =? 0x7f) || negb (e_ident h 1 =? 69) ||
        negb (e_ident h 2 =? 76) || negb (e_ident h 3 =? 70)).

(** ehdr_ok, ehdr.c 26-55. *)
Definition ehdr_ok (h : ehdr) : bool :=
  if e_type h =? ET_NONE then false else
  if e_machine h =? EM_NONE then false else
  if negb (e_version h =? EV_CURRENT) then false else
  if negb (e_ident h EI_CLASS =? ELFCLASS64) then false else
  if negb (e_ident h EI_DATA =? ELFDATA2LSB) then false else
  if negb (ehdr_magic_ok h) then false else true.

(** gelf_getehdr on a little-endian 64-bit file, Elf64_Ehdr layout (gABI): used only
    to relate the fields to the bytes of a file. *)
Definition ehdr_of (f : mem) : ehdr := Eh f (ld 2 f 16) (ld 2 f 18) (ld 4 f 20).

(** ** The symbol index of an ELF file (symbol.c) *)

(** enum sym_type, elf-api.h 80-97. *)
Definition SYM_TYPE_EXTERN := 1. Definition SYM_TYPE_UNDEF := 2. Definition SYM_TYPE_DEFINED := 3.

(** GElf_Sym fields looked at, and struct symbol (elf-api.h 105-130): name, sym_type. *)
Record gsym := Gs { g_st_info : Z; g_st_shndx : Z }.
Record esym := Es { s_name : list Z; s_type : Z }.

(** is_extern_symbol, symbol.c 132-139. *)
Definition is_extern_symbol (s : gsym) : bool :=
  let bind := st_bind (g_st_info s) in
  (g_st_shndx s =? SHN_UNDEF) && ((bind =? STB_GLOBAL) || (bind =? STB_WEAK)) &&
  (ElfDefs.st_type (g_st_info s) =? STT_NOTYPE).

(** alloc_symbol, symbol.c 372-391. *)
Definition alloc_symbol (name : list Z) (s : gsym) : esym :=
  Es name (if is_extern_symbol s then SYM_TYPE_EXTERN
           else if is_undef_symbol (g_st_shndx s) then SYM_TYPE_UNDEF else SYM_TYPE_DEFINED).

(** cmp_symbol_name, symbol.c 353-370. *)
Definition cmp_symbol_name (s1 s2 : esym) : Z :=
  if s_type s1 =? s_type s2 then strcmp (s_name s1) (s_name s2)
  else if s_type s2 <? s_type s1 then -1
  else if s_type s1 <? s_type s2 then 1 else 0.

(** link_symbol, symbol.c 458-496, the tail at "insert": [info] gives the symbol that
    embeds a node.  The program headers remembered with a symbol are not modelled. *)
Definition link_symbol (fuel : nat) (info : Z -> esym) (s : rbs) (new : Z) : option (Z * rbs) :=
  r <- rb_insert_node fuel s new (fun n => cmp_symbol_name (info n) (info new)) ;;
  let '(node, s) := r in Some (if node =? 0 then 0 else - EINVAL, s).

(** Registering a sequence of symbols (the loop of handle_symtab, symbol.c 298-336;
    symbols that could not be linked are freed there). *)
Fixpoint link_all (fuel : nat) (info : Z -> esym) (s : rbs) (ns : list Z) : option (list Z * rbs) :=
  match ns with
  | [] => Some ([], s)
  | n :: r => x <- link_symbol fuel info s n ;;
              y <- link_all fuel info (snd x) r ;;
              Some (fst x :: fst y, snd y)
  end.

(** __find_symbol, symbol.c 403-420 (0 for NULL); find_symbol, find_extern_symbol and
    find_undef_symbol, 422-435, pass the kind. *)
Definition find_kind (fuel : nat) (info : Z -> esym) (s : rbs) (name : list Z) (kind : Z) : option Z :=
  r <- rb_search_node fuel s (fun n => cmp_symbol_name (info n) (Es name kind)) ;; Some (fst r).
Definition find_symbol fuel info s name := find_kind fuel info s name SYM_TYPE_DEFINED.
Definition find_extern_symbol fuel info s name := find_kind fuel info s name SYM_TYPE_EXTERN.
Definition find_undef_symbol fuel info s name := find_kind fuel info s name SYM_TYPE_UNDEF.

(** ** Symbols read through libbfd (symbol-bfd.c) *)

(** What is looked at in an asymbol: name (None: NULL), bfd_asymbol_value, whether
    BSF_DEBUGGING or BSF_SECTION_SYM is set, the kind of section, and SEC_CODE or
    section ".text", SEC_DATA or section ".data", ".data.rel.ro", ".bss". *)
Inductive seckind := SUnd | SCom | SOther.
Record asym := As { a_name : option (list Z); a_value : Z; a_debug : bool; a_sec : seckind; a_code : bool; a_data : bool }.

(** asymbol_pure_name, symbol-bfd.c 302-320: what is returned, and the buffer afterwards.
    [len] is unsigned, [blen] an int converted for the comparison. *)
Inductive pres := PName | PNull | PBuf.
Fixpoint at_index (s : list Z) : option Z :=
  match s with
  | [] => None
  | c :: r => if c =? 64 then Some 0 else match at_index r with Some k => Some (k + 1) | None => None end
  end.
Definition asymbol_pure_name (name : list Z) (b : buffer) (blen : Z) : pres * buffer :=
  match at_index name with
  | None => (PName, b)
  | Some k =>
      let len := u32 k in
      if u32 blen <? len then (PNull, b)
      else (PBuf, put (put b 0 (firstn (Z.to_nat len) name)) len [0])
  end.

(** is_significant_symbol_name, symbol-bfd.c 322-325. *)
Definition is_significant_symbol_name (name : list Z) : bool :=
  prefixb (str ".plt") name || prefixb (str ".got") name.

(** The four tests of remove_useless_symbols, symbol-bfd.c 334-343. *)
Definition useless (s : asym) : bool :=
  if a_value s =? 0 then true else
  match a_name s with
  | None => true
  | Some [] => true
  | Some name =>
      if a_debug s && negb (is_significant_symbol_name name) then true else
      match a_sec s with SUnd | SCom => true | SOther => false end
  end.

(** remove_useless_symbols, symbol-bfd.c 327-348: the vector is read at [i] and written
    at [o]; the result is the vector and the number of entries kept. *)
Fixpoint remove_loop (count : nat) (v : Z -> asym) (i o : Z) : (Z -> asym) * Z :=
  match count with
  | O => (v, o)
  | S c =>
      let sym := v i in
      if useless sym then remove_loop c v (i + 1) o
      else remove_loop c (fun x => if x =? o then sym else v x) (i + 1) (o + 1)
  end.
Definition remove_useless_symbols (v : Z -> asym) (count : Z) : (Z -> asym) * Z :=
  remove_loop (Z.to_nat count) v 0 0.

(** asymbol_is_plt, symbol-bfd.c 171-174. *)
Definition asymbol_is_plt (name : list Z) : bool := strstrb name (str "@plt").

(** The string behind what asymbol_pure_name returned: the bytes before the first NUL. *)
Fixpoint cbytes (n : nat) (b : buffer) (i : Z) : list Z :=
  match n with O => [] | S m => if b i =? 0 then [] else b i :: cbytes m b (i + 1) end.
Definition pure_string (name : list Z) (r : pres * buffer) : option (list Z) :=
  match fst r with
  | PName => Some name
  | PNull => None
  | PBuf => Some (cbytes (S (List.length name)) (snd r) 0)
  end.

(** The loop of file_load, symbol-bfd.c 396-425: the (name, address) pairs linked into
    the index of one class, in order.  strdup(NULL) in alloc_bfd_sym is undefined: None.
    [b] is the stack buffer of 256 bytes before the call. *)
Inductive cls := CPlt | CText | CData.
Definition in_class (c : cls) (name : list Z) (s : asym) : bool :=
  match c with CPlt => asymbol_is_plt name | CText => a_code s | CData => a_data s end.
Fixpoint entries (c : cls) (l : list asym) (b : buffer) : option (list (list Z * Z)) :=
  match l with
  | [] => Some []
  | s :: r =>
      match a_name s with
      | None => None                               (* strstr(NULL, "@") *)
      | Some name =>
          let p := asymbol_pure_name name b 256 in
          rest <- entries c r (snd p) ;;
          if in_class c name s then
            n <- pure_string name p ;; Some ((n, a_value s) :: rest)
          else Some rest
      end
  end.

(** The vector handed to that loop, symbol-bfd.c 378-394: the static symbols, or the
    dynamic ones if there are none, filtered, then the synthetic symbols. *)
Definition vec (l : list asym) : Z -> asym := fun i => nth (Z.to_nat i) l (As None 0 false SUnd false false).
Definition sorted_syms (syms dynsyms synth : list asym) : list asym :=
  let l := match syms with [] => dynsyms | _ => syms end in
  let '(v, n) := remove_useless_symbols (vec l) (Z.of_nat (List.length l)) in
  map (fun i => v (Z.of_nat i)) (seq 0 (Z.to_nat n)) ++ synth.

(** __cmp_bfd_sym, symbol-bfd.c 64-70, and link_bfd_sym, 101-106, for a sequence of
    struct bfd_sym given by node address; [info] gives name and address of a node. *)
Definition bsym := (list Z * Z)%type.
Fixpoint link_bfd (fuel : nat) (info : Z -> bsym) (s : rbs) (ns : list Z) : option rbs :=
  match ns with
  | [] => Some s
  | n :: r => x <- rb_insert_node fuel s n (fun m => strcmp (fst (info m)) (fst (info n))) ;;
              link_bfd fuel info (snd x) r
  end.
Fixpoint info_of (ns : list Z) (es : list bsym) (n : Z) : bsym :=
  match ns, es with
  | m :: ns, e :: es => if n =? m then e else info_of ns es n
  | _, _ => ([], 0)
  end.

(** file_load for one class: [nodes] are the addresses malloc returns. *)
Definition load_class (fuel : nat) (c : cls) (syms dynsyms synth : list asym) (b : buffer)
    (s : rbs) (nodes : list Z) : option ((Z -> bsym) * rbs) :=
  es <- entries c (sorted_syms syms dynsyms synth) b ;;
  let ns := firstn (List.length es) nodes in
  s <- link_bfd fuel (info_of ns es) s ns ;;
  Some (info_of ns es, s).

(** find_bfd_sym, symbol-bfd.c 89-99, and bfd_elf_text_sym_addr, bfd_elf_plt_sym_addr,
    bfd_elf_data_sym_addr, 156-166, 183-193, 225-233. *)
Definition bfd_sym_addr_of (fuel : nat) (info : Z -> bsym) (s : rbs) (name : list Z) : option Z :=
  r <- rb_search_node fuel s (fun m => strcmp (fst (info m)) name) ;;
  Some (if fst r =? 0 then 0 else snd (info (fst r))).
