(** Which symbols of an object file are functions and which are variables:
    src/elf/symbol-bfd.c 132-148, 200-219.

    A section is given by its header.  The flags SEC_CODE and SEC_DATA are those that
    libbfd derives from it (elf.c, _bfd_elf_make_section_from_shdr): code for
    SHF_EXECINSTR, else data if it is loaded from the file. *)
From Coq Require Import ZArith String List Bool.
From Verif Require Import Word Str ElfModel.
Import ListNotations.
Open Scope Z_scope.

Definition SHF_ALLOC := 2. Definition SHF_EXECINSTR := 4. Definition SHT_NOBITS := 8.
Record bsec := Bs { b_name : list Z; b_type : Z; b_flags : Z }.
Definition has (flags bit : Z) : bool := negb (Z.land flags bit =? 0).

(** libbfd: SEC_LOAD, SEC_CODE, SEC_DATA. *)
Definition sec_load (s : bsec) : bool := has (b_flags s) SHF_ALLOC && negb (b_type s =? SHT_NOBITS).
Definition sec_code (s : bsec) : bool := has (b_flags s) SHF_EXECINSTR.
Definition sec_data (s : bsec) : bool := negb (sec_code s) && sec_load s.

(** asymbol_is_text, 132-148. *)
Definition asymbol_is_text (s : bsec) : bool := sec_code s || str_eqb (b_name s) (str ".text").

(** asymbol_is_data, 200-219. *)
Definition asymbol_is_data (s : bsec) : bool :=
  sec_data s || str_eqb (b_name s) (str ".data") || str_eqb (b_name s) (str ".data.rel.ro") || str_eqb (b_name s) (str ".bss").

(** A symbol of a section of the file, as the rest of the model sees it: name, address, for
    debugging. *)
Definition symbol_in (s : bsec) (name : list Z) (value : Z) (debug : bool) : asym :=
  As (Some name) value debug SOther (asymbol_is_text s) (asymbol_is_data s).
