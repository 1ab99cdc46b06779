(** ELF64 structures and constants used by several models (from <elf.h>, gABI). *)
From Coq Require Import ZArith List Bool.
From Verif Require Import Word.
Open Scope Z_scope.

(** Elf64_Shdr. *)
Record shdr := Shdr {
  sh_name : Z; sh_type : Z; sh_flags : Z; sh_addr : Z; sh_offset : Z;
  sh_size : Z; sh_link : Z; sh_info : Z; sh_addralign : Z; sh_entsize : Z }.

Definition shdr0 : shdr := Shdr 0 0 0 0 0 0 0 0 0 0.

Definition SHT_SYMTAB := 2.
Definition SHT_RELA := 4.
Definition SHT_NOTE := 7.
Definition SHT_NOBITS := 8.
Definition SHT_REL := 9.
Definition SHF_ALLOC := 2.
Definition SHN_UNDEF := 0.
Definition SHN_LORESERVE := 65280.
Definition SHN_ABS := 65521.
Definition SHN_COMMON := 65522.
Definition STB_LOCAL := 0.
Definition STB_GLOBAL := 1.
Definition STB_WEAK := 2.
Definition STT_NOTYPE := 0.
Definition STT_TLS := 6.

(** Elf64_Sym in memory: st_name u32 @0, st_info u8 @4, st_other u8 @5,
    st_shndx u16 @6, st_value u64 @8, st_size u64 @16; 24 bytes. *)
Definition sizeof_sym := 24.
Definition st_name_at (m : mem) (p : Z) := ld 4 m p.
Definition st_info_at (m : mem) (p : Z) := ld 1 m (p + 4).
Definition st_shndx_at (m : mem) (p : Z) := ld 2 m (p + 6).
Definition st_value_at (m : mem) (p : Z) := ld 8 m (p + 8).

(** ELF64_ST_BIND, ELF64_ST_TYPE. *)
Definition st_bind (info : Z) := info / 16.
Definition st_type (info : Z) := info mod 16.

(** Elf64_Rela in memory: r_offset u64 @0, r_info u64 @8, r_addend i64 @16. *)
Definition sizeof_rela := 24.
Definition r_offset_at (m : mem) (p : Z) := ld 8 m p.
Definition r_info_at (m : mem) (p : Z) := ld 8 m (p + 8).
Definition r_addend_at (m : mem) (p : Z) := ld 8 m (p + 16).

(** ELF64_R_SYM, ELF64_R_TYPE. *)
Definition r_sym (info : Z) := info / 2 ^ 32.
Definition r_type (info : Z) := info mod 2 ^ 32.

(** [is_undef_symbol], src/elf/symbol.c 127-130. *)
Definition is_undef_symbol (shndx : Z) : bool :=
  (shndx =? SHN_UNDEF) || (SHN_LORESERVE <=? shndx).
