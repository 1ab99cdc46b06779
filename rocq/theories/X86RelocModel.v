(** x86-64 relocation: src/arch/x86_64/patch.c. *)
From Coq Require Import ZArith List Bool.
From Verif Require Import Word ElfDefs.
Open Scope Z_scope.

(** Relocation numbers of the x86-64 psABI (<elf.h>). *)
Definition R_X86_64_NONE := 0.
Definition R_X86_64_64 := 1.
Definition R_X86_64_PC32 := 2.
Definition R_X86_64_PLT32 := 4.
Definition R_X86_64_GOTPCREL := 9.
Definition R_X86_64_32 := 10.
Definition R_X86_64_32S := 11.
Definition R_X86_64_TPOFF64 := 18.
Definition R_X86_64_GOTTPOFF := 22.
Definition R_X86_64_TPOFF32 := 23.
Definition R_X86_64_PC64 := 24.
Definition R_X86_64_GOTPCRELX := 41.
Definition R_X86_64_REX_GOTPCRELX := 42.

(** The part of [struct load_info] used by relocation (src/patch/patch.h 30-69):
    [hdr] is the address of the image in the tool, [target_hdr] its address in
    the target.  The section header table is taken as an already read table
    ([sechdrs], index to header); the code reads it from the image, which is the
    same as long as no relocated field lies in the section header table. *)
Record x86_job := X86Job {
  xj_hdr : Z; xj_target_hdr : Z; xj_sechdrs : Z -> shdr;
  xj_symindex : Z; xj_relsec : Z }.

(** t_off, src/arch/x86_64/patch.c 59. *)
Definition x86_t_off (j : x86_job) : Z := s64 (xj_hdr j - xj_target_hdr j).

(** rel, src/arch/x86_64/patch.c 68. *)
Definition x86_rel_base (j : x86_job) : Z :=
  u64 (sh_addr (xj_sechdrs j (xj_relsec j)) + x86_t_off j).

(** loc, src/arch/x86_64/patch.c 84-85. *)
Definition x86_loc (j : x86_job) (roff : Z) : Z :=
  u64 (sh_addr (xj_sechdrs j (sh_info (xj_sechdrs j (xj_relsec j)))) + x86_t_off j + roff).

(** sym, src/arch/x86_64/patch.c 91-92 (pointer arithmetic on 24-byte symbols). *)
Definition x86_symp (j : x86_job) (nsym : Z) : Z :=
  u64 (u64 (sh_addr (xj_sechdrs j (xj_symindex j)) + x86_t_off j) + sizeof_sym * nsym).

(** Result of handling one relocation: go on with a memory, or leave the
    function with an error code (and the memory at that moment). *)
Inductive reloc_res := RGo (m : mem) | RErr (e : Z) (m : mem).

(** The GOT group adjusts [val] for TLS symbols (lines 144-158).  [relp0] is the
    address of the first relocation: the code reads [rel->r_addend], not
    [rel[i].r_addend]. *)
Definition x86_got_val (j : x86_job) (m : mem) (relp0 symp val : Z) : Z :=
  if is_undef_symbol (st_shndx_at m symp) then val
  else if st_type (st_info_at m symp) =? STT_TLS
       then u64 (r_addend_at m relp0 + xj_target_hdr j - 4)
       else val.

(** Lines 160-173: PC32 / PLT32, a 4 byte place-relative field. *)
Definition x86_pc32 (j : x86_job) (m : mem) (loc val : Z) : reloc_res :=
  if negb (ld 4 m loc =? 0) then RErr (- ENOEXEC) m
  else RGo (st 4 m loc (u64 (val - u64 (loc - x86_t_off j)))).

(** One iteration of the loop, src/arch/x86_64/patch.c 77-197.  [write_func] is
    memcpy plus logging. *)
Definition x86_reloc_one (j : x86_job) (m : mem) (i : Z) : reloc_res :=
  let relp0 := x86_rel_base j in
  let relp := relp0 + sizeof_rela * i in
  let info := r_info_at m relp in
  let loc := x86_loc j (r_offset_at m relp) in
  let symp := x86_symp j (r_sym info) in
  let ty := r_type info in
  let val := u64 (st_value_at m symp + r_addend_at m relp) in
  if ty =? R_X86_64_NONE then RGo m
  else if ty =? R_X86_64_64 then
    if negb (ld 8 m loc =? 0) then RErr (- ENOEXEC) m
    else RGo (st 8 m loc val)
  else if ty =? R_X86_64_32 then
    if negb (ld 4 m loc =? 0) then RErr (- ENOEXEC) m
    else let m' := st 4 m loc val in
         if negb (val =? ld 4 m' loc) then RErr (- ENOEXEC) m' else RGo m'
  else if ty =? R_X86_64_32S then
    if negb (ld 4 m loc =? 0) then RErr (- ENOEXEC) m
    else let m' := st 4 m loc val in
         if negb (s64 val =? s32 (ld 4 m' loc)) then RErr (- ENOEXEC) m' else RGo m'
  else if (ty =? R_X86_64_GOTTPOFF) || (ty =? R_X86_64_GOTPCREL)
          || (ty =? R_X86_64_REX_GOTPCRELX) || (ty =? R_X86_64_GOTPCRELX) then
    x86_pc32 j m loc (x86_got_val j m relp0 symp val)
  else if (ty =? R_X86_64_PC32) || (ty =? R_X86_64_PLT32) then
    x86_pc32 j m loc val
  else if ty =? R_X86_64_PC64 then
    if negb (ld 8 m loc =? 0) then RErr (- ENOEXEC) m
    else RGo (st 8 m loc (u64 (val - u64 (loc - x86_t_off j))))
  else if (ty =? R_X86_64_TPOFF64) || (ty =? R_X86_64_TPOFF32) then RGo m
  else RErr (- ENOEXEC) m.

(** The loop from index [i], [n] iterations left. *)
Fixpoint x86_reloc_loop (j : x86_job) (m : mem) (i : Z) (n : nat) : Z * mem :=
  match n with
  | O => (0, m)
  | S n' => match x86_reloc_one j m i with
            | RErr e m' => (e, m')
            | RGo m' => x86_reloc_loop j m' (i + 1) n'
            end
  end.

(** [arch_apply_relocate_add], src/arch/x86_64/patch.c 39-212: return value and
    resulting memory of the tool.  The loop counter is a 32-bit [unsigned int];
    images are smaller than 2^31 bytes ([fsize] returns an [int]), so it does not
    wrap. *)
Definition x86_apply_relocate_add (j : x86_job) (m : mem) : Z * mem :=
  x86_reloc_loop j m 0 (Z.to_nat (sh_size (xj_sechdrs j (xj_relsec j)) / sizeof_rela)).
