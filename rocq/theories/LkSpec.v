(** What it means that a patch file is linked into a process; independent of the model of
    the tool.  Everything is read from the bytes of the file [f]. *)
From Coq Require Import ZArith String List Bool.
From Verif Require Import Word Str ElfDefs LdSpec X86RelocSpec A64Spec A64RelocSpec PaSpec.
Import ListNotations.
Open Scope Z_scope.

(** What the field of a relocation of type [ty] has to hold for symbol value, addend and place
    [S], [A], [P]: the field is at [a] in [m], and was at [o] in the file [f]. *)
Definition field_value := Z -> Z -> Z -> Z -> mem -> Z -> mem -> Z -> Prop.

(** The psABI of x86-64. *)
Definition x86_value : field_value := fun ty S A P f o m a =>
  forall w v, psabi ty S A P = Some (w, v) -> ld w m a = v mod 2 ^ (8 * Z.of_nat w).

(** AAELF64: data, and instructions, of which the bits outside of the field are kept.  The
    instruction brk #0x100 is left as it is. *)
Definition a64_value : field_value := fun ty S A P f o m a =>
  (forall w v, aaelf_data ty S A P = Some (w, v) -> ld w m a = v mod 2 ^ (8 * Z.of_nat w)) /\
  (forall t v, aaelf_insn ty S A P = Some (t, v) -> ld 4 f o <> brk_fault ->
     imm_of t (ld 4 m a) = v mod 2 ^ imm_width t /\ A64Spec.same_outside t (ld 4 m a) (ld 4 f o)).

Section Link.
(** The number of bytes of the fields. *)
Variable wd : Z -> Z.
(** The addresses of the symbols of the process, the file, where it is mapped. *)
Variable lookup : list Z -> option Z.
Variable f : mem.
Variable hdr : Z.

Definition nsec : Z := ld 2 f 60.
Definition sect (i : Z) : shdr := section f (ld 8 f 40) i.

(** Entry [k] of relocation section [i] (Elf64_Rela). *)
Definition entry (i k : Z) : Z := sh_offset (sect i) + 24 * k.
Definition e_type (i k : Z) : Z := ld 8 f (entry i k + 8) mod 2 ^ 32.
Definition e_sym (i k : Z) : Z := ld 8 f (entry i k + 8) / 2 ^ 32.
Definition e_add (i k : Z) : Z := ld 8 f (entry i k + 16).
(** The place it names, as an offset in the file. *)
Definition place (i k : Z) : Z := sh_offset (sect (sh_info (sect i))) + ld 8 f (entry i k).
Definition in_place (i k x : Z) : Prop := place i k <= x < place i k + wd (e_type i k).

(** The metadata section of the patch. *)
Definition meta_section (j : Z) : Prop :=
  0 <= j < nsec /\ sec_named f ".ulpatch.info" j /\ forall i, 0 <= i < j -> ~ sec_named f ".ulpatch.info" i.

(** The entry counts: its section is for a section that is loaded, other than the metadata. *)
Definition live (i k : Z) : Prop :=
  0 <= i < nsec /\ sh_type (sect i) = SHT_RELA /\ sh_info (sect i) < nsec /\
  Z.land (sh_flags (sect (sh_info (sect i)))) SHF_ALLOC <> 0 /\ ~ meta_section (sh_info (sect i)) /\
  0 <= k < sh_size (sect i) / 24.

(** Symbol [k] of symbol table section [s]. *)
Definition sym (s k : Z) : Z := sh_offset (sect s) + 24 * k.
Definition count (s : Z) : Z := sh_size (sect s) / 24.
Definition name (s k : Z) : Z := sh_offset (sect (sh_link (sect s))) + ld 4 f (sym s k).

(** [v] is the address of the symbol in the process: that of the section in which it is
    defined plus its value, or that of the symbol of the process with its name. *)
Definition denotes (s k v : Z) : Prop :=
  let q := sym s k in
  let x := ld 2 f (q + 6) in
  let val := ld 8 f (q + 8) in
  (k = 0 \/ x = SHN_ABS \/ x = SHN_COMMON -> v = val) /\
  (1 <= k -> x = SHN_UNDEF -> forall n a, string_at f (name s k) n -> lookup n = Some a -> a <> 0 -> v = a mod 2 ^ 64) /\
  (1 <= k -> x = SHN_UNDEF -> forall n, string_at f (name s k) n -> lookup n = None \/ lookup n = Some 0 -> v = val) /\
  (1 <= k -> 1 <= x < nsec -> x <> SHN_ABS -> x <> SHN_COMMON -> v = (val + hdr + sh_offset (sect x)) mod 2 ^ 64).

(** The memory [m] holds at [hdr] the linked file: every relocated field has the value
    prescribed for its place in the process and the address of its symbol, and the rest is as
    in the file, except for what the loader notes there. *)
Definition linked (value : field_value) (len : Z) (m : mem) : Prop :=
  (forall i k, live i k -> exists S, denotes (sh_link (sect i)) (e_sym i k) S /\
     value (e_type i k) S (e_add i k) (hdr + place i k) f (place i k) m (hdr + place i k)) /\
  (forall x, 0 <= x < len -> ~ written f x -> (forall i k, live i k -> ~ in_place i k x) -> m (hdr + x) = f x).

(** ** A file that can be linked: everything is inside, nothing overlaps *)
Definition sym_byte (s x : Z) : Prop := sh_offset (sect s) <= x < sh_offset (sect s) + 24 * count s.
Definition record_byte (x : Z) : Prop :=
  exists j, 0 <= j < nsec /\ sec_named f ".ulpatch.info" j /\ sh_offset (sect j) <= x < sh_offset (sect j) + 52.
Definition entry_byte (x : Z) : Prop :=
  exists i, 0 <= i < nsec /\ sh_type (sect i) = SHT_RELA /\ sh_offset (sect i) <= x < sh_offset (sect i) + 24 * (sh_size (sect i) / 24).

Record linkable (len : Z) : Prop := {
  lk_first : sh_type (sect 0) = 0 /\ sh_flags (sect 0) = 0;
  lk_off : forall j, 0 <= j < nsec -> sh_offset (sect j) <= len;
  lk_entries : forall x, entry_byte x -> x < len /\ ~ in_table f x /\ ~ record_byte x;
  lk_syms : forall s x, 0 <= s < nsec -> sh_type (sect s) = SHT_SYMTAB -> sym_byte s x ->
    x < len /\ ~ in_table f x /\ ~ record_byte x /\ ~ entry_byte x;
  lk_names : forall s k, 0 <= s < nsec -> sh_type (sect s) = SHT_SYMTAB -> 0 <= k < count s ->
    exists z, f z = 0 /\ name s k <= z < len /\
      forall x, name s k <= x <= z -> ~ in_table f x /\ ~ record_byte x /\ ~ sym_byte s x /\ forall i k', live i k' -> ~ in_place i k' x;
  lk_shndx : forall s k, 0 <= s < nsec -> sh_type (sect s) = SHT_SYMTAB -> 0 <= k < count s ->
    let x := ld 2 f (sym s k + 6) in x = SHN_ABS \/ x = SHN_COMMON \/ x < nsec;
  lk_link : forall s i k, 0 <= s < nsec -> sh_type (sect s) = SHT_SYMTAB -> live i k -> sh_link (sect i) = s /\ e_sym i k < count s;
  lk_inside : forall i k, live i k -> place i k < len /\ place i k + wd (e_type i k) <= len;
  lk_place : forall i k x, live i k -> in_place i k x ->
    ~ in_table f x /\ ~ record_byte x /\ ~ entry_byte x /\
    forall s, 0 <= s < nsec -> sh_type (sect s) = SHT_SYMTAB -> ~ sym_byte s x;
  lk_apart : forall i k i' k', live i k -> live i' k' -> (i, k) <> (i', k') ->
    disjoint (place i k) (wd (e_type i k)) (place i' k') (wd (e_type i' k')) }.
End Link.
