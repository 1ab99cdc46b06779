(** What the loader should do; independent of LdModel's functions.  Fields are read
    directly from the bytes of the image. *)
From Coq Require Import ZArith String List Bool.
From Verif Require Import Word Str ElfDefs.
Import ListNotations.
Open Scope Z_scope.

(** The section header at offset [p] (Elf64_Shdr of the gABI). *)
Definition shdr_at (m : mem) (p : Z) : shdr :=
  Shdr (ld 4 m p) (ld 4 m (p + 4)) (ld 8 m (p + 8)) (ld 8 m (p + 16)) (ld 8 m (p + 24))
       (ld 8 m (p + 32)) (ld 4 m (p + 40)) (ld 4 m (p + 44)) (ld 8 m (p + 48)) (ld 8 m (p + 56)).

(** Section [i] of a table at offset [t]. *)
Definition section (m : mem) (t i : Z) : shdr := shdr_at m (t + 64 * i).

Definition set_addr (s : shdr) (v : Z) : shdr :=
  Shdr (sh_name s) (sh_type s) (sh_flags s) v (sh_offset s) (sh_size s) (sh_link s) (sh_info s) (sh_addralign s) (sh_entsize s).
Definition set_flags (s : shdr) (v : Z) : shdr :=
  Shdr (sh_name s) (sh_type s) v (sh_addr s) (sh_offset s) (sh_size s) (sh_link s) (sh_info s) (sh_addralign s) (sh_entsize s).

(** The table of [n] headers at [t] lies in the [len] bytes of the file, behind the ELF header. *)
Definition table_inside (t n len : Z) : Prop := 64 <= t /\ 0 <= n < 65536 /\ t + 64 * n <= len.

(** The NUL-terminated string at [p] is [s]. *)
Definition string_at (m : mem) (p : Z) (s : list Z) : Prop :=
  ~ In 0 s /\ (forall i, (i < List.length s)%nat -> m (p + Z.of_nat i) = nth i s 0) /\ m (p + Z.of_nat (List.length s)) = 0.

(** Symbols of a table at [p]. *)
Definition sym_at (p i : Z) : Z := p + 24 * i.
Definition sym_shndx (m : mem) (q : Z) : Z := ld 2 m (q + 6).
Definition sym_bind (m : mem) (q : Z) : Z := ld 1 m (q + 4) / 16.
Definition sym_value (m : mem) (q : Z) : Z := ld 8 m (q + 8).

(** All bytes outside the given set are the same. *)
Definition same_outside (P : Z -> Prop) (m m' : mem) : Prop := forall x, ~ P x -> m' x = m x.

(** The bytes at [p] start with [s]. *)
Definition starts_with (m : mem) (p : Z) (s : list Z) : Prop :=
  forall i, (i < List.length s)%nat -> m (p + Z.of_nat i) = nth i s 0.

(** ** Symbols: [lookup] finds names in the target, [strtab] is the offset of the string
    table, [t] that of the section table, [q] that of the symbol. *)
Section Symbols.
Variable lookup : list Z -> option Z.
Variables strtab t : Z.

Definition name_off (m : mem) (q : Z) : Z := strtab + ld 4 m q.
Definition unresolved (m : mem) (q : Z) : Prop :=
  sym_shndx m q = SHN_UNDEF /\ exists s, string_at m (name_off m q) s /\ (lookup s = None \/ lookup s = Some 0).
Definition resolved (m : mem) (q a : Z) : Prop :=
  sym_shndx m q = SHN_UNDEF /\ a <> 0 /\ exists s, string_at m (name_off m q) s /\ lookup s = Some a.
Definition common_bad (lto : list Z) (m : mem) (q : Z) : Prop :=
  sym_shndx m q = SHN_COMMON /\ ~ starts_with m (name_off m q) lto.

(** A patch with such a symbol must be rejected. *)
Definition bad_symbol (lto : list Z) (m : mem) (q : Z) : Prop :=
  common_bad lto m q \/ (unresolved m q /\ sym_bind m q <> STB_WEAK).

(** [v] is the address the symbol must get. *)
Definition new_value (m : mem) (q v : Z) : Prop :=
  (sym_shndx m q = SHN_COMMON \/ sym_shndx m q = SHN_ABS \/ unresolved m q -> v = sym_value m q) /\
  (forall a, resolved m q a -> v = a mod 2 ^ 64) /\
  (sym_shndx m q <> SHN_COMMON -> sym_shndx m q <> SHN_ABS -> sym_shndx m q <> SHN_UNDEF ->
   v = (sym_value m q + sh_addr (section m t (sym_shndx m q))) mod 2 ^ 64).

(** The symbols [p], [p]+24, ... ([n] of them) overlap neither their names nor the section
    headers they refer to. *)
Definition apart (m : mem) (p : Z) (n : nat) : Prop :=
  forall k, 0 <= k < Z.of_nat n ->
    let q := p + 24 * k in let e := p + 24 * Z.of_nat n in
    (exists z, m z = 0 /\ name_off m q <= z /\ (z < p \/ e <= name_off m q)) /\
    (sym_shndx m q <> SHN_COMMON -> sym_shndx m q <> SHN_ABS -> sym_shndx m q <> SHN_UNDEF ->
     let s := t + 64 * sym_shndx m q in s + 64 <= p \/ e <= s).
End Symbols.

(** ** Relocation sections *)
Fixpoint zseq (i : Z) (n : nat) : list Z := match n with 0%nat => [] | S n' => i :: zseq (i + 1) n' end.

(** Section [i] has type [ty] and refers (sh_info) to an allocated section of the table of [n]. *)
Definition refers (ty : Z) (m : mem) (t n i : Z) : bool :=
  let s := section m t i in
  (sh_type s =? ty) && (sh_info s <? n) && negb (Z.land (sh_flags (section m t (sh_info s))) SHF_ALLOC =? 0).

(** The relocation sections of the list are applied, in order and without error. *)
Inductive chain (reloc : mem -> Z -> Z * mem) : list Z -> mem -> mem -> Prop :=
| chain_nil m : chain reloc [] m m
| chain_cons i l m m1 m2 e : reloc m i = (e, m1) -> 0 <= e -> chain reloc l m1 m2 -> chain reloc (i :: l) m m2.

(** Section [j] of the file has this name. *)
Definition sec_named (m : mem) (name : string) (j : Z) : Prop :=
  string_at m (sh_offset (section m (ld 8 m 40) (ld 2 m 62)) + sh_name (section m (ld 8 m 40) j)) (str name).

(** ** A patch file in which everything that is looked at lies inside the [len] bytes. *)
Record well_formed (m : mem) (len : Z) : Prop := {
  wf_table : table_inside (ld 8 m 40) (ld 2 m 60) len;
  wf_strndx : ld 2 m 62 < ld 2 m 60;
  wf_names : forall j, 0 <= j < ld 2 m 60 -> exists z, m z = 0 /\ z < len /\
    sh_offset (section m (ld 8 m 40) (ld 2 m 62)) + sh_name (section m (ld 8 m 40) j) <= z;
  wf_info : forall j, 0 <= j < ld 2 m 60 -> sec_named m ".ulpatch.info" j -> sh_offset (section m (ld 8 m 40) j) + 64 <= len;
  wf_strtab : forall j, 0 <= j < ld 2 m 60 -> sec_named m ".ulpatch.strtab" j -> exists z1 z2,
    m z1 = 0 /\ m z2 = 0 /\ sh_offset (section m (ld 8 m 40) j) <= z1 /\ z1 < z2 < len;
  wf_note : forall j, 0 <= j < ld 2 m 60 -> sec_named m ".note.gnu.build-id" j ->
    let o := sh_offset (section m (ld 8 m 40) j) in o + 12 + ld 4 m o + ld 4 m (o + 4) <= len;
  wf_link : forall j, 0 <= j < ld 2 m 60 -> sh_type (section m (ld 8 m 40) j) = SHT_SYMTAB ->
    sh_link (section m (ld 8 m 40) j) < ld 2 m 60 }.
