(** What applying and removing patches should do. *)
From Coq Require Import ZArith String List Bool.
From Verif Require Import Word Str ElfDefs LdSpec ScModel ScSpec.
Import ListNotations.
Open Scope Z_scope.

(** While it runs (during a remote call, and until it stops when it is attached), the
    target does not change the byte at [x]. *)
Definition kept (e : env) (x : Z) : Prop :=
  untouched e x /\
  forall n r m, match e_attach_wait e n r m with
                | WFail => True
                | WStopped _ _ m' | WEnded _ _ m' => m' x = m x
                end.

(** The bytes of a patch file that later sessions look at: the ELF header, the section
    headers except for the fields sh_flags and sh_addr, the section names, the version in
    the metadata record, the strings (three NULs) and the build id note. *)
Definition in_string (m : mem) (p x : Z) : Prop := p <= x /\ forall z, p <= z < x -> m z <> 0.

Definition meta_byte (m : mem) (x : Z) : Prop :=
  let t := ld 8 m 40 in
  let off j := sh_offset (section m t j) in
  0 <= x < 64 \/
  exists j, 0 <= j < ld 2 m 60 /\
    ((t + 64 * j <= x < t + 64 * j + 8 \/ t + 64 * j + 24 <= x < t + 64 * j + 64) \/
     in_string m (off (ld 2 m 62) + sh_name (section m t j)) x \/
     (sec_named m ".ulpatch.info" j /\ off j + 56 <= x < off j + 60) \/
     (sec_named m ".ulpatch.strtab" j /\ off j <= x /\
        forall z1 z2 z3, off j <= z1 -> z1 < z2 -> z2 < z3 -> z3 < x -> ~ (m z1 = 0 /\ m z2 = 0 /\ m z3 = 0)) \/
     (sec_named m ".note.gnu.build-id" j /\ off j <= x < off j + 12 + ld 4 m (off j) + ld 4 m (off j + 4))).

(** The bytes of a patch file that loading it writes: the values of the symbols, the
    addresses of the sections, the flags of the metadata section and the metadata record up
    to its flags. *)
Definition value_byte (m : mem) (x : Z) : Prop :=
  let t := ld 8 m 40 in
  exists j, 0 <= j < ld 2 m 60 /\ sh_type (section m t j) = SHT_SYMTAB /\
    exists k, 0 <= k < sh_size (section m t j) / 24 /\
      sh_offset (section m t j) + 24 * k + 8 <= x < sh_offset (section m t j) + 24 * k + 16.

Definition written (m : mem) (x : Z) : Prop :=
  let t := ld 8 m 40 in
  value_byte m x \/
  exists j, 0 <= j < ld 2 m 60 /\
    (t + 64 * j + 16 <= x < t + 64 * j + 24 \/
     (sec_named m ".ulpatch.info" j /\
       (t + 64 * j + 8 <= x < t + 64 * j + 16 \/ sh_offset (section m t j) <= x < sh_offset (section m t j) + 52))).

Definition in_table (m : mem) (x : Z) : Prop := ld 8 m 40 <= x < ld 8 m 40 + 64 * ld 2 m 60.

(** A patch file as the compiler makes it: these do not overlap. *)
Definition tidy (m : mem) (len : Z) : Prop :=
  well_formed m len /\ (forall x, meta_byte m x -> 0 <= x < len /\ ~ written m x) /\ (forall x, value_byte m x -> ~ in_table m x).

(** The file replaces the function [dst] by its function [src]. *)
Definition redirects (m : mem) (src dst : list Z) : Prop :=
  exists j, 0 <= j < ld 2 m 60 /\ sec_named m ".ulpatch.strtab" j /\ (forall i, 0 <= i < j -> ~ sec_named m ".ulpatch.strtab" i) /\
    let o := sh_offset (section m (ld 8 m 40) j) in
    string_at m o (str ".ULPATCH") /\ string_at m (o + 9) src /\ string_at m (o + 9 + Z.of_nat (List.length src) + 1) dst.

(** The metadata record of the file is at [info]. *)
Definition info_at (m : mem) (info : Z) : Prop :=
  exists j, 0 <= j < ld 2 m 60 /\ sec_named m ".ulpatch.info" j /\ (forall i, 0 <= i < j -> ~ sec_named m ".ulpatch.info" i) /\
    info = sh_offset (section m (ld 8 m 40) j).

(** The memory [m] holds at [hdr] the file [f], with the record that patch number [id]
    replaces the function at [v], whose bytes were those of [old]. *)
Definition stored (m : mem) (hdr : Z) (f : mem) (id v : Z) (old : mem) : Prop :=
  (forall x, meta_byte f x -> m (hdr + x) = f x) /\
  forall info, info_at f info ->
    ld 4 m (hdr + info) = id /\ ld 8 m (hdr + info + 20) = v /\ forall i, 0 <= i < 16 -> m (hdr + info + 28 + i) = old (v + i).

(** The sections have their addresses in the target. *)
Definition placed (f : mem) (hdr : Z) (m : mem) : Prop :=
  forall j, 1 <= j < ld 2 f 60 -> sh_addr (section m (ld 8 f 40) j) = (hdr + sh_offset (section f (ld 8 f 40) j)) mod 2 ^ 64.

(** Applying the relocation sections writes none of the bytes in question. *)
Definition reloc_safe (reloc : mem -> Z -> Z * mem) (f : mem) (hdr : Z) : Prop :=
  exists Inv : mem -> Prop,
    (forall m, same_outside (written f) f m -> placed f hdr m -> Inv m) /\
    (forall m i er m', Inv m -> 0 <= i < ld 2 f 60 -> sh_type (section f (ld 8 f 40) i) = SHT_RELA -> reloc m i = (er, m') -> Inv m') /\
    (forall m, Inv m -> forall x, meta_byte f x -> m x = f x).

(** A patch in the target: its mapping, its file, its number, the address of the replaced
    function and the memory before. *)
Record applied := Applied { p_start : Z; p_stop : Z; p_file : mem; p_len : Z; p_bid : list Z; p_id : Z; p_fun : Z; p_old : mem }.

Definition p_range (p : applied) : Z * Z := (p_start p, p_stop p).

(** Reads of a mapping are complete. *)
Definition readable (e : env) (v : Z * Z) : Prop :=
  forall n, e_read e n (fst v) 64 = Some 64 /\ e_read e n (fst v) (snd v - fst v) = Some (snd v - fst v).
