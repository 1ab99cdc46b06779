(** What relocating an x86-64 patch image means, following the x86-64 psABI
    (table 4.9): independent of the model of the code. *)
From Coq Require Import ZArith List Bool.
From Verif Require Import Word ElfDefs X86RelocModel.
Import ListNotations.
Open Scope Z_scope.

(** Width in bytes of the relocated field and mathematical value, for symbol
    value [S], addend [A] and run-time address [P] of the field.  [None]: the
    type is not one of the six plain types. *)
Definition psabi (ty S A P : Z) : option (nat * Z) :=
  match ty with
  | 1 (* 64 *) => Some (8%nat, S + A)
  | 10 (* 32 *) => Some (4%nat, S + A)
  | 11 (* 32S *) => Some (4%nat, S + A)
  | 2 (* PC32 *) => Some (4%nat, S + A - P)
  | 4 (* PLT32 *) => Some (4%nat, S + A - P)
  | 24 (* PC64 *) => Some (8%nat, S + A - P)
  | _ => None
  end.

(** Width of the field written for any type (0: nothing is written). *)
Definition field_width (ty : Z) : Z :=
  match ty with
  | 1 | 24 => 8
  | 10 | 11 | 2 | 4 | 9 | 22 | 41 | 42 => 4
  | _ => 0
  end.

(** A relocation entry. *)
Record rela := Rela { ra_off : Z; ra_sym : Z; ra_ty : Z; ra_add : Z }.

(** The byte representation of entry and symbol tables: [rela_in m p r] says
    that the 24 bytes at [p] encode [r]. *)
Definition rela_in (m : mem) (p : Z) (r : rela) : Prop :=
  ld 8 m p = ra_off r /\ ld 8 m (p + 8) = ra_sym r * 2 ^ 32 + ra_ty r /\
  ld 8 m (p + 16) = u64 (ra_add r) /\ 0 <= ra_ty r < 2 ^ 32 /\ 0 <= ra_sym r /\
  0 <= ra_off r.

(** A patch image placed at [hdr] in the tool and to be run at [target]:
    [rels] are the entries of its relocation table at file offset [rel_off];
    they apply to the section at file offset [sec_off]; [sym_off] is the file
    offset of the symbol table; [len] is the image size. *)
Record placed_image := PlacedImage {
  pi_hdr : Z; pi_target : Z; pi_len : Z;
  pi_rel_off : Z; pi_sym_off : Z; pi_sec_off : Z; pi_rels : list rela }.

Definition field_off (pi : placed_image) (r : rela) : Z := pi_sec_off pi + ra_off r.
Definition field_host (pi : placed_image) (r : rela) : Z := pi_hdr pi + field_off pi r.
Definition field_target (pi : placed_image) (r : rela) : Z := pi_target pi + field_off pi r.
Definition sym_host (pi : placed_image) (r : rela) : Z := pi_hdr pi + pi_sym_off pi + 24 * ra_sym r.
Definition sym_value (m : mem) (pi : placed_image) (r : rela) : Z := ld 8 m (sym_host pi r + 8).

(** Two byte ranges do not overlap (an empty range overlaps nothing). *)
Definition disjoint (a n b k : Z) : Prop :=
  n = 0 \/ k = 0 \/ a + n <= b \/ b + k <= a.

(** The image is sane: it fits into both address spaces, its tables and the
    relocated fields lie inside it, different fields do not overlap and no field
    overlaps the relocation table or the symbols used. *)
Record image_ok (m : mem) (pi : placed_image) : Prop := {
  io_bytes : forall x, 0 <= m x < 256;
  io_hdr : 0 <= pi_hdr pi /\ pi_hdr pi + pi_len pi <= 2 ^ 64;
  io_target : 0 <= pi_target pi /\ pi_target pi + pi_len pi <= 2 ^ 64;
  io_offs : 0 <= pi_rel_off pi /\ 0 <= pi_sym_off pi /\ 0 <= pi_sec_off pi;
  io_rel_tab : pi_rel_off pi + 24 * Z.of_nat (length (pi_rels pi)) <= pi_len pi;
  io_rel : forall i r, nth_error (pi_rels pi) i = Some r ->
    rela_in m (pi_hdr pi + pi_rel_off pi + 24 * Z.of_nat i) r /\
    field_off pi r + field_width (ra_ty r) <= pi_len pi /\
    field_off pi r < pi_len pi /\
    pi_sym_off pi + 24 * ra_sym r + 24 <= pi_len pi;
  io_disj : forall i k r q, nth_error (pi_rels pi) i = Some r ->
    nth_error (pi_rels pi) k = Some q -> i <> k ->
    disjoint (field_off pi r) (field_width (ra_ty r)) (field_off pi q) (field_width (ra_ty q));
  io_tab_disj : forall r, In r (pi_rels pi) ->
    disjoint (field_off pi r) (field_width (ra_ty r))
             (pi_rel_off pi) (24 * Z.of_nat (length (pi_rels pi)));
  io_sym_disj : forall r q, In r (pi_rels pi) -> In q (pi_rels pi) ->
    disjoint (field_off pi r) (field_width (ra_ty r)) (pi_sym_off pi + 24 * ra_sym q) 24 }.

(** The arguments with which the relocation function is called for this image:
    section addresses are target addresses (file offset plus [pi_target]). *)
Record describes (j : x86_job) (pi : placed_image) : Prop := {
  ds_hdr : xj_hdr j = pi_hdr pi;
  ds_target : xj_target_hdr j = pi_target pi;
  ds_rel : sh_addr (xj_sechdrs j (xj_relsec j)) = pi_target pi + pi_rel_off pi;
  ds_sym : sh_addr (xj_sechdrs j (xj_symindex j)) = pi_target pi + pi_sym_off pi;
  ds_sec : sh_addr (xj_sechdrs j (sh_info (xj_sechdrs j (xj_relsec j)))) =
           pi_target pi + pi_sec_off pi;
  ds_count : sh_size (xj_sechdrs j (xj_relsec j)) / 24 = Z.of_nat (length (pi_rels pi)) }.

(** [x] is a byte of some relocated field. *)
Definition in_field (pi : placed_image) (x : Z) : Prop :=
  exists r, In r (pi_rels pi) /\
    field_host pi r <= x < field_host pi r + field_width (ra_ty r).

(** Representable in an unsigned / signed field of [n] bits. *)
Definition fits_u (n v : Z) : Prop := 0 <= v < 2 ^ n.
Definition fits_s (n v : Z) : Prop := - 2 ^ (n - 1) <= v < 2 ^ (n - 1).

(** The 64-bit two's complement reading of a mathematical value. *)
Definition as_u64 (v : Z) : Z := v mod 2 ^ 64.
Definition as_s64 (v : Z) : Z := if v mod 2 ^ 64 <? 2 ^ 63 then v mod 2 ^ 64 else v mod 2 ^ 64 - 2 ^ 64.

(** An entry is acceptable: known type, field still zero, and for the absolute
    32-bit types the value is representable. *)
Definition acceptable (m : mem) (pi : placed_image) (r : rela) : Prop :=
  let v := sym_value m pi r + ra_add r in
  match ra_ty r with
  | 0 | 18 | 23 => True
  | 1 | 24 => ld 8 m (field_host pi r) = 0
  | 2 | 4 | 9 | 22 | 41 | 42 => ld 4 m (field_host pi r) = 0
  | 10 => ld 4 m (field_host pi r) = 0 /\ fits_u 32 (as_u64 v)
  | 11 => ld 4 m (field_host pi r) = 0 /\ fits_s 32 (as_s64 v)
  | _ => False
  end.
