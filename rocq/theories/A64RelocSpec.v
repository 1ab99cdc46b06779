(** The setting of the aarch64 relocation properties: same layout vocabulary as
    for x86-64 ([placed_image], [describes]), with aarch64 field widths. *)
From Coq Require Import ZArith List Bool.
From Verif Require Import Word ElfDefs X86RelocModel X86RelocSpec A64Model A64Spec.
Import ListNotations.
Open Scope Z_scope.

Record a64_image_ok (m : mem) (pi : placed_image) : Prop := {
  ao_bytes : forall x, 0 <= m x < 256;
  ao_hdr : 0 <= pi_hdr pi /\ pi_hdr pi + pi_len pi <= 2 ^ 64;
  ao_target : 0 <= pi_target pi /\ pi_target pi + pi_len pi <= 2 ^ 64;
  ao_offs : 0 <= pi_rel_off pi /\ 0 <= pi_sym_off pi /\ 0 <= pi_sec_off pi;
  ao_rel_tab : pi_rel_off pi + 24 * Z.of_nat (length (pi_rels pi)) <= pi_len pi;
  ao_rel : forall i r, nth_error (pi_rels pi) i = Some r ->
    rela_in m (pi_hdr pi + pi_rel_off pi + 24 * Z.of_nat i) r /\
    field_off pi r + a64_width (ra_ty r) <= pi_len pi /\
    field_off pi r < pi_len pi /\
    pi_sym_off pi + 24 * ra_sym r + 24 <= pi_len pi;
  ao_disj : forall i k r q, nth_error (pi_rels pi) i = Some r ->
    nth_error (pi_rels pi) k = Some q -> i <> k ->
    disjoint (field_off pi r) (a64_width (ra_ty r)) (field_off pi q) (a64_width (ra_ty q));
  ao_tab_disj : forall r, In r (pi_rels pi) ->
    disjoint (field_off pi r) (a64_width (ra_ty r))
             (pi_rel_off pi) (24 * Z.of_nat (length (pi_rels pi)));
  ao_sym_disj : forall r q, In r (pi_rels pi) -> In q (pi_rels pi) ->
    disjoint (field_off pi r) (a64_width (ra_ty r)) (pi_sym_off pi + 24 * ra_sym q) 24 }.

(** [x] is a byte of some relocated field. *)
Definition a64_in_field (pi : placed_image) (x : Z) : Prop :=
  exists r, In r (pi_rels pi) /\
    field_host pi r <= x < field_host pi r + a64_width (ra_ty r).

(** Symbol value plus addend as a 64-bit number. *)
Definition sa (m : mem) (pi : placed_image) (r : rela) : Z :=
  as_u64 (sym_value m pi r + ra_add r).

(** The instruction word at the field of [r]. *)
Definition insn_at (m : mem) (pi : placed_image) (r : rela) : Z := ld 4 m (field_host pi r).

(** The types the code supports. *)
Definition a64_known (ty : Z) : bool :=
  (ty =? 0) || unchecked_type ty || match checked_range ty with Some _ => true | None => false end.

(** The value the AAELF64 specification asks for in plain data fields:
    ABS64/32/16 and PREL64/32/16, place [P]. *)
Definition aaelf_data (ty S A P : Z) : option (nat * Z) :=
  match ty with
  | 257 => Some (8%nat, S + A)
  | 258 => Some (4%nat, S + A)
  | 259 => Some (2%nat, S + A)
  | 260 => Some (8%nat, S + A - P)
  | 261 => Some (4%nat, S + A - P)
  | 262 => Some (2%nat, S + A - P)
  | _ => None
  end.

(** Instruction relocations: kind of field, and the immediate as a function of
    S+A and P (AAELF64), before truncation to the field width. *)
Definition aaelf_insn (ty S A P : Z) : option (imm_type * Z) :=
  match ty with
  | 263 | 264 => Some (IMM_16, S + A)
  | 265 | 266 => Some (IMM_16, (S + A) / 2 ^ 16)
  | 267 | 268 => Some (IMM_16, (S + A) / 2 ^ 32)
  | 269 => Some (IMM_16, (S + A) / 2 ^ 48)
  | 288 => Some (IMM_16, S + A - P)
  | 290 => Some (IMM_16, (S + A - P) / 2 ^ 16)
  | 292 => Some (IMM_16, (S + A - P) / 2 ^ 32)
  | 273 | 280 => Some (IMM_19, (S + A - P) / 4)
  | 274 => Some (IMM_ADR, S + A - P)
  | 275 | 276 => Some (IMM_ADR, (S + A) / 4096 - P / 4096)
  | 277 | 278 => Some (IMM_12, (S + A) mod 2 ^ 12)
  | 284 => Some (IMM_12, (S + A) mod 2 ^ 12 / 2)
  | 285 => Some (IMM_12, (S + A) mod 2 ^ 12 / 4)
  | 286 => Some (IMM_12, (S + A) mod 2 ^ 12 / 8)
  | 299 => Some (IMM_12, (S + A) mod 2 ^ 12 / 16)
  | 279 => Some (IMM_14, (S + A - P) / 4)
  | 282 | 283 => Some (IMM_26, (S + A - P) / 4)
  | _ => None
  end.

(** Does the type's value depend on the place? *)
Definition place_relative (ty : Z) : bool :=
  match ty with
  | 260 | 261 | 262 | 273 | 274 | 275 | 276 | 279 | 280 | 282 | 283
  | 287 | 288 | 289 | 290 | 291 | 292 | 293 => true
  | _ => false
  end.
