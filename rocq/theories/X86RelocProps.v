(** Properties C15-C18: x86-64 relocation. *)
From Coq Require Import ZArith List Bool Lia.
From Verif Require Import Word ElfDefs X86RelocModel X86RelocSpec X86RelocProofs X86RelocExamples
  X86RelocMore.
Import ListNotations.
Open Scope Z_scope.

(** C15: after a successful run every field of one of the plain types holds the
    psABI value for the address of the field in the target, and no byte outside
    the relocated fields changed. *)
Theorem C15_x86_reloc_value : forall j pi m m',
  image_ok m pi -> describes j pi -> x86_apply_relocate_add j m = (0, m') ->
  (forall r w v, In r (pi_rels pi) ->
     psabi (ra_ty r) (sym_value m pi r) (ra_add r) (field_target pi r) = Some (w, v) ->
     ld w m' (field_host pi r) = v mod 2 ^ (8 * Z.of_nat w)) /\
  (forall x, ~ in_field pi x -> m' x = m x).
Proof. exact x86_reloc_value. Qed.
Print Assumptions C15_x86_reloc_value.

Example C15_example :
  image_ok ex1_mem ex1_pi /\ describes (ex_job ex1_pi) ex1_pi /\
  fst (x86_apply_relocate_add (ex_job ex1_pi) ex1_mem) = 0 /\
  ld 4 (snd (x86_apply_relocate_add (ex_job ex1_pi) ex1_mem)) (ex_hdr + 216 + 16)
    = (0x40abcd - 4 - (0x400000 + 216 + 16)) mod 2 ^ 32.
Proof. split; [exact ex1_ok|]. split; [apply ex_describes|]. vm_compute. split; reflexivity. Qed.

(** C15, bytes outside of the fields are unchanged whether or not the run
    succeeds. *)
Theorem C15_x86_reloc_frame : forall j pi m ret m',
  image_ok m pi -> describes j pi -> x86_apply_relocate_add j m = (ret, m') ->
  forall x, ~ in_field pi x -> m' x = m x.
Proof. exact x86_reloc_frame. Qed.
Print Assumptions C15_x86_reloc_frame.

Example C15_frame_example :
  image_ok ex3_mem ex3_pi /\ describes (ex_job ex3_pi) ex3_pi /\
  fst (x86_apply_relocate_add (ex_job ex3_pi) ex3_mem) = - 8.
Proof. split; [exact ex3_ok|]. split; [apply ex_describes|]. vm_compute. reflexivity. Qed.

(** C16: the run succeeds exactly if every entry is acceptable; in particular an
    absolute 32-bit entry whose value is not representable makes it fail (see
    [acceptable]), and failing always means -ENOEXEC. *)
Theorem C16_x86_accept_iff : forall j pi m ret m',
  image_ok m pi -> describes j pi -> x86_apply_relocate_add j m = (ret, m') ->
  (ret = 0 <-> forall r, In r (pi_rels pi) -> acceptable m pi r) /\
  (ret <> 0 -> ret = - ENOEXEC).
Proof. exact x86_accept_iff. Qed.
Print Assumptions C16_x86_accept_iff.

(** C16, spelled out for a single entry. *)
Theorem C16_x86_abs32_exact : forall j pi m r,
  image_ok m pi -> describes j pi -> pi_rels pi = [r] ->
  (ra_ty r = 10 \/ ra_ty r = 11) -> ld 4 m (field_host pi r) = 0 ->
  (fst (x86_apply_relocate_add j m) = 0 <->
   if ra_ty r =? 10 then fits_u 32 (as_u64 (sym_value m pi r + ra_add r))
   else fits_s 32 (as_s64 (sym_value m pi r + ra_add r))).
Proof. exact x86_abs32_exact. Qed.
Print Assumptions C16_x86_abs32_exact.

Example C16_example :
  image_ok ex4_mem ex4_pi /\ describes (ex_job ex4_pi) ex4_pi /\
  fst (x86_apply_relocate_add (ex_job ex4_pi) ex4_mem) = - ENOEXEC /\
  ~ fits_u 32 (as_u64 (sym_value ex4_mem ex4_pi (Rela 0 1 10 0) + 0)).
Proof.
  split; [exact ex4_ok|]. split; [apply ex_describes|]. split; [vm_compute; reflexivity|].
  vm_compute. intros [_ H]. discriminate H.
Qed.

(** C17 does not hold: a place-relative 32-bit relocation whose displacement is
    not representable is accepted, and the field then designates another
    address. *)
Theorem C17_x86_pc32_truncates_refuted : exists j pi m m' r,
  image_ok m pi /\ describes j pi /\ In r (pi_rels pi) /\ ra_ty r = 2 /\
  x86_apply_relocate_add j m = (0, m') /\
  ~ fits_s 32 (as_s64 (sym_value m pi r + ra_add r - field_target pi r)) /\
  as_u64 (field_target pi r + s32 (ld 4 m' (field_host pi r))) <>
  as_u64 (sym_value m pi r + ra_add r).
Proof. exact x86_pc32_truncates. Qed.
Print Assumptions C17_x86_pc32_truncates_refuted.

(** C17, the part that holds: if the displacement is representable, the relocated
    field designates the right address.  Missing: rejection otherwise. *)
Theorem C17_x86_pc32_reaches_partial : forall j pi m m' r,
  image_ok m pi -> describes j pi -> x86_apply_relocate_add j m = (0, m') ->
  In r (pi_rels pi) -> (ra_ty r = 2 \/ ra_ty r = 4) ->
  fits_s 32 (as_s64 (sym_value m pi r + ra_add r - field_target pi r)) ->
  as_u64 (field_target pi r + s32 (ld 4 m' (field_host pi r))) =
  as_u64 (sym_value m pi r + ra_add r).
Proof. exact x86_pc32_reaches. Qed.
Print Assumptions C17_x86_pc32_reaches_partial.

Example C17_example :
  let r := Rela 16 1 2 (-4) in
  image_ok ex1_mem ex1_pi /\ describes (ex_job ex1_pi) ex1_pi /\ In r (pi_rels ex1_pi) /\
  fits_s 32 (as_s64 (sym_value ex1_mem ex1_pi r + ra_add r - field_target ex1_pi r)).
Proof.
  split; [exact ex1_ok|]. split; [apply ex_describes|]. split; [simpl; tauto|].
  vm_compute. split; [discriminate|reflexivity].
Qed.

(** C18: an entry whose field is not zero makes the run fail and the field keeps
    its bytes; so does an entry of a type the code does not know. *)
Theorem C18_x86_refuses_nonzero : forall j pi m ret m' r,
  image_ok m pi -> describes j pi -> x86_apply_relocate_add j m = (ret, m') ->
  In r (pi_rels pi) ->
  ld (Z.to_nat (field_width (ra_ty r))) m (field_host pi r) <> 0 ->
  ret = - ENOEXEC /\
  forall x, field_host pi r <= x < field_host pi r + field_width (ra_ty r) -> m' x = m x.
Proof. exact x86_refuses_nonzero. Qed.
Print Assumptions C18_x86_refuses_nonzero.

Theorem C18_x86_refuses_unknown : forall j pi m ret m' r,
  image_ok m pi -> describes j pi -> x86_apply_relocate_add j m = (ret, m') ->
  In r (pi_rels pi) ->
  ~ In (ra_ty r) [0; 1; 2; 4; 9; 10; 11; 18; 22; 23; 24; 41; 42] ->
  ret = - ENOEXEC.
Proof. exact x86_refuses_unknown. Qed.
Print Assumptions C18_x86_refuses_unknown.

(** C18, consequence: relocating an image a second time is refused as soon as one
    of the relocated values is not zero. *)
Theorem C18_x86_not_twice : forall j pi m m' m'' ret r w v,
  image_ok m pi -> describes j pi ->
  x86_apply_relocate_add j m = (0, m') -> x86_apply_relocate_add j m' = (ret, m'') ->
  In r (pi_rels pi) ->
  psabi (ra_ty r) (sym_value m pi r) (ra_add r) (field_target pi r) = Some (w, v) ->
  v mod 2 ^ (8 * Z.of_nat w) <> 0 -> ret = - ENOEXEC.
Proof. exact x86_not_twice. Qed.
Print Assumptions C18_x86_not_twice.

Example C18_example :
  image_ok ex3_mem ex3_pi /\ describes (ex_job ex3_pi) ex3_pi /\
  In (Rela 8 1 1 0) (pi_rels ex3_pi) /\
  ld (Z.to_nat (field_width 1)) ex3_mem (field_host ex3_pi (Rela 8 1 1 0)) <> 0 /\
  ld 8 (snd (x86_apply_relocate_add (ex_job ex3_pi) ex3_mem)) (field_host ex3_pi (Rela 0 1 1 0)) = 0x401000.
Proof.
  split; [exact ex3_ok|]. split; [apply ex_describes|]. split; [simpl; tauto|].
  split; [vm_compute; discriminate|]. vm_compute. reflexivity.
Qed.

Example C18_unknown_example :
  image_ok ex5_mem ex5_pi /\ describes (ex_job ex5_pi) ex5_pi /\
  In (Rela 0 1 8 0) (pi_rels ex5_pi) /\
  ~ In 8 [0; 1; 2; 4; 9; 10; 11; 18; 22; 23; 24; 41; 42].
Proof.
  split; [exact ex5_ok|]. split; [apply ex_describes|]. split; [simpl; tauto|].
  simpl. lia.
Qed.
