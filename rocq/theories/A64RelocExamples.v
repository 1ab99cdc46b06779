(** Concrete aarch64 images: examples and witnesses. *)
From Coq Require Import ZArith List Bool Lia.
From Coq Require Import ZifyBool ZifyNat.
From Verif Require Import Word WordLemmas ElfDefs X86RelocModel X86RelocSpec X86RelocExamples
  InsnSpec A64Model A64Spec A64RelocSpec.
Import ListNotations.
Open Scope Z_scope.

(** A boolean check that implies [a64_image_ok]. *)
Definition a64_image_okb (m : mem) (pi : placed_image) : bool :=
  (0 <=? pi_hdr pi) && (pi_hdr pi + pi_len pi <=? 2 ^ 64) &&
  (0 <=? pi_target pi) && (pi_target pi + pi_len pi <=? 2 ^ 64) &&
  (0 <=? pi_rel_off pi) && (0 <=? pi_sym_off pi) && (0 <=? pi_sec_off pi) &&
  (pi_rel_off pi + 24 * Z.of_nat (length (pi_rels pi)) <=? pi_len pi) &&
  forallb (fun ir => let '(i, r) := ir in
    rela_inb m (pi_hdr pi + pi_rel_off pi + 24 * Z.of_nat i) r &&
    (field_off pi r + a64_width (ra_ty r) <=? pi_len pi) &&
    (field_off pi r <? pi_len pi) &&
    (pi_sym_off pi + 24 * ra_sym r + 24 <=? pi_len pi)) (idx (pi_rels pi)) &&
  forallb (fun ir => forallb (fun kq => Nat.eqb (fst ir) (fst kq) ||
    disjointb (field_off pi (snd ir)) (a64_width (ra_ty (snd ir)))
              (field_off pi (snd kq)) (a64_width (ra_ty (snd kq)))) (idx (pi_rels pi)))
    (idx (pi_rels pi)) &&
  forallb (fun r => disjointb (field_off pi r) (a64_width (ra_ty r))
             (pi_rel_off pi) (24 * Z.of_nat (length (pi_rels pi)))) (pi_rels pi) &&
  forallb (fun r => forallb (fun q => disjointb (field_off pi r) (a64_width (ra_ty r))
             (pi_sym_off pi + 24 * ra_sym q) 24) (pi_rels pi)) (pi_rels pi).

Lemma a64_image_okb_ok m pi : byte_mem m -> a64_image_okb m pi = true -> a64_image_ok m pi.
Proof.
  intros Hb H. unfold a64_image_okb in H.
  repeat match goal with H : _ && _ = true |- _ => apply andb_true_iff in H; destruct H end.
  repeat match goal with H : (_ <=? _) = true |- _ => apply Z.leb_le in H end.
  rewrite forallb_forall in *.
  constructor; auto.
  - intros i r Hi. apply idx_in in Hi.
    match goal with H : forall x, In x (idx _) -> (let '(_, _) := x in _) = true |- _ =>
      specialize (H _ Hi); cbv beta iota in H end.
    repeat match goal with H : _ && _ = true |- _ => apply andb_true_iff in H; destruct H end.
    unfold rela_in, rela_inb in *.
    repeat match goal with H : _ && _ = true |- _ => apply andb_true_iff in H; destruct H end.
    repeat match goal with
           | H : (_ <=? _) = true |- _ => apply Z.leb_le in H
           | H : (_ <? _) = true |- _ => apply Z.ltb_lt in H
           | H : (_ =? _) = true |- _ => apply Z.eqb_eq in H end.
    repeat split; assumption.
  - intros i k r q Hi Hk Hne. apply idx_in in Hi. apply idx_in in Hk.
    match goal with H : forall x, In x (idx _) -> forallb _ _ = true |- _ =>
      specialize (H _ Hi); rewrite forallb_forall in H; specialize (H _ Hk) end.
    apply disjointb_ok. simpl in *.
    match goal with H : (_ =? _)%nat || _ = true |- _ =>
      apply orb_true_iff in H; destruct H as [Hx|Hx] end; auto.
    apply Nat.eqb_eq in Hx. congruence.
  - intros r Hr. apply disjointb_ok.
    match goal with H : forall x, In x (pi_rels _) -> disjointb _ _ _ _ = true |- _ => apply H; auto end.
  - intros r q Hr Hq. apply disjointb_ok.
    match goal with H : forall x, In x (pi_rels _) -> forallb _ _ = true |- _ =>
      specialize (H _ Hr); rewrite forallb_forall in H; apply H; auto end.
Qed.


Ltac ok_by_check := apply a64_image_okb_ok; [apply mem_of_bytes, bytesb_ok|]; vm_compute; reflexivity.

(** Image 1: ABS64, ABS32, CALL26 on a [bl], ADD_ABS_LO12_NC on an [add],
    LDST64_ABS_LO12_NC on an [ldr] and MOVW_UABS_G1_NC on a [movk]. *)
Definition a1_rels : list rela :=
  [ Rela 0 1 257 16; Rela 8 2 258 0; Rela 12 2 277 4; Rela 16 1 286 8; Rela 20 2 266 0; Rela 24 1 257 0 ].
Definition a1_syms := [0; 0x7f1234567890; 0x401000].
Definition a1_sec := repeat 0 12 ++ le_bytes 4 0x91000000 ++ le_bytes 4 0xf9400000 ++
                     le_bytes 4 0xf2a00000 ++ repeat 0 16.
Definition a1_pi := ex_pi a1_rels a1_syms a1_sec.
Definition a1_mem := ex_mem a1_rels a1_syms a1_sec.
Lemma a1_ok : a64_image_ok a1_mem a1_pi.
Proof. ok_by_check. Qed.

(** Image 2: an ABS64 entry, then an ABS32 entry whose value does not fit. *)
Definition a2_rels : list rela := [ Rela 0 1 257 0; Rela 8 1 258 0 ].
Definition a2_syms := [0; 0x7f0000000000].
Definition a2_sec := repeat 0 16.
Definition a2_pi := ex_pi a2_rels a2_syms a2_sec.
Definition a2_mem := ex_mem a2_rels a2_syms a2_sec.
Lemma a2_ok : a64_image_ok a2_mem a2_pi.
Proof. ok_by_check. Qed.

(** Image 3: the same with the ABS32 entry first. *)
Definition a3_rels : list rela := [ Rela 8 1 258 0; Rela 0 1 257 0 ].
Definition a3_pi := ex_pi a3_rels a2_syms a2_sec.
Definition a3_mem := ex_mem a3_rels a2_syms a2_sec.
Lemma a3_ok : a64_image_ok a3_mem a3_pi.
Proof. ok_by_check. Qed.

(** Image 4: one PREL64 entry. *)
Definition a4_rels : list rela := [ Rela 0 1 260 0 ].
Definition a4_syms := [0; 0x401000].
Definition a4_pi := ex_pi a4_rels a4_syms a2_sec.
Definition a4_mem := ex_mem a4_rels a4_syms a2_sec.
Lemma a4_ok : a64_image_ok a4_mem a4_pi.
Proof. ok_by_check. Qed.

(** Image 5: a relocation type that is not handled. *)
Definition a5_rels : list rela := [ Rela 0 1 1024 0 ].
Definition a5_pi := ex_pi a5_rels a4_syms a2_sec.
Definition a5_mem := ex_mem a5_rels a4_syms a2_sec.
Lemma a5_ok : a64_image_ok a5_mem a5_pi.
Proof. ok_by_check. Qed.

(** Image 6: a [bl] (CALL26) to a function near the image in the tool. *)
Definition a6_rels : list rela := [ Rela 0 1 283 0; Rela 8 1 257 0 ].
Definition a6_syms := [0; 0x7f1234561000].
Definition a6_sec := le_bytes 4 0x94000000 ++ repeat 0 12.
Definition a6_pi := ex_pi a6_rels a6_syms a6_sec.
Definition a6_mem := ex_mem a6_rels a6_syms a6_sec.
Lemma a6_ok : a64_image_ok a6_mem a6_pi.
Proof. ok_by_check. Qed.
