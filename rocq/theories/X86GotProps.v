(** Properties C86 and C87: where and what the x86-64 relocation code writes. *)
From Coq Require Import ZArith List Bool Lia ZifyBool ZifyNat.
From Verif Require Import Word WordLemmas ElfDefs X86RelocModel X86RelocSpec X86RelocProofs X86RelocExamples X86RelocMore.
Import ListNotations.
Open Scope Z_scope.

(** ** C86: relocation writes only into the image *)

(** False: r_offset is used unchecked (patch.c 84-85). *)
Definition ex6_rels : list rela := [ Rela 0x10000 1 1 0 ].
Definition ex6_pi := ex_pi ex6_rels ex2_syms ex2_sec.
Definition ex6_mem := ex_mem ex6_rels ex2_syms ex2_sec.
Theorem C86_inside_image_refuted : exists j pi m m' x,
  describes j pi /\ byte_mem m /\ x86_apply_relocate_add j m = (0, m') /\
  ~ (pi_hdr pi <= x < pi_hdr pi + pi_len pi) /\ m' x <> m x.
Proof.
  exists (ex_job ex6_pi), ex6_pi, ex6_mem.
  assert (W : let '(r, m) := x86_apply_relocate_add (ex_job ex6_pi) ex6_mem in (r =? 0) && negb (m (ex_hdr + 72 + 0x10005) =? 0) = true) by (vm_compute; reflexivity).
  destruct (x86_apply_relocate_add (ex_job ex6_pi) ex6_mem) as [r m'] eqn:E. apply andb_true_iff in W. destruct W as [W1 W2].
  apply Z.eqb_eq in W1. subst r. apply negb_true_iff, Z.eqb_neq in W2. exists m', (ex_hdr + 72 + 0x10005).
  split; [apply ex_describes|]. split; [apply mem_of_bytes, bytesb_ok; vm_compute; reflexivity|]. split; [reflexivity|].
  split; [vm_compute; intros [_ X]; discriminate X|]. replace (ex6_mem (ex_hdr + 72 + 0x10005)) with 0 by (vm_compute; reflexivity). exact W2.
Qed.
Print Assumptions C86_inside_image_refuted.

(** Missing: images whose entries point outside. *)
Theorem C86_inside_image_partial : forall j pi m ret m' x,
  image_ok m pi -> describes j pi -> x86_apply_relocate_add j m = (ret, m') ->
  ~ (pi_hdr pi <= x < pi_hdr pi + pi_len pi) -> m' x = m x.
Proof.
  intros j pi m ret m' x Ok D E Nx. apply (x86_reloc_frame j pi m ret m' Ok D E). intros (r & Hr & Hx). apply Nx.
  destruct (In_nth_error _ _ Hr) as [i Hi]. destruct (io_rel _ _ Ok i r Hi) as (R & A & B & _). destruct (io_offs _ _ Ok).
  assert (0 <= ra_off r) by apply R. unfold field_host, field_off in *. lia.
Qed.
Print Assumptions C86_inside_image_partial.
Example C86_ex : image_ok ex1_mem ex1_pi /\ describes (ex_job ex1_pi) ex1_pi.
Proof. split; [exact ex1_ok|apply ex_describes]. Qed.

(** ** C87: an accepted relocation is applied as the psABI says *)

(** False for the thread-pointer offsets: accepted and ignored (patch.c 190-193). *)
Definition ex7_rels : list rela := [ Rela 0 1 18 8 ].
Definition ex7_pi := ex_pi ex7_rels ex2_syms ex2_sec.
Definition ex7_mem := ex_mem ex7_rels ex2_syms ex2_sec.
Theorem C87_tpoff_ignored_refuted : exists j pi m,
  image_ok m pi /\ describes j pi /\ (exists r, In r (pi_rels pi) /\ ra_ty r = R_X86_64_TPOFF64) /\
  x86_apply_relocate_add j m = (0, m).
Proof.
  exists (ex_job ex7_pi), ex7_pi, ex7_mem.
  split; [apply image_okb_ok; [apply mem_of_bytes, bytesb_ok|]; vm_compute; reflexivity|]. split; [apply ex_describes|].
  split; [exists (Rela 0 1 18 8); split; [left; reflexivity|reflexivity]|]. reflexivity.
Qed.
Print Assumptions C87_tpoff_ignored_refuted.

(** False for the GOT types: the psABI value is the displacement of a slot that holds the
    address of the symbol; no slot is made, the displacement of the symbol itself is
    stored (patch.c 144-173), and the instruction loads the code of the function. *)
Definition ex8_rels : list rela := [ Rela 0 1 9 (-4) ].
Definition ex8_syms := [0; 0x401000].
Definition ex8_pi := ex_pi ex8_rels ex8_syms ex2_sec.
Definition ex8_mem := ex_mem ex8_rels ex8_syms ex2_sec.
Theorem C87_got_refuted : exists j pi m m' r,
  image_ok m pi /\ describes j pi /\ In r (pi_rels pi) /\ ra_ty r = R_X86_64_GOTPCREL /\
  x86_apply_relocate_add j m = (0, m') /\
  as_u64 (field_target pi r + 4 + s32 (ld 4 m' (field_host pi r))) = sym_value m pi r.
Proof.
  exists (ex_job ex8_pi), ex8_pi, ex8_mem.
  assert (W : let '(r, m) := x86_apply_relocate_add (ex_job ex8_pi) ex8_mem in
     (r =? 0) && (as_u64 (field_target ex8_pi (Rela 0 1 9 (-4)) + 4 + s32 (ld 4 m (field_host ex8_pi (Rela 0 1 9 (-4))))) =? 0x401000) = true)
    by (vm_compute; reflexivity).
  destruct (x86_apply_relocate_add (ex_job ex8_pi) ex8_mem) as [r m'] eqn:E. apply andb_true_iff in W. destruct W as [W1 W2].
  apply Z.eqb_eq in W1, W2. subst r. exists m', (Rela 0 1 9 (-4)).
  split; [apply image_okb_ok; [apply mem_of_bytes, bytesb_ok|]; vm_compute; reflexivity|]. split; [apply ex_describes|].
  split; [left; reflexivity|]. split; [reflexivity|]. split; [reflexivity|]. rewrite W2. vm_compute. reflexivity.
Qed.
Print Assumptions C87_got_refuted.

(** The rest: when the run succeeds, an entry that is neither empty nor of these types is
    one of the plain types and has its psABI value. *)
Theorem C87_applied_partial : forall j pi m m' r,
  image_ok m pi -> describes j pi -> x86_apply_relocate_add j m = (0, m') -> In r (pi_rels pi) ->
  ~ In (ra_ty r) [R_X86_64_NONE; R_X86_64_TPOFF64; R_X86_64_TPOFF32; R_X86_64_GOTPCREL; R_X86_64_GOTTPOFF; R_X86_64_GOTPCRELX; R_X86_64_REX_GOTPCRELX] ->
  exists w v, psabi (ra_ty r) (sym_value m pi r) (ra_add r) (field_target pi r) = Some (w, v) /\
    ld w m' (field_host pi r) = v mod 2 ^ (8 * Z.of_nat w).
Proof.
  intros j pi m m' r Ok D E Hr N. destruct (x86_accept_iff j pi m 0 m' Ok D E) as [A _].
  assert (Ac : acceptable m pi r) by (apply A; auto). destruct (x86_reloc_value j pi m m' Ok D E) as [V _].
  assert (G : exists w v, psabi (ra_ty r) (sym_value m pi r) (ra_add r) (field_target pi r) = Some (w, v)).
  { unfold acceptable in Ac. cbv zeta in Ac. cbn [In] in N. unfold R_X86_64_NONE, R_X86_64_TPOFF64, R_X86_64_TPOFF32, R_X86_64_GOTPCREL, R_X86_64_GOTTPOFF, R_X86_64_GOTPCRELX, R_X86_64_REX_GOTPCRELX in N.
    assert (T : ra_ty r = 1 \/ ra_ty r = 2 \/ ra_ty r = 4 \/ ra_ty r = 10 \/ ra_ty r = 11 \/ ra_ty r = 24).
    { destruct (ra_ty r) as [|p|p]; [exfalso; apply N; auto| |contradiction].
      do 6 (try (destruct p as [p|p|]; try contradiction)); auto 10; exfalso; apply N; auto 10. }
    destruct T as [T|[T|[T|[T|[T|T]]]]]; rewrite T; cbn [psabi]; eauto. }
  destruct G as (w & v & G). exists w, v. split; auto.
Qed.
Print Assumptions C87_applied_partial.
Example C87_ex : image_ok ex1_mem ex1_pi /\ describes (ex_job ex1_pi) ex1_pi /\ fst (x86_apply_relocate_add (ex_job ex1_pi) ex1_mem) = 0 /\
  In (Rela 20 2 4 (-4)) (pi_rels ex1_pi).
Proof. split; [exact ex1_ok|]. split; [apply ex_describes|]. split; [vm_compute; reflexivity|]. cbn. tauto. Qed.
