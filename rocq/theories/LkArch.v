(** The relocation functions of the two architectures put the values of the ABIs into the
    fields of an image. *)
From Coq Require Import ZArith String List Bool Lia ZifyBool ZifyNat.
From Verif Require Import Word WordLemmas Str ElfDefs TextModel LdModel LdSpec LdProofs LdSyms LdMore X86RelocModel X86RelocSpec X86RelocProofs X86RelocMore A64Model A64Spec A64RelocSpec A64Proofs A64RelocProofs A64RelocMore ScModel ScSpec PaModel PaSpec PaRead PaProofs PaMore PaKick PaLoad PaX86 LkSpec LkSyms LkRel.
Import ListNotations.
Open Scope Z_scope.

(** ** x86-64 *)
Lemma x86_width_pos ty : 0 <= field_width ty.
Proof. unfold field_width. destruct ty as [|p|p]; try lia. repeat (destruct p as [p|p|]; try lia). Qed.

Lemma x86_local : local_value field_width x86_value.
Proof.
  intros ty S A P f o m a f' o' m' a' _ E V w v Q. rewrite <- (V w v Q). pose proof (psabi_width _ _ _ _ _ _ Q) as W.
  replace a' with (a' - a + a) by lia. apply ld_shift. intros x Hx. specialize (E (x - a) ltac:(lia)).
  replace (a' - a + x) with (a' + (x - a)) by lia. rewrite E. f_equal. lia.
Qed.

Lemma x86_relocates hdr len li f : li_sechdrs li = ld 8 f 40 -> relocates field_width x86_value hdr len (li_sym li) (ld 8 f 40) (x86_reloc hdr li).
Proof.
  intros Et m i pi e m' W P0 P1 P2 DS R E. unfold x86_reloc in R. rewrite Et in R.
  assert (OK : image_ok m pi) by (destruct W; constructor; auto).
  assert (e = 0). { destruct (x86_accept_iff _ _ _ _ _ OK DS R) as [_ X]. destruct (Z.eq_dec e 0) as [|Ne]; auto. specialize (X Ne). unfold ENOEXEC in X. lia. } subst e.
  destruct (x86_reloc_value _ _ _ _ OK DS R) as [V F].
  assert (Fh : forall r, field_host pi r = field_off pi r) by (intros r; unfold field_host; lia).
  split; [apply (x86_apply_byte _ _ _ _ R); exact (io_bytes _ _ OK)|]. split.
  - intros x Hx. apply F. intros (r & Hr & Y). rewrite Fh in Y. apply (Hx r Hr Y).
  - intros r Hr w v Q. rewrite <- Fh. apply V; auto. unfold field_target. rewrite P1. exact Q.
Qed.

(** ** aarch64 *)

(** apply_relocate_add with the image of the patch, src/patch/patch.c 765-798 and
    src/arch/aarch64/patch.c 192-418.  The image is at [b] in the tool, and
    [oc i] is what the uninitialised variable overflow_check holds in the call for section [i]. *)
Definition a64_reloc (oc : Z -> bool) (b hdr : Z) (li : linfo) (m : mem) (i : Z) : Z * mem :=
  let '(r, m') := a64_apply_relocate_add (oc i) (X86Job b hdr (section m (li_sechdrs li)) (li_sym li) i) (fun x => m (x - b)) in
  (r, fun x => m' (x + b)).

(** The values it computes: those that depend on the place are for the place in the tool. *)
Definition a64_tool_value (b hdr : Z) : field_value := fun ty S A P f o m a =>
  a64_value ty S A (if place_relative ty then P - hdr + b else P) f o m a.

Lemma a64_width_pos ty : 0 <= a64_width ty.
Proof. unfold a64_width. destruct ty as [|p|p]; try lia. repeat (destruct p as [p|p|]; try lia). Qed.

Lemma data_width ty S A P w v : aaelf_data ty S A P = Some (w, v) -> a64_width ty = Z.of_nat w.
Proof.
  intros H. unfold aaelf_data in H. destruct ty as [|p|p]; try discriminate.
  repeat (destruct p as [p|p|]; try discriminate H); assert (w = w) by auto; injection H as <- _; reflexivity.
Qed.
Lemma insn_width ty S A P t v : aaelf_insn ty S A P = Some (t, v) -> a64_width ty = 4.
Proof.
  intros H. unfold aaelf_insn in H. destruct ty as [|p|p]; try discriminate.
  repeat (destruct p as [p|p|]; try discriminate H); reflexivity.
Qed.

Lemma ld_move w m m' a a' : (forall d, 0 <= d < Z.of_nat w -> m' (a' + d) = m (a + d)) -> ld w m' a' = ld w m a.
Proof.
  intros E. replace a' with (a' - a + a) by lia. apply ld_shift. intros x Hx. specialize (E (x - a) ltac:(lia)).
  replace (a' - a + x) with (a' + (x - a)) by lia. rewrite E. f_equal. lia.
Qed.

Lemma a64_local : local_value a64_width a64_value.
Proof.
  intros ty S A P f o m a f' o' m' a' Ef Em (V1 & V2). split.
  - intros w v Q. rewrite <- (V1 w v Q). apply data_width in Q. rewrite Q in Em. apply ld_move. exact Em.
  - intros t v Q. pose proof (insn_width _ _ _ _ _ _ Q) as W. rewrite W in *.
    rewrite (ld_move 4 f f' o o') by exact Ef. rewrite (ld_move 4 m m' a a') by exact Em. apply V2. exact Q.
Qed.
Lemma a64_tool_local b hdr : local_value a64_width (a64_tool_value b hdr).
Proof. intros ty S A P f o m a f' o' m' a' Ef Em V. unfold a64_tool_value in *. eapply a64_local; eauto. Qed.

Lemma handler_byte h m loc val : byte_mem m -> byte_mem (snd (run_handler h m loc val)).
Proof.
  intros Hb. destruct h as [|op len|op lsb t|op lsb len t]; cbn [run_handler].
  - exact Hb.
  - unfold reloc_data. destruct (len =? 16); [destruct op; cbn [snd]; apply st_byte; auto|]. destruct (len =? 32); [destruct op; cbn [snd]; apply st_byte; auto|].
    destruct (len =? 64); cbn [snd]; [apply st_byte|]; auto.
  - unfold reloc_insn_movw. destruct (movw_insn _ _ _ _ _ _). apply st_byte. auto.
  - unfold reloc_insn_imm. destruct (imm_insn _ _ _ _ _ _ _). apply st_byte. auto.
Qed.

Lemma a64_loop_result j n : forall oc m i r m', a64_reloc_loop j oc m i n = (r, m') -> (r = 0 \/ r = - ENOEXEC) /\ (byte_mem m -> byte_mem m').
Proof.
  induction n as [|n IH]; intros oc m i r m' H; cbn [a64_reloc_loop] in H.
  - assert (r = 0 /\ m = m') as [-> ->] by (split; congruence). auto.
  - destruct (a64_switch _) as [[c h]|].
    + destruct (run_handler h m _ _) as [ovf m1] eqn:E.
      assert (B : byte_mem m -> byte_mem m1). { intros Hb. replace m1 with (snd (ovf, m1)) by auto. rewrite <- E. apply handler_byte. auto. }
      destruct (_ && _).
      * assert (r = - ENOEXEC /\ m1 = m') as [-> ->] by (split; congruence). auto.
      * destruct (IH _ _ _ _ _ H) as [X Y]. auto.
    + assert (r = - ENOEXEC /\ m = m') as [-> ->] by (split; congruence). auto.
Qed.

Lemma a64_relocates oc b hdr len li f : li_sechdrs li = ld 8 f 40 -> 0 <= b -> b + len <= 2 ^ 64 ->
  relocates a64_width (a64_tool_value b hdr) hdr len (li_sym li) (ld 8 f 40) (a64_reloc oc b hdr li).
Proof.
  intros Et B0 B1 m i pi e m' W P0 P1 P2 DS R E. unfold a64_reloc in R. rewrite Et in R.
  set (M := fun x => m (x - b)) in R. set (j := X86Job b hdr (section m (ld 8 f 40)) (li_sym li) i) in R.
  destruct (a64_apply_relocate_add (oc i) j M) as [e1 M'] eqn:A.
  assert (e1 = e) by congruence. assert (Em : m' = fun x => M' (x + b)) by congruence. subst e1 m'. clear R.
  set (pb := PlacedImage b hdr len (pi_rel_off pi) (pi_sym_off pi) (pi_sec_off pi) (pi_rels pi)).
  assert (Ld : forall w x, ld w M (b + x) = ld w m x). { intros w x. apply ld_move. intros d _. unfold M. f_equal. lia. }
  assert (OK : a64_image_ok M pb).
  { destruct W as [W1 W2 W3 W4 W5 W6 W7 W8 W9]. rewrite ?P0, ?P1, ?P2 in *. constructor; cbn [pi_hdr pi_target pi_len pi_rel_off pi_sym_off pi_sec_off pi_rels pb]; auto.
    - intros x. apply W1.
    - intros a r Hr. destruct (W6 a r Hr) as (X1 & X2). split; [|exact X2]. unfold rela_in in *. rewrite <- !Z.add_assoc. rewrite !Ld.
      cbn [Z.add] in X1. rewrite <- ?Z.add_assoc in X1. exact X1. }
  assert (DB : describes j pb).
  { destruct DS as [D1 D2 D3 D4 D5 D6]. cbn [xj_hdr xj_target_hdr xj_sechdrs xj_relsec xj_symindex] in *. rewrite P1 in *.
    constructor; cbn [xj_hdr xj_target_hdr xj_sechdrs xj_relsec xj_symindex j pi_hdr pi_target pi_len pi_rel_off pi_sym_off pi_sec_off pi_rels pb]; auto. }
  assert (L := A). unfold a64_apply_relocate_add in L. apply a64_loop_result in L. destruct L as [[->| ->] Bm]; [|unfold ENOEXEC in E; lia].
  assert (Fh : forall r, field_host pb r = b + field_off pi r) by (intros r; reflexivity).
  assert (Sy : forall r, sym_value M pb r = sym_value m pi r).
  { intros r. unfold sym_value, sym_host. cbn [pi_hdr pi_sym_off pb]. rewrite P0. rewrite <- !Z.add_assoc. rewrite Ld. reflexivity. }
  assert (Ld' : forall w x, ld w (fun y => M' (y + b)) x = ld w M' (b + x)). { intros w x. apply ld_move. intros d _. f_equal. lia. }
  split; [|split].
  - intros x. apply Bm. intros y. apply (wo_bytes _ _ _ W).
  - intros x Hx. rewrite (run_frame j pb M (oc i) 0 M' OK DB A). { unfold M. f_equal. lia. }
    intros (r & Hr & Y). rewrite Fh in Y. apply (Hx r Hr). lia.
  - intros r Hr. unfold a64_tool_value, a64_value. rewrite <- (Sy r), !Ld'.
    assert (Q : forall P, (if place_relative (ra_ty r) then hdr + field_off pi r - hdr + b else P) = (if place_relative (ra_ty r) then field_host pb r else P)).
    { intros P. destruct (place_relative _); auto. rewrite Fh. lia. }
    rewrite Q.
    assert (QD : aaelf_data (ra_ty r) (sym_value M pb r) (ra_add r) (if place_relative (ra_ty r) then field_host pb r else hdr + field_off pi r) = aaelf_data (ra_ty r) (sym_value M pb r) (ra_add r) (field_host pb r)).
    { destruct (place_relative (ra_ty r)) eqn:PR; auto. apply data_place. auto. }
    assert (QI : aaelf_insn (ra_ty r) (sym_value M pb r) (ra_add r) (if place_relative (ra_ty r) then field_host pb r else hdr + field_off pi r) = aaelf_insn (ra_ty r) (sym_value M pb r) (ra_add r) (field_host pb r)).
    { destruct (place_relative (ra_ty r)) eqn:PR; auto. apply insn_place. auto. }
    rewrite QD, QI. split.
    + intros w v D. rewrite Ld'. rewrite <- Fh. exact (run_data j pb M (oc i) 0 M' OK DB A eq_refl r w v Hr D).
    + intros t v D Nb. rewrite <- Ld in Nb. rewrite <- (Ld 4%nat (field_off pi r)). rewrite <- !Fh in *.
      exact (run_insn j pb M (oc i) 0 M' OK DB A eq_refl r t v Hr D Nb).
Qed.

(** One relocation changes at most 8 bytes from its place. *)
Lemma switch_frame ty c h m loc val x : a64_switch ty = Some (c, h) -> ~ (loc <= x < loc + 8) -> snd (run_handler h m loc val) x = m x.
Proof.
  intros S Hx. destruct h as [|op len|op lsb t|op lsb len t]; cbn [run_handler].
  - reflexivity.
  - unfold reloc_data.
    destruct (len =? 16); [destruct op; cbn [snd]; apply st_out; lia|]. destruct (len =? 32); [destruct op; cbn [snd]; apply st_out; lia|].
    destruct (len =? 64); cbn [snd]; [apply st_out; lia|reflexivity].
  - unfold reloc_insn_movw. destruct (movw_insn _ _ _ _ _ _). cbn [snd]. apply st_out. lia.
  - unfold reloc_insn_imm. destruct (imm_insn _ _ _ _ _ _ _). cbn [snd]. apply st_out. lia.
Qed.

Section A64.
Variables (oc : Z -> bool) (b : Z) (f : mem) (hdr : Z) (li : linfo).
Hypothesis Hb : byte_mem f.
Hypothesis Et : li_sechdrs li = ld 8 f 40.
Hypothesis RT : reloc_tidy f.
Hypothesis TD : forall x, meta_byte f x -> ~ written f x.
Hypothesis B0 : 0 <= b.
(** The image fits into the tool. *)
Hypothesis Bf : forall x, reloc_field f x \/ rela_byte f x -> b + x < 2 ^ 64.

Definition a64_inv (M : mem) : Prop := x86_inv f hdr (fun x => M (x + b)).

Lemma a64_rela M x : a64_inv M -> rela_byte f x -> M (b + x) = f x.
Proof. intros I R. rewrite Z.add_comm. exact (x86_rela f hdr RT _ x I R). Qed.
Lemma a64_meta m x : x86_inv f hdr m -> meta_byte f x -> m x = f x.
Proof. intros I R. exact (x86_meta f hdr RT TD m x I R). Qed.

Lemma a64_loop m0 i n : x86_inv f hdr m0 -> 0 <= i < ld 2 f 60 -> sh_type (section f (ld 8 f 40) i) = SHT_RELA ->
  forall o k M er M', a64_inv M -> 0 <= k -> k + Z.of_nat n <= sh_size (section f (ld 8 f 40) i) / 24 ->
    a64_reloc_loop (X86Job b hdr (section m0 (li_sechdrs li)) (li_sym li) i) o M k n = (er, M') -> a64_inv M'.
Proof.
  intros I0 Hi Ht. destruct (proj2 (proj2 RT) i Hi Ht) as (H1 & Hinf & Hsz).
  set (j := X86Job b hdr (section m0 (li_sechdrs li)) (li_sym li) i).
  set (o := sh_offset (section f (ld 8 f 40) i)) in *.
  assert (O0 : 0 <= o < 2 ^ 64) by (apply (ld_range 8); auto).
  assert (To : forall a, u64 (u64 (hdr + a) + x86_t_off j) = (b + a) mod 2 ^ 64).
  { intros a. unfold x86_t_off. cbn [xj_hdr xj_target_hdr j]. unfold u64, wrap, s64, sgn, wrap. rewrite Z.add_mod_idemp_l by lia.
    cbv zeta. destruct (_ <? _).
    - rewrite Z.add_mod_idemp_r by lia. f_equal. lia.
    - unfold Z.sub at 1. rewrite Z.add_assoc, (Z.add_comm _ ((b - hdr) mod _)), <- Z.add_assoc. rewrite Z.add_mod_idemp_l by lia.
      replace (b - hdr + (hdr + a + - 2 ^ 64)) with (b + a + (-1) * 2 ^ 64) by lia. apply Z.mod_add. lia. }
  assert (Rb : x86_rel_base j = (b + o) mod 2 ^ 64).
  { unfold x86_rel_base. cbn [xj_sechdrs xj_relsec j]. rewrite Et. destruct I0 as [_ P]. rewrite P by lia. fold o. change (u64 (u64 (hdr + o) + x86_t_off j) = (b + o) mod 2 ^ 64). apply To. }
  assert (Ei : sh_info (section m0 (ld 8 f 40) i) = sh_info (section f (ld 8 f 40) i)).
  { apply (ld_ext 4). intros x Hx. apply a64_meta; auto. apply (header_meta f i); lia. }
  set (p := sh_offset (section f (ld 8 f 40) (sh_info (section f (ld 8 f 40) i)))) in *.
  assert (Lc : forall r, x86_loc j r = (b + (p + r) mod 2 ^ 64) mod 2 ^ 64).
  { intros r. unfold x86_loc. cbn [xj_sechdrs xj_relsec j]. rewrite Et, Ei. destruct I0 as [_ P]. rewrite P by lia.
    unfold u64, wrap. rewrite <- (Z.add_mod_idemp_l _ r) by lia. fold p.
    change ((u64 (u64 (hdr + p) + x86_t_off j) + r) mod 2 ^ 64 = (b + (p + r) mod 2 ^ 64) mod 2 ^ 64).
    rewrite To. rewrite Z.add_mod_idemp_l, Z.add_mod_idemp_r by lia. f_equal. lia. }
  clearbody j. clear To.
  induction n as [|n IH]; intros oc0 k M er M' I K0 K1 H; cbn [a64_reloc_loop] in H.
  - assert (M = M') by congruence. subst. auto.
  - assert (Rr : forall d, 0 <= d < 24 -> rela_byte f (o + 24 * k + d)). { intros d Hd. exists i. split; [auto|]. split; [auto|]. exists k. fold o. split; lia. }
    assert (Eb : x86_rel_base j = b + o). { rewrite Rb. apply Z.mod_small. pose proof (Bf _ (or_intror (Rr 0 ltac:(lia)))). lia. }
    rewrite Eb in H.
    assert (Ro : r_offset_at M (b + o + sizeof_rela * k) = ld 8 f (o + 24 * k)).
    { unfold r_offset_at, sizeof_rela. rewrite <- Z.add_assoc. apply ld_shift. intros x Hx. apply a64_rela; auto. replace x with (o + 24 * k + (x - o - 24 * k)) by lia. apply Rr. lia. }
    set (q := (p + ld 8 f (o + 24 * k)) mod 2 ^ 64) in *.
    assert (Fq : forall x, q <= x < q + 8 -> reloc_field f x). { intros x Hx. exists i. split; [auto|]. split; [auto|]. exists k. fold o. split; [lia|]. exact Hx. }
    assert (Q0 : 0 <= q) by (apply Z.mod_pos_bound; lia).
    assert (Lq : x86_loc j (r_offset_at M (b + o + sizeof_rela * k)) = b + q).
    { rewrite Ro, Lc. fold q. apply Z.mod_small. pose proof (Bf q (or_introl (Fq q ltac:(lia)))). lia. }
    rewrite Lq in H.
    destruct I as [A P].
    assert (G : forall M1 : mem, (forall x, ~ (b + q <= x < b + q + 8) -> M1 x = M x) -> a64_inv M1).
    { intros M1 F. split.
      - intros x X1 X2. rewrite F. { apply A; auto. } intros Y. apply X2. apply Fq. lia.
      - intros z Hz. rewrite <- P by auto. apply (ld_ext 8). intros x Hx. apply F.
        intros Y. assert (Y' : reloc_field f x) by (apply Fq; lia). apply RT in Y'. apply (proj1 (proj2 Y')). unfold in_table. lia. }
    destruct (a64_switch _) as [[c h]|] eqn:Sw.
    2:{ assert (M = M') by congruence. subst. split; auto. }
    destruct (run_handler h M (b + q) _) as [ovf M1] eqn:Rh.
    assert (F1 : forall x, ~ (b + q <= x < b + q + 8) -> M1 x = M x).
    { intros x Hx. replace M1 with (snd (ovf, M1)) by auto. rewrite <- Rh. apply (switch_frame _ _ _ _ _ _ _ Sw Hx). }
    destruct (_ && _).
    + assert (M1 = M') by congruence. subst M'. apply G. exact F1.
    + apply (IH _ (k + 1) M1 er M' (G M1 F1) ltac:(lia) ltac:(lia) H).
Qed.

Lemma a64_reloc_safe : reloc_safe (a64_reloc oc b hdr li) f hdr.
Proof.
  exists (x86_inv f hdr). split; [|split].
  - intros m S P. split; auto.
  - intros m i er m' I Hi Ht H. unfold a64_reloc, a64_apply_relocate_add in H. cbn [xj_sechdrs xj_relsec] in H.
    destruct (a64_reloc_loop _ _ _ _ _) as [r M'] eqn:Lp. assert (Em : m' = fun x => M' (x + b)) by congruence. subst m'. 
    change (a64_inv M'). eapply a64_loop; try exact Lp; auto.
    + destruct I as [A P]. split.
      * intros x X1 X2. rewrite <- A by auto. f_equal. lia.
      * intros z Hz. rewrite <- P by auto. apply (ld_ext 8). intros x Hx. f_equal. lia.
    + lia.
    + unfold sizeof_rela. rewrite Et.
      assert (Es : sh_size (section m (ld 8 f 40) i) = sh_size (section f (ld 8 f 40) i)).
      { apply (ld_ext 8). intros x Hx. apply a64_meta; auto. apply (header_meta f i); lia. }
      rewrite Es. assert (0 <= sh_size (section f (ld 8 f 40) i)) by (apply (ld_range 8); auto). pose proof (Z.div_pos (sh_size (section f (ld 8 f 40) i)) 24). lia.
  - intros m I x Hx. apply a64_meta; auto.
Qed.
End A64.
