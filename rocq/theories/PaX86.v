(** The x86-64 relocations of a patch file stay away from its metadata. *)
From Coq Require Import ZArith String List Bool Lia ZifyBool ZifyNat.
From Verif Require Import Word WordLemmas Str ElfDefs TextModel LdModel LdSpec LdProofs X86RelocModel ScModel ScSpec PaModel PaSpec PaRead PaProofs PaMore PaKick PaLoad.
Import ListNotations.
Open Scope Z_scope.

(** apply_relocate_add with the image of the patch, src/patch/patch.c 765-798 and
    src/arch/x86_64/patch.c 39-212. *)
Definition x86_reloc (hdr : Z) (li : linfo) (m : mem) (i : Z) : Z * mem :=
  x86_apply_relocate_add (X86Job 0 hdr (section m (li_sechdrs li)) (li_sym li) i) m.

(** The entries of the relocation sections and the fields they name. *)
Definition rela_byte (m : mem) (x : Z) : Prop :=
  let t := ld 8 m 40 in
  exists i, 0 <= i < ld 2 m 60 /\ sh_type (section m t i) = SHT_RELA /\
    exists k, 0 <= k < sh_size (section m t i) / 24 /\
      sh_offset (section m t i) + 24 * k <= x < sh_offset (section m t i) + 24 * k + 24.

Definition reloc_field (m : mem) (x : Z) : Prop :=
  let t := ld 8 m 40 in
  exists i, 0 <= i < ld 2 m 60 /\ sh_type (section m t i) = SHT_RELA /\
    exists k, 0 <= k < sh_size (section m t i) / 24 /\
      let p := (sh_offset (section m t (sh_info (section m t i))) + ld 8 m (sh_offset (section m t i) + 24 * k)) mod 2 ^ 64 in
      p <= x < p + 8.

(** A file as the compiler makes it: relocations change the contents of sections other than
    the relocation sections and the metadata; every relocation section names the section
    it changes. *)
Definition reloc_tidy (m : mem) : Prop :=
  let t := ld 8 m 40 in
  (forall x, reloc_field m x -> ~ meta_byte m x /\ ~ in_table m x /\ ~ rela_byte m x) /\
  (forall x, rela_byte m x -> ~ written m x) /\
  forall i, 0 <= i < ld 2 m 60 -> sh_type (section m t i) = SHT_RELA ->
    1 <= i /\ 1 <= sh_info (section m t i) < ld 2 m 60 /\ sh_offset (section m t i) + sh_size (section m t i) < 2 ^ 64.

(** One relocation changes at most 8 bytes from its place. *)
Lemma reloc_one_frame j m i x :
  let p := x86_loc j (r_offset_at m (x86_rel_base j + sizeof_rela * i)) in
  ~ (p <= x < p + 8) -> match x86_reloc_one j m i with RGo m' | RErr _ m' => m' x = m x end.
Proof.
  intros p Hx. unfold x86_reloc_one. fold p. unfold x86_pc32.
  assert (A : forall v, st 4 m p v x = m x) by (intros; apply st_out; lia).
  assert (B : forall v, st 8 m p v x = m x) by (intros; apply st_out; lia).
  cbv zeta. repeat match goal with |- context [if ?b then _ else _] => destruct b end; auto.
Qed.

Section X86.
Variables (f : mem) (hdr : Z) (li : linfo).
Hypothesis Hb : byte_mem f.
Hypothesis Et : li_sechdrs li = ld 8 f 40.
Hypothesis RT : reloc_tidy f.
Hypothesis TD : forall x, meta_byte f x -> ~ written f x.

Definition x86_inv (m : mem) : Prop :=
  (forall x, ~ written f x -> ~ reloc_field f x -> m x = f x) /\ placed f hdr m.

Lemma x86_rela m x : x86_inv m -> rela_byte f x -> m x = f x.
Proof. intros (A & _) R. apply A; [apply RT; auto|]. intros F. apply RT in F. tauto. Qed.

Lemma x86_meta m x : x86_inv m -> meta_byte f x -> m x = f x.
Proof. intros (A & _) R. apply A; [apply TD; auto|]. intros F. apply RT in F. tauto. Qed.

Lemma x86_loop m0 i n : x86_inv m0 -> 0 <= i < ld 2 f 60 -> sh_type (section f (ld 8 f 40) i) = SHT_RELA ->
  forall k m er m', x86_inv m -> 0 <= k -> k + Z.of_nat n <= sh_size (section f (ld 8 f 40) i) / 24 ->
    x86_reloc_loop (X86Job 0 hdr (section m0 (li_sechdrs li)) (li_sym li) i) m k n = (er, m') -> x86_inv m'.
Proof.
  intros I0 Hi Ht. destruct (proj2 (proj2 RT) i Hi Ht) as (H1 & Hinf & Hsz).
  set (j := X86Job 0 hdr (section m0 (li_sechdrs li)) (li_sym li) i).
  set (o := sh_offset (section f (ld 8 f 40) i)) in *.
  assert (O0 : 0 <= o < 2 ^ 64) by (apply (ld_range 8); auto).
  assert (To : forall a, u64 (u64 (hdr + a) + x86_t_off j) = a mod 2 ^ 64).
  { intros a. unfold x86_t_off. cbn [xj_hdr xj_target_hdr j]. unfold u64, wrap, s64, sgn, wrap. rewrite Z.add_mod_idemp_l by lia.
    cbv zeta. destruct (_ <? _).
    - rewrite Z.add_mod_idemp_r by lia. f_equal. lia.
    - unfold Z.sub at 1. rewrite Z.add_assoc, (Z.add_comm _ ((0 - hdr) mod _)), <- Z.add_assoc. rewrite Z.add_mod_idemp_l by lia.
      replace (0 - hdr + (hdr + a + - 2 ^ 64)) with (a + (-1) * 2 ^ 64) by lia. apply Z.mod_add. lia. }
  assert (Rb : x86_rel_base j = o).
  { unfold x86_rel_base. cbn [xj_sechdrs xj_relsec j]. rewrite Et. destruct I0 as [_ P]. rewrite P by lia. fold o. change (u64 (u64 (hdr + o) + x86_t_off j) = o). rewrite To. apply Z.mod_small. lia. }
  assert (Ei : sh_info (section m0 (ld 8 f 40) i) = sh_info (section f (ld 8 f 40) i)).
  { apply (ld_ext 4). intros x Hx. apply x86_meta; auto. apply (header_meta f i); lia. }
  assert (Lc : forall r, x86_loc j r = (sh_offset (section f (ld 8 f 40) (sh_info (section f (ld 8 f 40) i))) + r) mod 2 ^ 64).
  { intros r. unfold x86_loc. cbn [xj_sechdrs xj_relsec j]. rewrite Et, Ei. destruct I0 as [_ P]. rewrite P by lia.
    unfold u64, wrap. rewrite <- Z.add_mod_idemp_l by lia.
    match goal with |- ((?a mod _ + _) mod _ + _) mod _ = _ => change ((u64 (u64 a + x86_t_off j) + r) mod 2 ^ 64 = (sh_offset (section f (ld 8 f 40) (sh_info (section f (ld 8 f 40) i))) + r) mod 2 ^ 64) end.
    rewrite To. apply Z.add_mod_idemp_l. lia. }
  clearbody j. clear To.
  induction n as [|n IH]; intros k m er m' I K0 K1 H; cbn [x86_reloc_loop] in H.
  - assert (m = m') by congruence. subst. auto.
  - assert (J : match x86_reloc_one j m k with RGo m' | RErr _ m' => x86_inv m' end).
    { assert (Ro : r_offset_at m (x86_rel_base j + sizeof_rela * k) = ld 8 f (o + 24 * k)).
      { rewrite Rb. unfold r_offset_at, sizeof_rela. apply (ld_ext 8). intros x Hx. apply x86_rela; auto. exists i. split; [auto|]. split; [auto|]. exists k. fold o. split; lia. }
      assert (Fr : forall x, ~ reloc_field f x -> match x86_reloc_one j m k with RGo m' | RErr _ m' => m' x = m x end).
      { intros x Nx. apply reloc_one_frame. rewrite Ro, Lc. intros D. apply Nx. exists i. split; [auto|]. split; [auto|]. exists k. fold o. split; [lia|]. exact D. }
      destruct I as [A P].
      assert (G : forall m1, (forall x, ~ reloc_field f x -> m1 x = m x) -> x86_inv m1).
      { intros m1 F. split; [intros x X1 X2; rewrite F by auto; auto|]. intros q Hq. rewrite <- P by auto. apply (ld_ext 8). intros x Hx. apply F.
        intros Y. apply RT in Y. apply (proj1 (proj2 Y)). unfold in_table. lia. }
      destruct (x86_reloc_one j m k); apply G; exact Fr. }
    destruct (x86_reloc_one j m k) as [m1|e1 m1].
    + apply (IH (k + 1) m1 er m'); auto; lia.
    + assert (m1 = m') by congruence. subst. auto.
Qed.

Lemma x86_reloc_safe : reloc_safe (x86_reloc hdr li) f hdr.
Proof.
  exists x86_inv. split; [|split].
  - intros m S P. split; auto.
  - intros m i er m' I Hi Ht H. unfold x86_reloc, x86_apply_relocate_add in H. cbn [xj_sechdrs xj_relsec] in H.
    eapply x86_loop; try exact H; auto; [lia|]. unfold sizeof_rela. rewrite Et.
    assert (Es : sh_size (section m (ld 8 f 40) i) = sh_size (section f (ld 8 f 40) i)).
    { apply (ld_ext 8). intros x Hx. apply x86_meta; auto. apply (header_meta f i); lia. }
    rewrite Es. assert (0 <= sh_size (section f (ld 8 f 40) i)) by (apply (ld_range 8); auto). pose proof (Z.div_pos (sh_size (section f (ld 8 f 40) i)) 24). lia.
  - intros m I x Hx. apply x86_meta; auto.
Qed.
End X86.
