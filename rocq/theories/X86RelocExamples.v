(** Concrete images used to show that the hypotheses of the x86-64 relocation
    theorems can be met, and as witnesses. *)
From Coq Require Import ZArith List Bool Lia.
From Coq Require Import ZifyBool ZifyNat.
From Verif Require Import Word WordLemmas ElfDefs X86RelocModel X86RelocSpec.
Import ListNotations.
Open Scope Z_scope.

(** A memory holding the byte list [l] at [base] and zero elsewhere. *)
Definition mem_of (base : Z) (l : list Z) : mem :=
  fun x => if x <? base then 0 else nth (Z.to_nat (x - base)) l 0.

Lemma mem_of_bytes base l : Forall (fun b => 0 <= b < 256) l -> byte_mem (mem_of base l).
Proof.
  intros H x. unfold mem_of. destruct (x <? base); [lia|].
  destruct (nth_in_or_default (Z.to_nat (x - base)) l 0) as [Hin| ->]; [|lia].
  rewrite Forall_forall in H. apply H; auto.
Qed.

Definition enc_rela (r : rela) : list Z :=
  le_bytes 8 (ra_off r) ++ le_bytes 8 (ra_sym r * 2 ^ 32 + ra_ty r) ++ le_bytes 8 (ra_add r).

Definition enc_sym (v : Z) : list Z := le_bytes 8 0 ++ le_bytes 8 v ++ le_bytes 8 0.

(** Relocation table at offset 0, symbol table behind it, one section of 64
    zero bytes behind that. *)
Definition ex_image (rels : list rela) (syms : list Z) (sec : list Z) : list Z :=
  flat_map enc_rela rels ++ flat_map enc_sym syms ++ sec.

Definition ex_hdr := 0x7f1234560000.
Definition ex_target := 0x400000.

Definition ex_pi (rels : list rela) (syms : list Z) (sec : list Z) : placed_image :=
  {| pi_hdr := ex_hdr; pi_target := ex_target;
     pi_len := Z.of_nat (length (ex_image rels syms sec));
     pi_rel_off := 0; pi_sym_off := 24 * Z.of_nat (length rels);
     pi_sec_off := 24 * Z.of_nat (length rels) + 24 * Z.of_nat (length syms);
     pi_rels := rels |}.

Definition ex_mem rels syms sec := mem_of ex_hdr (ex_image rels syms sec).

(** Section 1 = relocations for section 3, section 2 = symbols. *)
Definition ex_job (pi : placed_image) : x86_job :=
  {| xj_hdr := pi_hdr pi; xj_target_hdr := pi_target pi;
     xj_sechdrs := fun i =>
       if i =? 1 then Shdr 0 4 0 (pi_target pi + pi_rel_off pi) 0 (24 * Z.of_nat (length (pi_rels pi))) 2 3 0 24
       else if i =? 2 then Shdr 0 2 0 (pi_target pi + pi_sym_off pi) 0 0 0 0 0 24
       else Shdr 0 1 2 (pi_target pi + pi_sec_off pi) 0 0 0 0 0 0;
     xj_symindex := 2; xj_relsec := 1 |}.

Lemma ex_describes pi : describes (ex_job pi) pi.
Proof.
  constructor; try reflexivity.
  change (24 * Z.of_nat (length (pi_rels pi)) / 24 = Z.of_nat (length (pi_rels pi))).
  rewrite Z.mul_comm, Z.div_mul by lia. reflexivity.
Qed.

(** Image 1: a 64, a 32, a 32S, a PC32, a PLT32 and a PC64 relocation. *)
Definition ex1_rels : list rela :=
  [ Rela 0 1 1 16; Rela 8 2 10 0; Rela 12 2 11 (-4); Rela 16 1 2 (-4);
    Rela 20 2 4 (-4); Rela 24 1 24 5 ].
Definition ex1_syms := [0; 0x40abcd; 0x401000].
Definition ex1_sec := repeat 0 64.
Definition ex1_pi := ex_pi ex1_rels ex1_syms ex1_sec.
Definition ex1_mem := ex_mem ex1_rels ex1_syms ex1_sec.

(** Image 2: one PC32 relocation to a function far away. *)
Definition ex2_rels : list rela := [ Rela 0 1 2 (-4) ].
Definition ex2_syms := [0; 0x7f0000000000].
Definition ex2_sec := repeat 0 8.
Definition ex2_pi := ex_pi ex2_rels ex2_syms ex2_sec.
Definition ex2_mem := ex_mem ex2_rels ex2_syms ex2_sec.

(** Image 3: the second field is already relocated. *)
Definition ex3_rels : list rela := [ Rela 0 1 1 0; Rela 8 1 1 0 ].
Definition ex3_syms := [0; 0x401000].
Definition ex3_sec := [0;0;0;0;0;0;0;0; 1;2;3;4;5;6;7;8].
Definition ex3_pi := ex_pi ex3_rels ex3_syms ex3_sec.
Definition ex3_mem := ex_mem ex3_rels ex3_syms ex3_sec.

(** A boolean check that implies [image_ok]. *)
Definition disjointb (a n b k : Z) : bool :=
  (n =? 0) || (k =? 0) || (a + n <=? b) || (b + k <=? a).

Definition rela_inb (m : mem) (p : Z) (r : rela) : bool :=
  (ld 8 m p =? ra_off r) && (ld 8 m (p + 8) =? ra_sym r * 2 ^ 32 + ra_ty r) &&
  (ld 8 m (p + 16) =? u64 (ra_add r)) && (0 <=? ra_ty r) && (ra_ty r <? 2 ^ 32) &&
  (0 <=? ra_sym r) && (0 <=? ra_off r).

Definition idx {A} (l : list A) : list (nat * A) := combine (seq 0 (length l)) l.

Definition image_okb (m : mem) (pi : placed_image) : bool :=
  (0 <=? pi_hdr pi) && (pi_hdr pi + pi_len pi <=? 2 ^ 64) &&
  (0 <=? pi_target pi) && (pi_target pi + pi_len pi <=? 2 ^ 64) &&
  (0 <=? pi_rel_off pi) && (0 <=? pi_sym_off pi) && (0 <=? pi_sec_off pi) &&
  (pi_rel_off pi + 24 * Z.of_nat (length (pi_rels pi)) <=? pi_len pi) &&
  forallb (fun ir => let '(i, r) := ir in
    rela_inb m (pi_hdr pi + pi_rel_off pi + 24 * Z.of_nat i) r &&
    (field_off pi r + field_width (ra_ty r) <=? pi_len pi) &&
    (field_off pi r <? pi_len pi) &&
    (pi_sym_off pi + 24 * ra_sym r + 24 <=? pi_len pi)) (idx (pi_rels pi)) &&
  forallb (fun ir => forallb (fun kq => Nat.eqb (fst ir) (fst kq) ||
    disjointb (field_off pi (snd ir)) (field_width (ra_ty (snd ir)))
              (field_off pi (snd kq)) (field_width (ra_ty (snd kq)))) (idx (pi_rels pi)))
    (idx (pi_rels pi)) &&
  forallb (fun r => disjointb (field_off pi r) (field_width (ra_ty r))
             (pi_rel_off pi) (24 * Z.of_nat (length (pi_rels pi)))) (pi_rels pi) &&
  forallb (fun r => forallb (fun q => disjointb (field_off pi r) (field_width (ra_ty r))
             (pi_sym_off pi + 24 * ra_sym q) 24) (pi_rels pi)) (pi_rels pi).

Lemma disjointb_ok a n b k : disjointb a n b k = true -> disjoint a n b k.
Proof. unfold disjointb, disjoint. lia. Qed.

Lemma idx_in {A} (l : list A) i r : nth_error l i = Some r -> In (i, r) (idx l).
Proof.
  unfold idx. intros H.
  assert (G : forall (l : list A) s i, nth_error l i = Some r ->
            In ((s + i)%nat, r) (combine (seq s (length l)) l)).
  { clear. induction l as [|a l IH]; intros s i H; [destruct i; discriminate|].
    destruct i as [|i]; simpl in *.
    - injection H as ->. left. f_equal; lia.
    - right. replace (s + S i)%nat with (S s + i)%nat by lia. apply IH; auto. }
  apply (G l 0%nat i H).
Qed.

Lemma image_okb_ok m pi : byte_mem m -> image_okb m pi = true -> image_ok m pi.
Proof.
  intros Hb H. unfold image_okb in H.
  repeat match goal with H : _ && _ = true |- _ => apply andb_true_iff in H; destruct H end.
  repeat match goal with H : (_ <=? _) = true |- _ => apply Z.leb_le in H end.
  rewrite forallb_forall in *.
  constructor; auto.
  - intros i r Hi. apply idx_in in Hi.
    match goal with H : forall x, In x (idx _) -> (let '(_, _) := x in _) = true |- _ =>
      specialize (H _ Hi); cbv beta iota in H end.
    repeat match goal with H : _ && _ = true |- _ => apply andb_true_iff in H; destruct H end.
    unfold rela_in, rela_inb in *.
    repeat match goal with H : _ && _ = true |- _ => apply andb_true_iff in H; destruct H end.
    repeat match goal with
           | H : (_ <=? _) = true |- _ => apply Z.leb_le in H
           | H : (_ <? _) = true |- _ => apply Z.ltb_lt in H
           | H : (_ =? _) = true |- _ => apply Z.eqb_eq in H end.
    repeat split; assumption.
  - intros i k r q Hi Hk Hne. apply idx_in in Hi. apply idx_in in Hk.
    match goal with H : forall x, In x (idx _) -> forallb _ _ = true |- _ =>
      specialize (H _ Hi); rewrite forallb_forall in H; specialize (H _ Hk) end.
    apply disjointb_ok. simpl in *.
    match goal with H : (_ =? _)%nat || _ = true |- _ =>
      apply orb_true_iff in H; destruct H as [Hx|Hx] end; auto.
    apply Nat.eqb_eq in Hx. congruence.
  - intros r Hr. apply disjointb_ok.
    match goal with H : forall x, In x (pi_rels _) -> disjointb _ _ _ _ = true |- _ => apply H; auto end.
  - intros r q Hr Hq. apply disjointb_ok.
    match goal with H : forall x, In x (pi_rels _) -> forallb _ _ = true |- _ =>
      specialize (H _ Hr); rewrite forallb_forall in H; apply H; auto end.
Qed.

Definition bytesb (l : list Z) : bool := forallb (fun b => (0 <=? b) && (b <? 256)) l.
Lemma bytesb_ok l : bytesb l = true -> Forall (fun b => 0 <= b < 256) l.
Proof.
  unfold bytesb. rewrite forallb_forall, Forall_forall. intros H x Hx. specialize (H x Hx). lia.
Qed.

Lemma ex1_ok : image_ok ex1_mem ex1_pi.
Proof. apply image_okb_ok; [apply mem_of_bytes, bytesb_ok|]; vm_compute; reflexivity. Qed.
Lemma ex2_ok : image_ok ex2_mem ex2_pi.
Proof. apply image_okb_ok; [apply mem_of_bytes, bytesb_ok|]; vm_compute; reflexivity. Qed.
Lemma ex3_ok : image_ok ex3_mem ex3_pi.
Proof. apply image_okb_ok; [apply mem_of_bytes, bytesb_ok|]; vm_compute; reflexivity. Qed.

(** Image 4: a 32-bit absolute relocation to an address above 4 GiB. *)
Definition ex4_rels : list rela := [ Rela 0 1 10 0 ].
Definition ex4_pi := ex_pi ex4_rels ex2_syms ex2_sec.
Definition ex4_mem := ex_mem ex4_rels ex2_syms ex2_sec.
Lemma ex4_ok : image_ok ex4_mem ex4_pi.
Proof. apply image_okb_ok; [apply mem_of_bytes, bytesb_ok|]; vm_compute; reflexivity. Qed.

(** Image 5: a relocation of a type that is not handled (R_X86_64_RELATIVE). *)
Definition ex5_rels : list rela := [ Rela 0 1 8 0 ].
Definition ex5_pi := ex_pi ex5_rels ex2_syms ex2_sec.
Definition ex5_mem := ex_mem ex5_rels ex2_syms ex2_sec.
Lemma ex5_ok : image_ok ex5_mem ex5_pi.
Proof. apply image_okb_ok; [apply mem_of_bytes, bytesb_ok|]; vm_compute; reflexivity. Qed.
