(** A concrete process and patch files for the examples about applying and removing patches. *)
From Coq Require Import ZArith String List Bool Lia ZifyBool ZifyNat Permutation.
From Verif Require Import Word WordLemmas Str ElfDefs TextModel LdModel LdSpec LdProofs LdEx LdProps X86RelocModel ScModel ScSpec ScProofs ScProps PaModel PaSpec PaRead PaProofs PaMore PaKick PaLoad PaSess PaHist PaX86.
Import ListNotations.
Open Scope Z_scope.

(** The patch file of LdEx and the same with another build id. *)
Definition ex_file2 : list Z := Eval vm_compute in patch_list ex_file 200 [1; 2; 3; 4].
Definition ex_img2 : mem := of_bytes ex_file2.

Definition meta_ranges (x : Z) : Prop :=
  0 <= x < 64 \/ 136 <= x < 140 \/ 144 <= x < 167 \/ 184 <= x < 204 \/ 352 <= x < 478 \/
  exists j, 0 <= j < 11 /\ (480 + 64 * j <= x < 480 + 64 * j + 8 \/ 480 + 64 * j + 24 <= x < 480 + 64 * j + 64).
Definition value_ranges (x : Z) : Prop := exists k, 0 <= k < 4 /\ 232 + 24 * k + 8 <= x < 232 + 24 * k + 16.
Definition written_ranges (x : Z) : Prop :=
  value_ranges x \/ 80 <= x < 132 \/ 480 + 64 * 2 + 8 <= x < 480 + 64 * 2 + 16 \/ exists j, 0 <= j < 11 /\ 480 + 64 * j + 16 <= x < 480 + 64 * j + 24.

Definition on_all (m : mem) (P : mem -> Z -> bool) : bool := forallb (P m) [0; 1; 2; 3; 4; 5; 6; 7; 8; 9; 10].
Lemma on_all_ok m P : on_all m P = true -> forall j, 0 <= j < 11 -> P m j = true.
Proof. unfold on_all. cbn [forallb]. intros H. rewrite !andb_true_iff in H. use11; tauto. Qed.

Lemma not_named m s i j b : nth i (str s) 0 = b -> (i <= List.length (str s))%nat ->
  m (sh_offset (section m (ld 8 m 40) (ld 2 m 62)) + sh_name (section m (ld 8 m 40) j) + Z.of_nat i) <> b -> ~ sec_named m s j.
Proof.
  intros <- Hi N (_ & F & Z0). destruct (Nat.eq_dec i (List.length (str s))) as [->|Ne].
  - rewrite nth_overflow in N by lia. rewrite Z0 in N. auto.
  - rewrite F in N by lia. auto.
Qed.

(** Everything that matters is computed. *)
Definition layout (m : mem) : bool :=
  (ld 8 m 40 =? 480) && (ld 2 m 60 =? 11) && (ld 2 m 62 =? 10) && (m 477 =? 0) && (m 152 =? 0) && (m 159 =? 0) && (m 166 =? 0) &&
  (ld 4 m 184 =? 4) && (ld 4 m 188 =? 4) && ((0 <=? ld 8 m 208) && (ld 8 m 208 <=? 8)) && (sh_info (section m 480 7) =? 1) &&
  on_all m (fun m j => sh_offset (section m 480 j) =? nth (Z.to_nat j) [0; 64; 80; 144; 168; 176; 184; 208; 232; 328; 352] 0) &&
  on_all m (fun m j => Bool.eqb (sh_type (section m 480 j) =? SHT_SYMTAB) (j =? 8)) &&
  on_all m (fun m j => Bool.eqb (sh_type (section m 480 j) =? SHT_RELA) (j =? 7)) &&
  (sh_size (section m 480 7) =? 24) && (sh_size (section m 480 8) =? 96) &&
  on_all m (fun m j => (sh_name (section m 480 j) <=? 120) && (0 <=? sh_name (section m 480 j))) &&
  on_all m (fun m j => (j =? 2) || negb (m (352 + sh_name (section m 480 j) + 10) =? nth 10 (str ".ulpatch.info") 0) || negb (m (352 + sh_name (section m 480 j) + 1) =? nth 1 (str ".ulpatch.info") 0)) &&
  on_all m (fun m j => (j =? 3) || negb (m (352 + sh_name (section m 480 j) + 10) =? nth 10 (str ".ulpatch.strtab") 0) || negb (m (352 + sh_name (section m 480 j) + 1) =? nth 1 (str ".ulpatch.strtab") 0)) &&
  on_all m (fun m j => (j =? 6) || negb (m (352 + sh_name (section m 480 j) + 1) =? nth 1 (str ".note.gnu.build-id") 0)).

Section Layout.
Variable m : mem.
Hypothesis L : layout m = true.

Ltac facts := pose proof L as LL; unfold layout in LL; rewrite !andb_true_iff in LL; decompose [and] LL; clear LL;
  repeat match goal with H : (_ =? _) = true |- _ => apply Z.eqb_eq in H end.

Lemma lay_t : ld 8 m 40 = 480 /\ ld 2 m 60 = 11 /\ ld 2 m 62 = 10.
Proof. facts. auto. Qed.
Lemma lay_off j : 0 <= j < 11 -> sh_offset (section m 480 j) = nth (Z.to_nat j) [0; 64; 80; 144; 168; 176; 184; 208; 232; 328; 352] 0.
Proof. intros Hj. facts. match goal with H : on_all m (fun m j => sh_offset _ =? _) = true |- _ => pose proof (on_all_ok _ _ H j Hj) as Y; cbv beta in Y; apply Z.eqb_eq in Y; exact Y end. Qed.
Lemma off1 : sh_offset (section m 480 1) = 64. Proof. apply (lay_off 1). lia. Qed.
Lemma off2 : sh_offset (section m 480 2) = 80. Proof. apply (lay_off 2). lia. Qed.
Lemma off3 : sh_offset (section m 480 3) = 144. Proof. apply (lay_off 3). lia. Qed.
Lemma off6 : sh_offset (section m 480 6) = 184. Proof. apply (lay_off 6). lia. Qed.
Lemma off7 : sh_offset (section m 480 7) = 208. Proof. apply (lay_off 7). lia. Qed.
Lemma off8 : sh_offset (section m 480 8) = 232. Proof. apply (lay_off 8). lia. Qed.
Lemma off10 : sh_offset (section m 480 10) = 352. Proof. apply (lay_off 10). lia. Qed.
Lemma lay_name s i j : 0 <= j < 11 -> (i <= List.length (str s))%nat ->
  negb (m (352 + sh_name (section m 480 j) + Z.of_nat i) =? nth i (str s) 0) = true -> ~ sec_named m s j.
Proof.
  intros Hj Hi X. destruct lay_t as (T1 & T2 & T3). eapply not_named; [reflexivity|exact Hi|]. rewrite T1, T3, off10. apply negb_true_iff, Z.eqb_neq in X. exact X.
Qed.
Lemma lay_info j : 0 <= j < 11 -> sec_named m ".ulpatch.info" j -> j = 2.
Proof.
  intros Hj N. facts. match goal with H : on_all m (fun m j => (j =? 2) || _ || _) = true |- _ => pose proof (on_all_ok _ _ H j Hj) as X end. cbv beta in X.
  rewrite !orb_true_iff in X. destruct X as [[X|X]|X]; [lia|exfalso; apply (lay_name ".ulpatch.info" 10 j); auto; cbn; lia|exfalso; apply (lay_name ".ulpatch.info" 1 j); auto; cbn; lia].
Qed.
Lemma lay_strtab j : 0 <= j < 11 -> sec_named m ".ulpatch.strtab" j -> j = 3.
Proof.
  intros Hj N. facts. match goal with H : on_all m (fun m j => (j =? 3) || _ || _) = true |- _ => pose proof (on_all_ok _ _ H j Hj) as X end. cbv beta in X.
  rewrite !orb_true_iff in X. destruct X as [[X|X]|X]; [lia|exfalso; apply (lay_name ".ulpatch.strtab" 10 j); auto; cbn; lia|exfalso; apply (lay_name ".ulpatch.strtab" 1 j); auto; cbn; lia].
Qed.
Lemma lay_note j : 0 <= j < 11 -> sec_named m ".note.gnu.build-id" j -> j = 6.
Proof.
  intros Hj N. facts. match goal with H : on_all m (fun m j => (j =? 6) || _) = true |- _ => pose proof (on_all_ok _ _ H j Hj) as X end. cbv beta in X.
  rewrite !orb_true_iff in X. destruct X as [X|X]; [lia|exfalso; apply (lay_name ".note.gnu.build-id" 1 j); auto; cbn; lia].
Qed.

Lemma lay_meta x : meta_byte m x -> meta_ranges x.
Proof.
  unfold meta_byte. destruct lay_t as (-> & -> & ->). intros [A|(j & Hj & [A|[A|[(N & A)|[(N & A)|(N & A)]]]])]; unfold meta_ranges.
  - auto.
  - do 5 right. exists j. auto.
  - rewrite off10 in A. destruct A as [A1 A2]. facts.
    match goal with H : on_all m (fun m j => (sh_name _ <=? 120) && _) = true |- _ => pose proof (on_all_ok _ _ H j Hj) as X end. cbv beta in X.
    set (p := 352 + sh_name (section m 480 j)) in *. assert (Hp : 352 <= p <= 472) by (unfold p; lia). clearbody p. destruct (Z_le_gt_dec x 477); [do 4 right; left; lia|]. exfalso. apply (A2 477); [lia|auto].
  - pose proof (lay_info j Hj N). subst j. rewrite off2 in A. right. left. lia.
  - pose proof (lay_strtab j Hj N). subst j. rewrite off3 in A. destruct A as [A1 A2]. facts.
    destruct (Z_le_gt_dec x 166); [do 2 right; left; lia|]. exfalso. apply (A2 152 159 166); auto; lia.
  - pose proof (lay_note j Hj N). subst j. rewrite off6 in A. facts.
    change (184 + 4) with 188 in A. repeat match goal with H : ld 4 m _ = 4 |- _ => rewrite H in A; clear H end. do 3 right. left. lia.
Qed.

Lemma lay_value x : value_byte m x -> value_ranges x.
Proof.
  unfold value_byte. destruct lay_t as (-> & -> & _). intros (j & Hj & Ty & k & Hk & A). facts.
  match goal with H : on_all m (fun m j => eqb (sh_type _ =? SHT_SYMTAB) _) = true |- _ => pose proof (on_all_ok _ _ H j Hj) as X end. cbv beta in X.
  rewrite Ty, Z.eqb_refl in X. apply eqb_prop in X. assert (j = 8) by lia. subst j. rewrite off8 in A.
  repeat match goal with H : sh_size (section m 480 8) = _ |- _ => rewrite H in Hk; clear H end.
  exists k. change (96 / 24) with 4 in Hk. auto.
Qed.

Lemma lay_written x : written m x -> written_ranges x.
Proof.
  unfold written. intros [V|H]; [left; apply lay_value; auto|]. revert H. destruct lay_t as (-> & -> & _). intros (j & Hj & [A|(N & A)]).
  - do 3 right. exists j. auto.
  - pose proof (lay_info j Hj N). subst j. rewrite off2 in A. unfold written_ranges. right. destruct A; [right; left; lia|left; lia].
Qed.

Lemma lay_rela_sec j : 0 <= j < 11 -> sh_type (section m 480 j) = SHT_RELA -> j = 7.
Proof.
  intros Hj Ty. facts. match goal with H : on_all m (fun m j => eqb (sh_type _ =? SHT_RELA) _) = true |- _ => pose proof (on_all_ok _ _ H j Hj) as X end. cbv beta in X.
  rewrite Ty, Z.eqb_refl in X. apply eqb_prop in X. lia.
Qed.

Lemma lay_rela x : rela_byte m x -> 208 <= x < 232.
Proof.
  unfold rela_byte. destruct lay_t as (-> & -> & _). intros (j & Hj & Ty & k & Hk & A). pose proof (lay_rela_sec j Hj Ty). subst j. rewrite off7 in A. facts.
  repeat match goal with H : sh_size (section m 480 7) = _ |- _ => rewrite H in Hk; clear H end. change (24 / 24) with 1 in Hk.
  lia.
Qed.

Lemma lay_field x : reloc_field m x -> 64 <= x < 80.
Proof.
  unfold reloc_field. destruct lay_t as (-> & -> & _). intros (j & Hj & Ty & k & Hk & A). pose proof (lay_rela_sec j Hj Ty). subst j. facts.
  repeat match goal with H : sh_size (section m 480 7) = _ |- _ => rewrite H in Hk; clear H end. change (24 / 24) with 1 in Hk. assert (k = 0) by lia. subst k.
  repeat match goal with H : sh_info (section m 480 7) = _ |- _ => rewrite H in A; clear H end. rewrite off7, off1 in A.
  change (208 + 24 * 0) with 208 in A.
  rewrite Z.mod_small in A by lia. lia.
Qed.

Lemma lay_tidy len : well_formed m len -> 1184 <= len -> tidy m len.
Proof.
  intros W Hl. split; [auto|]. split.
  - intros x M. apply lay_meta in M. split; [destruct M as [M|[M|[M|[M|[M|(j & M)]]]]]; lia|]. intros Wr. apply lay_written in Wr. unfold meta_ranges, written_ranges, value_ranges in *.
    destruct Wr as [(k & Wr)|[Wr|[Wr|(k & Wr)]]]; destruct M as [M|[M|[M|[M|[M|(j & M)]]]]]; lia.
  - intros x V. apply lay_value in V. unfold in_table. destruct lay_t as (-> & -> & _). destruct V as (k & V). lia.
Qed.

Lemma lay_reloc : reloc_tidy m.
Proof.
  unfold reloc_tidy. split; [|split].
  - intros x F. apply lay_field in F. split; [|split].
    + intros M. apply lay_meta in M. destruct M as [M|[M|[M|[M|[M|(j & M)]]]]]; lia.
    + unfold in_table. destruct lay_t as (-> & -> & _). lia.
    + intros R. apply lay_rela in R. lia.
  - intros x R Wr. apply lay_rela in R. apply lay_written in Wr. destruct Wr as [(k & Wr)|[Wr|[Wr|(k & Wr)]]]; lia.
  - destruct lay_t as (-> & -> & _). intros i Hi Ty. pose proof (lay_rela_sec i Hi Ty). subst i. rewrite off7. facts.
    repeat match goal with H : sh_size (section m 480 7) = _ |- _ => rewrite H end. repeat match goal with H : sh_info (section m 480 7) = _ |- _ => rewrite H end.
    lia.
Qed.
End Layout.

Lemma bytes_ok l : forallb (fun b => (0 <=? b) && (b <? 256)) l = true -> byte_mem (of_bytes l).
Proof.
  intros H x. unfold of_bytes. destruct ((0 <=? x) && (x <? TextModel.len l)) eqn:E; [|lia].
  rewrite forallb_forall in H. specialize (H (nth (Z.to_nat x) l 0)). unfold TextModel.len in E. assert (X := H ltac:(apply nth_In; lia)). lia.
Qed.

Lemma ex_bytes : byte_mem ex_img. Proof. apply bytes_ok. vm_compute. reflexivity. Qed.
Lemma ex_bytes2 : byte_mem ex_img2. Proof. apply bytes_ok. vm_compute. reflexivity. Qed.
Lemma ex_layout : layout ex_img = true. Proof. vm_compute. reflexivity. Qed.
Lemma ex_layout2 : layout ex_img2 = true. Proof. vm_compute. reflexivity. Qed.

Lemma ex_wf2 : well_formed ex_img2 ex_len.
Proof.
  assert (N : ld 2 ex_img2 60 = 11) by (vm_compute; reflexivity). constructor.
  - vm_compute. repeat split; discriminate.
  - vm_compute. reflexivity.
  - rewrite N. use11; exists 477; vm_compute; repeat split; discriminate.
  - rewrite N. use11; intros _; vm_compute; discriminate.
  - rewrite N. use11; intros (_ & F & _); pose proof (F 1%nat ltac:(vm_compute; lia)) as F1; specialize (F 10%nat ltac:(vm_compute; lia));
      first [vm_compute in F; discriminate F|vm_compute in F1; discriminate F1|exists 152, 159; vm_compute; repeat split; discriminate].
  - rewrite N. use11; intros (_ & F & _); specialize (F 1%nat ltac:(vm_compute; lia));
      first [vm_compute in F; discriminate F|vm_compute; discriminate].
  - rewrite N. use11; intros F; first [vm_compute in F; discriminate F|vm_compute; reflexivity].
Qed.
Lemma ex_tidy : tidy ex_img ex_len. Proof. apply lay_tidy; [apply ex_layout|apply C82_ex|vm_compute; discriminate]. Qed.
Lemma ex_tidy2 : tidy ex_img2 ex_len. Proof. apply lay_tidy; [apply ex_layout2|apply ex_wf2|vm_compute; discriminate]. Qed.
Definition ex_li2 : linfo := Li 480 352 2 80 153 160 168 176 (Some (str "01020304")) 8 328.
Lemma ex_setup2 : setup_load_info ex_img2 ex_len = Some (inr ex_li2). Proof. vm_compute. reflexivity. Qed.

Lemma lay_safe m len hdr li : byte_mem m -> layout m = true -> well_formed m len -> 1184 <= len -> setup_load_info m len = Some (inr li) -> reloc_safe (x86_reloc hdr li) m hdr.
Proof.
  intros Hb L W Hl S. apply x86_reloc_safe; auto; [|apply lay_reloc; auto|].
  - destruct (setup_facts _ _ _ Hb S) as (-> & _). reflexivity.
  - intros x M. apply (lay_tidy m L len W Hl). auto.
Qed.
