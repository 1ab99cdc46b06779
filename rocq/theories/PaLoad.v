(** load_patch: the image, the record and the function at every step. *)
From Coq Require Import ZArith String List Bool Lia ZifyBool ZifyNat.
From Verif Require Import Word WordLemmas Str ElfDefs TextModel LdModel LdSpec LdProofs LdSyms LdMore ScModel ScSpec ScProofs PaModel PaSpec PaRead PaProofs PaMore PaKick.
Import ListNotations.
Open Scope Z_scope.

Lemma find_symtab_inv img len t n : forall i r, find_symtab img len t i n = Some (Some r) ->
  i <= fst r < i + Z.of_nat n /\ sh_type (section img t (fst r)) = SHT_SYMTAB.
Proof.
  induction n as [|n IH]; intros i r H; cbn [find_symtab] in H; [discriminate|]. ob H. pose proof (rd_inv _ _ _ _ _ E) as (Ez & _).
  destruct (Z.eqb_spec z SHT_SYMTAB) as [Ey|Ny].
  - ob H. ob H. assert (r = (i, z1)) by congruence. subst r. cbn [fst]. split; [lia|]. rewrite <- Ey, Ez. reflexivity.
  - apply IH in H. destruct H as [A B]. split; [lia|auto].
Qed.

(** ** What setup_load_info found *)
Lemma setup_facts m l li : byte_mem m -> setup_load_info m l = Some (inr li) ->
  li_sechdrs li = ld 8 m 40 /\
  (1 <= li_info_idx li < ld 2 m 60 /\ sec_named m ".ulpatch.info" (li_info_idx li) /\
     (forall i, 0 <= i < li_info_idx li -> ~ sec_named m ".ulpatch.info" i) /\
     li_info li = sh_offset (section m (ld 8 m 40) (li_info_idx li))) /\
  (1 <= li_sym li < ld 2 m 60 /\ sh_type (section m (ld 8 m 40) (li_sym li)) = SHT_SYMTAB) /\
  exists j src, 1 <= j < ld 2 m 60 /\ sec_named m ".ulpatch.strtab" j /\ (forall i, 0 <= i < j -> ~ sec_named m ".ulpatch.strtab" i) /\
    let o := sh_offset (section m (ld 8 m 40) j) in
    string_at m o SEC_MAGIC /\ string_at m (o + 9) src /\ li_src li = o + 9 /\ li_dst li = o + 9 + Z.of_nat (List.length src) + 1.
Proof.
  intros Hb H. unfold setup_load_info, e_shoff, e_shstrndx in H. cbv zeta in H.
  ob H. apply rd_inv in E. destruct E as (-> & _).
  ob H. apply rd_inv in E. destruct E as (-> & _).
  ob H. apply rd_inv in E. destruct E as (-> & _).
  change (ld 8 m (sec (ld 8 m 40) (ld 2 m 62) + 24)) with (sh_offset (section m (ld 8 m 40) (ld 2 m 62))) in H.
  assert (FS : forall name r, ~ In 0 (str name) -> find_sec m l (ld 8 m 40) (sh_offset (section m (ld 8 m 40) (ld 2 m 62))) (str name) = Some r ->
               r <> 0 -> 1 <= r < ld 2 m 60 /\ sec_named m name r /\ forall i, 0 <= i < r -> ~ sec_named m name i).
  { intros name q N E Nr. destruct (find_sec_spec m l _ _ (str name) q N E) as [B C].
    assert (X0 : ~ string_at m (sh_offset (section m (ld 8 m 40) (ld 2 m 62)) + sh_name (section m (ld 8 m 40) 0)) (str name)) by (intros X; apply Nr, B, X).
    destruct (C X0) as [D _]. destruct (D Nr) as (F & G & K). split; auto. }
  ob H. pose proof (FS ".ulpatch.info"%string _ ltac:(no0) E) as Pi. clear E. destruct (Z.eqb_spec z 0) as [|Zi]; [discriminate|]. specialize (Pi Zi).
  ob H. apply rd_inv in E. destruct E as (-> & _). ob H. clear E. destruct (negb (z0 =? ULPATCH_FILE_VERSION)); [discriminate|].
  ob H. pose proof (FS ".ulpatch.strtab"%string _ ltac:(no0) E) as Ps. clear E. destruct (Z.eqb_spec z1 0) as [|Zs]; [discriminate|]. specialize (Ps Zs).
  ob H. apply rd_inv in E. destruct E as (-> & _).
  ob H. clear E. destruct (z2 =? 0); [discriminate|]. ob H. clear E.
  ob H. clear E. destruct (z4 =? 0); [discriminate|]. ob H. clear E.
  ob H. clear E. destruct (z6 =? 0); [discriminate|]. ob H. clear E. destruct (negb (z7 =? SHT_NOTE)); [discriminate|].
  ob H. clear E. ob H. clear E. ob H. clear E.
  ob H. destruct p as [[err src] dst]. apply parse_strtab_inv in E.
  destruct (negb (err =? 0)) eqn:Ee; [discriminate|]. destruct E as [(_ & Sm & s & S1 & S2 & S3)|(X & _)]; [|subst err; unfold ENOENT in Ee; lia].
  ob H. pose proof (e_shnum_val _ _ _ E) as ->. ob H. destruct o0 as [[sym strtab]|]; [|discriminate].
  apply find_symtab_inv in E0. cbn [fst] in E0. assert (Hli := some_inj _ _ H). assert (Hl : li = Li (ld 8 m 40) (sh_offset (section m (ld 8 m 40) (ld 2 m 62))) z (ld 8 m (sec (ld 8 m 40) z + 24)) src dst z3 z5 o sym strtab) by congruence.
  clear H Hli. subst li. cbn [li_sechdrs li_info_idx li_info li_sym li_src li_dst].
  assert (N0 : 0 <= ld 2 m 60) by (apply ld_range; auto).
  split; [reflexivity|]. split; [|split].
  - destruct Pi as (A & B & C). split; [lia|]. split; [exact B|]. split; [exact C|reflexivity].
  - destruct E0 as [A B]. split; [lia|auto].
  - destruct Ps as (A & B & C). exists z1, s. split; [lia|]. split; auto. split; auto. cbv zeta.
    change (ld 8 m (sec (ld 8 m 40) z1 + 24)) with (sh_offset (section m (ld 8 m 40) z1)) in *. subst src. split; auto.
Qed.

(** ** The steps write only what [written] says *)
Section Steps.
Variable f : mem.
Variable len : Z.
Variable li : linfo.
Hypothesis Hb : byte_mem f.
Hypothesis T : tidy f len.
Hypothesis SU : setup_load_info f len = Some (inr li).

Definition agrees (m : mem) : Prop := forall x, meta_byte f x -> m x = f x.

Lemma outside_agrees m : same_outside (written f) f m -> agrees m.
Proof. intros S x Hx. apply S. destruct T as (_ & D & _). apply D. auto. Qed.

Lemma header_meta j x : 0 <= j < ld 2 f 60 ->
  ld 8 f 40 + 64 * j <= x < ld 8 f 40 + 64 * j + 8 \/ ld 8 f 40 + 64 * j + 24 <= x < ld 8 f 40 + 64 * j + 64 -> meta_byte f x.
Proof. intros Hj Hx. right. exists j. auto. Qed.

Lemma rewrite_step hdr err m : rewrite_section_headers f len hdr li = Some (err, m) ->
  same_outside (written f) f m /\ (err = 0 -> placed f hdr m).
Proof.
  intros H. destruct (setup_facts _ _ _ Hb SU) as (Et & (I1 & I2 & I3 & I4) & (S1 & S2) & _).
  destruct T as [W _]. pose proof (wf_table _ _ W) as Tb. rewrite <- Et in Tb.
  destruct (rewrite_spec _ _ _ _ _ _ _ eq_refl Tb ltac:(lia) ltac:(lia) H) as [A B]. rewrite Et in *. split.
  - intros x Hx. apply A. intros (j & Hj & D). apply Hx. right. exists j. split; auto. unfold addr_field in D. destruct D as [D|(-> & D)]; [left; lia|].
    right. split; auto.
  - intros E0 j Hj. destruct (B E0 j ltac:(lia)) as (_ & _ & C). cbv zeta in C. apply (f_equal sh_addr) in C.
    destruct (j =? li_info_idx li); exact C.
Qed.

Lemma simplify_loop_frame lookup n : forall m p ret ret' m',
  simplify_loop lookup m len li p n ret = Some (ret', m') ->
  forall x, ~ (exists k, 0 <= k < Z.of_nat n /\ p + 24 * k + 8 <= x < p + 24 * k + 16) -> m' x = m x.
Proof.
  induction n as [|n IH]; intros m p ret ret' m' H x Hx; cbn [simplify_loop] in H.
  - apply some_pair2 in H. destruct H as [_ <-]. reflexivity.
  - ob H. destruct p0 as [r1 m1]. apply IH with (x := x) in H.
    2:{ intros (k & Hk & D). apply Hx. exists (k + 1). unfold sizeof_sym in D. split; lia. }
    rewrite H. assert (F : ~ (p + 8 <= x < p + 16)) by (intros D; apply Hx; exists 0; split; lia).
    clear - E F. unfold simplify_one in E. ob E. ob E. ob E. cbv zeta in E.
    destruct (z1 =? SHN_COMMON). { ob E. apply some_pair2 in E. destruct E as [_ <-]. reflexivity. }
    destruct (z1 =? SHN_ABS). { apply some_pair2 in E. destruct E as [_ <-]. reflexivity. }
    destruct (z1 =? SHN_UNDEF).
    + ob E. destruct (resolve_symbol lookup l =? 0). { destruct (st_bind z0 =? STB_WEAK); apply some_pair2 in E; destruct E as [_ <-]; reflexivity. }
      ob E. apply wr_inv in E4. destruct E4 as (-> & _). apply some_pair2 in E. destruct E as [_ <-]. apply st_out. lia.
    + ob E. ob E. ob E. apply wr_inv in E5. destruct E5 as (-> & _). apply some_pair2 in E. destruct E as [_ <-]. apply st_out. lia.
Qed.

Lemma simplify_step lookup hdr m ret m' : same_outside (written f) f m -> placed f hdr m ->
  simplify_symbols lookup m len hdr li = Some (ret, m') -> same_outside (written f) f m' /\ placed f hdr m'.
Proof.
  intros So Pl H. destruct (setup_facts _ _ _ Hb SU) as (Et & _ & (S1 & S2) & _).
  assert (Ea : ld 8 m (ld 8 f 40 + 64 * li_sym li + 16) = u64 (hdr + sh_offset (section f (ld 8 f 40) (li_sym li)))) by (apply Pl; lia).
  unfold simplify_symbols, symtab_off, symtab_num, g_addr, g_size in H. ob H. ob E. apply rd_inv in E0. destruct E0 as (-> & _).
  ob H. ob E0. apply rd_inv in E1. destruct E1 as (-> & _). rewrite Et in *. unfold sec, sizeof_shdr, sizeof_sym in *.
  rewrite Ea in E. apply some_inj in E, E0. subst z z0.
  assert (Es : ld 8 m (ld 8 f 40 + 64 * li_sym li + 32) = sh_size (section f (ld 8 f 40) (li_sym li))).
  { apply ld_ext. intros x Hx. apply outside_agrees; auto. apply (header_meta (li_sym li)); lia. }
  rewrite Es in H.
  assert (Eo : u64 (u64 (hdr + sh_offset (section f (ld 8 f 40) (li_sym li))) - hdr) = sh_offset (section f (ld 8 f 40) (li_sym li))).
  { unfold u64, wrap. rewrite Zminus_mod_idemp_l. replace (hdr + sh_offset (section f (ld 8 f 40) (li_sym li)) - hdr) with (sh_offset (section f (ld 8 f 40) (li_sym li))) by lia.
    apply Z.mod_small. apply (ld_range 8). auto. }
  rewrite Eo in H.
  assert (G : forall x, ~ value_byte f x -> m' x = m x).
  { intros x Hx. apply (simplify_loop_frame _ _ _ _ _ _ _ H x).
    intros (k & Hk & D). apply Hx. exists (li_sym li). split; [lia|]. split; auto. exists (k + 1). split; lia. }
  split.
  - intros x Hx. rewrite G; [apply So; auto|]. intros Y. apply Hx. left. auto.
  - intros j Hj. rewrite <- Pl by auto. apply ld_ext. intros x Hx. apply G. intros Y. destruct T as (_ & _ & T3). apply (T3 x Y). unfold in_table. lia.
Qed.

Lemma apply_loop_keeps reloc (Inv : mem -> Prop) k :
  (forall m i er m', Inv m -> 0 <= i < ld 2 f 60 -> sh_type (section f (ld 8 f 40) i) = SHT_RELA -> reloc m i = (er, m') -> Inv m') ->
  (forall m, Inv m -> agrees m) ->
  forall m i err err' m', Inv m -> 0 <= i -> i + Z.of_nat k <= ld 2 f 60 ->
    apply_loop reloc m len (ld 2 f 60) li i k err = Some (err', m') -> Inv m'.
Proof.
  intros P Ag. destruct (setup_facts _ _ _ Hb SU) as (Et & _).
  induction k as [|k IH]; intros m i err err' m' I I0 I1 H; cbn [apply_loop] in H.
  - apply some_pair2 in H. destruct H as [_ <-]. auto.
  - assert (Rc : forall err m', apply_loop reloc m len (ld 2 f 60) li (i + 1) k err = Some (err', m') -> Inv m').
    { intros er1 m1 H1. apply (IH m (i + 1) er1 err' m1); auto; lia. }
    ob H. destruct (ld 2 f 60 <=? z); [eauto|]. ob H. destruct (_ =? 0); [eauto|]. ob H. apply rd_inv in E1. destruct E1 as (Ez & _).
    destruct (z1 =? SHT_REL). { apply some_pair2 in H. destruct H as [_ <-]. auto. }
    destruct (if z1 =? SHT_RELA then reloc m i else (err, m)) as [e1 m1] eqn:Er.
    assert (J1 : Inv m1).
    { destruct (Z.eqb_spec z1 SHT_RELA) as [Ey|]; [|congruence]. apply (P m i e1 m1); auto; [lia|]. rewrite <- Ey, Ez, Et. unfold sec, sizeof_shdr.
      apply (ld_ext 4). intros x Hx. symmetry. apply (Ag m I). apply (header_meta i); lia. }
    destruct (e1 <? 0). { apply some_pair2 in H. destruct H as [_ <-]. auto. } apply (IH m1 (i + 1) e1 err' m'); auto; lia.
Qed.

Lemma apply_step reloc hdr m err m' : reloc_safe reloc f hdr -> same_outside (written f) f m -> placed f hdr m ->
  apply_relocations reloc m len li = Some (err, m') -> agrees m'.
Proof.
  intros (Inv & A & B & C) So Pl H. unfold apply_relocations in H. ob H. apply e_shnum_val in E.
  assert (Ez : z = ld 2 f 60). { rewrite E. apply ld_ext. intros x Hx. apply outside_agrees; auto. left. lia. } clear E. subst z.
  assert (N0 : 0 <= ld 2 f 60) by (apply ld_range; auto).
  intros x Hx. apply C; auto. refine (apply_loop_keeps reloc Inv _ B C m _ _ _ _ _ _ _ H); [apply A; auto|lia|lia].
Qed.

(** The name of the function to be replaced, read from the image. *)
Lemma dst_name m dst : agrees m -> string_at m (li_dst li) dst -> exists src, redirects f src dst.
Proof.
  intros A S. destruct (setup_facts _ _ _ Hb SU) as (_ & _ & _ & j & src & J1 & J2 & J3 & J). cbv zeta in J.
  destruct J as (Sm & Ss & _ & Ed). exists src. exists j. split; [lia|]. split; auto. split; auto. cbv zeta. split; [exact Sm|]. split; [exact Ss|].
  rewrite <- Ed. set (o := sh_offset (section f (ld 8 f 40) j)) in *.
  assert (G : forall x, li_dst li <= x -> (forall z, li_dst li <= z < x -> f z <> 0) -> m x = f x).
  { intros x Hx Nz. apply A. right. exists j. split; [lia|]. right. right. right. left. split; auto. fold o. split; [lia|].
    intros z1 z2 z3 H1 H2 H3 H4 (Y1 & Y2 & Y3).
    assert (In1 : forall a s x, string_at f a s -> a <= x < a + Z.of_nat (List.length s) -> f x <> 0).
    { intros a s y (Nz' & F & _) Hy X. apply Nz'. specialize (F (Z.to_nat (y - a)) ltac:(lia)).
      replace (a + Z.of_nat (Z.to_nat (y - a))) with y in F by lia. rewrite X in F. rewrite F. apply nth_In. lia. }
    change (Z.of_nat (List.length SEC_MAGIC)) with 8 in *.
    pose proof (fun y => In1 o SEC_MAGIC y Sm) as N1. change (Z.of_nat (List.length SEC_MAGIC)) with 8 in N1.
    pose proof (fun y => In1 (o + 9) src y Ss) as N2. pose proof (fun y => Nz y) as N3.
    destruct (Z_lt_le_dec z1 (o + 8)); [apply (N1 z1); auto; lia|].
    destruct (Z_lt_le_dec z2 (o + 9 + Z.of_nat (List.length src))); [apply (N2 z2); auto; lia|].
    apply (N3 z3); auto. lia. }
  destruct S as (Nd & F & Z0).
  assert (Q : forall k : nat, (k <= List.length dst)%nat -> m (li_dst li + Z.of_nat k) = f (li_dst li + Z.of_nat k)).
  { intros k. induction k as [k IH] using lt_wf_ind. intros Hk. apply G; [lia|]. intros z Hz X.
    assert (Ek : z = li_dst li + Z.of_nat (Z.to_nat (z - li_dst li))) by lia. rewrite Ek in X.
    rewrite <- (IH (Z.to_nat (z - li_dst li))) in X by lia. rewrite F in X by lia. apply Nd. rewrite <- X. apply nth_In. lia. }
  split; auto. split.
  - intros i Hi. rewrite <- Q by lia. auto.
  - rewrite <- Q by lia. auto.
Qed.

Lemma info_is : info_at f (li_info li) /\ forall i, info_at f i -> i = li_info li.
Proof.
  destruct (setup_facts _ _ _ Hb SU) as (_ & (I1 & I2 & I3 & I4) & _). split.
  - exists (li_info_idx li). split; [lia|]. auto.
  - intros i (j & J1 & J2 & J3 & ->). rewrite I4. f_equal. f_equal.
    destruct (Z.lt_trichotomy j (li_info_idx li)) as [L|[L|L]]; auto; exfalso; [apply (I3 j)|apply (J3 (li_info_idx li))]; auto; lia.
Qed.

Lemma record_written x : li_info li <= x < li_info li + 52 -> written f x.
Proof.
  intros Hx. destruct (setup_facts _ _ _ Hb SU) as (_ & (I1 & I2 & I3 & I4) & _). right. exists (li_info_idx li). split; [lia|]. right. split; auto. right. lia.
Qed.
Lemma record_not_meta x : li_info li <= x < li_info li + 52 -> ~ meta_byte f x.
Proof. intros Hx M. destruct T as (_ & D & _). destruct (D x M) as [_ N]. apply N, record_written, Hx. Qed.

Lemma solve_step lookup m mx now r m' id : agrees m -> solve_patch_symbols lookup m len li mx now = Some (r, m', id) ->
  agrees m' /\ (r = 0 -> id = (mx + 1) mod 2 ^ 32 /\
    exists src dst taddr, redirects f src dst /\ lookup dst = Some taddr /\
      ld 4 m' (li_info li) = id /\ ld 8 m' (li_info li + 20) = taddr mod 2 ^ 64).
Proof.
  intros A H. apply solve_spec in H. destruct H as (src & dst & Ss & Sd & H). cbv zeta in H.
  destruct H as [(-> & -> & -> & _)|(-> & Eid & taddr & k & L & _ & _ & _ & Em)].
  - split; auto. unfold ENOENT. discriminate.
  - split.
    + intros x Hx. assert (N : ~ (li_info li <= x < li_info li + 52)) by (intros Y; eapply record_not_meta; eauto).
      rewrite Em. rewrite !st_out by lia. auto.
    + intros _. split; auto. destruct (dst_name m dst A Sd) as [src' R]. exists src', dst, taddr. split; auto. split; auto. split.
      * rewrite Em. rewrite !ld_st_disj by lia. replace (li_info li + 0) with (li_info li) by lia. rewrite (ld_st 4). rewrite Eid.
        change (8 * Z.of_nat 4) with 32. apply Z.mod_mod. lia.
      * rewrite Em. rewrite ld_st_disj by lia. rewrite (ld_st 8). apply Z.mod_mod. lia.
Qed.
End Steps.

Lemma redirects_fun f s1 d1 s2 d2 : redirects f s1 d1 -> redirects f s2 d2 -> d1 = d2.
Proof.
  intros (j1 & A1 & B1 & C1 & D1 & E1 & F1) (j2 & A2 & B2 & C2 & D2 & E2 & F2).
  assert (j1 = j2). { destruct (Z.lt_trichotomy j1 j2) as [L|[L|L]]; auto; exfalso; [apply (C2 j1)|apply (C1 j2)]; auto; lia. }
  subst j2. pose proof (string_at_fun _ _ _ _ E1 E2). subst s2. apply (string_at_fun _ _ _ _ F1 F2).
Qed.

Lemma setup_err m l er : setup_load_info m l = Some (inl er) -> er <> 0.
Proof.
  intros SU. unfold setup_load_info in SU. cbv zeta in SU.
  assert (Q : forall z, Some (@inl Z linfo (- z)) = Some (inl er) -> z <> 0 -> er <> 0) by (intros z Hz; apply some_inj in Hz; assert (er = - z) by congruence; lia).
  do 4 ob SU. destruct (z2 =? 0); [apply (Q _ SU); discriminate|].
  do 2 ob SU. destruct (negb (z4 =? ULPATCH_FILE_VERSION)); [apply (Q _ SU); discriminate|].
  ob SU. destruct (z5 =? 0); [apply (Q _ SU); discriminate|]. ob SU.
  ob SU. destruct (z7 =? 0); [apply (Q _ SU); discriminate|]. ob SU.
  ob SU. destruct (z9 =? 0); [apply (Q _ SU); discriminate|]. ob SU.
  ob SU. destruct (z11 =? 0); [apply (Q _ SU); discriminate|]. ob SU.
  destruct (negb (z12 =? SHT_NOTE)); [apply (Q _ SU); discriminate|]. do 3 ob SU. ob SU. destruct p as [[e1 s1] d1].
  destruct (negb (e1 =? 0)); [apply (Q _ SU); discriminate|]. do 2 ob SU. destruct o0 as [[? ?]|]; [discriminate|apply (Q _ SU); discriminate].
Qed.

Lemma ld_shift n : forall m m' h p, (forall x, p <= x < p + Z.of_nat n -> m (h + x) = m' x) -> ld n m (h + p) = ld n m' p.
Proof.
  induction n as [|n IH]; intros m m' h p H; [reflexivity|]. rewrite !ld_S. rewrite (H p) by lia. f_equal. f_equal.
  replace (h + p + 1) with (h + (p + 1)) by lia. apply IH. intros x Hx. apply H. lia.
Qed.

Lemma load_detail fuel e lookup reloc jmp now s hdr len f w err s' w' log :
  sane e -> shared hdr = true -> byte_mem f -> tidy f len -> (forall li, setup_load_info f len = Some (inr li) -> reloc_safe (reloc hdr li) f hdr) ->
  (forall src dst taddr, redirects f src dst -> lookup dst = Some taddr ->
     (forall x, within hdr len x \/ within (taddr mod 2 ^ 64) 16 x -> kept e x) /\
     (forall x, within hdr len x -> ~ within (taddr mod 2 ^ 64) 16 x)) ->
  load_patch fuel e lookup reloc jmp now s hdr len f w = Some (err, s', w', log) ->
  (forall src dst taddr, redirects f src dst -> lookup dst = Some taddr ->
     forall u, In u (w' :: log) ->
       (forall x, kept e x -> ~ within hdr len x -> ~ within (taddr mod 2 ^ 64) 16 x -> t_mem (w_t u) x = t_mem (w_t w) x) /\
       ((forall x, within (taddr mod 2 ^ 64) 16 x -> t_mem (w_t u) x = t_mem (w_t w) x) \/
       stored (t_mem (w_t u)) hdr f ((s_max s + 1) mod 2 ^ 32) (taddr mod 2 ^ 64) (t_mem (w_t w)))) /\
  (err = 0 -> exists li src dst taddr, setup_load_info f len = Some (inr li) /\ known (s_ulps s) (li_bid li) = Some false /\
     redirects f src dst /\ lookup dst = Some taddr /\ s' = Sess (s_ulps s) ((s_max s + 1) mod 2 ^ 32) /\
     stored (t_mem (w_t w')) hdr f ((s_max s + 1) mod 2 ^ 32) (taddr mod 2 ^ 64) (t_mem (w_t w)) /\
     forall i, 0 <= i < 16 -> t_mem (w_t w') (taddr mod 2 ^ 64 + i) = nth (Z.to_nat i) (le_bytes 8 jmp ++ le_bytes 8 (ld 8 (t_mem (w_t w')) (hdr + li_info li + 12))) 0).
Proof.
  intros S Sh Hb T RS FN H. unfold load_patch in H. ob H. rename E into SU.
  (* as long as only the image changes, the function is as it was *)
  assert (Un : forall src dst taddr u, redirects f src dst -> lookup dst = Some taddr ->
     (forall x, ~ within hdr len x -> t_mem (w_t u) x = t_mem (w_t w) x) ->
     (forall x, kept e x -> ~ within hdr len x -> ~ within (taddr mod 2 ^ 64) 16 x -> t_mem (w_t u) x = t_mem (w_t w) x) /\
     ((forall x, within (taddr mod 2 ^ 64) 16 x -> t_mem (w_t u) x = t_mem (w_t w) x) \/
      stored (t_mem (w_t u)) hdr f ((s_max s + 1) mod 2 ^ 32) (taddr mod 2 ^ 64) (t_mem (w_t w)))).
  { intros src dst taddr u R L Hu. split; [auto|]. left. intros x Hx. apply Hu. intros Y. destruct (FN _ _ _ R L) as [_ D]. apply (D x); auto. }
  destruct s0 as [er|li].
  { apply some_quad in H. destruct H as (<- & _ & <- & <-). split.
    - intros src dst taddr R L u [<-|[]]. apply (Un src dst); auto.
    - intros ->. exfalso. apply (setup_err _ _ _ SU). reflexivity. }
  ob H. destruct b.
  { apply some_quad in H. destruct H as (<- & _ & <- & <-). split.
    - intros src dst taddr R L u [<-|[]]. apply (Un src dst); auto.
    - unfold EALREADY. discriminate. }
  rename E into KN.
  ob H. destruct p as [er1 m1]. cbv zeta beta iota in H. destruct (rewrite_step f len li Hb T SU _ _ _ E) as [A1 B1]. clear E.
  set (w1 := sync hdr len m1 w) in *.
  assert (U1 : forall x, ~ within hdr len x -> t_mem (w_t w1) x = t_mem (w_t w) x) by (intros; apply sync_out; auto).
  destruct (negb (er1 =? 0)) eqn:Er1.
  { apply some_quad in H. destruct H as (<- & _ & <- & <-). split; [|intros; lia]. intros src dst taddr R L u [<-|[<-|[]]]; apply (Un src dst); auto. }
  specialize (B1 ltac:(lia)).
  ob H. destruct p as [er2 m2]. cbv zeta beta iota in H. destruct (simplify_step f len li Hb T SU _ _ _ _ _ A1 B1 E) as [A2 P2]. clear E.
  set (w2 := sync hdr len m2 w1) in *.
  assert (U2 : forall x, ~ within hdr len x -> t_mem (w_t w2) x = t_mem (w_t w) x) by (intros; unfold w2; rewrite sync_out; auto).
  destruct (er2 <? 0) eqn:Er2.
  { apply some_quad in H. destruct H as (<- & _ & <- & <-). split; [|intros; lia]. intros src dst taddr R L u [<-|[<-|[<-|[]]]]; apply (Un src dst); auto. }
  ob H. destruct p as [er3 m3]. cbv zeta beta iota in H. pose proof (apply_step f len li Hb T SU _ _ _ _ _ (RS li eq_refl) A2 P2 E) as A3. clear E.
  set (w3 := sync hdr len m3 w2) in *.
  assert (U3 : forall x, ~ within hdr len x -> t_mem (w_t w3) x = t_mem (w_t w) x) by (intros; unfold w3; rewrite sync_out; auto).
  destruct (er3 <? 0) eqn:Er3.
  { apply some_quad in H. destruct H as (<- & _ & <- & <-). split; [|intros; lia]. intros src dst taddr R L u [<-|[<-|[<-|[<-|[]]]]]; apply (Un src dst); auto. }
  ob H. destruct p as [[er4 m4] mx]. cbv zeta beta iota in H. destruct (solve_step f len li Hb T SU _ _ _ _ _ _ _ A3 E) as [A4 B4].
  assert (SO : er4 = - ENOENT \/ er4 = 0) by (apply solve_spec in E; destruct E as (? & ? & _ & _ & SO); cbv zeta in SO; destruct SO as [(-> & _)|(-> & _)]; auto).
  set (w4 := sync hdr len m4 w3) in *.
  assert (U4 : forall x, ~ within hdr len x -> t_mem (w_t w4) x = t_mem (w_t w) x) by (intros; unfold w4; rewrite sync_out; auto).
  destruct (er4 <? 0) eqn:Er4.
  { apply some_quad in H. destruct H as (<- & _ & <- & <-). split; [|intros; lia]. intros src dst taddr R L u [<-|[<-|[<-|[<-|[<-|[]]]]]]; apply (Un src dst); auto. }
  assert (er4 = 0) by (unfold ENOENT in SO; lia). subst er4. clear SO E.
  destruct (B4 eq_refl) as (Emx & src & dst & taddr & R & L & Lid & Lv).
  ob H. destruct p as [[er5 w5] lg]. cbv beta iota in H. apply some_quad in H. destruct H as (<- & <- & <- & <-).
  destruct (FN _ _ _ R L) as [K Dj]. set (v := taddr mod 2 ^ 64) in *.
  assert (I0 : 0 <= li_info li) by (destruct (setup_facts _ _ _ Hb SU) as (_ & (_ & _ & _ & ->) & _); apply (ld_range 8); auto).
  destruct (kick_detail _ _ _ _ _ _ _ _ _ _ _ v S Sh I0 (eq_sym Lv) K Dj E) as (LE & KF & KU & KE). cbv zeta in KU, KE.
  assert (St : forall u, (forall i, 0 <= i < len -> t_mem (w_t u) (hdr + i) = backed m4 (t_mem (w_t w4)) (li_info li) v i) ->
     stored (t_mem (w_t u)) hdr f ((s_max s + 1) mod 2 ^ 32) v (t_mem (w_t w))).
  { intros u Hu. destruct (info_is f len li Hb SU) as [_ IU]. split.
    - intros x Hx. destruct (proj1 (proj2 T) x Hx) as [Hx1 _]. rewrite Hu by auto. unfold backed.
      assert (N : ~ (li_info li <= x < li_info li + 52)) by (intros Y; eapply (record_not_meta f len li Hb T SU); eauto).
      destruct (inside (li_info li + 28) 16 x) eqn:Ii; [unfold inside in Ii; lia|]. apply A4; auto.
    - intros info Hi. rewrite (IU _ Hi). split; [|split].
      + rewrite <- Emx, <- Lid. apply ld_shift. intros x Hx. rewrite Hu by lia. unfold backed. destruct (inside (li_info li + 28) 16 x) eqn:Ii; auto. unfold inside in Ii. lia.
      + rewrite <- Lv. replace (hdr + li_info li + 20) with (hdr + (li_info li + 20)) by lia. apply ld_shift. intros x Hx. rewrite Hu by lia. unfold backed.
        destruct (inside (li_info li + 28) 16 x) eqn:Ii; auto. unfold inside in Ii. lia.
      + intros i Hi16. replace (hdr + li_info li + 28 + i) with (hdr + (li_info li + 28 + i)) by lia. rewrite Hu by lia. unfold backed.
        destruct (inside (li_info li + 28) 16 (li_info li + 28 + i)) eqn:Ii; [|unfold inside in Ii; lia].
        replace (v + (li_info li + 28 + i - (li_info li + 28))) with (v + i) by lia. apply U4. intros Y. apply (Dj _ Y). unfold within. lia. }
  split.
  - intros src' dst' taddr' R' L' u Hu. pose proof (redirects_fun _ _ _ _ _ R R'). subst dst'. assert (taddr' = taddr) by congruence. subst taddr'. fold v.
    assert (D : u = w1 \/ u = w2 \/ u = w3 \/ u = w4 \/ In u (w5 :: lg)).
    { clear - Hu. destruct Hu as [<-|Hu]; [do 4 right; left; auto|]. cbn [app] in Hu. destruct Hu as [<-|[<-|[<-|[<-|Hu]]]]; auto. do 4 right. right. auto. }
    destruct D as [->|[->|[->|[->|D]]]]; try (apply (Un src dst); auto; fail).
    split; [intros x Kx Nh Nv; rewrite (KF u D x Kx Nh Nv); auto|].
    destruct (KU u D) as [X|X]; [left|right; auto]. intros x Hx. rewrite X by auto. apply U4. intros Y. apply (Dj x Y Hx).
  - intros E0. destruct (KE E0) as [X Y]. exists li, src, dst, taddr. split; auto. split; auto. split; auto. split; auto. split; [rewrite Emx; auto|]. split; [apply St; auto|].
    intros i Hi. fold v. rewrite (Y i Hi). do 3 f_equal. symmetry. replace (hdr + li_info li + 12) with (hdr + (li_info li + 12)) by lia. apply ld_shift. intros x Hx. rewrite X by lia. unfold backed.
    destruct (inside (li_info li + 28) 16 x) eqn:Ii; auto. unfold inside in Ii. lia.
Qed.
