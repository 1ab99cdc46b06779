(** A patch that is applied is linked. *)
From Coq Require Import ZArith String List Bool Lia ZifyBool ZifyNat Permutation.
From Verif Require Import Word WordLemmas Str ElfDefs TextModel LdModel LdSpec LdProofs LdSyms LdMore X86RelocModel X86RelocSpec X86RelocProofs X86RelocMore ScModel ScSpec ScProofs PaModel PaSpec PaRead PaProofs PaMore PaKick PaLoad PaSess PaHist PaFin PaX86 PaThm LkSpec LkSyms LkRel.
Import ListNotations.
Open Scope Z_scope.

Section Fin.
Variables (wd : Z -> Z) (value : field_value).
Hypothesis Wp : forall ty, 0 <= wd ty.
Hypothesis Lv : local_value wd value.
Variables (lookup : list Z -> option Z) (f : mem) (len hdr : Z) (li : linfo).
Hypothesis Hb : byte_mem f.
Hypothesis T : tidy f len.
Hypothesis SU : setup_load_info f len = Some (inr li).
Hypothesis LK : linkable wd f len.
Hypothesis H0 : 0 <= hdr.
Hypothesis H1 : hdr + len < 2 ^ 64.
Variable rel : mem -> Z -> Z * mem.
Hypothesis RL : relocates wd value hdr len (li_sym li) (ld 8 f 40) rel.

Notation t := (ld 8 f 40).
Notation n := (nsec f).
Notation s := (li_sym li).

Lemma record_is x : li_info li <= x < li_info li + 52 -> record_byte f x.
Proof.
  intros Hx. destruct (setup_facts _ _ _ Hb SU) as (_ & (I1 & I2 & I3 & I4) & _). exists (li_info_idx li). split; [unfold nsec; lia|]. split; auto. unfold sect. lia.
Qed.

(** The name of the new function, read from the image. *)
Lemma src_name m src : agrees f m -> string_at m (li_src li) src -> forall src' dst, redirects f src' dst -> src' = src.
Proof.
  intros A S src' dst (j' & J1 & J2 & J3 & _ & S1 & _). destruct (setup_facts _ _ _ Hb SU) as (_ & _ & _ & j & src0 & K1 & K2 & K3 & J). cbv zeta in J.
  assert (j' = j). { destruct (Z.lt_trichotomy j' j) as [L|[L|L]]; auto; exfalso; [apply (K3 j')|apply (J3 j)]; auto; lia. } subst j'.
  destruct J as (Sm & Ss & Es & _). pose proof (string_at_fun _ _ _ _ S1 Ss). subst src'. clear S1. rewrite Es in S.
  set (o := sh_offset (section f t j)) in *.
  assert (In1 : forall a w x, string_at f a w -> a <= x < a + Z.of_nat (List.length w) -> f x <> 0).
  { intros a w y (Nz' & F & _) Hy X. apply Nz'. specialize (F (Z.to_nat (y - a)) ltac:(lia)).
    replace (a + Z.of_nat (Z.to_nat (y - a))) with y in F by lia. rewrite X in F. rewrite F. apply nth_In. lia. }
  assert (S' : string_at m (o + 9) src0).
  { apply string_at_ext with f; auto. intros x Hx. apply A. right. exists j. split; [lia|]. right. right. right. left. split; auto. fold o. split; [lia|].
    intros z1 z2 z3 X1 X2 X3 X4 (Y1 & Y2 & Y3).
    pose proof (fun y => In1 o SEC_MAGIC y Sm) as N1. change (Z.of_nat (List.length SEC_MAGIC)) with 8 in N1.
    pose proof (fun y => In1 (o + 9) src0 y Ss) as N2.
    destruct (Z_lt_le_dec z1 (o + 8)); [apply (N1 z1); auto; lia|]. apply (N2 z2); auto. lia. }
  apply (string_at_fun _ _ _ _ S' S).
Qed.

Definition record_only (m m' : mem) : Prop := forall x, ~ (li_info li <= x < li_info li + 52) -> m' x = m x.

Lemma linked_final m1 e2 m2 e3 m3 mm : reloc_safe rel f hdr ->
  rewrite_section_headers f len hdr li = Some (0, m1) ->
  simplify_symbols lookup m1 len hdr li = Some (e2, m2) ->
  apply_relocations rel m2 len li = Some (e3, m3) -> 0 <= e3 ->
  (forall x, 0 <= x < len -> ~ (li_info li <= x < li_info li + 52) -> mm (hdr + x) = m3 x) ->
  linked wd lookup f hdr value len mm /\ (agrees f m3 /\ byte_mem m3) /\
  forall k, 0 <= k < count f s -> denotes lookup f hdr s k (ld 8 m3 (sym f s k + 8)) /\
    name_off (li_strtab li) m3 (sym f s k) = name f s k /\ forall w, string_at m3 (name f s k) w <-> string_at f (name f s k) w.
Proof.
  intros RS R1 R2 R3 E3 Fin.
  destruct (rewrite_stage f len hdr li Hb T SU m1 R1) as (B1 & T1 & A1 & P1 & F1 & O1).
  destruct (simplify_stage wd lookup f len hdr li Hb SU LK m1 e2 m2 B1 T1 A1 P1 R2) as (B2 & V2 & DN).
  assert (Tab : forall x, in_table f x -> m2 x = m1 x).
  { intros x Hx. apply V2. intros Y. apply value_sym in Y. apply (sym_out wd f len li Hb SU LK) in Y. tauto. }
  assert (Oth : forall x, ~ in_table f x -> ~ sym_byte f s x -> m2 x = f x).
  { intros x X Y. rewrite V2 by (intros Q; apply Y, value_sym, Q). apply T1. auto. }
  destruct (simplify_step f len li Hb T SU _ _ _ _ _ O1 P1 R2) as [O2 P2].
  pose proof (outside_agrees f len T m2 O2) as A2.
  assert (F2 : flags_as f li m2).
  { intros j Hj. rewrite <- (F1 j Hj). replace (section m2 t j) with (section m1 t j); [tauto|]. symmetry. apply shdr_ext. intros x Hx. apply Tab. unfold in_table, nsec in *. lia. }
  assert (E2 : forall x, entry_byte f x -> m2 x = f x).
  { intros x Hx. apply Oth; [apply (lk_entries _ _ _ LK x Hx)|]. intros Y. apply (sym_out wd f len li Hb SU LK) in Y. tauto. }
  pose proof (link_all wd value Wp Lv f len hdr li Hb SU LK H0 H1 rel RL m2 B2 A2 P2 F2 E2 _ _ R3 E3) as D3.
  assert (DS : forall x, sym_byte f s x -> m3 x = m2 x) by (intros x Hx; exact (done_sym wd value Wp f len hdr li Hb SU LK m2 E2 n m3 x D3 Hx)). pose proof D3 as (B3 & X3 & V3).
  pose proof (s_range f len li Hb SU) as Sr. pose proof (s_type f len li Hb SU) as St.
  assert (Lt : forall i k, live f i k -> i < n) by (intros i k X; apply X).
  split; [|split].
  - split.
    + intros i k L. destruct (lk_link _ _ _ LK s i k ltac:(lia) St L) as [El Es].
      assert (0 <= e_sym f i k) by (apply Z.div_pos; [apply (ld_range 8); auto|lia]).
      exists (ld 8 m2 (sym f s (e_sym f i k) + 8)). rewrite El. split; [apply DN; lia|].
      destruct (lk_inside _ _ _ LK i k L) as [I1 I2].
      assert (0 <= place f i k). { unfold place. pose proof (off_pos f Hb (sh_info (sect f i))). pose proof (ld_range 8 f (entry f i k) Hb). lia. }
      eapply Lv; [| |apply (V3 i k (Lt _ _ L) L)].
      * intros d Hd. symmetry. destruct (live_field wd Wp f len li Hb SU LK m2 E2 i k (place f i k + d) L) as (X1 & X2 & X4 & X5); [unfold in_place; lia|]. apply Oth; auto.
      * intros d Hd. rewrite <- Z.add_assoc. apply Fin; [lia|].
        intros Y. destruct (live_field wd Wp f len li Hb SU LK m2 E2 i k (place f i k + d) L) as (_ & X & _); [unfold in_place; lia|]. apply X, record_is, Y.
    + intros x Hx Nw Nf. rewrite Fin; auto. 2:{ intros Y. apply Nw. apply (record_written f len li Hb SU). auto. }
      rewrite X3 by (intros i k _ L; apply Nf; auto). apply O2. auto.
  - split; [|exact B3]. apply (apply_step f len li Hb T SU _ _ _ _ _ RS O2 P2 R3).
  - intros k Hk.
    assert (G : forall w o, 0 <= o -> o + Z.of_nat w <= 24 -> ld w m3 (sym f s k + o) = ld w m2 (sym f s k + o)).
    { intros w o O0 O'. apply ld_ext. intros x Hx. apply DS; auto. apply (sym_in f li k); auto. lia. }
    rewrite G by lia. split; [apply DN; auto|]. split.
    + unfold name_off, name. rewrite (strtab_is f len li SU). f_equal.
      pose proof (G 4%nat 0 ltac:(lia) ltac:(lia)) as X. rewrite Z.add_0_r in X. rewrite X. pose proof (ld_sym wd f len li Hb SU LK m1 4 k 0 T1 Hk ltac:(lia) ltac:(lia)) as Y. rewrite Z.add_0_r in Y. rewrite <- Y.
      apply ld_ext. intros x Hx. apply V2. intros (k' & Hk' & Q). unfold sym in *. lia.
    + destruct (lk_names _ _ _ LK s k ltac:(lia) St Hk) as (z & Z0 & Hz & Q).
      assert (K : forall x, name f s k <= x <= z -> m3 x = f x).
      { intros x Hx. destruct (Q x Hx) as (Q1 & Q2 & Q3 & Q4). rewrite X3 by (intros i k' _ L; apply Q4; auto). apply Oth; auto. }
      intros w. split; intros S.
      * apply string_at_ext with m3; auto. intros x Hx. symmetry. apply K. assert (Zm : m3 z = 0) by (rewrite K by lia; auto). pose proof (string_before _ _ _ _ S Zm ltac:(lia)). lia.
      * apply string_at_ext with f; auto. intros x Hx. apply K. pose proof (string_before _ _ _ _ S Z0 ltac:(lia)). lia.
Qed.
End Fin.

(** load_patch *)
Lemma load_image wd value fuel e lookup (reloc : Z -> linfo -> mem -> Z -> Z * mem) jmp now ss hdr len f w s' w' log :
  (forall ty, 0 <= wd ty) -> local_value wd value ->
  (forall li, setup_load_info f len = Some (inr li) -> relocates wd value hdr len (li_sym li) (ld 8 f 40) (reloc hdr li)) ->
  sane e -> shared hdr = true -> byte_mem f -> tidy f len -> (forall li, setup_load_info f len = Some (inr li) -> reloc_safe (reloc hdr li) f hdr) ->
  (forall src dst taddr, redirects f src dst -> lookup dst = Some taddr ->
     (forall x, within hdr len x \/ within (taddr mod 2 ^ 64) 16 x -> kept e x) /\
     (forall x, within hdr len x -> ~ within (taddr mod 2 ^ 64) 16 x)) ->
  linkable wd f len -> 0 <= hdr -> hdr + len < 2 ^ 64 ->
  load_patch fuel e lookup reloc jmp now ss hdr len f w = Some (0, s', w', log) ->
  linked wd lookup f hdr value len (t_mem (w_t w')) /\
  exists src dst taddr s k S, redirects f src dst /\ lookup dst = Some taddr /\ 0 <= s < nsec f /\ sh_type (sect f s) = SHT_SYMTAB /\
    0 <= k < count f s /\ string_at f (name f s k) src /\ (forall j, k < j < count f s -> ~ string_at f (name f s j) src) /\ denotes lookup f hdr s k S /\
    forall i, 0 <= i < 16 -> t_mem (w_t w') (taddr mod 2 ^ 64 + i) = nth (Z.to_nat i) (le_bytes 8 jmp ++ le_bytes 8 S) 0.
Proof.
  intros Wp LVv RL S Sh Hb T RS FN LK H0 H1 H. unfold load_patch in H. ob H. rename E into SU. destruct s as [er|li].
  { apply some_quad in H. destruct H as (E & _). exfalso. apply (setup_err _ _ _ SU). auto. }
  ob H. destruct b. { apply some_quad in H. destruct H as (E' & _). discriminate. } clear E.
  ob H. destruct p as [er1 m1]. cbv zeta beta iota in H. rename E into R1.
  destruct (negb (er1 =? 0)) eqn:Er1. { apply some_quad in H. destruct H as (E' & _). lia. }
  assert (er1 = 0) by lia. subst er1.
  ob H. destruct p as [er2 m2]. cbv zeta beta iota in H. rename E into R2.
  destruct (er2 <? 0) eqn:Er2. { apply some_quad in H. destruct H as (E' & _). lia. }
  ob H. destruct p as [er3 m3]. cbv zeta beta iota in H. rename E into R3.
  destruct (er3 <? 0) eqn:Er3. { apply some_quad in H. destruct H as (E' & _). lia. }
  ob H. destruct p as [[er4 m4] mx]. cbv zeta beta iota in H. rename E into R4.
  destruct (er4 <? 0) eqn:Er4. { apply some_quad in H. destruct H as (E' & _). lia. }
  ob H. destruct p as [[er5 w5] lg]. cbv beta iota in H. apply some_quad in H. destruct H as (-> & <- & <- & <-). rename E into R5.
  destruct (linked_final wd value Wp LVv lookup f len hdr li Hb T SU LK H0 H1 _ (RL li eq_refl) m1 er2 m2 er3 m3 (fun x => m3 (x - hdr)) (RS li eq_refl) R1 R2 R3 ltac:(lia)) as (_ & (A3 & B3) & SY).
  { intros x Hx _. f_equal. lia. }
  pose proof (solve_spec _ _ _ _ _ _ _ _ _ R4) as (src & dst & Ss & Sd & SO). cbv zeta in SO.
  destruct (setup_facts _ _ _ Hb SU) as (Et & (I1 & I2 & I3 & I4) & (S1 & S2) & _). rewrite Et in SO.
  pose proof (headers_agree f m3 (li_sym li) A3 ltac:(unfold nsec; lia)) as (_ & Eo & Ez & _). rewrite Eo, Ez in SO. fold (count f (li_sym li)) in SO.
  assert (Sy : forall k, sh_offset (sect f (li_sym li)) + 24 * k = sym f (li_sym li) k) by (intros; reflexivity).
  assert (I0 : 0 <= li_info li) by (rewrite I4; apply (ld_range 8); auto).
  destruct SO as [(-> & _)|(-> & Eid & taddr & k & L & Hk & Sk & Nk & Em)]; [unfold ENOENT in Er4; discriminate|].
  destruct (dst_name f len li Hb SU m3 dst A3 Sd) as [src' R]. pose proof (src_name wd Wp lookup f len li Hb SU m3 src A3 Ss src' dst R). subst src'.
  destruct (FN _ _ _ R L) as [K Dj]. set (v := taddr mod 2 ^ 64) in *.
  destruct (SY k Hk) as (Dk & Nm & St). rewrite Sy in *. rewrite Nm, St in Sk.
  assert (Sb : forall x, sym f (li_sym li) k + 8 <= x < sym f (li_sym li) k + 16 -> ~ (li_info li <= x < li_info li + 52)).
  { intros x Hx Y. assert (Q : sym_byte f (li_sym li) x) by (apply (sym_in f li k); auto; lia).
    destruct (sym_out wd f len li Hb SU LK x Q) as (_ & _ & X & _). apply X. apply (record_is wd Wp f len li Hb SU). auto. }
  set (V := ld 8 m3 (sym f (li_sym li) k + 8)) in *.
  assert (Ev : ld 8 (st 8 (st 4 m3 (li_info li + 0) mx) (li_info li + 4) taddr) (sym f (li_sym li) k + 8) = V).
  { apply ld_ext. intros x Hx. specialize (Sb x ltac:(lia)). rewrite !st_out by lia. auto. }
  rewrite Ev in Em.
  assert (Lv : ld 8 m4 (li_info li + 20) = v). { rewrite Em. rewrite ld_st_disj by lia. rewrite (ld_st 8). apply Z.mod_mod. lia. }
  assert (Lp : le_bytes 8 (ld 8 m4 (li_info li + 12)) = le_bytes 8 V).
  { f_equal. rewrite Em. rewrite !ld_st_disj by lia. rewrite (ld_st 8). apply Z.mod_small. apply (ld_range 8). auto. }
  assert (Eo4 : forall x, ~ (li_info li <= x < li_info li + 52) -> m4 x = m3 x).
  { intros x Hx. rewrite Em. rewrite !st_out by lia. auto. }
  destruct (kick_detail _ _ _ _ _ _ _ _ _ _ _ v S Sh I0 (eq_sym Lv) K Dj R5) as (LE & _ & _ & KE). cbv zeta in KE. destruct (KE eq_refl) as [X Y].
  split.
  - apply (linked_final wd value Wp LVv lookup f len hdr li Hb T SU LK H0 H1 _ (RL li eq_refl) m1 er2 m2 er3 m3 _ (RS li eq_refl) R1 R2 R3 ltac:(lia)).
    intros x Hx Nx. rewrite X by auto. unfold backed. destruct (inside (li_info li + 28) 16 x) eqn:Ii; [unfold inside in Ii; lia|]. apply Eo4. auto.
  - exists src, dst, taddr, (li_sym li), k, V. split; auto. split; auto. split; [unfold nsec; lia|]. split; [exact S2|]. split; [auto|]. split; [auto|]. split.
    + intros j Hj. specialize (Nk j Hj). rewrite Sy in Nk. destruct (SY j ltac:(lia)) as (_ & Nm' & St'). rewrite Nm', St' in Nk. auto.
    + split; [auto|]. intros i Hi. fold v. rewrite Y by auto. rewrite Lp. reflexivity.
Qed.

(** The whole of applying *)
Lemma patch_image wd value c w ps ss w1 f len hdr stop s' w2 log :
  (forall ty, 0 <= wd ty) -> local_value wd value ->
  (forall li, setup_load_info f len = Some (inr li) -> relocates wd value hdr len (li_sym li) (ld 8 f 40) (c_reloc c hdr li)) ->
  opened (c_e c) w ps ss w1 -> run_ok c w1 ps f len hdr stop -> linkable wd f len -> 0 <= hdr -> hdr + len < 2 ^ 64 ->
  do_patch c ss w1 = Some (0, s', Some hdr, w2, log) ->
  linked wd (c_lookup c) f hdr value len (t_mem (w_t w2)) /\
  exists src dst taddr s k S, redirects f src dst /\ c_lookup c dst = Some taddr /\ 0 <= s < nsec f /\ sh_type (sect f s) = SHT_SYMTAB /\
    0 <= k < count f s /\ string_at f (name f s k) src /\ (forall j, k < j < count f s -> ~ string_at f (name f s j) src) /\ denotes (c_lookup c) f hdr s k S /\
    forall i, 0 <= i < 16 -> t_mem (w_t w2) (taddr mod 2 ^ 64 + i) = nth (Z.to_nat i) (le_bytes 8 (c_jmp c) ++ le_bytes 8 S) 0.
Proof.
  intros Wp Lv RL O R LK H0 H1 H. destruct R as [CM GF Sh St Kp Nw Bf Fn]. destruct GF as (AL & Hb & T & RS & BI).
  unfold do_patch, init_patch in H. rewrite AL in H. cbn [Z.eqb negb] in H.
  destruct (negb (c_chown c =? 0)). { apply some_quint in H. destruct H as (_ & _ & X & _). discriminate. }
  ob H. destruct p as [[rt hd] w3]. cbv beta iota in H.
  destruct (negb (rt =? 0)) eqn:Ert. { apply some_quint in H. destruct H as (_ & _ & X & _). discriminate. }
  ob H. rename z into h. cbv zeta in H. ob H. destruct p as [[[er2 s2] w4] lg]. cbv beta iota in H.
  destruct (negb (er2 =? 0)) eqn:Er2.
  { ob H. apply some_quint in H. destruct H as (-> & _). discriminate. }
  apply some_quint in H. destruct H as (Ez & Es & X & Ew & _). assert (er2 = 0) by lia. subst. clear Ez. assert (h = hdr) by congruence. subst h.
  refine (load_image wd value _ _ _ _ _ _ _ _ _ _ _ _ _ _ Wp Lv RL (proj1 CM) Sh Hb T _ _ LK H0 H1 E1).
  - intros li SU. exact (RS hdr li SU).
  - intros src dst taddr Rd L. split.
    + intros x [Hx|Hx]; [apply Kp; auto|exact (proj1 (Fn src dst taddr Rd L x Hx))].
    + intros x Hx Hv. exact (proj1 (proj2 (Fn src dst taddr Rd L x Hv)) Hx).
Qed.
