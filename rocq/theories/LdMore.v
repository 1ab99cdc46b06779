From Coq Require Import ZArith String List Bool Lia ZifyBool ZifyNat.
From Verif Require Import Word WordLemmas Str ElfDefs TextModel TextProofs LdModel LdSpec LdProofs LdSyms.
Import ListNotations.
Open Scope Z_scope.

(** ** Relocation sections *)
Section Rel.
Variable reloc : mem -> Z -> Z * mem.
Variables t n : Z.
Variable I : mem -> Prop.
Hypothesis keeps : forall m i e m', I m -> reloc m i = (e, m') -> I m' /\ forall x, t <= x < t + 64 * n -> m' x = m x.

Lemma section_same m m' j : (forall x, t <= x < t + 64 * n -> m' x = m x) -> 0 <= j < n -> section m' t j = section m t j.
Proof. intros H Hj. unfold section. apply shdr_ext. intros x Hx. apply H. lia. Qed.

Lemma refers_same m m' ty j : (forall x, t <= x < t + 64 * n -> m' x = m x) -> 0 <= sh_info (section m t j) -> 0 <= j < n -> refers ty m' t n j = refers ty m t n j.
Proof.
  intros H Hi Hj. unfold refers. rewrite (section_same m m' j) by auto. cbv zeta.
  destruct (Z.ltb_spec (sh_info (section m t j)) n); [|rewrite !andb_false_r; auto].
  rewrite (section_same m m' (sh_info (section m t j))) by (auto; lia). auto.
Qed.

Lemma info_nonneg m j : byte_mem m -> 0 <= sh_info (section m t j).
Proof. intros Hb. unfold section, shdr_at. cbn [sh_info]. apply ld_range. auto. Qed.

Lemma filter_same m m' (Hb : byte_mem m) ty k : forall i,
  (forall x, t <= x < t + 64 * n -> m' x = m x) -> 0 <= i -> i + Z.of_nat k <= n ->
  filter (refers ty m' t n) (zseq i k) = filter (refers ty m t n) (zseq i k).
Proof.
  induction k as [|k IH]; intros i H Hi Hk; cbn [zseq filter]; auto.
  rewrite (refers_same m m' ty i) by (auto using info_nonneg; lia). rewrite IH by (auto; lia). auto.
Qed.

Hypothesis bytes : forall m, I m -> byte_mem m.

Lemma apply_loop_spec li len k : li_sechdrs li = t -> forall m i err err' m',
  I m -> 0 <= i -> i + Z.of_nat k <= n -> 0 <= err ->
  apply_loop reloc m len n li i k err = Some (err', m') ->
  (0 <= err' -> chain reloc (filter (refers SHT_RELA m t n) (zseq i k)) m m' /\
     forall j, i <= j < i + Z.of_nat k -> refers SHT_REL m t n j = false) /\
  (err' < 0 -> exists d m1, (d < k)%nat /\ chain reloc (filter (refers SHT_RELA m t n) (zseq i d)) m m1 /\
     (forall j, i <= j < i + Z.of_nat d -> refers SHT_REL m t n j = false) /\
     ((refers SHT_REL m t n (i + Z.of_nat d) = true /\ m' = m1 /\ err' = - ENOEXEC) \/
      (refers SHT_RELA m t n (i + Z.of_nat d) = true /\ reloc m1 (i + Z.of_nat d) = (err', m')))).
Proof.
  intros Ht. induction k as [|k IH]; intros m i err err' m' HI Hi Hk He H; pose proof (bytes m HI) as Hb; cbn [apply_loop] in H.
  { injection H as <- <-. split; [|lia]. intros _. split; [constructor|]. intros j Hj. lia. }
  rewrite Ht in H. ob H. apply rd_inv in E. destruct E as (-> & _).
  change (ld 4 m (sec t i + 44)) with (sh_info (section m t i)) in H.
  (* a section that is passed over *)
  assert (Skip : forall err1, 0 <= err1 -> refers SHT_RELA m t n i = false -> refers SHT_REL m t n i = false ->
    apply_loop reloc m len n li (i + 1) k err1 = Some (err', m') ->
    (0 <= err' -> chain reloc (filter (refers SHT_RELA m t n) (zseq i (S k))) m m' /\
       forall j, i <= j < i + Z.of_nat (S k) -> refers SHT_REL m t n j = false) /\
    (err' < 0 -> exists d m1, (d < S k)%nat /\ chain reloc (filter (refers SHT_RELA m t n) (zseq i d)) m m1 /\
       (forall j, i <= j < i + Z.of_nat d -> refers SHT_REL m t n j = false) /\
       ((refers SHT_REL m t n (i + Z.of_nat d) = true /\ m' = m1 /\ err' = - ENOEXEC) \/
        (refers SHT_RELA m t n (i + Z.of_nat d) = true /\ reloc m1 (i + Z.of_nat d) = (err', m'))))).
  { intros err1 He1 NA NL H1. apply IH in H1; auto; try lia. destruct H1 as [P Q]. split.
    - intros E0. destruct (P E0) as [C D]. cbn [zseq filter]. rewrite NA. split; auto. intros j Hj.
      destruct (Z.eq_dec j i) as [->|]; auto. apply D. lia.
    - intros E0. destruct (Q E0) as (d & m1 & Hd & C & D & F). exists (S d), m1. split; [lia|].
      replace (i + Z.of_nat (S d)) with (i + 1 + Z.of_nat d) by lia. split; [cbn [zseq filter]; rewrite NA; auto|]. split; auto.
      intros j Hj. destruct (Z.eq_dec j i) as [->|]; auto. apply D. lia. }
  destruct (Z.leb_spec n (sh_info (section m t i))) as [L|L].
  { apply Skip with err; auto; unfold refers; cbv zeta; destruct (Z.ltb_spec (sh_info (section m t i)) n); try lia;
      rewrite !andb_false_r; auto. }
  ob H. apply rd_inv in E. destruct E as (-> & _).
  change (ld 8 m (sec t (sh_info (section m t i)) + 8)) with (sh_flags (section m t (sh_info (section m t i)))) in H.
  destruct (Z.eqb_spec (Z.land (sh_flags (section m t (sh_info (section m t i)))) SHF_ALLOC) 0) as [Z0|Z0].
  { apply Skip with err; auto; unfold refers; cbv zeta; rewrite Z0; cbn [Z.eqb negb]; rewrite andb_false_r; auto. }
  ob H. apply rd_inv in E. destruct E as (-> & _). change (ld 4 m (sec t i + 4)) with (sh_type (section m t i)) in H.
  assert (R : forall ty, refers ty m t n i = (sh_type (section m t i) =? ty)).
  { intros ty. unfold refers. cbv zeta. destruct (Z.ltb_spec (sh_info (section m t i)) n); [|lia].
    destruct (Z.eqb_spec (Z.land (sh_flags (section m t (sh_info (section m t i)))) SHF_ALLOC) 0); [contradiction|].
    cbn [negb]. rewrite !andb_true_r. auto. }
  destruct (Z.eqb_spec (sh_type (section m t i)) SHT_REL) as [T|T].
  { injection H as <- <-. split; [unfold ENOEXEC; lia|]. intros _. exists 0%nat, m. split; [lia|]. cbn [zseq filter].
    split; [constructor|]. split; [intros j Hj; lia|]. left. replace (i + Z.of_nat 0) with i by lia. rewrite R, T. auto. }
  destruct (Z.eqb_spec (sh_type (section m t i)) SHT_RELA) as [T2|T2].
  2: { destruct (Z.ltb_spec err 0); [lia|]. apply Skip with err; auto; rewrite R; apply Z.eqb_neq; auto. }
  assert (RA : refers SHT_RELA m t n i = true) by (rewrite R, T2; auto).
  assert (RL : refers SHT_REL m t n i = false) by (rewrite R; apply Z.eqb_neq; auto).
  destruct (reloc m i) as [e1 m1] eqn:Er. destruct (Z.ltb_spec e1 0) as [N|N].
  { injection H as <- <-. split; [lia|]. intros _. exists 0%nat, m. split; [lia|]. cbn [zseq filter].
    split; [constructor|]. split; [intros j Hj; lia|]. right. replace (i + Z.of_nat 0) with i by lia. auto. }
  destruct (keeps _ _ _ _ HI Er) as [HI1 K]. apply IH in H; eauto; try lia. destruct H as [P Q]. split.
  - intros E0. destruct (P E0) as [C D]. cbn [zseq filter]. rewrite RA. rewrite (filter_same m m1) in C by (auto; lia). split.
    + apply chain_cons with m1 e1; auto.
    + intros j Hj. destruct (Z.eq_dec j i) as [->|]; auto. rewrite <- (refers_same m m1) by (auto using info_nonneg; lia). apply D. lia.
  - intros E0. destruct (Q E0) as (d & m2 & Hd & C & D & F). exists (S d), m2. split; [lia|].
    replace (i + Z.of_nat (S d)) with (i + 1 + Z.of_nat d) by lia. split; [|split].
    + cbn [zseq filter]. rewrite RA. rewrite (filter_same m m1) in C by (auto; lia). apply chain_cons with m1 e1; auto.
    + intros j Hj. destruct (Z.eq_dec j i) as [->|]; auto. rewrite <- (refers_same m m1) by (auto using info_nonneg; lia). apply D. lia.
    + rewrite !(refers_same m m1) in F by (auto using info_nonneg; lia). auto.
Qed.
End Rel.

(** ** solve_patch_symbols *)
Lemma find_src_spec img len li src : ~ In 0 src -> forall n p found r,
  find_src img len li src p n found = Some r ->
  match r with
  | Some q => (exists k, 0 <= k < Z.of_nat n /\ q = p + 24 * k /\ string_at img (name_off (li_strtab li) img q) src /\
                 forall j, k < j < Z.of_nat n -> ~ string_at img (name_off (li_strtab li) img (p + 24 * j)) src) \/
              (found = Some q /\ forall j, 0 <= j < Z.of_nat n -> ~ string_at img (name_off (li_strtab li) img (p + 24 * j)) src)
  | None => found = None /\ forall j, 0 <= j < Z.of_nat n -> ~ string_at img (name_off (li_strtab li) img (p + 24 * j)) src
  end.
Proof.
  intros N. induction n as [|n IH]; intros p found r H; cbn [find_src] in H.
  - injection H as <-. destruct found; [right|]; split; auto; intros j Hj; lia.
  - ob H. apply rd_inv in E. destruct E as (-> & _). ob H. apply eq_at_inv in E; auto.
    change (li_strtab li + ld 4 img p) with (name_off (li_strtab li) img p) in E.
    apply IH in H. unfold sizeof_sym in H. clear IH. destruct r as [q|].
    + destruct H as [(k & Hk & -> & S & L)|(F & L)].
      * left. exists (k + 1). split; [lia|]. split; [lia|]. split; auto. intros j Hj. specialize (L (j - 1) ltac:(lia)).
        replace (p + 24 + 24 * (j - 1)) with (p + 24 * j) in L by lia. auto.
      * assert (L' : forall j, 0 < j < Z.of_nat (S n) -> ~ string_at img (name_off (li_strtab li) img (p + 24 * j)) src).
        { intros j Hj. specialize (L (j - 1) ltac:(lia)). replace (p + 24 + 24 * (j - 1)) with (p + 24 * j) in L by lia. auto. }
        destruct b.
        -- injection F as <-. left. exists 0. split; [lia|]. split; [lia|]. split; [apply E; auto|auto].
        -- right. split; auto. intros j Hj. destruct (Z.eq_dec j 0) as [->|]; [|apply L'; lia].
           replace (p + 24 * 0) with p by lia. rewrite <- E. discriminate.
    + destruct H as (F & L). destruct b; [discriminate|]. split; auto. intros j Hj.
      destruct (Z.eq_dec j 0) as [->|]; [replace (p + 24 * 0) with p by lia; rewrite <- E; discriminate|].
      specialize (L (j - 1) ltac:(lia)). replace (p + 24 + 24 * (j - 1)) with (p + 24 * j) in L by lia. auto.
Qed.

Lemma some_inj {A} (a b : A) : Some a = Some b -> a = b.
Proof. congruence. Qed.
Lemma some_triple {A B C} (a a' : A) (b b' : B) (c c' : C) : Some (a, b, c) = Some (a', b', c') -> a = a' /\ b = b' /\ c = c'.
Proof. intros H. injection H. auto. Qed.

Lemma solve_spec lookup img len li max_id now r img' id :
  solve_patch_symbols lookup img len li max_id now = Some (r, img', id) ->
  exists src dst, string_at img (li_src li) src /\ string_at img (li_dst li) dst /\
  let p := sh_offset (section img (li_sechdrs li) (li_sym li)) in
  let n := sh_size (section img (li_sechdrs li) (li_sym li)) / 24 in
  let i := li_info li in
  ((r = - ENOENT /\ img' = img /\ id = max_id /\
     (lookup dst = None \/ forall j, 0 <= j < n -> ~ string_at img (name_off (li_strtab li) img (p + 24 * j)) src)) \/
   (r = 0 /\ id = (max_id + 1) mod 2 ^ 32 /\
    exists taddr k, lookup dst = Some taddr /\ 0 <= k < n /\
      string_at img (name_off (li_strtab li) img (p + 24 * k)) src /\
      (forall j, k < j < n -> ~ string_at img (name_off (li_strtab li) img (p + 24 * j)) src) /\
      img' = st 8 (st 8 (st 8 (st 8 (st 4 img (i + 0) id) (i + 4) taddr) (i + 12)
        (ld 8 (st 8 (st 4 img (i + 0) id) (i + 4) taddr) (p + 24 * k + 8))) (i + 20) (taddr mod 2 ^ 64)) (i + 44) now)).
Proof.
  intros H. unfold solve_patch_symbols in H. ob H. apply cstr_inv in E. destruct E as (SD & _). ob H. apply cstr_inv in E. destruct E as (SS & _).
  exists l0, l. split; auto. split; auto. cbv zeta. destruct (lookup l) as [taddr|] eqn:EL.
  2: { injection H as <- <- <-. left. auto. }
  ob H. apply rd_inv in E. destruct E as (-> & _). ob H. unfold symtab_num in E. ob E. apply rd_inv in E0. destruct E0 as (-> & _). apply some_inj in E. subst z.
  change (ld 8 img (sec (li_sechdrs li) (li_sym li) + 24)) with (sh_offset (section img (li_sechdrs li) (li_sym li))) in H.
  change (ld 8 img (sec (li_sechdrs li) (li_sym li) + 32)) with (sh_size (section img (li_sechdrs li) (li_sym li))) in H.
  unfold sizeof_sym in H. set (p := sh_offset (section img (li_sechdrs li) (li_sym li))) in *.
  set (n := sh_size (section img (li_sechdrs li) (li_sym li)) / 24) in *.
  ob H. apply find_src_spec in E; [|apply SS]. destruct o as [q|].
  - right. destruct E as [(k & Hk & -> & S & L)|(F & _)]; [|discriminate].
    ob H. apply wr_inv in E. destruct E as (-> & _). ob H. apply wr_inv in E. destruct E as (-> & _).
    ob H. apply rd_inv in E. destruct E as (-> & _). ob H. apply wr_inv in E. destruct E as (-> & _).
    ob H. apply rd_inv in E. destruct E as (-> & _). ob H. apply wr_inv in E. destruct E as (-> & _).
    ob H. apply wr_inv in E. destruct E as (-> & _). apply some_triple in H. destruct H as (<- & <- & <-). split; [reflexivity|]. split; [reflexivity|].
    exists taddr, k. split; [reflexivity|]. split; [lia|]. split; [exact S|]. split; [intros j Hj; apply L; lia|].
    f_equal. f_equal. unfold ui_target, ui_patch. rewrite ld_st_disj by lia. rewrite (ld_st 8). reflexivity.
  - injection H as <- <- <-. left. split; auto. split; auto. split; auto. right. intros j Hj. apply E. lia.
Qed.

(** ** Bytes of a file *)
Lemma of_bytes_byte l : Forall (fun b => 0 <= b < 256) l -> byte_mem (of_bytes l).
Proof.
  intros F x. unfold of_bytes. destruct ((0 <=? x) && (x <? len l)) eqn:E; [|lia].
  rewrite Forall_nth in F. apply F. unfold len in E. lia.
Qed.

Lemma bytes_at_in l1 l l2 : forall k, k = List.length l -> bytes_at (of_bytes (l1 ++ l ++ l2)) (len l1) k = l.
Proof.
  revert l1. induction l as [|x l IH]; intros l1 k ->; cbn [List.length bytes_at]; auto. f_equal.
  - unfold of_bytes. rewrite !len_app, len_cons. pose proof (len_nonneg l1). pose proof (len_nonneg l). pose proof (len_nonneg l2).
    destruct ((0 <=? len l1) && (len l1 <? len l1 + (1 + len l + len l2))) eqn:E; [|lia].
    unfold len at 1. rewrite Nat2Z.id. rewrite app_nth2 by lia. rewrite Nat.sub_diag. reflexivity.
  - specialize (IH (l1 ++ [x]) _ eq_refl). rewrite len_app in IH. change (len [x]) with 1 in IH.
    rewrite <- app_assoc in IH. exact IH.
Qed.

Lemma ld_in l1 n v l2 : ld n (of_bytes (l1 ++ le_bytes n v ++ l2)) (len l1) = v mod 2 ^ (8 * Z.of_nat n).
Proof. rewrite ld_le_word, bytes_at_in by (rewrite le_bytes_length; auto). apply le_word_bytes. Qed.

(** A string is seen inside the image if a zero follows. *)
Lemma eq_at_def name : ~ In 0 name -> forall img l off z, img z = 0 -> 0 <= off <= z -> z < l -> exists b, eq_at img l off name = Some b.
Proof.
  induction name as [|x r IH]; intros N img l off z Z0 Hz Hl; cbn [eq_at]; rewrite rd_ok by lia; rewrite ld1.
  - eauto.
  - destruct (Z.eqb_spec (img off) x); [|eauto]. apply IH with z; auto; [intros I; apply N; right; auto|].
    assert (off <> z). { intros ->. apply N. left. congruence. } lia.
Qed.

Lemma find_sec_loop_def img l t ss name : ~ In 0 name -> forall n i,
  (forall j, i <= j < i + Z.of_nat n -> 0 <= t + 64 * j /\ t + 64 * j + 64 <= l /\
     exists z, img z = 0 /\ 0 <= ss + sh_name (section img t j) <= z /\ z < l) ->
  exists r, find_sec_loop img l t ss name i n = Some r.
Proof.
  intros N. induction n as [|n IH]; intros i H; cbn [find_sec_loop]; [eauto|].
  destruct (H i ltac:(lia)) as (A & B & z & Z0 & Hz & Hl). unfold g_name. rewrite rd_ok by (unfold sec, sizeof_shdr; lia).
  change (ld 4 img (sec t i)) with (sh_name (section img t i)).
  destruct (eq_at_def name N img l _ z Z0 Hz Hl) as [b Eb]. rewrite Eb. destruct b; [eauto|]. apply IH. intros j Hj. apply H. lia.
Qed.

Lemma cstr_def img l off z : img z = 0 -> 0 <= off <= z -> z < l ->
  exists s, cstr img l off = Some s /\ off + Z.of_nat (List.length s) <= z.
Proof.
  intros Z0 Hz Hl. assert (D : forall k off, off <= z -> z - off < Z.of_nat k -> exists s, cstr_loop k img off = Some s).
  { induction k as [|k IH]; intros o Ho Hk; [lia|]. cbn [cstr_loop]. destruct (Z.eqb_spec (img o) 0); [eauto|].
    assert (o <> z) by (intros ->; contradiction). destruct (IH (o + 1)) as [s Es]; [lia|lia|]. rewrite Es. eauto. }
  destruct (D (Z.to_nat (l - off)) off) as [s Es]; [lia|lia|]. exists s. unfold cstr. destruct (Z.leb_spec 0 off); [|lia]. split; auto.
  apply cstr_loop_string in Es. destruct Es as [S _]. apply string_before with img; auto. lia.
Qed.

Lemma parse_strtab_def img l p z1 z2 : img z1 = 0 -> img z2 = 0 -> 0 <= p <= z1 -> z1 < z2 < l ->
  exists r, parse_ulpatch_strtab img l p = Some r.
Proof.
  intros A B C D. unfold parse_ulpatch_strtab. destruct (eq_at_def SEC_MAGIC magic_no0 img l p z1 A C ltac:(lia)) as [b Eb]. rewrite Eb.
  destruct (negb b); [eauto|]. unfold after_nul. destruct (cstr_def img l p z1 A C ltac:(lia)) as (s & Es & Ls). rewrite Es.
  destruct (cstr_def img l (p + TextModel.len s + 1) z2 B) as (s2 & Es2 & _); [unfold TextModel.len; lia|lia|]. rewrite Es2. eauto.
Qed.

Lemma find_symtab_def img l t k : forall i,
  (forall j, i <= j < i + Z.of_nat k -> 0 <= t + 64 * j /\ t + 64 * j + 64 <= l /\
     (sh_type (section img t j) = SHT_SYMTAB -> 0 <= t + 64 * sh_link (section img t j) /\ t + 64 * sh_link (section img t j) + 64 <= l)) ->
  exists r, find_symtab img l t i k = Some r.
Proof.
  induction k as [|k IH]; intros i H; cbn [find_symtab]; [eauto|].
  destruct (H i ltac:(lia)) as (A & B & C). unfold g_type, g_link, g_offset. rewrite rd_ok by (unfold sec, sizeof_shdr; lia).
  change (ld 4 img (sec t i + 4)) with (sh_type (section img t i)). destruct (Z.eqb_spec (sh_type (section img t i)) SHT_SYMTAB) as [T|T].
  - rewrite rd_ok by (unfold sec, sizeof_shdr; lia). change (ld 4 img (sec t i + 40)) with (sh_link (section img t i)).
    destruct (C T). rewrite rd_ok by (unfold sec, sizeof_shdr; lia). eauto.
  - apply IH. intros j Hj. apply H. lia.
Qed.
