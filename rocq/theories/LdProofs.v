From Coq Require Import ZArith String List Bool Lia ZifyBool ZifyNat.
From Verif Require Import Word WordLemmas Str ElfDefs TextModel TextProofs LdModel LdSpec.
Import ListNotations.
Open Scope Z_scope.

Ltac ob H :=
  match type of H with
  | match ?x with Some _ => _ | None => None end = Some _ => let E := fresh "E" in destruct x eqn:E; [|discriminate H]
  end.

Lemma rd_inv n img l off v : rd n img l off = Some v -> v = ld n img off /\ 0 <= off /\ off + Z.of_nat n <= l.
Proof. unfold rd, inb. destruct (Z.leb_spec 0 off), (Z.leb_spec (off + Z.of_nat n) l); cbn [andb]; try discriminate. intros Eq. injection Eq as <-. auto. Qed.
Lemma rd_ok n img l off : 0 <= off -> off + Z.of_nat n <= l -> rd n img l off = Some (ld n img off).
Proof. intros H1 H2. unfold rd, inb. destruct (Z.leb_spec 0 off), (Z.leb_spec (off + Z.of_nat n) l); cbn [andb]; auto; lia. Qed.
Lemma wr_inv n img l off v img' : wr n img l off v = Some img' -> img' = st n img off v /\ 0 <= off /\ off + Z.of_nat n <= l.
Proof. unfold wr, inb. destruct (Z.leb_spec 0 off), (Z.leb_spec (off + Z.of_nat n) l); cbn [andb]; try discriminate. intros Eq. injection Eq as <-. auto. Qed.
Lemma wr_ok n img l off v : 0 <= off -> off + Z.of_nat n <= l -> wr n img l off v = Some (st n img off v).
Proof. intros H1 H2. unfold wr, inb. destruct (Z.leb_spec 0 off), (Z.leb_spec (off + Z.of_nat n) l); cbn [andb]; auto; lia. Qed.
Lemma ld1 m a : ld 1 m a = m a.
Proof. cbn [ld]. lia. Qed.

(** ** Strings *)
Lemma string_at_cons m p c s : string_at m p (c :: s) <-> c <> 0 /\ m p = c /\ string_at m (p + 1) s.
Proof.
  split.
  - intros (N & F & Z0). split; [intros ->; apply N; left; auto|]. split.
    + specialize (F 0%nat). cbn [List.length nth] in F. rewrite <- F by lia. f_equal. lia.
    + split; [intros I; apply N; right; auto|]. split.
      * intros i Hi. specialize (F (S i)). cbn [List.length nth] in F. rewrite <- F by lia. f_equal. lia.
      * cbn [List.length] in Z0. rewrite <- Z0. f_equal. lia.
  - intros (Hc & Hp & N & F & Z0). split; [intros [->|I]; auto|]. split.
    + intros [|i] Hi; cbn [nth]; [rewrite <- Hp; f_equal; lia|]. cbn [List.length] in Hi. rewrite <- F by lia. f_equal. lia.
    + cbn [List.length]. rewrite <- Z0. f_equal. lia.
Qed.
Lemma string_at_nil m p : string_at m p [] <-> m p = 0.
Proof.
  unfold string_at. cbn [List.length]. replace (p + Z.of_nat 0) with p by lia. split; [tauto|].
  intros H. split; [auto|]. split; [lia|auto].
Qed.

Lemma string_at_fun m s : forall p s', string_at m p s -> string_at m p s' -> s = s'.
Proof.
  induction s as [|c s IH]; intros p [|d s'] H H'; auto.
  - rewrite string_at_nil in H. apply string_at_cons in H'. destruct H' as (N & E & _). congruence.
  - rewrite string_at_nil in H'. apply string_at_cons in H. destruct H as (N & E & _). congruence.
  - apply string_at_cons in H, H'. destruct H as (_ & E & H), H' as (_ & E' & H'). f_equal; [congruence|eauto].
Qed.

Lemma string_at_ext m m' s p : (forall x, p <= x <= p + Z.of_nat (List.length s) -> m' x = m x) -> string_at m p s -> string_at m' p s.
Proof.
  intros H (N & F & Z0). split; auto. split.
  - intros i Hi. rewrite H by lia. auto.
  - rewrite H by lia. auto.
Qed.

Lemma cstr_loop_string n : forall img off s, cstr_loop n img off = Some s -> string_at img off s /\ (List.length s < n)%nat.
Proof.
  induction n as [|n IH]; intros img off s; [discriminate|]. cbn [cstr_loop]. destruct (Z.eqb_spec (img off) 0).
  - intros Eq. injection Eq as <-. split; [apply string_at_nil; auto|cbn [List.length]; lia].
  - intros H. ob H. injection H as <-. apply IH in E. destruct E as [E L]. split; [apply string_at_cons; auto|cbn [List.length]; lia].
Qed.
Lemma cstr_loop_ok s : forall n img off, string_at img off s -> (List.length s < n)%nat -> cstr_loop n img off = Some s.
Proof.
  induction s as [|c s IH]; intros [|n] img off H L; try (cbn in L; lia); cbn [cstr_loop].
  - rewrite string_at_nil in H. rewrite H. auto.
  - apply string_at_cons in H. destruct H as (N & <- & H). destruct (Z.eqb_spec (img off) 0); [congruence|].
    rewrite IH; auto. cbn [List.length] in L. lia.
Qed.
Lemma cstr_inv img l off s : cstr img l off = Some s -> string_at img off s /\ 0 <= off /\ off + Z.of_nat (List.length s) < l.
Proof.
  unfold cstr. destruct (Z.leb_spec 0 off); [|discriminate]. intros H0. apply cstr_loop_string in H0. destruct H0 as [A B].
  split; auto. lia.
Qed.
Lemma cstr_ok img l off s : string_at img off s -> 0 <= off -> off + Z.of_nat (List.length s) < l -> cstr img l off = Some s.
Proof. intros H H0 H1. unfold cstr. destruct (Z.leb_spec 0 off); [|lia]. apply cstr_loop_ok; auto. lia. Qed.

Lemma eq_at_inv name : ~ In 0 name -> forall img l off b, eq_at img l off name = Some b -> (b = true <-> string_at img off name).
Proof.
  induction name as [|x r IH]; intros N img l off b H; cbn [eq_at] in H; ob H.
  - apply rd_inv in E. destruct E as (-> & _). rewrite ld1 in H. injection H as <-. rewrite string_at_nil. apply Z.eqb_eq.
  - apply rd_inv in E. destruct E as (-> & _). rewrite ld1 in H. rewrite string_at_cons. destruct (Z.eqb_spec (img off) x).
    + apply IH in H; [|intros I; apply N; right; auto]. rewrite H. split; [|tauto].
      intros S. split; [intros ->; apply N; left; auto|auto].
    + injection H as <-. split; [discriminate|]. intros (_ & X & _). contradiction.
Qed.

Lemma eq_at_true name : ~ In 0 name -> forall img l off, 0 <= off -> off + Z.of_nat (List.length name) < l ->
  string_at img off name -> eq_at img l off name = Some true.
Proof.
  induction name as [|x r IH]; intros N img l off H0 H1 S; cbn [eq_at].
  - cbn [List.length] in H1. rewrite rd_ok by lia. rewrite ld1. rewrite string_at_nil in S. rewrite S. auto.
  - cbn [List.length] in H1. rewrite rd_ok by lia. rewrite ld1. apply string_at_cons in S. destruct S as (A & B & C).
    rewrite B, Z.eqb_refl. apply IH; auto; [intros I; apply N; right; auto|lia|lia].
Qed.

(** ** Section headers *)
Lemma shdr_ext m m' p : (forall x, p <= x < p + 64 -> m' x = m x) -> shdr_at m' p = shdr_at m p.
Proof. intros H. unfold shdr_at. f_equal; apply ld_ext; intros x Hx; apply H; lia. Qed.

Lemma shdr_set_addr m p v : shdr_at (st 8 m (p + 16) v) p = set_addr (shdr_at m p) (u64 v).
Proof.
  unfold shdr_at, set_addr. cbn [sh_name sh_type sh_flags sh_addr sh_offset sh_size sh_link sh_info sh_addralign sh_entsize].
  f_equal; first [apply ld_st_disj; lia|apply (ld_st 8)].
Qed.
Lemma shdr_set_flags m p v : shdr_at (st 8 m (p + 8) v) p = set_flags (shdr_at m p) (u64 v).
Proof.
  unfold shdr_at, set_flags. cbn [sh_name sh_type sh_flags sh_addr sh_offset sh_size sh_link sh_info sh_addralign sh_entsize].
  f_equal; first [apply ld_st_disj; lia|apply (ld_st 8)].
Qed.

Lemma u64_idem x : u64 (u64 x) = u64 x.
Proof. apply wrap_wrap. lia. Qed.

Definition addr_field (t j x : Z) : Prop := t + 64 * j + 16 <= x < t + 64 * j + 24.

Lemma rewrite_loop_spec len th li n : forall img i err img',
  rewrite_loop img len th li i n = Some (err, img') -> 
  (forall x, ~ (exists j, i <= j < i + Z.of_nat n /\ addr_field (li_sechdrs li) j x) -> img' x = img x) /\
  (err = 0 -> forall j, i <= j < i + Z.of_nat n ->
     let s := section img (li_sechdrs li) j in
     (sh_type s = SHT_NOBITS -> sh_size s <= 0) /\
     (sh_type s <> SHT_NOBITS -> u64 (sh_offset s + sh_size s) <= len) /\
     section img' (li_sechdrs li) j = set_addr s (u64 (th + sh_offset s))).
Proof.
  induction n as [|n IH]; intros img i err img' H; cbn [rewrite_loop] in H.
  - injection H as <- <-. split; [auto|]. intros _ j Hj. lia.
  - set (t := li_sechdrs li) in *. set (p := sec t i) in *.
    ob H. ob H. ob H. ob H. unfold g_name, g_type, g_offset, g_size in *.
    apply rd_inv in E, E0, E1, E2. destruct E as (-> & _), E0 as (-> & _), E1 as (-> & _), E2 as (-> & _).
    destruct (negb (ld 4 img (p + 4) =? SHT_NOBITS) && (len <? u64 (ld 8 img (p + 24) + ld 8 img (p + 32)))) eqn:Et.
    { injection H as <- <-. split; [auto|]. intros X. discriminate X. }
    ob H. rename b into bss. destruct (bss && (0 <? ld 8 img (p + 32))) eqn:Eb.
    { injection H as <- <-. split; [auto|]. intros X. discriminate X. }
    ob H. apply wr_inv in E0. destruct E0 as (-> & Hw1 & Hw2).
    apply IH in H. destruct H as [F S]. split.
    + intros x Nx. rewrite F.
      * apply st_out. destruct (Z_lt_dec x (p + 16)); [left; auto|right]. destruct (Z_le_dec (p + 16 + Z.of_nat 8) x); auto.
        exfalso. apply Nx. exists i. split; [lia|]. unfold addr_field. unfold p, sec, sizeof_shdr in *. lia.
      * intros (j & Hj & Aj). apply Nx. exists j. split; [lia|auto].
    + intros E0 j Hj. cbv zeta. destruct (Z.eq_dec j i) as [->|Nj].
      * change (section img t i) with (shdr_at img (t + 64 * i)). change (t + 64 * i) with p.
        unfold shdr_at at 1 2 3 4 5. cbn [sh_type sh_size sh_offset].
        split; [|split].
        -- intros Ty. rewrite Ty in E. cbn [Z.eqb] in E. injection E as <-. cbn [andb] in Eb. lia.
        -- intros Ty. destruct (Z.eqb_spec (ld 4 img (p + 4)) SHT_NOBITS); [contradiction|]. cbn [negb andb] in Et. lia.
        -- change (section img' t i) with (shdr_at img' p). rewrite (shdr_ext (st 8 img (p + 16) (u64 (th + ld 8 img (p + 24)))) img' p).
           ++ rewrite shdr_set_addr, u64_idem. reflexivity.
           ++ intros x Hx. apply F. intros (j & Hj' & Aj). unfold addr_field in Aj. unfold p, sec, sizeof_shdr in *. lia.
      * destruct (S E0 j ltac:(lia)) as (A & B & C). cbv zeta in A, B, C.
        assert (Es : section (st 8 img (p + 16) (u64 (th + ld 8 img (p + 24)))) t j = section img t j).
        { unfold section. apply shdr_ext. intros x Hx. apply st_out. unfold p, sec, sizeof_shdr in *. lia. }
        rewrite Es in A, B, C. auto.
Qed.

Lemma e_shnum_val img l n : e_shnum img l = Some n -> n = ld 2 img 60.
Proof. intros H. apply rd_inv in H. tauto. Qed.

Lemma rewrite_spec img len th li err img' n :
  ld 2 img 60 = n -> table_inside (li_sechdrs li) n len -> 1 <= n -> 0 <= li_info_idx li < n ->
  rewrite_section_headers img len th li = Some (err, img') ->
  same_outside (fun x => exists j, 0 <= j < n /\ (addr_field (li_sechdrs li) j x \/
     j = li_info_idx li /\ li_sechdrs li + 64 * j + 8 <= x < li_sechdrs li + 64 * j + 16)) img img' /\
  (err = 0 -> forall j, 1 <= j < n ->
     let s := section img (li_sechdrs li) j in
     (sh_type s = SHT_NOBITS -> sh_size s <= 0) /\
     (sh_type s <> SHT_NOBITS -> u64 (sh_offset s + sh_size s) <= len) /\
     section img' (li_sechdrs li) j =
       (let s' := set_addr s (u64 (th + sh_offset s)) in
        if j =? li_info_idx li then set_flags s' (u64 (Z.lor (Z.land (sh_flags s) (u64 (Z.lnot SHF_ALLOC))) SHF_RELA_LIVEPATCH)) else s')).
Proof.
  intros Hn (T1 & T2 & T3) N1 Hi H. unfold rewrite_section_headers in H. set (t := li_sechdrs li) in *.
  ob H. apply wr_inv in E. destruct E as (-> & W1 & W2). ob H. apply e_shnum_val in E.
  assert (Hn' : z = n).
  { rewrite E, <- Hn. apply ld_ext. intros x Hx. apply st_out. unfold sec, sizeof_shdr in *. lia. }
  subst z. rewrite Hn' in *. clear Hn'. ob H. destruct p as [e1 img1]. pose proof (rewrite_loop_spec len th li _ _ _ _ _ E) as [F S].
  fold t in F, S. set (img0 := st 8 img (sec t 0 + 16) 0) in *.
  assert (F0 : forall x, ~ addr_field t 0 x -> img0 x = img x).
  { intros x Nx. apply st_out. unfold addr_field in Nx. unfold sec, sizeof_shdr. lia. }
  assert (Sec0 : forall j, 1 <= j < n -> section img0 t j = section img t j).
  { intros j Hj. unfold section. apply shdr_ext. intros x Hx. apply F0. unfold addr_field. lia. }
  destruct (Z.eqb_spec e1 0) as [E0|E0]; cbn [negb] in H.
  - subst e1. ob H. apply rd_inv in E0. destruct E0 as (Ez & R1 & R2). ob H. apply wr_inv in E0. destruct E0 as (-> & W3 & W4).
    injection H as <- <-. split.
    + intros x Nx. rewrite st_out.
      * rewrite F; [apply F0|].
        -- intros A. apply Nx. exists 0. split; [lia|auto].
        -- intros (j & Hj & Aj). apply Nx. exists j. split; [lia|auto].
      * destruct (Z_lt_dec x (sec t (li_info_idx li) + 8)); [auto|right]. destruct (Z_le_dec (sec t (li_info_idx li) + 8 + Z.of_nat 8) x); auto.
        exfalso. apply Nx. exists (li_info_idx li). split; [lia|right]. split; auto. unfold sec, sizeof_shdr in *. lia.
    + intros _ j Hj. destruct (S eq_refl j ltac:(lia)) as (A & B & C). cbv zeta in A, B, C |- *. rewrite Sec0 in A, B, C by lia.
      split; auto. split; auto. destruct (Z.eqb_spec j (li_info_idx li)) as [->|Nj].
      * change (section (st 8 img1 (sec t (li_info_idx li) + 8) (Z.lor (Z.land z (u64 (Z.lnot SHF_ALLOC))) SHF_RELA_LIVEPATCH)) t (li_info_idx li))
          with (shdr_at (st 8 img1 (sec t (li_info_idx li) + 8) (Z.lor (Z.land z (u64 (Z.lnot SHF_ALLOC))) SHF_RELA_LIVEPATCH)) (sec t (li_info_idx li))).
        rewrite shdr_set_flags. change (shdr_at img1 (sec t (li_info_idx li))) with (section img1 t (li_info_idx li)). rewrite C.
        f_equal. f_equal. f_equal. f_equal.
        rewrite Ez. change (ld 8 img1 (sec t (li_info_idx li) + 8)) with (sh_flags (section img1 t (li_info_idx li))). rewrite C. reflexivity.
      * rewrite <- C. unfold section. apply shdr_ext. intros x Hx. apply st_out. unfold sec, sizeof_shdr. lia.
  - injection H as <- <-. split; [|congruence].
    intros x Nx. rewrite F; [apply F0|].
    + intros A. apply Nx. exists 0. split; [lia|auto].
    + intros (j & Hj & Aj). apply Nx. exists j. split; [lia|auto].
Qed.
