(** Reading a prepared patch image back: what setup_load_info finds depends only on the
    bytes of [meta_byte]. *)
From Coq Require Import ZArith String List Bool Lia ZifyBool ZifyNat.
From Verif Require Import Word WordLemmas Str ElfDefs TextModel TextProofs LdModel LdSpec LdProofs LdSyms LdMore PaSpec.
Import ListNotations.
Open Scope Z_scope.

Section Agree.
Variables m m' : mem.
Variables l l' : Z.
Hypothesis Hl : l <= l'.

Lemma rd_agree n off v : rd n m l off = Some v -> (forall x, off <= x < off + Z.of_nat n -> m' x = m x) -> rd n m' l' off = Some v.
Proof.
  intros H A. apply rd_inv in H. destruct H as (-> & B & C). rewrite rd_ok by lia. f_equal. apply ld_ext. auto.
Qed.

Lemma eq_at_agree name : ~ In 0 name -> forall off b, eq_at m l off name = Some b ->
  (forall x, in_string m off x -> m' x = m x) -> eq_at m' l' off name = Some b.
Proof.
  induction name as [|c r IH]; intros N off b H A; cbn [eq_at] in *; ob H.
  - pose proof (rd_inv _ _ _ _ _ E) as (-> & _). rewrite (rd_agree _ _ _ E); auto.
    intros x Hx. apply A. split; [lia|]. intros. lia.
  - pose proof (rd_inv _ _ _ _ _ E) as (-> & _). rewrite (rd_agree _ _ _ E).
    2:{ intros x Hx. apply A. split; [lia|]. intros. lia. }
    rewrite ld1 in *. destruct (Z.eqb_spec (m off) c) as [Ec|Nc]; auto. apply IH; auto; [intros I; apply N; right; auto|].
    intros x (B & C). apply A. split; [lia|]. intros z Hz. destruct (Z.eq_dec z off) as [->|]; [|apply C; lia].
    intros Z0. apply N. left. congruence.
Qed.

Lemma find_sec_loop_agree t ss name : ~ In 0 name -> forall n i r, find_sec_loop m l t ss name i n = Some r ->
  (forall j x, i <= j < i + Z.of_nat n -> t + 64 * j <= x < t + 64 * j + 4 -> m' x = m x) ->
  (forall j x, i <= j < i + Z.of_nat n -> in_string m (ss + sh_name (section m t j)) x -> m' x = m x) ->
  find_sec_loop m' l' t ss name i n = Some r.
Proof.
  intros N. induction n as [|n IH]; intros i r H A B; cbn [find_sec_loop] in *; auto.
  ob H. unfold g_name in *. pose proof (rd_inv _ _ _ _ _ E) as (Ev & _). rewrite (rd_agree _ _ _ E).
  2:{ intros x Hx. apply (A i); unfold sec, sizeof_shdr in *; lia. }
  ob H. rewrite (eq_at_agree _ N _ _ E0).
  2:{ intros x Hx. apply (B i); [lia|]. rewrite Ev in Hx. exact Hx. }
  destruct b; auto. apply IH; auto.
  - intros j x Hj. apply A. lia.
  - intros j x Hj. apply B. lia.
Qed.

Lemma cstr_agree off s : cstr m l off = Some s -> (forall x, off <= x <= off + Z.of_nat (List.length s) -> m' x = m x) -> cstr m' l' off = Some s.
Proof.
  intros H A. apply cstr_inv in H. destruct H as (S & B & C). apply cstr_ok; [|auto|lia]. apply string_at_ext with m; auto.
Qed.

Lemma find_symtab_agree t n0 : (forall j x, 0 <= j < n0 -> t + 64 * j <= x < t + 64 * j + 8 \/ t + 64 * j + 24 <= x < t + 64 * j + 64 -> m' x = m x) ->
  (forall j, 0 <= j < n0 -> sh_type (section m t j) = SHT_SYMTAB -> 0 <= sh_link (section m t j) < n0) ->
  forall n i r, find_symtab m l t i n = Some r -> 0 <= i -> i + Z.of_nat n <= n0 -> find_symtab m' l' t i n = Some r.
Proof.
  intros A L. induction n as [|n IH]; intros i r H Hi Hn; cbn [find_symtab] in *; auto.
  ob H. unfold g_type, g_link, g_offset in *. pose proof (rd_inv _ _ _ _ _ E) as (Ev & _). rewrite (rd_agree _ _ _ E).
  2:{ intros x Hx. apply (A i); unfold sec, sizeof_shdr in *; lia. }
  destruct (Z.eqb_spec z SHT_SYMTAB) as [T|T].
  - ob H. pose proof (rd_inv _ _ _ _ _ E0) as (Ev0 & _). rewrite (rd_agree _ _ _ E0).
    2:{ intros x Hx. apply (A i); unfold sec, sizeof_shdr in *; lia. }
    ob H. rewrite (rd_agree _ _ _ E1); auto. intros x Hx.
    assert (L0 : 0 <= z0 < n0). { rewrite Ev0. apply (L i); [lia|]. rewrite <- T, Ev. reflexivity. }
    apply (A z0); unfold sec, sizeof_shdr in *; lia.
  - apply IH; auto; lia.
Qed.
End Agree.

Lemma setup_agree m m' l l' r : byte_mem m -> well_formed m l -> l <= l' -> (forall x, meta_byte m x -> m' x = m x) ->
  setup_load_info m l = Some r -> setup_load_info m' l' = Some r.
Proof.
  intros Hb W Hl A H. destruct W as [(T1 & T2 & T3) SX NM WI WS WN WL].
  assert (N0 : 0 <= ld 2 m 62) by (apply ld_range; auto).
  assert (Rd : forall n off v, rd n m l off = Some v -> (forall x, off <= x < off + Z.of_nat n -> meta_byte m x) -> rd n m' l' off = Some v).
  { intros n off v E B. apply (rd_agree m m' l l' Hl n off v E). intros x Hx. apply A, B, Hx. }
  set (t := ld 8 m 40) in *. set (n := ld 2 m 60) in *. set (ss := sh_offset (section m t (ld 2 m 62))) in *.
  assert (Hd : forall j x, 0 <= j < n -> t + 64 * j <= x < t + 64 * j + 8 \/ t + 64 * j + 24 <= x < t + 64 * j + 64 -> meta_byte m x).
  { intros j x Hj Hx. right. exists j. split; auto. }
  assert (Go : forall j v, 0 <= j < n -> g_offset m l (sec t j) = Some v -> g_offset m' l' (sec t j) = Some v).
  { intros j v Hj E. apply Rd; auto. intros x Hx. apply (Hd j); unfold sec, sizeof_shdr in *; auto. lia. }
  assert (Ty : forall j v, 0 <= j < n -> g_type m l (sec t j) = Some v -> g_type m' l' (sec t j) = Some v).
  { intros j v Hj E. apply Rd; auto. intros x Hx. apply (Hd j); unfold sec, sizeof_shdr in *; auto. lia. }
  unfold setup_load_info, e_shoff, e_shstrndx in *.
  ob H. rewrite (Rd _ _ _ E) by (intros; left; lia). apply rd_inv in E. destruct E as (Ez & _). fold t in Ez. subst z.
  ob H. rewrite (Rd _ _ _ E) by (intros; left; lia). apply rd_inv in E. destruct E as (-> & _).
  ob H. rewrite (Go _ _ (conj N0 SX) E). apply rd_inv in E. destruct E as (Ez & _).
  change (ld 8 m (sec t (ld 2 m 62) + 24)) with ss in Ez. subst z.
  assert (Nn : 1 <= n) by lia.
  assert (Sh : e_shnum m' l' = Some n).
  { unfold e_shnum. change n with (ld 2 m 60). apply Rd; [apply rd_ok; lia|]. intros. left. lia. }
  assert (FS : forall name r, ~ In 0 (str name) -> find_sec m l t ss (str name) = Some r -> find_sec m' l' t ss (str name) = Some r /\
               (r <> 0 -> 1 <= r < n /\ sec_named m name r)).
  { intros name q N E. split.
    - unfold find_sec in *. rewrite Sh. ob E. pose proof (e_shnum_val _ _ _ E0) as ->. fold n in E.
      apply (find_sec_loop_agree m m' l l' Hl); auto.
      + intros j x Hj Hx. apply A. apply (Hd j); lia.
      + intros j x Hj Hx. apply A. right. exists j. split; [lia|]. right. left. exact Hx.
    - intros Nr. destruct (find_sec_spec m l t ss (str name) q N E) as [B C].
      assert (X0 : ~ string_at m (ss + sh_name (section m t 0)) (str name)) by (intros X; apply Nr, B, X).
      destruct (C X0) as [D _]. destruct (D Nr) as (F & G & _). split; auto. }
  Ltac no0 := vm_compute; intuition discriminate.
  ob H. destruct (FS ".ulpatch.info"%string _ ltac:(no0) E) as [E' Pi]. rewrite E'. clear E E'.
  destruct (Z.eqb_spec z 0) as [|Zi]; auto. specialize (Pi Zi). ob H. rewrite (Go z z0) by (auto; lia). apply rd_inv in E. destruct E as (Eo & _).
  change (ld 8 m (sec t z + 24)) with (sh_offset (section m t z)) in Eo.
  ob H. rewrite (Rd _ _ _ E).
  2:{ intros x Hx. right. exists z. fold n t. split; [lia|]. right. right. left. split; [apply Pi|]. unfold ui_version in Hx. lia. }
  clear E. destruct (negb (z1 =? ULPATCH_FILE_VERSION)); auto.
  ob H. destruct (FS ".ulpatch.strtab"%string _ ltac:(no0) E) as [E' Ps]. rewrite E'. clear E E'.
  destruct (Z.eqb_spec z2 0) as [|Zs]; auto. specialize (Ps Zs). ob H. rewrite (Go z2 z3) by (auto; lia). apply rd_inv in E. destruct E as (Es & _).
  change (ld 8 m (sec t z2 + 24)) with (sh_offset (section m t z2)) in Es.
  ob H. destruct (FS ".ulpatch.author"%string _ ltac:(no0) E) as [E' Pa]. rewrite E'. clear E E'.
  destruct (Z.eqb_spec z4 0) as [|Za]; auto. specialize (Pa Za). ob H. rewrite (Go z4 z5) by (auto; lia). clear E.
  ob H. destruct (FS ".ulpatch.license"%string _ ltac:(no0) E) as [E' Pl]. rewrite E'. clear E E'.
  destruct (Z.eqb_spec z6 0) as [|Zl]; auto. specialize (Pl Zl). ob H. rewrite (Go z6 z7) by (auto; lia). clear E.
  ob H. destruct (FS ".note.gnu.build-id"%string _ ltac:(no0) E) as [E' Pn]. rewrite E'. clear E E'.
  destruct (Z.eqb_spec z8 0) as [|Zn]; auto. specialize (Pn Zn). ob H. rewrite (Ty z8 z9) by (auto; lia). clear E.
  destruct (negb (z9 =? SHT_NOTE)); auto.
  ob H. rewrite (Go z8 z10) by (auto; lia). apply rd_inv in E. destruct E as (En & _).
  change (ld 8 m (sec t z8 + 24)) with (sh_offset (section m t z8)) in En.
  assert (R1 : 0 <= ld 4 m z10) by (apply ld_range; auto). assert (R2 : 0 <= ld 4 m (z10 + 4)) by (apply ld_range; auto).
  assert (Nt : forall x, z10 <= x < z10 + 12 + ld 4 m z10 + ld 4 m (z10 + 4) -> meta_byte m x).
  { intros x Hx. right. exists z8. fold n t. rewrite <- En. split; [lia|]. right. right. right. right. split; [apply Pn|exact Hx]. }
  ob H. rewrite (Rd _ _ _ E) by (intros; apply Nt; lia). clear E.
  ob H.
  match goal with |- match ?X with Some _ => _ | None => None end = Some r => assert (Eb : X = Some o) end.
  { destruct (z11 =? NT_GNU_BUILD_ID); auto. ob E. pose proof (rd_inv _ _ _ _ _ E0) as (-> & _). rewrite (Rd _ _ _ E0) by (intros; apply Nt; lia).
    ob E. pose proof (rd_inv _ _ _ _ _ E1) as (-> & _). rewrite (Rd _ _ _ E1) by (intros; apply Nt; lia). cbv zeta in *.
    unfold inb in *. destruct ((0 <=? z10 + 12 + ld 4 m z10) && (z10 + 12 + ld 4 m z10 + Z.of_nat (Z.to_nat (ld 4 m (z10 + 4))) <=? l)) eqn:Ei; [|discriminate].
    destruct ((0 <=? z10 + 12 + ld 4 m z10) && (z10 + 12 + ld 4 m z10 + Z.of_nat (Z.to_nat (ld 4 m (z10 + 4))) <=? l')) eqn:Ei'; [|lia].
    rewrite <- E. f_equal. f_equal. unfold bid_text. f_equal.
    assert (Bx : forall k p, (forall x, p <= x < p + Z.of_nat k -> m' x = m x) -> bytes_at m' p k = bytes_at m p k).
    { induction k as [|k IH]; intros p Hp; cbn [bytes_at]; auto. f_equal; [apply Hp; lia|]. apply IH. intros x Hx. apply Hp. lia. }
    apply Bx. intros x Hx. apply A, Nt. lia. }
  rewrite Eb. clear E Eb.
  ob H.
  assert (Pq : parse_ulpatch_strtab m' l' z3 = Some p).
  { unfold parse_ulpatch_strtab in *.
    assert (Sx : forall x, z3 <= x -> (forall z1 z2 z3', z3 <= z1 -> z1 < z2 -> z2 < z3' -> z3' < x -> ~ (m z1 = 0 /\ m z2 = 0 /\ m z3' = 0)) -> m' x = m x).
    { intros x Hx Hz. apply A. right. exists z2. fold n t. rewrite <- Es. split; [lia|]. right. right. right. left. split; [apply Ps|]. split; auto. }
    ob E. rewrite (eq_at_agree m m' l l' Hl _ magic_no0 _ _ E0).
    2:{ intros x (B & C). apply Sx; auto. intros a1 a2 a3 H1 H2 H3 H4 (Y & _). apply (C a1); auto. lia. }
    destruct (negb b); auto. ob E. unfold after_nul in *. ob E1. apply some_inj in E1. pose proof (cstr_inv _ _ _ _ E2) as (S1 & _).
    assert (In1 : forall a s x, string_at m a s -> a <= x < a + Z.of_nat (List.length s) -> m x <> 0).
    { intros a s x (Nz & F & _) Hx X. apply Nz. specialize (F (Z.to_nat (x - a)) ltac:(lia)).
      replace (a + Z.of_nat (Z.to_nat (x - a))) with x in F by lia. rewrite X in F. rewrite F. apply nth_In. lia. }
    rewrite (cstr_agree m m' l l' Hl _ _ E2).
    2:{ intros x Hx. apply Sx; [lia|]. intros a1 a2 a3 H1 H2 H3 H4 (Y & _). apply (In1 _ _ a1 S1); auto. lia. }
    rewrite E1. ob E. ob E3. apply some_inj in E3. pose proof (cstr_inv _ _ _ _ E4) as (S2 & _).
    rewrite (cstr_agree m m' l l' Hl _ _ E4).
    2:{ intros x Hx. subst z12. unfold TextModel.len in *. apply Sx; [lia|]. intros a1 a2 a3 H1 H2 H3 H4 (Y1 & Y2 & _).
        destruct (Z_lt_le_dec a1 (z3 + Z.of_nat (List.length l0))); [apply (In1 _ _ a1 S1); auto; lia|].
        apply (In1 _ _ a2 S2); auto. lia. }
    rewrite E3. exact E. }
  rewrite Pq. destruct p as [[err src] dst]. destruct (negb (err =? 0)); auto.
  ob H. pose proof (e_shnum_val _ _ _ E0) as Ek. fold n in Ek. subst z12. rewrite Sh.
  ob H. assert (Ef : find_symtab m' l' t 1 (Z.to_nat n - 1) = Some o0).
  { apply (find_symtab_agree m m' l l' Hl t n); [| |exact E1|lia|lia].
    - intros j x Hj Hx. apply A. apply (Hd j); auto.
    - intros j Hj X. split; [apply ld_range; auto|]. apply WL; auto. }
  rewrite Ef. exact H.
Qed.
