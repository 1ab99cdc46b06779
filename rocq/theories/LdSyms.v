From Coq Require Import ZArith String List Bool Lia ZifyBool ZifyNat.
From Verif Require Import Word WordLemmas Str ElfDefs TextModel TextProofs LdModel LdSpec LdProofs.
Import ListNotations.
Open Scope Z_scope.

(** ** find_sec *)
Lemma find_sec_loop_spec img len t ss name : ~ In 0 name -> forall n i r,
  find_sec_loop img len t ss name i n = Some r -> 1 <= i ->
  (r <> 0 -> i <= r < i + Z.of_nat n /\ string_at img (ss + sh_name (section img t r)) name) /\
  (forall j, i <= j < (if r =? 0 then i + Z.of_nat n else r) -> ~ string_at img (ss + sh_name (section img t j)) name).
Proof.
  intros N. induction n as [|n IH]; intros i r H Hi; cbn [find_sec_loop] in H.
  - injection H as <-. split; [congruence|]. cbn [Z.eqb]. intros j Hj. lia.
  - ob H. apply rd_inv in E. destruct E as (-> & _). ob H. apply eq_at_inv in E; auto.
    change (ld 4 img (sec t i)) with (sh_name (section img t i)) in E. destruct b.
    + injection H as <-. split; [intros _; split; [lia|apply E; auto]|].
      destruct (Z.eqb_spec i 0); [lia|]. intros j Hj. lia.
    + apply IH in H; [|lia]. destruct H as [A B]. split.
      * intros Hr. destruct (A Hr) as [A1 A2]. split; [lia|auto].
      * intros j Hj. destruct (Z.eq_dec j i) as [->|Nj].
        -- rewrite <- E. discriminate.
        -- apply B. destruct (r =? 0); lia.
Qed.

Lemma find_sec_spec img len t ss name r : ~ In 0 name ->
  find_sec img len t ss name = Some r ->
  (string_at img (ss + sh_name (section img t 0)) name -> r = 0) /\
  (~ string_at img (ss + sh_name (section img t 0)) name ->
   (r <> 0 -> 1 <= r < ld 2 img 60 /\ string_at img (ss + sh_name (section img t r)) name /\
      forall j, 0 <= j < r -> ~ string_at img (ss + sh_name (section img t j)) name) /\
   (r = 0 -> forall j, 0 <= j < ld 2 img 60 -> ~ string_at img (ss + sh_name (section img t j)) name)).
Proof.
  intros N H. unfold find_sec in H. ob H. apply e_shnum_val in E. rewrite <- E. clear E.
  destruct (Z.to_nat z) as [|n] eqn:En; cbn [find_sec_loop] in H.
  - injection H as <-. split; [auto|]. intros _. split; [congruence|]. intros _ j Hj. lia.
  - ob H. apply rd_inv in E. destruct E as (-> & _). ob H. apply eq_at_inv in E; auto.
    change (ld 4 img (sec t 0)) with (sh_name (section img t 0)) in E. destruct b.
    + injection H as <-. split; [auto|]. intros X. exfalso. apply X. apply E. auto.
    + split; [intros X; apply E in X; discriminate|]. intros _.
      apply find_sec_loop_spec in H; [|auto|lia]. destruct H as [A B]. split.
      * intros Hr. destruct (A Hr) as [A1 A2]. split; [lia|]. split; auto. intros j Hj.
        destruct (Z.eq_dec j 0) as [->|Nj]; [rewrite <- E; discriminate|]. apply B. destruct (Z.eqb_spec r 0); [congruence|lia].
      * intros -> j Hj. destruct (Z.eq_dec j 0) as [->|Nj]; [rewrite <- E; discriminate|]. apply B. cbn [Z.eqb]. lia.
Qed.

(** ** Metadata strings *)
Lemma string_at_of_bytes s l1 l2 : ~ In 0 s -> string_at (of_bytes (l1 ++ s ++ 0 :: l2)) (len l1) s.
Proof.
  intros N. split; auto.
  assert (Len : len (l1 ++ s ++ 0 :: l2) = len l1 + len s + 1 + len l2).
  { rewrite !len_app, len_cons. lia. }
  split.
  - intros i Hi. unfold of_bytes. rewrite Len. pose proof (len_nonneg l2). pose proof (len_nonneg l1).
    assert (Z.of_nat i < len s) by (unfold len; lia).
    destruct (Z.leb_spec 0 (len l1 + Z.of_nat i)); [|lia]. destruct (Z.ltb_spec (len l1 + Z.of_nat i) (len l1 + len s + 1 + len l2)); [|lia].
    cbn [andb]. unfold len. rewrite app_nth2 by lia. replace (Z.to_nat (Z.of_nat (List.length l1) + Z.of_nat i) - List.length l1)%nat with i by lia.
    rewrite app_nth1 by auto. auto.
  - unfold of_bytes. rewrite Len. pose proof (len_nonneg l2). pose proof (len_nonneg l1). fold (len s). pose proof (len_nonneg s).
    destruct (Z.leb_spec 0 (len l1 + len s)); [|lia]. destruct (Z.ltb_spec (len l1 + len s) (len l1 + len s + 1 + len l2)); [|lia].
    cbn [andb]. unfold len. rewrite app_nth2 by lia. replace (Z.to_nat (Z.of_nat (List.length l1) + Z.of_nat (List.length s)) - List.length l1)%nat with (List.length s) by lia.
    rewrite app_nth2 by auto. rewrite Nat.sub_diag. auto.
Qed.

Lemma magic_no0 : ~ In 0 SEC_MAGIC.
Proof. vm_compute. intuition discriminate. Qed.

Lemma parse_strtab_ok img l p src dst :
  string_at img p SEC_MAGIC -> string_at img (p + 9) src -> string_at img (p + 9 + Z.of_nat (List.length src) + 1) dst ->
  0 <= p -> p + 9 + Z.of_nat (List.length src) + 1 + Z.of_nat (List.length dst) < l ->
  parse_ulpatch_strtab img l p = Some (0, p + 9, p + 9 + Z.of_nat (List.length src) + 1).
Proof.
  intros M S D P L. unfold parse_ulpatch_strtab.
  rewrite eq_at_true by (auto using magic_no0; change (Z.of_nat (List.length SEC_MAGIC)) with 8; lia). cbn [negb].
  unfold after_nul. rewrite (cstr_ok img l p SEC_MAGIC) by (auto; change (Z.of_nat (List.length SEC_MAGIC)) with 8; lia).
  change (len SEC_MAGIC) with 8. replace (p + 8 + 1) with (p + 9) by lia.
  rewrite (cstr_ok img l (p + 9) src) by (auto; lia). unfold len. reflexivity.
Qed.

Lemma parse_strtab_inv img l p e src dst :
  parse_ulpatch_strtab img l p = Some (e, src, dst) ->
  (e = 0 /\ string_at img p SEC_MAGIC /\
     (exists s, string_at img src s /\ src = p + 9 /\ dst = src + Z.of_nat (List.length s) + 1)) \/
  (e = - ENOENT /\ ~ string_at img p SEC_MAGIC).
Proof.
  intros H. unfold parse_ulpatch_strtab in H. ob H. apply eq_at_inv in E; [|apply magic_no0]. destruct b; cbn [negb] in H.
  - left. assert (M : string_at img p SEC_MAGIC) by (apply E; auto). ob H. ob H. injection H as <- <- <-.
    unfold after_nul in *. ob E0. injection E0 as <-. ob E1. injection E1 as <-. apply cstr_inv in E2, E0.
    destruct E2 as (S1 & _), E0 as (S2 & _). pose proof (string_at_fun _ _ _ _ M S1) as <-. change (len SEC_MAGIC) with 8 in *.
    split; auto. split; auto. exists l1. split; [auto|]. split; [lia|]. unfold len. auto.
  - right. injection H as <- _ _. split; auto. intros M. apply E in M. discriminate.
Qed.

(** ** Symbols *)
Definition LTO := str "__gnu_lto".

Lemma prefix_at_inv name : forall img l off b, prefix_at img l off name = Some b -> (b = true <-> starts_with img off name).
Proof.
  induction name as [|x r IH]; intros img l off b H; cbn [prefix_at] in H.
  - injection H as <-. split; auto. intros _ i Hi. cbn [List.length] in Hi. lia.
  - ob H. apply rd_inv in E. destruct E as (-> & _). rewrite ld1 in H. destruct (Z.eqb_spec (img off) x) as [Ex|Nx].
    + apply IH in H. rewrite H. split.
      * intros S [|i] Hi; cbn [nth]; [rewrite <- Ex; f_equal; lia|]. cbn [List.length] in Hi. rewrite <- S by lia. f_equal. lia.
      * intros S i Hi. specialize (S (Datatypes.S i)). cbn [List.length nth] in S. rewrite <- S by lia. f_equal. lia.
    + injection H as <-. split; [discriminate|]. intros S. specialize (S 0%nat). cbn [List.length nth] in S.
      exfalso. apply Nx. rewrite <- S by lia. f_equal. lia.
Qed.

(** The string at [p] ends at or before any later zero. *)
Lemma string_before m p s z : string_at m p s -> m z = 0 -> p <= z -> p + Z.of_nat (List.length s) <= z.
Proof.
  intros (N & F & _) Z0 Hz. destruct (Z_le_dec (p + Z.of_nat (List.length s)) z); auto. exfalso. apply N.
  specialize (F (Z.to_nat (z - p)) ltac:(lia)). replace (p + Z.of_nat (Z.to_nat (z - p))) with z in F by lia. rewrite Z0 in F.
  rewrite F. apply nth_In. lia.
Qed.

Lemma starts_before m p s z : ~ In 0 s -> starts_with m p s -> m z = 0 -> p <= z -> p + Z.of_nat (List.length s) <= z.
Proof.
  intros N F Z0 Hz. destruct (Z_le_dec (p + Z.of_nat (List.length s)) z); auto. exfalso. apply N.
  specialize (F (Z.to_nat (z - p)) ltac:(lia)). replace (p + Z.of_nat (Z.to_nat (z - p))) with z in F by lia. rewrite Z0 in F.
  rewrite F. apply nth_In. lia.
Qed.

Section Sym.
Variable lookup : list Z -> option Z.
Variables strtab t : Z.

(** Two images that agree on a symbol, on its name and on its section. *)
Record sym_same (m m' : mem) (q : Z) : Prop := SymSame {
  ss_entry : forall x, q <= x < q + 24 -> m' x = m x;
  ss_name : exists z, m z = 0 /\ name_off strtab m q <= z /\ forall x, name_off strtab m q <= x <= z -> m' x = m x;
  ss_sec : sym_shndx m q <> SHN_COMMON -> sym_shndx m q <> SHN_ABS -> sym_shndx m q <> SHN_UNDEF ->
    forall x, t + 64 * sym_shndx m q <= x < t + 64 * sym_shndx m q + 64 -> m' x = m x }.

Section Same.
Variables (m m' : mem) (q : Z).
Hypothesis H : sym_same m m' q.

Lemma same_ld n off : 0 <= off -> off + Z.of_nat n <= 24 -> ld n m' (q + off) = ld n m (q + off).
Proof. intros A B. apply ld_ext. intros x Hx. apply (ss_entry _ _ _ H). lia. Qed.
Lemma same_shndx : sym_shndx m' q = sym_shndx m q.
Proof. unfold sym_shndx. apply same_ld; lia. Qed.
Lemma same_bind : sym_bind m' q = sym_bind m q.
Proof. unfold sym_bind. rewrite same_ld by lia. auto. Qed.
Lemma same_val : sym_value m' q = sym_value m q.
Proof. unfold sym_value. apply same_ld; lia. Qed.
Lemma same_nm : name_off strtab m' q = name_off strtab m q.
Proof. unfold name_off. f_equal. replace q with (q + 0) by lia. apply same_ld; lia. Qed.
Lemma same_string s : string_at m' (name_off strtab m' q) s <-> string_at m (name_off strtab m q) s.
Proof.
  rewrite same_nm. destruct (ss_name _ _ _ H) as (z & Z0 & Hz & A). split; intros S.
  - apply string_at_ext with m'; auto. intros x Hx. symmetry. apply A.
    assert (Zm : m' z = 0) by (rewrite A by lia; auto). pose proof (string_before _ _ _ _ S Zm Hz). lia.
  - apply string_at_ext with m; auto. intros x Hx. apply A. pose proof (string_before _ _ _ _ S Z0 Hz). lia.
Qed.
Lemma same_starts s : ~ In 0 s -> (starts_with m' (name_off strtab m' q) s <-> starts_with m (name_off strtab m q) s).
Proof.
  intros N. rewrite same_nm. destruct (ss_name _ _ _ H) as (z & Z0 & Hz & A). split; intros S i Hi.
  - assert (Zm : m' z = 0) by (rewrite A by lia; auto). pose proof (starts_before _ _ _ _ N S Zm Hz). rewrite <- A by lia. auto.
  - pose proof (starts_before _ _ _ _ N S Z0 Hz). rewrite A by lia. auto.
Qed.
Lemma same_unresolved : unresolved lookup strtab m' q <-> unresolved lookup strtab m q.
Proof.
  unfold unresolved. rewrite same_shndx. split; intros (A & s & B & C); split; auto; exists s; split; auto; apply same_string; auto.
Qed.
Lemma same_resolved a : resolved lookup strtab m' q a <-> resolved lookup strtab m q a.
Proof.
  unfold resolved. rewrite same_shndx. split; intros (A & A' & s & B & C); split; auto; split; auto; exists s; split; auto; apply same_string; auto.
Qed.
Lemma lto_no0 : ~ In 0 LTO.
Proof. vm_compute. intuition discriminate. Qed.
Lemma same_bad : bad_symbol lookup strtab LTO m' q <-> bad_symbol lookup strtab LTO m q.
Proof. unfold bad_symbol, common_bad. rewrite same_shndx, same_bind, same_unresolved, same_starts by apply lto_no0. tauto. Qed.
Lemma same_new_value v : new_value lookup strtab t m' q v <-> new_value lookup strtab t m q v.
Proof.
  unfold new_value. rewrite same_shndx, same_val, same_unresolved.
  assert (Es : sym_shndx m q <> SHN_COMMON -> sym_shndx m q <> SHN_ABS -> sym_shndx m q <> SHN_UNDEF ->
    sh_addr (section m' t (sym_shndx m q)) = sh_addr (section m t (sym_shndx m q))).
  { intros N1 N2 N3. unfold section, shdr_at. cbn [sh_addr]. apply ld_ext. intros x Hx. apply (ss_sec _ _ _ H); auto. lia. }
  split; intros (A & B & C); (split; [auto|split; [intros a Ha; apply B; apply same_resolved; auto|]]); intros N1 N2 N3; [rewrite <- Es|rewrite Es]; auto.
Qed.
End Same.

Definition value_field (p k x : Z) : Prop := p + 24 * k + 8 <= x < p + 24 * k + 16.

(** One symbol. *)
Lemma simplify_one_spec img len li q ret ret' img' :
  li_strtab li = strtab -> li_sechdrs li = t -> byte_mem img ->
  simplify_one lookup img len li q ret = Some (ret', img') ->
  (forall x, ~ (q + 8 <= x < q + 16) -> img' x = img x) /\ byte_mem img' /\
  new_value lookup strtab t img q (sym_value img' q) /\
  ((bad_symbol lookup strtab LTO img q /\ ret' < 0) \/
   ((exists a, resolved lookup strtab img q a) /\ ret' = 0) \/
   (~ bad_symbol lookup strtab LTO img q /\ (forall a, ~ resolved lookup strtab img q a) /\ ret' = ret)).
Proof.
  intros Hs Ht Hb H. unfold simplify_one in H. rewrite Hs, Ht in H.
  ob H. apply rd_inv in E. destruct E as (-> & _). ob H. apply rd_inv in E. destruct E as (-> & _).
  ob H. apply rd_inv in E. destruct E as (-> & _).
  change (strtab + ld 4 img q) with (name_off strtab img q) in H. change (ld 2 img (q + 6)) with (sym_shndx img q) in H.
  change (st_bind (ld 1 img (q + 4))) with (sym_bind img q) in H.
  assert (UU : forall s, string_at img (name_off strtab img q) s -> forall a, resolved lookup strtab img q a -> lookup s = Some a).
  { intros s S a (_ & _ & s' & S' & L). rewrite (string_at_fun _ _ _ _ S S'). auto. }
  destruct (Z.eqb_spec (sym_shndx img q) SHN_COMMON) as [Ec|Nc].
  { ob H. apply prefix_at_inv in E. injection H as <- <-. split; auto. split; auto. split.
    - split; [auto|]. split.
      + intros a (X & _). rewrite Ec in X. discriminate.
      + intros X. contradiction.
    - assert (NR : forall a, ~ resolved lookup strtab img q a) by (intros a (X & _); rewrite Ec in X; discriminate).
      destruct b.
      + right. right. split; [|auto]. intros [(_ & X)|((X & _) & _)]; [apply X, E; auto|rewrite Ec in X; discriminate].
      + left. split; [|reflexivity]. left. split; auto. intros X. apply E in X. discriminate. }
  destruct (Z.eqb_spec (sym_shndx img q) SHN_ABS) as [Ea|Na].
  { injection H as <- <-. split; auto. split; auto.
    assert (NR : forall a, ~ resolved lookup strtab img q a) by (intros a (X & _); rewrite Ea in X; discriminate).
    split.
    - split; [auto|]. split; [intros a X; exfalso; apply (NR a X)|]. intros _ X. contradiction.
    - right. right. split; [|auto]. intros [(X & _)|((X & _) & _)]; rewrite Ea in X; discriminate. }
  destruct (Z.eqb_spec (sym_shndx img q) SHN_UNDEF) as [Eu|Nu].
  { ob H. apply cstr_inv in E. destruct E as (S & _). unfold resolve_symbol in H.
    assert (Dec : match lookup l with Some a => a | None => 0 end = 0 -> unresolved lookup strtab img q /\ forall a, ~ resolved lookup strtab img q a).
    { intros Z0. split.
      - split; auto. exists l. split; auto. destruct (lookup l) as [a|]; [right; congruence|auto].
      - intros a R. pose proof (UU l S a R) as L. rewrite L in Z0. destruct R as (_ & X & _). contradiction. }
    destruct (Z.eqb_spec match lookup l with Some a => a | None => 0 end 0) as [Z0|Z0].
    - destruct (Dec Z0) as [U NR].
      assert (NV : new_value lookup strtab t img q (sym_value img q)).
      { split; [auto|]. split; [intros a R; exfalso; apply (NR a R)|intros _ _ X; contradiction]. }
      destruct (Z.eqb_spec (sym_bind img q) STB_WEAK) as [Ew|Nw]; injection H as <- <-; split; auto; split; auto; split; auto.
      + right. right. split; [|auto]. intros [(X & _)|(_ & X)]; contradiction.
      + left. split; [right; auto|reflexivity].
    - ob H. apply wr_inv in E. destruct E as (-> & _). injection H as <- <-.
      assert (R : resolved lookup strtab img q (match lookup l with Some a => a | None => 0 end)).
      { split; auto. split; auto. exists l. split; auto. destruct (lookup l); [auto|congruence]. }
      split; [intros x Nx; apply st_out; lia|]. split; [apply st_byte; auto|]. split.
      + unfold sym_value. rewrite ld_st. split; [|split].
        * intros [X|[X|X]]; try contradiction. exfalso. destruct X as (_ & s & S' & L). rewrite (string_at_fun _ _ _ _ S S') in Z0.
          destruct L as [L|L]; rewrite L in Z0; congruence.
        * intros a Ra. rewrite (UU l S a Ra). reflexivity.
        * intros _ _ X. contradiction.
      + right. left. split; [eauto|auto]. }
  ob H. apply rd_inv in E. destruct E as (-> & _). ob H. apply rd_inv in E. destruct E as (-> & _).
  ob H. apply wr_inv in E. destruct E as (-> & _). injection H as <- <-.
  assert (NR : forall a, ~ resolved lookup strtab img q a) by (intros a (X & _); contradiction).
  split; [intros x Nx; apply st_out; lia|]. split; [apply st_byte; auto|]. split.
  - unfold sym_value. rewrite ld_st. split; [|split].
    + intros [X|[X|(X & _)]]; contradiction.
    + intros a R. exfalso. apply (NR a R).
    + intros _ _ _. change (ld 8 img (sec t (sym_shndx img q) + 16)) with (sh_addr (section img t (sym_shndx img q))).
      change (2 ^ (8 * Z.of_nat 8)) with (2 ^ 64). unfold u64, wrap. rewrite Z.mod_mod by lia. reflexivity.
  - right. right. split; [|auto]. intros [(X & _)|((X & _) & _)]; contradiction.
Qed.

Lemma apart_same img img' p n :
  (forall x, ~ (p + 8 <= x < p + 16) -> img' x = img x) -> apart strtab t img p (S n) ->
  (forall k, 0 <= k < Z.of_nat n -> sym_same img img' (p + 24 + 24 * k)) /\ apart strtab t img' (p + 24) n.
Proof.
  intros F A.
  assert (G : forall k, 0 <= k < Z.of_nat n -> sym_same img img' (p + 24 + 24 * k)).
  { intros k Hk. specialize (A (1 + k) ltac:(lia)). cbv zeta in A. replace (p + 24 * (1 + k)) with (p + 24 + 24 * k) in A by lia.
    destruct A as [(z & Z0 & Hz & D) B]. constructor.
    - intros x Hx. apply F. lia.
    - exists z. split; auto. split; auto. intros x Hx. apply F. lia.
    - intros N1 N2 N3 x Hx. specialize (B N1 N2 N3). apply F. lia. }
  split; auto. intros k Hk. specialize (A (1 + k) ltac:(lia)). cbv zeta in A |- *. specialize (G k Hk).
  replace (p + 24 * (1 + k)) with (p + 24 + 24 * k) in A by lia. replace (p + 24 + 24 * Z.of_nat n) with (p + 24 * Z.of_nat (S n)) by lia.
  destruct A as [(z & Z0 & Hz & D) B]. rewrite (same_nm _ _ _ G), (same_shndx _ _ _ G). split.
  - exists z. split; [rewrite F; [auto|lia]|]. split; auto. lia.
  - intros N1 N2 N3. specialize (B N1 N2 N3). lia.
Qed.

Lemma simplify_loop_spec n : forall img len li p ret ret' img',
  li_strtab li = strtab -> li_sechdrs li = t -> byte_mem img -> apart strtab t img p n ->
  simplify_loop lookup img len li p n ret = Some (ret', img') ->
  (forall x, ~ (exists k, 0 <= k < Z.of_nat n /\ value_field p k x) -> img' x = img x) /\
  (forall k, 0 <= k < Z.of_nat n -> new_value lookup strtab t img (p + 24 * k) (sym_value img' (p + 24 * k))) /\
  (ret' = 0 <->
    ((exists k a, 0 <= k < Z.of_nat n /\ resolved lookup strtab img (p + 24 * k) a /\
        forall j, k < j < Z.of_nat n -> ~ bad_symbol lookup strtab LTO img (p + 24 * j)) \/
     (ret = 0 /\ forall j, 0 <= j < Z.of_nat n -> ~ bad_symbol lookup strtab LTO img (p + 24 * j)))).
Proof.
  induction n as [|n IH]; intros img len li p ret ret' img' Hs Ht Hb A H; cbn [simplify_loop] in H.
  - injection H as <- <-. split; [auto|]. split; [intros k Hk; lia|]. split.
    + intros ->. right. split; auto. intros j Hj. lia.
    + intros [(k & a & Hk & _)|(E & _)]; [lia|auto].
  - ob H. destruct p0 as [r1 img1]. destruct (simplify_one_spec _ _ _ _ _ _ _ Hs Ht Hb E) as (F & Hb1 & NV & V).
    destruct (apart_same img img1 p n F A) as [G A1].
    apply IH in H; auto. unfold sizeof_sym in H. destruct H as (F2 & NV2 & V2). split; [|split].
    + intros x Nx. rewrite F2.
      * apply F. intros Hx. apply Nx. exists 0. split; [lia|]. unfold value_field. lia.
      * intros (k & Hk & Vk). apply Nx. exists (k + 1). split; [lia|]. unfold value_field in *. lia.
    + intros k Hk. destruct (Z.eq_dec k 0) as [->|Nk].
      * replace (p + 24 * 0) with p in * by lia. replace (sym_value img' p) with (sym_value img1 p); auto.
        unfold sym_value. apply ld_ext. intros x Hx. symmetry. apply F2. intros (k & Hk' & Vk). unfold value_field in Vk. lia.
      * specialize (NV2 (k - 1) ltac:(lia)). specialize (G (k - 1) ltac:(lia)).
        replace (p + 24 + 24 * (k - 1)) with (p + 24 * k) in * by lia. apply (same_new_value _ _ _ G). auto.
    + assert (Gb : forall j, 0 <= j < Z.of_nat n ->
          (bad_symbol lookup strtab LTO img1 (p + 24 + 24 * j) <-> bad_symbol lookup strtab LTO img (p + 24 * (j + 1)))).
      { intros j Hj. replace (p + 24 * (j + 1)) with (p + 24 + 24 * j) by lia. apply same_bad. apply G. auto. }
      assert (Gr : forall j a, 0 <= j < Z.of_nat n ->
          (resolved lookup strtab img1 (p + 24 + 24 * j) a <-> resolved lookup strtab img (p + 24 * (j + 1)) a)).
      { intros j a Hj. replace (p + 24 * (j + 1)) with (p + 24 + 24 * j) by lia. apply same_resolved. apply G. auto. }
      rewrite V2. assert (P0 : p + 24 * 0 = p) by lia. split.
      * intros [(k & a & Hk & R & Nb)|(E1 & Nb)].
        -- left. exists (k + 1), a. split; [lia|]. split; [apply Gr; auto|]. intros j Hj. specialize (Nb (j - 1) ltac:(lia)).
           rewrite Gb in Nb by lia. replace (j - 1 + 1) with j in Nb by lia. auto.
        -- assert (Nb' : forall j, 1 <= j < Z.of_nat (S n) -> ~ bad_symbol lookup strtab LTO img (p + 24 * j)).
           { intros j Hj. specialize (Nb (j - 1) ltac:(lia)). rewrite Gb in Nb by lia. replace (j - 1 + 1) with j in Nb by lia. auto. }
           destruct V as [[_ X]|[[[a R] _]|[B [_ Er]]]]; [lia| |].
           ++ left. exists 0, a. rewrite P0. split; [lia|]. split; auto. intros j Hj. apply Nb'. lia.
           ++ right. split; [congruence|]. intros j Hj. destruct (Z.eq_dec j 0) as [->|Nj]; [rewrite P0; auto|apply Nb'; lia].
      * intros [(k & a & Hk & R & Nb)|(E1 & Nb)].
        -- destruct (Z.eq_dec k 0) as [->|Nk].
           ++ right. rewrite P0 in R. split.
              ** destruct V as [[B X]|[[_ X]|[_ [X _]]]]; auto; [|exfalso; apply (X a R)].
                 exfalso. destruct B as [(B & _)|((_ & s & S & L) & _)]; destruct R as (R1 & R2 & s' & S' & L').
                 --- rewrite R1 in B. discriminate.
                 --- rewrite (string_at_fun _ _ _ _ S S') in L. destruct L as [L|L]; congruence.
              ** intros j Hj. rewrite Gb by lia. apply Nb. lia.
           ++ left. exists (k - 1), a. split; [lia|]. split; [apply Gr; [lia|]; replace (k - 1 + 1) with k by lia; auto|].
              intros j Hj. rewrite Gb by lia. apply Nb. lia.
        -- right. split.
           ++ destruct V as [[B X]|[[_ X]|[_ [_ X]]]]; auto; [|congruence]. exfalso. apply (Nb 0 ltac:(lia)). rewrite P0. auto.
           ++ intros j Hj. rewrite Gb by lia. apply Nb. lia.
Qed.
End Sym.
