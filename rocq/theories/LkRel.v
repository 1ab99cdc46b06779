(** The relocation sections of a patch file that is linked. *)
From Coq Require Import ZArith String List Bool Lia ZifyBool ZifyNat.
From Verif Require Import Word WordLemmas Str ElfDefs TextModel LdModel LdSpec LdProofs LdSyms LdMore X86RelocModel X86RelocSpec X86RelocProofs X86RelocMore ScModel ScSpec PaModel PaSpec PaRead PaProofs PaMore PaKick PaLoad PaX86 LkSpec LkSyms.
Import ListNotations.
Open Scope Z_scope.

Lemma zseq_nth n : forall i k x, nth_error (zseq i n) k = Some x -> (k < n)%nat /\ x = i + Z.of_nat k.
Proof.
  induction n as [|n IH]; intros i [|k] x H; cbn [zseq nth_error] in H; try discriminate.
  - apply some_inj in H. subst. split; lia.
  - apply IH in H. split; lia.
Qed.
Lemma zseq_len n : forall i, length (zseq i n) = n.
Proof. induction n as [|n IH]; intros i; cbn [zseq length]; auto. Qed.
Lemma zseq_in n : forall i x, i <= x < i + Z.of_nat n -> In x (zseq i n).
Proof. induction n as [|n IH]; intros i x H; [lia|]. cbn [zseq In]. destruct (Z.eq_dec i x); auto. right. apply IH. lia. Qed.

(** [image_ok] and [a64_image_ok] for any width of the fields. *)
Record wd_image_ok (wd : Z -> Z) (m : mem) (pi : placed_image) : Prop := {
  wo_bytes : forall x, 0 <= m x < 256;
  wo_hdr : 0 <= pi_hdr pi /\ pi_hdr pi + pi_len pi <= 2 ^ 64;
  wo_target : 0 <= pi_target pi /\ pi_target pi + pi_len pi <= 2 ^ 64;
  wo_offs : 0 <= pi_rel_off pi /\ 0 <= pi_sym_off pi /\ 0 <= pi_sec_off pi;
  wo_rel_tab : pi_rel_off pi + 24 * Z.of_nat (length (pi_rels pi)) <= pi_len pi;
  wo_rel : forall i r, nth_error (pi_rels pi) i = Some r ->
    rela_in m (pi_hdr pi + pi_rel_off pi + 24 * Z.of_nat i) r /\
    field_off pi r + wd (ra_ty r) <= pi_len pi /\
    field_off pi r < pi_len pi /\
    pi_sym_off pi + 24 * ra_sym r + 24 <= pi_len pi;
  wo_disj : forall i k r q, nth_error (pi_rels pi) i = Some r ->
    nth_error (pi_rels pi) k = Some q -> i <> k ->
    disjoint (field_off pi r) (wd (ra_ty r)) (field_off pi q) (wd (ra_ty q));
  wo_tab_disj : forall r, In r (pi_rels pi) ->
    disjoint (field_off pi r) (wd (ra_ty r))
             (pi_rel_off pi) (24 * Z.of_nat (length (pi_rels pi)));
  wo_sym_disj : forall r q, In r (pi_rels pi) -> In q (pi_rels pi) ->
    disjoint (field_off pi r) (wd (ra_ty r)) (pi_sym_off pi + 24 * ra_sym q) 24 }.

(** A relocation function that puts the values [value] into the fields of an image, which
    is at 0 in the tool and at [hdr] in the process, of length [len]. *)
Definition relocates (wd : Z -> Z) (value : field_value) (hdr len sy t : Z) (rel : mem -> Z -> Z * mem) : Prop :=
  forall m i pi e m', wd_image_ok wd m pi -> pi_hdr pi = 0 -> pi_target pi = hdr -> pi_len pi = len -> describes (X86Job 0 hdr (section m t) sy i) pi ->
    rel m i = (e, m') -> 0 <= e ->
    byte_mem m' /\
    (forall x, (forall r, In r (pi_rels pi) -> ~ (field_off pi r <= x < field_off pi r + wd (ra_ty r))) -> m' x = m x) /\
    forall r, In r (pi_rels pi) ->
      value (ra_ty r) (sym_value m pi r) (ra_add r) (hdr + field_off pi r) m (field_off pi r) m' (field_off pi r).

(** The bytes of the field decide. *)
Definition local_value (wd : Z -> Z) (value : field_value) : Prop :=
  forall ty S A P f o m a f' o' m' a', (forall d, 0 <= d < wd ty -> f' (o' + d) = f (o + d)) -> (forall d, 0 <= d < wd ty -> m' (a' + d) = m (a + d)) ->
    value ty S A P f o m a -> value ty S A P f' o' m' a'.

Section Rel.
Variables (wd : Z -> Z) (value : field_value).
Hypothesis Wp : forall ty, 0 <= wd ty.
Hypothesis Lv : local_value wd value.
Variables (f : mem) (len hdr : Z) (li : linfo).
Hypothesis Hb : byte_mem f.
Hypothesis T : tidy f len.
Hypothesis SU : setup_load_info f len = Some (inr li).
Hypothesis LK : linkable wd f len.
Hypothesis H0 : 0 <= hdr.
Hypothesis H1 : hdr + len < 2 ^ 64.
Variable rel : mem -> Z -> Z * mem.
Hypothesis RL : relocates wd value hdr len (li_sym li) (ld 8 f 40) rel.

Notation t := (ld 8 f 40).
Notation n := (nsec f).
Notation s := (li_sym li).

(** The image before the relocations. *)
Variable m2 : mem.
Hypothesis B2 : byte_mem m2.
Hypothesis A2 : agrees f m2.
Hypothesis P2 : placed f hdr m2.
Hypothesis F2 : flags_as f li m2.
Hypothesis E2 : forall x, entry_byte f x -> m2 x = f x.

(** The relocations of the sections before [i] are done, those from [i] on are not. *)
Definition done (i : Z) (m : mem) : Prop :=
  byte_mem m /\
  (forall x, (forall i' k, i' < i -> live f i' k -> ~ in_place wd f i' k x) -> m x = m2 x) /\
  (forall i' k, i' < i -> live f i' k ->
     value (e_type f i' k) (ld 8 m2 (sym f s (e_sym f i' k) + 8)) (e_add f i' k) (hdr + place f i' k) m2 (place f i' k) m (place f i' k)).

Definition the_rel (i k : Z) : rela := Rela (ld 8 f (entry f i k)) (e_sym f i k) (e_type f i k) (e_add f i k).
Definition the_rels (i : Z) : list rela := map (the_rel i) (zseq 0 (Z.to_nat (sh_size (sect f i) / 24))).
Definition the_image (i : Z) : placed_image :=
  PlacedImage 0 hdr len (sh_offset (sect f i)) (sh_offset (sect f s)) (sh_offset (sect f (sh_info (sect f i)))) (the_rels i).

Lemma live_idx i k : live f i k -> 1 <= i /\ 1 <= sh_info (sect f i).
Proof.
  intros (A & B & C & D & _). destruct (lk_first _ _ _ LK) as [X Y]. split.
  - destruct (Z.eq_dec i 0) as [->|]; [|lia]. rewrite B in X. discriminate.
  - assert (0 <= sh_info (sect f i)) by (apply (ld_range 4); auto). destruct (Z.eq_dec (sh_info (sect f i)) 0) as [E|]; [|lia].
    rewrite E, Y in D. exfalso. apply D. reflexivity.
Qed.

Lemma live_field i k x : live f i k -> in_place wd f i k x -> ~ in_table f x /\ ~ record_byte f x /\ ~ entry_byte f x /\ ~ sym_byte f s x.
Proof.
  intros L X. destruct (lk_place _ _ _ LK i k x L X) as (A & B & C & D). pose proof (s_range f len li Hb SU). pose proof (s_type f len li Hb SU).
  split; auto. split; auto. split; auto. apply D; auto. lia.
Qed.

Lemma done_table i m x : done i m -> in_table f x -> m x = m2 x.
Proof. intros (_ & A & _) X. apply A. intros i' k _ L Y. apply (live_field i' k x L) in Y. tauto. Qed.
Lemma done_section i m j : done i m -> 0 <= j < n -> section m t j = section m2 t j.
Proof. intros D Hj. apply shdr_ext. intros x Hx. apply (done_table i); auto. unfold in_table, nsec in *. lia. Qed.
Lemma done_sym i m x : done i m -> sym_byte f s x -> m x = m2 x.
Proof. intros (_ & A & _) X. apply A. intros i' k _ L Y. apply (live_field i' k x L) in Y. tauto. Qed.
Lemma done_entry i m x : done i m -> entry_byte f x -> m x = f x.
Proof. intros (_ & A & _) X. rewrite <- E2 by auto. apply A. intros i' k _ L Y. apply (live_field i' k x L) in Y. tauto. Qed.

Lemma at_place m j : 1 <= j < n -> section m t j = section m2 t j -> sh_addr (section m t j) = hdr + sh_offset (sect f j).
Proof.
  intros Hj ->. rewrite P2 by (unfold nsec in Hj; lia). pose proof (off_pos f Hb j). pose proof (lk_off _ _ _ LK j ltac:(lia)). apply Z.mod_small. unfold sect in *. lia.
Qed.

Lemma disj_of x w a k : 0 <= w -> 0 <= k -> (forall z, x <= z < x + w -> ~ a <= z < a + k) -> disjoint x w a k.
Proof.
  intros W K H. unfold disjoint. destruct (Z.eq_dec w 0); auto. destruct (Z.eq_dec k 0); auto.
  destruct (Z_le_gt_dec (x + w) a); auto. destruct (Z_le_gt_dec (a + k) x); auto. exfalso. apply (H (Z.max x a)); lia.
Qed.

Lemma rels_nth i a r : nth_error (the_rels i) a = Some r -> r = the_rel i (Z.of_nat a) /\ 0 <= Z.of_nat a < sh_size (sect f i) / 24.
Proof.
  intros H. unfold the_rels in H. rewrite nth_error_map in H. destruct (nth_error _ a) as [z|] eqn:E; [|discriminate]. apply zseq_nth in E.
  cbn [option_map] in H. apply some_inj in H. destruct E as [E ->]. split; [symmetry; exact H|]. lia.
Qed.
Lemma rels_in i r : In r (the_rels i) -> exists k, r = the_rel i k /\ 0 <= k < sh_size (sect f i) / 24.
Proof. intros H. apply In_nth_error in H. destruct H as [a H]. apply rels_nth in H. eauto. Qed.
Lemma rels_len i : Z.of_nat (length (the_rels i)) = sh_size (sect f i) / 24.
Proof. unfold the_rels. rewrite map_length, zseq_len. pose proof (size_pos f Hb i). pose proof (Z.div_pos (sh_size (sect f i)) 24). lia. Qed.

Section One.
Variables (i : Z) (m : mem).
Hypothesis D : done i m.
Hypothesis L : forall k, 0 <= k < sh_size (sect f i) / 24 -> live f i k.
Hypothesis Li : 1 <= i < n /\ 1 <= sh_info (sect f i) < n /\ sh_type (sect f i) = SHT_RELA.

Lemma entry_in k o : 0 <= k < sh_size (sect f i) / 24 -> 0 <= o < 24 -> entry_byte f (entry f i k + o).
Proof. intros Hk Ho. exists i. split; [lia|]. split; [tauto|]. unfold entry. lia. Qed.

Lemma ld_entry k o w : 0 <= k < sh_size (sect f i) / 24 -> 0 <= o -> o + Z.of_nat w <= 24 -> ld w m (entry f i k + o) = ld w f (entry f i k + o).
Proof.
  intros Hk O0 O1. apply ld_ext. intros x Hx. apply (done_entry i); auto. replace x with (entry f i k + (x - entry f i k)) by lia. apply entry_in; lia.
Qed.

Lemma sym_used k : 0 <= k < sh_size (sect f i) / 24 -> 0 <= e_sym f i k < count f s.
Proof.
  intros Hk. pose proof (s_range f len li Hb SU). destruct (lk_link _ _ _ LK s i k ltac:(lia) (s_type f len li Hb SU) (L k Hk)) as [_ X]. split; [|lia].
  apply Z.div_pos; [apply (ld_range 8); auto|lia].
Qed.

Lemma image_is : wd_image_ok wd m (the_image i).
Proof.
  pose proof (s_range f len li Hb SU) as Sr. pose proof (s_type f len li Hb SU) as St.
  assert (Lp : 0 <= len). { pose proof (off_pos f Hb s). pose proof (lk_off _ _ _ LK s ltac:(lia)). lia. }
  constructor; cbn [pi_hdr pi_target pi_len pi_rel_off pi_sym_off pi_sec_off pi_rels the_image].
  - intros x. apply D.
  - lia.
  - lia.
  - pose proof (off_pos f Hb i). pose proof (off_pos f Hb s). pose proof (off_pos f Hb (sh_info (sect f i))). lia.
  - rewrite rels_len. destruct (Z_le_gt_dec (sh_size (sect f i) / 24) 0) as [E|E].
    + pose proof (lk_off _ _ _ LK i ltac:(lia)). lia.
    + pose proof (lk_entries _ _ _ LK _ (entry_in (sh_size (sect f i) / 24 - 1) 23 ltac:(lia) ltac:(lia))) as [X _]. unfold entry in X. lia.
  - intros a r Hr. apply rels_nth in Hr. destruct Hr as [-> Hk]. set (k := Z.of_nat a) in *. pose proof (sym_used k Hk) as Su.
    destruct (lk_inside _ _ _ LK i k (L k Hk)) as [In1 In2]. unfold field_off. cbn [pi_sec_off the_image the_rel ra_off ra_ty ra_sym]. split; [|split; [|split]].
    + change (0 + sh_offset (sect f i) + 24 * k) with (entry f i k). replace (0 + sh_offset (sect f i) + 24 * k) with (entry f i k) by (unfold entry; lia).
      pose proof (ld_entry k 0 8 Hk ltac:(lia) ltac:(lia)) as X0. rewrite Z.add_0_r in X0. 
      pose proof (ld_entry k 8 8 Hk ltac:(lia) ltac:(lia)) as X8. pose proof (ld_entry k 16 8 Hk ltac:(lia) ltac:(lia)) as X16.
      unfold rela_in. cbn [ra_off ra_ty ra_sym ra_add the_rel]. rewrite X0, X8, X16.
      split; [auto|]. split; [unfold e_sym, e_type; rewrite Z.mul_comm; apply Z.div_mod; lia|].
      split; [unfold e_add, u64; symmetry; apply wrap_id; apply (ld_range 8); auto|]. split; [apply Z.mod_pos_bound; lia|]. split; [lia|].
      apply (ld_range 8); auto.
    + exact In2.
    + exact In1.
    + destruct (sym_out wd f len li Hb SU LK (sym f s (e_sym f i k) + 23) ltac:(apply (sym_in f li (e_sym f i k)); auto; lia)) as [X _]. unfold sym in X. lia.
  - intros a b r q Hr Hq N. apply rels_nth in Hr, Hq. destruct Hr as [-> Ha], Hq as [-> Hb']. unfold field_off. cbn [pi_sec_off the_image the_rel ra_off ra_ty].
    apply (lk_apart _ _ _ LK i (Z.of_nat a) i (Z.of_nat b)); auto. intros X. apply (f_equal snd) in X. cbn [snd] in X. lia.
  - intros r Hr. apply rels_in in Hr. destruct Hr as (k & -> & Hk). unfold field_off. cbn [pi_sec_off the_image the_rel ra_off ra_ty]. rewrite rels_len.
    pose proof (size_pos f Hb i). apply disj_of; [apply Wp|pose proof (Z.div_pos (sh_size (sect f i)) 24); lia|].
    intros z Hz Hy. destruct (live_field i k z (L k Hk) Hz) as (_ & _ & X & _). apply X. exists i. split; [lia|]. split; [tauto|]. lia.
  - intros r q Hr Hq. apply rels_in in Hr, Hq. destruct Hr as (k & -> & Hk), Hq as (k' & -> & Hk'). unfold field_off. cbn [pi_sec_off the_image the_rel ra_off ra_ty ra_sym].
    apply disj_of; [apply Wp|lia|]. intros z Hz Hy. destruct (live_field i k z (L k Hk) Hz) as (_ & _ & _ & X). apply X.
    apply (sym_in f li (e_sym f i k')); [apply sym_used; auto|]. unfold sym. lia.
Qed.

Lemma describes_is : describes (X86Job 0 hdr (section m t) s i) (the_image i).
Proof.
  pose proof (s_range f len li Hb SU) as Sr.
  pose proof (headers_agree f m2 i A2 ltac:(lia)) as (_ & _ & Sz & _ & Si).
  constructor; cbn [xj_hdr xj_target_hdr xj_sechdrs xj_relsec xj_symindex pi_hdr pi_target pi_rel_off pi_sym_off pi_sec_off pi_rels the_image]; auto.
  - apply at_place; [lia|]. apply (done_section i); auto. lia.
  - apply at_place; [lia|]. apply (done_section i); auto. lia.
  - rewrite (done_section i m i D) by lia. rewrite Si. apply at_place; [lia|]. apply (done_section i); auto. lia.
  - rewrite (done_section i m i D) by lia. rewrite Sz, rels_len. reflexivity.
Qed.

Lemma one_section e m' : rel m i = (e, m') -> 0 <= e -> done (i + 1) m'.
Proof.
  intros R E. pose proof D as (Db & Df & Dv).
  destruct (RL _ _ _ _ _ image_is eq_refl eq_refl eq_refl describes_is R E) as (Bm & F & V).
  assert (Fr : forall x, (forall k, live f i k -> ~ in_place wd f i k x) -> m' x = m x).
  { intros x Hx. apply F. intros r Hr Y. apply rels_in in Hr. destruct Hr as (k & -> & Hk). apply (Hx k (L k Hk)).
    unfold field_off in Y. cbn [pi_sec_off the_image the_rel ra_off ra_ty] in Y. exact Y. }
  split; [exact Bm|]. split.
  - intros x Hx. rewrite Fr by (intros k; apply Hx; lia). apply Df. intros i' k Hi. apply Hx. lia.
  - intros i' k Hi Li'. destruct (Z.eq_dec i' i) as [->|Ni].
    + pose proof Li' as (_ & _ & _ & _ & _ & Hk). specialize (V (the_rel i k)).
      assert (Sy : sym_value m (the_image i) (the_rel i k) = ld 8 m2 (sym f s (e_sym f i k) + 8)).
      { unfold sym_value, sym_host. cbn [pi_hdr pi_sym_off the_image the_rel ra_sym]. apply ld_ext. intros x Hx. apply (done_sym i m x D).
        apply (sym_in f li (e_sym f i k)); [apply sym_used; auto|]. lia. }
      rewrite Sy in V. eapply Lv; [| |apply V].
      * intros d Hd. symmetry. apply Df. intros i1 k1 Hi1 L1 Y. change (in_place wd f i1 k1 (place f i k + d)) in Y. cbn [ra_ty the_rel] in Hd.
        assert (Nq : (i, k) <> (i1, k1)) by (intros X; apply (f_equal fst) in X; cbn [fst] in X; lia).
        pose proof (lk_apart _ _ _ LK i k i1 k1 Li' L1 Nq) as Q. unfold in_place in Y. unfold disjoint in Q. lia.
      * intros d Hd. reflexivity.
      * unfold the_rels, the_image, pi_rels. apply in_map. apply zseq_in. lia.
    + eapply Lv; [| |apply (Dv i' k ltac:(lia) Li')]; [reflexivity|]. intros d Hd. apply Fr. intros k' Lk' Y.
      assert (Nq : (i', k) <> (i, k')) by (intros X; apply (f_equal fst) in X; cbn [fst] in X; lia).
      pose proof (lk_apart _ _ _ LK i' k i k' Li' Lk' Nq) as Q. unfold in_place in Y. unfold disjoint in Q. lia.
Qed.
End One.

Lemma live_iff i k m : done i m -> 0 <= i < n -> 0 <= k < sh_size (sect f i) / 24 ->
  (live f i k <-> sh_type (section m t i) = SHT_RELA /\ sh_info (section m t i) < n /\ Z.land (sh_flags (section m t (sh_info (section m t i)))) SHF_ALLOC <> 0).
Proof.
  intros D Hi Hk. rewrite (done_section i m i D Hi). pose proof (headers_agree f m2 i A2 Hi) as (Ty & _ & _ & _ & Si). rewrite Ty, Si.
  assert (I0 : 0 <= sh_info (sect f i)) by (apply (ld_range 4); auto).
  destruct (setup_facts _ _ _ Hb SU) as (_ & (I1 & I2 & I3 & _) & _).
  assert (Me : forall j, meta_section f j <-> j = li_info_idx li).
  { intros j. split.
    - intros (J1 & J2 & J3). destruct (Z.lt_trichotomy j (li_info_idx li)) as [X|[X|X]]; auto; exfalso; [apply (I3 j)|apply (J3 (li_info_idx li))]; auto; lia.
    - intros ->. split; [unfold nsec; lia|]. auto. }
  unfold live. rewrite Me. split.
  - intros (_ & A & B & C & N & _). split; auto. split; auto. rewrite (done_section i m _ D) by lia. pose proof (F2 (sh_info (sect f i)) ltac:(lia)). tauto.
  - intros (A & B & C). rewrite (done_section i m _ D) in C by lia. pose proof (F2 (sh_info (sect f i)) ltac:(lia)). tauto.
Qed.

Lemma done_skip i m : done i m -> 0 <= i < n ->
  ~ (sh_type (section m t i) = SHT_RELA /\ sh_info (section m t i) < n /\ Z.land (sh_flags (section m t (sh_info (section m t i)))) SHF_ALLOC <> 0) -> done (i + 1) m.
Proof.
  intros D Hi N. assert (NL : forall k, ~ live f i k).
  { intros k X. pose proof X as (_ & _ & _ & _ & _ & Hk). apply N. apply (live_iff i k m D Hi Hk). auto. }
  destruct D as (A & B & C). split; auto. split.
  - intros x Hx. apply B. intros i' k Hi'. apply Hx. lia.
  - intros i' k Hi' Li'. destruct (Z.eq_dec i' i) as [->|]; [exfalso; apply (NL k Li')|]. apply C; auto. lia.
Qed.

Lemma link_loop k : forall m i err err' m', done i m -> 0 <= i -> i + Z.of_nat k = n ->
  apply_loop rel m len n li i k err = Some (err', m') -> 0 <= err' -> done n m'.
Proof.
  destruct (setup_facts _ _ _ Hb SU) as (Et & _).
  induction k as [|k IH]; intros m i err err' m' D I0 I1 H E; cbn [apply_loop] in H.
  - apply some_pair2 in H. destruct H as [_ <-]. replace n with i by lia. auto.
  - rewrite Et in H. ob H. apply rd_inv in E0. destruct E0 as (-> & _). change (ld 4 m (sec t i + 44)) with (sh_info (section m t i)) in H.
    assert (Sk : ~ (sh_type (section m t i) = SHT_RELA /\ sh_info (section m t i) < n /\ Z.land (sh_flags (section m t (sh_info (section m t i)))) SHF_ALLOC <> 0) ->
       forall er, apply_loop rel m len n li (i + 1) k er = Some (err', m') -> done n m').
    { intros N er G. apply (IH m (i + 1) er err' m'); auto; try lia. apply done_skip; auto. lia. }
    destruct (Z.leb_spec n (sh_info (section m t i))). { apply (Sk ltac:(lia) err H). }
    ob H. apply rd_inv in E0. destruct E0 as (-> & _).
    change (ld 8 m (sec t (sh_info (section m t i)) + 8)) with (sh_flags (section m t (sh_info (section m t i)))) in H.
    destruct (Z.eqb_spec (Z.land (sh_flags (section m t (sh_info (section m t i)))) SHF_ALLOC) 0) as [Z0|Z0]. { apply (Sk ltac:(tauto) err H). }
    ob H. apply rd_inv in E0. destruct E0 as (-> & _). change (ld 4 m (sec t i + 4)) with (sh_type (section m t i)) in H.
    destruct (sh_type (section m t i) =? SHT_REL). { apply some_pair2 in H. destruct H as [<- _]. unfold ENOEXEC in E. lia. }
    destruct (Z.eqb_spec (sh_type (section m t i)) SHT_RELA) as [Ty|Ty].
    2:{ destruct (err <? 0) eqn:En; [apply some_pair2 in H; destruct H as [<- _]; lia|]. apply (Sk ltac:(tauto) err H). }
    destruct (rel m i) as [e1 m1] eqn:R. destruct (e1 <? 0) eqn:En; [apply some_pair2 in H; destruct H as [<- _]; lia|].
    apply (IH m1 (i + 1) e1 err' m'); auto; try lia. apply (one_section i m D) with e1; auto; [| |lia].
    + intros q Hq. apply (live_iff i q m D ltac:(lia) Hq). auto.
    + pose proof (headers_agree f m2 i A2 ltac:(lia)) as (Ty' & _ & _ & _ & Si). rewrite <- (done_section i m i D) in Ty', Si by lia.
      rewrite Si in *. rewrite Ty' in Ty. destruct (lk_first _ _ _ LK) as [X Y].
      assert (I2 : 0 <= sh_info (sect f i)) by (apply (ld_range 4); auto).
      split; [|split]; auto.
      * destruct (Z.eq_dec i 0) as [->|]; [|lia]. rewrite Ty in X. discriminate.
      * destruct (Z.eq_dec (sh_info (sect f i)) 0) as [E0|]; [|lia]. exfalso. apply Z0. rewrite (done_section i m _ D) by lia. apply F2; [lia|]. right. rewrite E0, Y. reflexivity.
Qed.

Lemma link_all err m3 : apply_relocations rel m2 len li = Some (err, m3) -> 0 <= err -> done n m3.
Proof.
  intros H E. unfold apply_relocations in H. ob H. apply e_shnum_val in E0.
  assert (Ez : z = n). { rewrite E0. apply ld_ext. intros x Hx. apply A2. left. lia. } clear E0. subst z.
  assert (N0 : 0 <= n) by (apply (ld_range 2); auto).
  refine (link_loop (Z.to_nat n) m2 0 0 err m3 _ ltac:(lia) ltac:(lia) H E).
  split; [auto|]. split; [auto|]. intros i' k Hi Li'. destruct Li' as (X & _). lia.
Qed.
End Rel.
