(** Lemmas about groups of mappings and their segments. *)
From Coq Require Import ZArith String List Bool Lia ZifyBool ZifyNat.
From Verif Require Import Word WordLemmas Str VmaModel PkModel PkSpec PkProps MpModel GrModel GrSpec.
Import ListNotations.
Open Scope Z_scope.

(** ** Leaders *)

Lemma leaders_len l : forall i prev, List.length (leaders i prev l) = List.length l.
Proof. induction l as [|v l IH]; intros i prev; cbn [leaders List.length]; auto. Qed.

Lemma leaders_step l : forall i prev k a b, nth_error l k = Some a -> nth_error l (S k) = Some b ->
  nth (S k) (leaders i prev l) 0%nat = if str_eqb (m_name a) (m_name b) then nth k (leaders i prev l) 0%nat else (i + S k)%nat.
Proof.
  induction l as [|v l IH]; intros i prev k a b A B; [destruct k; discriminate|]. cbn [nth_error] in B.
  cbn [leaders]. set (ld := match prev with Some (n, k0) => if str_eqb n (m_name v) then k0 else i | None => i end).
  destruct k as [|k].
  - cbn [nth_error] in A. injection A as ->. destruct l as [|w l]; [discriminate|]. cbn [nth_error] in B. injection B as ->.
    cbn [leaders nth]. destruct (str_eqb (m_name a) (m_name b)); [reflexivity|lia].
  - cbn [nth_error] in A. change (nth (S (S k)) (ld :: leaders (S i) (Some (m_name v, ld)) l) 0%nat) with (nth (S k) (leaders (S i) (Some (m_name v, ld)) l) 0%nat).
    rewrite (IH _ _ k a b A B). cbn [nth]. destruct (str_eqb (m_name a) (m_name b)); [reflexivity|lia].
Qed.

Lemma leaders_0 l : nth 0 (leaders 0 None l) 0%nat = 0%nat.
Proof. destruct l; reflexivity. Qed.

Lemma leaders_le l : forall k, (k < List.length l)%nat -> (nth k (leaders 0 None l) 0 <= k)%nat.
Proof.
  induction k as [|k IH]; intros K; [rewrite leaders_0; lia|].
  destruct (nth_error l k) as [a|] eqn:A; [|apply nth_error_None in A; lia].
  destruct (nth_error l (S k)) as [b|] eqn:B; [|apply nth_error_None in B; lia].
  rewrite (leaders_step _ _ _ _ _ _ A B). destruct (str_eqb (m_name a) (m_name b)); [|lia].
  specialize (IH ltac:(lia)). lia.
Qed.

Lemma leader_opens l k : (k < List.length l)%nat -> ((nth k (leaders 0 None l) 0 =? k)%nat = true <-> opens l k).
Proof.
  intros K. rewrite Nat.eqb_eq. unfold opens. destruct k as [|k]; [rewrite leaders_0; tauto|].
  replace (S k - 1)%nat with k by lia. unfold name_at.
  destruct (nth_error l k) as [a|] eqn:A; [|apply nth_error_None in A; lia].
  destruct (nth_error l (S k)) as [b|] eqn:B; [|apply nth_error_None in B; lia].
  rewrite (leaders_step _ _ _ _ _ _ A B). cbn [option_map]. pose proof (leaders_le l k ltac:(lia)) as Le.
  destruct (str_eqb (m_name a) (m_name b)) eqn:E.
  - apply str_eqb_eq in E. rewrite E. split; [lia|]. intros [H|H]; [discriminate|congruence].
  - split; [|lia]. intros _. right. intros H. injection H as H. apply str_eqb_eq in H. congruence.
Qed.

Lemma same_leader l i : forall j, (i <= j)%nat -> (j < List.length l)%nat ->
  (nth i (leaders 0 None l) 0%nat = nth j (leaders 0 None l) 0%nat <-> one_run l i j).
Proof.
  induction j as [|j IH]; intros Le J.
  { replace i with 0%nat by lia. split; [|reflexivity]. intros _ k Hk. replace k with 0%nat by lia. reflexivity. }
  destruct (Nat.eq_dec i (S j)) as [->|Ne].
  { split; [|reflexivity]. intros _ k Hk. replace k with (S j) by lia. reflexivity. }
  specialize (IH ltac:(lia) ltac:(lia)). destruct (nth_error l j) as [a|] eqn:A; [|apply nth_error_None in A; lia].
  destruct (nth_error l (S j)) as [b|] eqn:B; [|apply nth_error_None in B; lia].
  rewrite (leaders_step _ _ _ _ _ _ A B). destruct (str_eqb (m_name a) (m_name b)) eqn:E.
  - apply str_eqb_eq in E. rewrite IH. split; intros R k Hk.
    + destruct (Nat.eq_dec k (S j)) as [->|]; [|apply R; lia]. rewrite <- (R j) by lia. unfold name_at. rewrite A, B. cbn. congruence.
    + apply R. lia.
  - pose proof (leaders_le l i ltac:(lia)). split; [lia|]. intros R. exfalso.
    pose proof (R j ltac:(lia)) as R1. pose proof (R (S j) ltac:(lia)) as R2. unfold name_at in *. rewrite A in R1. rewrite B in R2. cbn in *.
    assert (m_name a = m_name b) by congruence. apply str_eqb_eq in H0. congruence.
Qed.

(** ** The list *)

Lemma zip3_nth elf l : forall lds i k v, List.length lds = List.length l -> nth_error l k = Some v ->
  nth_error (zip3 i l lds elf) k = Some ((i + k)%nat, nth k lds 0%nat, v, elf (i + k)%nat).
Proof.
  induction l as [|w l IH]; intros [|d lds] i k v L H; try discriminate; [destruct k; discriminate|].
  cbn [zip3]. destruct k as [|k].
  - cbn [nth_error nth] in *. injection H as ->. rewrite Nat.add_0_r. reflexivity.
  - cbn [nth_error nth] in *. rewrite (IH lds (S i) k v) by (cbn in L; congruence || lia || exact H). replace (S i + k)%nat with (i + S k)%nat by lia. reflexivity.
Qed.
Lemma zip3_len elf l : forall lds i, List.length lds = List.length l -> List.length (zip3 i l lds elf) = List.length l.
Proof. induction l as [|w l IH]; intros [|d lds] i L; try discriminate; [reflexivity|]. cbn [zip3 List.length]. rewrite IH; [reflexivity|cbn in L; lia]. Qed.

Definition heads (elf : nat -> option (list aph)) (l : list mvma) := zip3 0 l (leaders 0 None l) elf.

Lemma heads_nth elf l k v : nth_error l k = Some v -> nth_error (heads elf l) k = Some (k, nth k (leaders 0 None l) 0%nat, v, elf k).
Proof. intros H. unfold heads. rewrite (zip3_nth elf l _ 0 k v) by (auto using leaders_len). reflexivity. Qed.
Lemma heads_len elf l : List.length (heads elf l) = List.length l.
Proof. apply zip3_len, leaders_len. Qed.

Lemma listing_nth shift elf l k : nth_error (listing shift elf l) k =
  option_map (fun v => let d := nth k (leaders 0 None l) 0%nat in (v, (d =? k)%nat, roles shift k d v (heads elf l) no_role)) (nth_error l k).
Proof.
  unfold listing. fold (heads elf l). rewrite nth_error_map. destruct (nth_error l k) as [v|] eqn:E.
  - rewrite (heads_nth elf l k v E). reflexivity.
  - apply nth_error_None in E. replace (nth_error (heads elf l) k) with (@None (nat * nat * mvma * option (list aph))); [reflexivity|].
    symmetry. apply nth_error_None. rewrite heads_len. exact E.
Qed.

Lemma roles_app shift i ld v a : forall b o, roles shift i ld v (a ++ b) o = roles shift i ld v b (roles shift i ld v a o).
Proof. induction a as [|[[[j lj] u] [l|]] a IH]; intros b o; cbn [app roles]; auto. Qed.

Lemma roles_none shift i ld v a : (forall j lj u l, In (j, lj, u, Some l) a -> lj <> ld) -> forall o, roles shift i ld v a o = o.
Proof.
  induction a as [|[[[j lj] u] [l|]] a IH]; intros N o; cbn [roles]; [reflexivity| |apply IH; intros; eapply N; right; eauto].
  destruct (Nat.eqb_spec lj ld) as [E|_]; [exfalso; eapply N; [left; reflexivity|exact E]|]. apply IH. intros; eapply N; right; eauto.
Qed.

Lemma together_leader l i j : (i < List.length l)%nat -> (j < List.length l)%nat ->
  (nth i (leaders 0 None l) 0%nat = nth j (leaders 0 None l) 0%nat <-> together l i j).
Proof.
  intros I J. unfold together. destruct (Nat.le_ge_cases i j).
  - rewrite Nat.min_l, Nat.max_r by lia. apply same_leader; lia.
  - rewrite Nat.min_r, Nat.max_l by lia. rewrite <- (same_leader l j i) by lia. split; congruence.
Qed.

(** With one header in the run, its program headers alone count. *)
Lemma role_is shift elf l k v h u ph : nth_error l k = Some v -> nth_error l h = Some u -> together l k h -> elf h = Some ph ->
  (forall j, (j < List.length l)%nat -> together l k j -> j <> h -> elf j = None) ->
  roles shift k (nth k (leaders 0 None l) 0%nat) v (heads elf l) no_role = peek_role shift (h =? k)%nat u v ph no_role.
Proof.
  intros K H T E N. set (d := nth k (leaders 0 None l) 0%nat).
  assert (Kl : (k < List.length l)%nat) by (apply nth_error_Some; congruence). assert (Hl : (h < List.length l)%nat) by (apply nth_error_Some; congruence).
  pose proof (heads_nth elf l h u H) as Hh. destruct (nth_error_split _ _ Hh) as (a & b & Es & La). rewrite Es, roles_app. rewrite E.
  assert (Idx : forall n x, nth_error (heads elf l) n = Some x -> n <> h -> forall j lj u0 l0, x = (j, lj, u0, Some l0) -> lj <> d).
  { intros n x X Nh j lj u0 l0 ->. assert (Hn : (n < List.length l)%nat) by (rewrite <- (heads_len elf); apply nth_error_Some; congruence).
    destruct (nth_error l n) as [w|] eqn:W; [|apply nth_error_None in W; lia]. rewrite (heads_nth elf l n w W) in X. injection X as -> <- -> Ee.
    intros Q. rewrite (N j Hn) in Ee; [discriminate| |exact Nh]. apply together_leader; auto. }
  rewrite (roles_none shift k d v a).
  - cbn [roles]. replace (nth h (leaders 0 None l) 0%nat =? d)%nat with true by (symmetry; apply Nat.eqb_eq; symmetry; apply together_leader; auto).
    apply roles_none. intros j lj u0 l0 I. apply In_nth_error in I. destruct I as [n I].
    apply (Idx (h + S n)%nat (j, lj, u0, Some l0)) with (j := j) (u0 := u0) (l0 := l0); [|lia|reflexivity].
    rewrite Es, nth_error_app2 by lia. replace (h + S n - List.length a)%nat with (S n) by lia. exact I.
  - intros j lj u0 l0 I. apply In_nth_error in I. destruct I as [n I].
    assert (n < List.length a)%nat by (apply nth_error_Some; congruence).
    apply (Idx n (j, lj, u0, Some l0)) with (j := j) (u0 := u0) (l0 := l0); [|lia|reflexivity].
    rewrite Es, nth_error_app1 by lia. exact I.
Qed.

(** ** Segments *)

Lemma voffset_keeps shift prot v l : forall o, o_phdr (fold_left (set_voffset shift prot v) l o) = o_phdr o.
Proof. induction l as [|a l IH]; intros o; cbn [fold_left]; [reflexivity|]. rewrite IH. unfold set_voffset. destruct (_ && _); reflexivity. Qed.
Lemma phdr_keeps load relro v l : forall o, o_voffset (fold_left (set_phdr load relro v) l o) = o_voffset o.
Proof. induction l as [|a l IH]; intros o; cbn [fold_left]; [reflexivity|]. rewrite IH. unfold set_phdr. destruct (_ || _); [destruct match_vma_phdr|]; reflexivity. Qed.

(** Segments and protected parts. *)
Definition counts (p : phdr) : bool := (p_type p =? PT_LOAD) || (p_type p =? PT_GNU_RELRO).

Lemma phdr_some load relro v l : forall o,
  o_phdr (fold_left (set_phdr load relro v) l o) <> None <->
  o_phdr o <> None \/ exists a, In a l /\ counts (a_ph a) = true /\ match_vma_phdr v (a_ph a) load relro = true.
Proof.
  induction l as [|a l IH]; intros o; cbn [fold_left].
  - split; [auto|]. intros [H|(a & [] & _)]. exact H.
  - rewrite IH. unfold set_phdr. fold (counts (a_ph a)). destruct (counts (a_ph a)) eqn:C.
    + destruct (match_vma_phdr v (a_ph a) load relro) eqn:M.
      * cbn [o_phdr]. split; [|left; discriminate]. intros _. right. exists a. auto using in_eq.
      * split; [intros [H|(b & B & D)]; [auto|right; exists b; split; [right; exact B|exact D]]|].
        intros [H|(b & [<-|B] & D1 & D2)]; [auto|congruence|right; exists b; auto].
    + split; [intros [H|(b & B & D)]; [auto|right; exists b; split; [right; exact B|exact D]]|].
      intros [H|(b & [<-|B] & D1 & D2)]; [auto|congruence|right; exists b; auto].
Qed.

Lemma phdr_from load relro v l : forall o p, o_phdr (fold_left (set_phdr load relro v) l o) = Some p ->
  o_phdr o = Some p \/ exists a, In a l /\ a_ph a = p /\ counts p = true /\ match_vma_phdr v p load relro = true.
Proof.
  induction l as [|a l IH]; intros o p H; cbn [fold_left] in H; [auto|]. apply IH in H. destruct H as [H|(b & B & D)]; [|right; exists b; split; [right; exact B|exact D]].
  unfold set_phdr in H. fold (counts (a_ph a)) in H. destruct (counts (a_ph a)) eqn:C; [|auto].
  destruct (match_vma_phdr v (a_ph a) load relro) eqn:M; [|auto]. cbn [o_phdr] in H. injection H as <-. right. exists a. auto using in_eq.
Qed.

(** The last of them. *)
Definition last_of (l : list aph) (p : phdr) : Prop :=
  exists a x b, l = a ++ x :: b /\ a_ph x = p /\ counts p = true /\ forall y, In y b -> counts (a_ph y) = false.

Lemma relro_spec l : forall acc, (relro_of acc l = acc /\ forall y, In y l -> counts (a_ph y) = false) \/ exists p, relro_of acc l = Some p /\ last_of l p.
Proof.
  induction l as [|a l IH]; intros acc; cbn [relro_of]; [left; split; [reflexivity|intros y []]|]. fold (counts (a_ph a)).
  destruct (IH (if counts (a_ph a) then Some (a_ph a) else acc)) as [[E N]|(p & E & q & x & b & -> & D)].
  - destruct (counts (a_ph a)) eqn:C.
    + right. exists (a_ph a). split; [exact E|]. exists [], a, l. auto.
    + left. split; [exact E|]. intros y [<-|Hy]; auto.
  - right. exists p. split; [exact E|]. exists (a :: q), x, b. split; [reflexivity|exact D].
Qed.

Lemma last_unique l p : last_of l p -> forall acc, relro_of acc l = Some p.
Proof.
  intros (a & x & b & -> & Ex & C & N) acc. revert acc. induction a as [|y a IH]; intros acc; cbn [app relro_of].
  - fold (counts (a_ph x)). rewrite Ex, C. clear - N. revert N. generalize (Some p) as acc. induction b as [|y b IH]; intros acc N; [reflexivity|]. cbn [relro_of].
    fold (counts (a_ph y)). rewrite (N y (or_introl eq_refl)). apply IH. intros z Hz. apply N. right. exact Hz.
  - apply IH.
Qed.

(** ** Rights *)

Lemma bit_land x k : 0 <= k -> (Z.land x (2 ^ k) =? 0) = negb (Z.testbit x k).
Proof.
  intros K. destruct (Z.testbit x k) eqn:T; cbn [negb].
  - apply Z.eqb_neq. intros E. assert (Q : Z.testbit (Z.land x (2 ^ k)) k = false) by (rewrite E; apply Z.bits_0).
    rewrite Z.land_spec, T, Z.pow2_bits_true in Q by lia. discriminate.
  - apply Z.eqb_eq. apply Z.bits_inj'. intros n Hn. rewrite Z.land_spec, Z.bits_0. destruct (Z.eq_dec n k) as [->|Ne]; [rewrite T; reflexivity|].
    rewrite Z.pow2_bits_false by lia. apply andb_false_r.
Qed.

Lemma land7 f : Z.land f 7 = (if Z.testbit f 0 then 1 else 0) + (if Z.testbit f 1 then 2 else 0) + (if Z.testbit f 2 then 4 else 0).
Proof.
  apply Z.bits_inj'. intros n Hn. rewrite Z.land_spec.
  assert (C : n = 0 \/ n = 1 \/ n = 2 \/ 3 <= n) by lia. destruct C as [->|[->|[->|G]]].
  1-3: rewrite ?andb_true_r; destruct (Z.testbit f 0), (Z.testbit f 1), (Z.testbit f 2); reflexivity.
  replace (Z.testbit 7 n) with false by (symmetry; apply Z.bits_above_log2; [lia|change (Z.log2 7) with 2; lia]). rewrite andb_false_r. symmetry.
  assert (B : forall z, 0 <= z < 8 -> Z.testbit z n = false).
  { intros z Hz. destruct (Z.eq_dec z 0) as [->|]; [apply Z.bits_0|]. apply Z.bits_above_log2; [lia|]. apply Z.log2_lt_pow2; [lia|]. apply Z.lt_le_trans with (2 ^ 3); [change (2 ^ 3) with 8; lia|]. apply Z.pow_le_mono_r; lia. }
  apply B. destruct (Z.testbit f 0), (Z.testbit f 1), (Z.testbit f 2); lia.
Qed.

Lemma rights_iff prot flags : vma_prot2flags prot = Z.land flags 7 <-> same_rights prot flags.
Proof.
  unfold vma_prot2flags, same_rights, PROT_READ, PROT_WRITE, PROT_EXEC, PF_R, PF_W, PF_X.
  change 1 with (2 ^ 0) at 1. rewrite (bit_land prot 0) by lia.
  change (Z.land prot 2) with (Z.land prot (2 ^ 1)). rewrite (bit_land prot 1) by lia.
  change (Z.land prot 4) with (Z.land prot (2 ^ 2)). rewrite (bit_land prot 2) by lia. rewrite land7.
  destruct (Z.testbit prot 0), (Z.testbit prot 1), (Z.testbit prot 2), (Z.testbit flags 0), (Z.testbit flags 1), (Z.testbit flags 2); vm_compute; intuition (discriminate || reflexivity).
Qed.

(** ** Matching *)

Lemma counts_iff p : counts p = true <-> has_pages p.
Proof. unfold counts, has_pages, PT_LOAD, PT_GNU_RELRO. rewrite orb_true_iff, !Z.eqb_eq. tauto. Qed.

Lemma last_iff l p : last_entry (map a_ph l) p <-> last_of l p.
Proof.
  split.
  - intros (a & b & E & C & N). apply map_eq_app in E. destruct E as (l1 & l2 & -> & E1 & E2). destruct l2 as [|x l2]; [discriminate|]. cbn [map] in E2. injection E2 as E3 E4.
    exists l1, x, l2. split; [reflexivity|]. split; [exact E3|]. split; [apply counts_iff; exact C|]. intros y Hy. destruct (counts (a_ph y)) eqn:Cy; [|reflexivity].
    exfalso. apply (N (a_ph y)); [rewrite <- E4; apply in_map; exact Hy|apply counts_iff; exact Cy].
  - intros (a & x & b & -> & <- & C & N). exists (map a_ph a), (map a_ph b). rewrite map_app. split; [reflexivity|]. split; [apply counts_iff; exact C|].
    intros q Hq Hp. apply in_map_iff in Hq. destruct Hq as (y & <- & Hy). apply counts_iff in Hp. rewrite (N y Hy) in Hp. discriminate.
Qed.

Lemma match_whole bias p v : bias mod page = 0 -> 0 <= bias -> 0 <= p_vaddr p -> 0 < p_filesz p -> bias + p_vaddr p + p_filesz p + 8192 < 2 ^ 64 -> is_range v ->
  (match_phdr (m_start v) (m_end v) (m_prot v) p bias = true <-> is_mapping_of bias p v).
Proof.
  intros B0 B1 P0 P1 P2 [R1 R2]. set (q := Ph 1 (p_flags p) (p_vaddr p) (p_vaddr p) (p_filesz p) (p_memsz p)).
  assert (Sq : forall x, segment [q] x -> x = q) by (intros x [[<-|[]] _]; reflexivity).
  assert (S : sound bias [q]).
  { split; [exact B0|]. split; [exact B1|]. intros x Hx. apply Sq in Hx. subst x. cbn [q p_vaddr p_filesz p_offset]. auto. }
  pose proof (C115_segment_match bias [q] q (m_start v) (m_end v) (m_prot v) S (conj (or_introl eq_refl) eq_refl) R1 R2) as C.
  change (match_phdr (m_start v) (m_end v) (m_prot v) q bias) with (match_phdr (m_start v) (m_end v) (m_prot v) p bias) in C.
  change (mapped_from bias q) with (mapped_from bias p) in C. change (mapped_to bias q) with (mapped_to bias p) in C. change (p_flags q) with (p_flags p) in C.
  rewrite C. unfold is_mapping_of. rewrite rights_iff. reflexivity.
Qed.

Lemma match_rest bias r start : 0 <= bias -> 0 <= p_vaddr r -> 0 <= p_memsz r -> bias + p_vaddr r + p_memsz r < 2 ^ 64 ->
  (relro_rest start bias r = true <-> start = behind bias r).
Proof.
  intros B P M L. unfold relro_rest, behind. unfold u64, wrap. rewrite (Z.mod_small (bias + p_vaddr r)) by lia. rewrite Z.mod_small by lia.
  rewrite Z.eqb_eq. unfold pagestart, page_down, page. pose proof (Z.div_mod (bias + p_vaddr r + p_memsz r) 4096 ltac:(lia)) as D.
  set (x := bias + p_vaddr r + p_memsz r) in *. clear - D. set (d := x / 4096) in *. set (m := x mod 4096) in *. clearbody d m. clearbody x. lia.
Qed.

(** The load address. *)
Lemma load_is bias u ph : placed bias u ph -> lowest ULONG_MAX ph <> ULONG_MAX /\ u64 (m_start u - lowest ULONG_MAX ph) = bias.
Proof.
  intros ((B0 & B1 & S) & _ & p & F & E). destruct (S p (proj1 F)) as (P0 & P1 & P2 & _).
  assert (V : p_vaddr p < ULONG_MAX) by (clear - B1 P1 P2; change ULONG_MAX with (2 ^ 64 - 1); lia).
  rewrite (lowest_first ph p F) by lia. split; [lia|]. rewrite E. replace (bias + p_vaddr p - p_vaddr p) with bias by lia. unfold u64, wrap. apply Z.mod_small. lia.
Qed.

Lemma peek_phdr shift same u v l bias : placed bias u (map a_ph l) ->
  o_phdr (peek_role shift same u v l no_role) = o_phdr (fold_left (set_phdr bias (relro_of None l) v) l no_role).
Proof.
  intros P. destruct (load_is _ _ _ P) as [N E]. unfold peek_role. rewrite E. destruct (Z.eqb_spec (lowest ULONG_MAX (map a_ph l)) ULONG_MAX); [contradiction|].
  assert (G : forall l2 o o', o_phdr o = o_phdr o' -> o_phdr (fold_left (set_phdr bias (relro_of None l) v) l2 o) = o_phdr (fold_left (set_phdr bias (relro_of None l) v) l2 o')).
  { induction l2 as [|a l2 IH]; intros o o' Eo; cbn [fold_left]; [exact Eo|]. apply IH. unfold set_phdr. destruct (_ || _); [destruct match_vma_phdr|]; auto. }
  apply G. destruct same; [reflexivity|]. apply voffset_keeps.
Qed.

(** ** Voffset *)

Lemma align_page x : 0 <= x < 2 ^ 64 -> align_down x 4096 = page_down x.
Proof.
  intros X. unfold align_down. change (u64 (4096 - 1)) with 4095. unfold u64, wrap. rewrite Zplus_mod_idemp_l. replace (x - 4095 + 4095) with x by lia. rewrite Z.mod_small by lia.
  change 4095 with (Z.ones 12). rewrite Z.ldiff_ones_r by lia. rewrite Z.shiftl_mul_pow2, Z.shiftr_div_pow2 by lia. reflexivity.
Qed.

Lemma voffset_is shift prot v x l : forall o,
  (forall a, In a l -> p_type (a_ph a) = 1 -> u64 (Z.shiftl (m_pgoff v) shift) = align_down (p_vaddr (a_ph a)) (a_align a) -> p_vaddr (a_ph a) = x) ->
  prot <> 0 ->
  (o_voffset o = x \/ exists a, In a l /\ p_type (a_ph a) = 1 /\ u64 (Z.shiftl (m_pgoff v) shift) = align_down (p_vaddr (a_ph a)) (a_align a)) ->
  o_voffset (fold_left (set_voffset shift prot v) l o) = x.
Proof.
  induction l as [|a l IH]; intros o U P H; cbn [fold_left].
  - destruct H as [H|(a & [] & _)]. exact H.
  - apply IH; [intros b Hb; apply U; right; exact Hb|exact P|]. unfold set_voffset, PT_LOAD.
    destruct (Z.eqb_spec (p_type (a_ph a)) 1) as [T|T]; destruct (Z.eqb_spec (u64 (Z.shiftl (m_pgoff v) shift)) (align_down (p_vaddr (a_ph a)) (a_align a))) as [Q|Q];
      destruct (Z.eqb_spec prot 0) as [->|_]; try contradiction; cbn [andb negb o_voffset].
    + left. apply U; auto using in_eq.
    + destruct H as [H|(b & [<-|Hb] & B)]; [auto|tauto|right; exists b; auto].
    + destruct H as [H|(b & [<-|Hb] & B)]; [auto|tauto|right; exists b; auto].
    + destruct H as [H|(b & [<-|Hb] & B)]; [auto|tauto|right; exists b; auto].
Qed.
