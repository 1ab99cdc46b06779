(** C198-C200: leaders, segments and offsets in the listing of mappings. *)
From Coq Require Import ZArith String List Bool Lia ZifyBool ZifyNat.
From Verif Require Import Word WordLemmas Str VmaModel PkModel PkSpec PkProps MpModel GrModel GrSpec GrProofs.
Import ListNotations.
Open Scope Z_scope.

(** ** C198 *)

(** All mappings are listed, in their order, and those are marked as leaders (L) with which a
    run of mappings of the same file begins. *)
Theorem C198_leader : forall shift elf l,
  List.length (listing shift elf l) = List.length l /\
  forall k v b o, nth_error (listing shift elf l) k = Some (v, b, o) -> nth_error l k = Some v /\ (b = true <-> opens l k).
Proof.
  intros shift elf l. split; [unfold listing; rewrite map_length; apply (heads_len elf)|].
  intros k v b o H. rewrite listing_nth in H. destruct (nth_error l k) as [w|] eqn:E; [|discriminate]. cbn [option_map] in H.
  assert (K : (k < List.length l)%nat) by (apply nth_error_Some; congruence).
  pose proof (leader_opens l k K) as L. injection H as -> <- _. split; [reflexivity|exact L].
Qed.
Print Assumptions C198_leader.

(** A program of three segments, the last of which is cut in two by the protection of its first page; then the heap. *)
Definition ex_b := 0x555555554000.
Definition ex_l : list mvma :=
  [Mv ex_b (ex_b + 0x1000) (str "r--p") 1 0 8 1 77 (str "/bin/a") VMA_SELF;
   Mv (ex_b + 0x1000) (ex_b + 0x2000) (str "r-xp") 5 1 8 1 77 (str "/bin/a") VMA_SELF;
   Mv (ex_b + 0x3000) (ex_b + 0x4000) (str "r--p") 1 2 8 1 77 (str "/bin/a") VMA_SELF;
   Mv (ex_b + 0x4000) (ex_b + 0x5000) (str "rw-p") 3 3 8 1 77 (str "/bin/a") VMA_SELF;
   Mv (ex_b + 0x5000) (ex_b + 0x26000) (str "rw-p") 3 0 0 0 0 (str "[heap]") VMA_HEAP].
Definition ex_a : list aph :=
  [Ap (Ph 1 4 0 0 0x628 0x628) 0x1000; Ap (Ph 1 5 0x1000 0x1000 0x185 0x185) 0x1000; Ap (Ph 1 6 0x2df0 0x3df0 0x220 0x228) 0x1000;
   Ap (Ph 0x6474e552 4 0x2df0 0x3df0 0x210 0x210) 1].
Definition ex_elf (k : nat) : option (list aph) := match k with O => Some ex_a | _ => None end.

Example C198_ex : map (fun '(_, b, _) => b) (listing 12 ex_elf ex_l) = [true; false; false; false; true].
Proof. vm_compute. reflexivity. Qed.

(** ** C199 *)

Lemma in_listing shift elf l k v b o h u ph : nth_error (listing shift elf l) k = Some (v, b, o) -> file_of l elf k h u ph ->
  nth_error l k = Some v /\ o = peek_role shift (h =? k)%nat u v ph no_role.
Proof.
  intros H (Hu & T & E & N). rewrite listing_nth in H. destruct (nth_error l k) as [w|] eqn:K; [|discriminate]. cbn [option_map] in H.
  pose proof (role_is shift elf l k w h u ph K Hu T E N) as R. injection H as -> _ <-. auto.
Qed.

(** Exactly when a mapping of a loaded file is marked (P): it is the mapping of a segment, or of
    the part protected after relocation, with all pages and the rights of that; or it starts in the
    page in which the last of these entries of the table ends.  Where the table ends with
    the entry for the protected part, the latter is what is left of the segment behind that
    part.  Missing (false): that the marked mappings are those of segments; see below. *)
Theorem C199_mark_partial : forall shift elf l k v b o h u ph bias,
  nth_error (listing shift elf l) k = Some (v, b, o) -> file_of l elf k h u ph -> placed bias u (map a_ph ph) -> is_range v ->
  (o_phdr o <> None <->
   (exists p, In p (map a_ph ph) /\ has_pages p /\ is_mapping_of bias p v) \/
   (exists e, last_entry (map a_ph ph) e /\ m_start v = behind bias e)).
Proof.
  intros shift elf l k v b o h u ph bias H F P R. destruct (in_listing _ _ _ _ _ _ _ _ _ _ H F) as [K ->].
  rewrite (peek_phdr _ _ _ _ _ _ P), phdr_some. destruct P as ((B0 & B1 & S) & Bd & pf & [[Ip Tp] _] & _).
  assert (M : forall p, In p (map a_ph ph) -> has_pages p -> (match_phdr (m_start v) (m_end v) (m_prot v) p bias = true <-> is_mapping_of bias p v)).
  { intros p Hp Hh. destruct (Bd p Hp Hh) as (Q0 & Q1 & Q2). apply match_whole; auto; lia. }
  assert (X : forall e, last_entry (map a_ph ph) e -> (relro_rest (m_start v) bias e = true <-> m_start v = behind bias e)).
  { intros e (a & c & E & He & _). destruct (Bd e) as (Q0 & Q1 & Q2); [rewrite E; apply in_or_app; right; left; reflexivity|exact He|]. apply match_rest; lia. }
  split.
  - intros [H1|(a & Ia & C & Ma)]; [contradiction H1; reflexivity|]. apply counts_iff in C. unfold match_vma_phdr in Ma. apply orb_true_iff in Ma.
    destruct Ma as [Ma|Ma]; [left; exists (a_ph a); split; [apply in_map; exact Ia|]; split; [exact C|]; apply M; auto; apply in_map; exact Ia|].
    apply andb_true_iff in Ma. destruct Ma as [_ Ma]. destruct (relro_spec ph None) as [[E _]|(e & E & Le)]; rewrite E in Ma; [discriminate|].
    right. exists e. apply last_iff in Le. split; [exact Le|]. apply X; auto.
  - intros [(p & Hp & Hh & Mp)|(e & Le & Se)]; right.
    + pose proof Hp as Hp'. apply in_map_iff in Hp'. destruct Hp' as (a & <- & Ia). exists a. split; [exact Ia|]. split; [apply counts_iff; exact Hh|]. unfold match_vma_phdr.
      rewrite (proj2 (M _ Hp Hh) Mp). reflexivity.
    + apply in_map_iff in Ip. destruct Ip as (a & <- & Ia). exists a. split; [exact Ia|]. split; [apply counts_iff; left; exact Tp|]. unfold match_vma_phdr.
      rewrite Tp. change (1 =? PT_LOAD) with true. cbn [andb]. rewrite (last_unique ph e (proj1 (last_iff _ _) Le) None). rewrite (proj2 (X e Le) Se). apply orb_true_r.
Qed.
Print Assumptions C199_mark_partial.

(** If the protected parts are parts of segments and the last entry ends inside a segment, then
    a marked mapping starts with a page of a segment. *)
Theorem C199_inside_partial : forall shift elf l k v b o h u ph bias,
  nth_error (listing shift elf l) k = Some (v, b, o) -> file_of l elf k h u ph -> placed bias u (map a_ph ph) -> is_range v ->
  (forall r, protects (map a_ph ph) r -> exists q, segment (map a_ph ph) q /\ p_vaddr q <= p_vaddr r /\ p_vaddr r + p_memsz r <= p_vaddr q + p_memsz q) ->
  (forall e, last_entry (map a_ph ph) e -> exists q, segment (map a_ph ph) q /\ mapped_from bias q <= behind bias e < page_up (bias + p_vaddr q + p_memsz q)) ->
  o_phdr o <> None -> exists q, segment (map a_ph ph) q /\ starts_in bias q v.
Proof.
  intros shift elf l k v b o h u ph bias H F P R Pr La M. apply (C199_mark_partial _ _ _ _ _ _ _ _ _ _ _ H F P R) in M.
  destruct P as ((B0 & B1 & S) & Bd & _). destruct M as [(p & Hp & Hh & (M1 & _ & _))|(e & Le & Se)].
  - destruct (Bd p Hp Hh) as (Q0 & Q1 & Q2).
    assert (G : exists q, segment (map a_ph ph) q /\ p_vaddr q <= p_vaddr p /\ p_vaddr p + p_memsz p <= p_vaddr q + p_memsz q).
    { destruct Hh as [T|T]; [exists p; split; [split; assumption|lia]|apply Pr; split; assumption]. }
    destruct G as (q & Sq & G1 & G2). exists q. split; [exact Sq|]. unfold starts_in. rewrite M1. clear - G1 G2 Q1.
    unfold mapped_from, page_down, page_up, page.
    assert (A : (bias + p_vaddr q) / 4096 <= (bias + p_vaddr p) / 4096) by (apply Z.div_le_mono; lia).
    assert (B : (bias + p_vaddr p) / 4096 < (bias + p_vaddr q + p_memsz q + 4096 - 1) / 4096).
    { replace (bias + p_vaddr q + p_memsz q + 4096 - 1) with (bias + p_vaddr q + p_memsz q - 1 + 1 * 4096) by lia. rewrite Z.div_add by lia.
      assert ((bias + p_vaddr p) / 4096 <= (bias + p_vaddr q + p_memsz q - 1) / 4096) by (apply Z.div_le_mono; lia). lia. }
    set (x := (bias + p_vaddr q) / 4096) in *. set (y := (bias + p_vaddr p) / 4096) in *. set (z := (bias + p_vaddr q + p_memsz q + 4096 - 1) / 4096) in *.
    clearbody x y z. lia.
  - destruct (La e Le) as (q & Sq & G). exists q. split; [exact Sq|]. unfold starts_in. rewrite Se. exact G.
Qed.
Print Assumptions C199_inside_partial.

Lemma ex_together : forall k, (k < 4)%nat -> together ex_l k 0.
Proof. intros k K. intros j Hj. assert (j = 0 \/ j = 1 \/ j = 2 \/ j = 3)%nat by lia. rewrite Nat.min_0_r. destruct H as [->|[->|[-> | -> ]]]; reflexivity. Qed.
Lemma ex_file k : (k < 4)%nat -> file_of ex_l ex_elf k 0 (nth 0 ex_l (Mv 0 0 [] 0 0 0 0 0 [] VMA_NONE)) ex_a.
Proof.
  intros K. split; [reflexivity|]. split; [apply ex_together; exact K|]. split; [reflexivity|]. intros j _ _ Hj. destruct j; [contradiction|reflexivity].
Qed.
Lemma ex_segments p : In p (map a_ph ex_a) -> p = Ph 1 4 0 0 0x628 0x628 \/ p = Ph 1 5 0x1000 0x1000 0x185 0x185 \/ p = Ph 1 6 0x2df0 0x3df0 0x220 0x228 \/ p = Ph 0x6474e552 4 0x2df0 0x3df0 0x210 0x210.
Proof. intros [<-|[<-|[<-|[<-|[]]]]]; auto. Qed.
Lemma ex_placed : placed ex_b (nth 0 ex_l (Mv 0 0 [] 0 0 0 0 0 [] VMA_NONE)) (map a_ph ex_a).
Proof.
  split; [split; [reflexivity|split; [unfold ex_b; lia|]]|split].
  - intros p [I T]. destruct (ex_segments p I) as [->|[->|[->| ->]]]; try discriminate; cbn; unfold ex_b; repeat split; (reflexivity || lia).
  - intros p I _. destruct (ex_segments p I) as [->|[->|[->| ->]]]; cbn; unfold ex_b; lia.
  - exists (Ph 1 4 0 0 0x628 0x628). split; [|reflexivity]. split; [split; [left; reflexivity|reflexivity]|].
    intros q [I T]. destruct (ex_segments q I) as [->|[->|[->| ->]]]; cbn; lia.
Qed.
(** All four mappings of the program are marked; the heap is not. *)
Example C199_ex : (forall k, (k < 4)%nat -> file_of ex_l ex_elf k 0 (nth 0 ex_l (Mv 0 0 [] 0 0 0 0 0 [] VMA_NONE)) ex_a) /\
  placed ex_b (nth 0 ex_l (Mv 0 0 [] 0 0 0 0 0 [] VMA_NONE)) (map a_ph ex_a) /\
  map (fun '(_, _, o) => match o_phdr o with Some p => Some (p_vaddr p) | None => None end) (listing 12 ex_elf ex_l) =
    [Some 0; Some 0x1000; Some 0x3df0; Some 0x3df0; None].
Proof. split; [exact ex_file|]. split; [exact ex_placed|]. vm_compute. reflexivity. Qed.

(** A file without protected part whose last segment ends at the end of a page: when the program
    maps the file a second time, right behind, then that mapping is marked though it is no part of
    a segment. *)
Definition bad_l : list mvma :=
  [Mv ex_b (ex_b + 0x1000) (str "r--p") 1 0 8 1 77 (str "/bin/a") VMA_SELF;
   Mv (ex_b + 0x1000) (ex_b + 0x2000) (str "r-xp") 5 1 8 1 77 (str "/bin/a") VMA_SELF;
   Mv (ex_b + 0x2000) (ex_b + 0x3000) (str "r--s") 1 4 8 1 77 (str "/bin/a") VMA_SELF].
Definition bad_a : list aph := [Ap (Ph 1 4 0 0 0x1000 0x1000) 0x1000; Ap (Ph 1 5 0x1000 0x1000 0x1000 0x1000) 0x1000].
Definition bad_elf (k : nat) : option (list aph) := match k with O => Some bad_a | _ => None end.
Theorem C199_outside_refuted : exists elf l k v b o h u ph bias,
  nth_error (listing 12 elf l) k = Some (v, b, o) /\ file_of l elf k h u ph /\ placed bias u (map a_ph ph) /\ is_range v /\
  o_phdr o <> None /\ forall q, segment (map a_ph ph) q -> ~ starts_in bias q v.
Proof.
  exists bad_elf, bad_l, 2%nat. do 3 eexists. exists 0%nat. eexists. exists bad_a, ex_b.
  split; [vm_compute; reflexivity|]. split; [|split; [|split; [|split]]].
  - split; [reflexivity|]. split; [|split; [reflexivity|intros j _ _ Hj; destruct j; [contradiction|reflexivity]]].
    intros j Hj. assert (J : (j = 0 \/ j = 1 \/ j = 2)%nat) by lia. destruct J as [->|[-> | -> ]]; reflexivity.
  - assert (S : forall p, In p (map a_ph bad_a) -> p = Ph 1 4 0 0 0x1000 0x1000 \/ p = Ph 1 5 0x1000 0x1000 0x1000 0x1000) by (intros p [<-|[<-|[]]]; auto).
    split; [split; [reflexivity|split; [unfold ex_b; lia|]]|split].
    + intros p [I T]. destruct (S p I) as [->| ->]; cbn; unfold ex_b; repeat split; (reflexivity || lia).
    + intros p I _. destruct (S p I) as [->| ->]; cbn; unfold ex_b; lia.
    + exists (Ph 1 4 0 0 0x1000 0x1000). split; [|reflexivity]. split; [split; [left; reflexivity|reflexivity]|].
      intros q [I T]. destruct (S q I) as [->| ->]; cbn; lia.
  - split; cbn; lia.
  - cbn. discriminate.
  - intros q [[<-|[<-|[]]] _]; unfold starts_in; vm_compute; intuition discriminate.
Qed.
Print Assumptions C199_outside_refuted.

(** A protected part that does not end at the end of a page (the loader protects the whole pages
    only): the mapping that it leaves is not marked, though it is the begin of a segment. *)
Definition odd_l : list mvma :=
  [Mv ex_b (ex_b + 0x1000) (str "r--p") 1 0 8 1 77 (str "/bin/a") VMA_SELF;
   Mv (ex_b + 0x3000) (ex_b + 0x4000) (str "r--p") 1 2 8 1 77 (str "/bin/a") VMA_SELF;
   Mv (ex_b + 0x4000) (ex_b + 0x5000) (str "rw-p") 3 3 8 1 77 (str "/bin/a") VMA_SELF].
Definition odd_a : list aph :=
  [Ap (Ph 1 4 0 0 0x628 0x628) 0x1000; Ap (Ph 1 6 0x2df0 0x3df0 0xa20 0xa28) 0x1000; Ap (Ph 0x6474e552 4 0x2df0 0x3df0 0x808 0x808) 1].
Definition odd_elf (k : nat) : option (list aph) := match k with O => Some odd_a | _ => None end.
Theorem C199_unmarked_refuted : exists elf l k v b o h u ph bias r,
  nth_error (listing 12 elf l) k = Some (v, b, o) /\ file_of l elf k h u ph /\ placed bias u (map a_ph ph) /\
  protects (map a_ph ph) r /\ m_start v = mapped_from bias r /\ m_end v = behind bias r /\ same_rights (m_prot v) (p_flags r) /\ o_phdr o = None.
Proof.
  exists odd_elf, odd_l, 1%nat. do 3 eexists. exists 0%nat. eexists. exists odd_a, ex_b, (Ph 0x6474e552 4 0x2df0 0x3df0 0x808 0x808).
  split; [vm_compute; reflexivity|]. split; [|split; [|split; [|split; [|split; [|split]]]]].
  - split; [reflexivity|]. split; [|split; [reflexivity|intros j _ _ Hj; destruct j; [contradiction|reflexivity]]].
    intros j Hj. assert (J : (j = 0 \/ j = 1)%nat) by lia. destruct J as [-> | -> ]; reflexivity.
  - assert (S : forall p, In p (map a_ph odd_a) -> p = Ph 1 4 0 0 0x628 0x628 \/ p = Ph 1 6 0x2df0 0x3df0 0xa20 0xa28 \/ p = Ph 0x6474e552 4 0x2df0 0x3df0 0x808 0x808) by (intros p [<-|[<-|[<-|[]]]]; auto).
    split; [split; [reflexivity|split; [unfold ex_b; lia|]]|split].
    + intros p [I T]. destruct (S p I) as [->|[->| ->]]; try discriminate; cbn; unfold ex_b; repeat split; (reflexivity || lia).
    + intros p I _. destruct (S p I) as [->|[->| ->]]; cbn; unfold ex_b; lia.
    + exists (Ph 1 4 0 0 0x628 0x628). split; [|reflexivity]. split; [split; [left; reflexivity|reflexivity]|].
      intros q [I T]. destruct (S q I) as [->|[->| ->]]; cbn; lia.
  - split; [right; right; left; reflexivity|reflexivity].
  - vm_compute. reflexivity.
  - vm_compute. reflexivity.
  - vm_compute. auto.
  - reflexivity.
Qed.
Print Assumptions C199_unmarked_refuted.

(** ** C200 *)

(** [v] maps the file from the page on in which the segment [p] begins. *)
Definition file_page (p : phdr) (v : mvma) : Prop := m_pgoff v * 4096 = page_down (p_offset p).

(** In a file with two writable segments the mapping of the second is shown with the address of
    the first: file offsets are compared with addresses. *)
Definition off_l : list mvma :=
  [Mv ex_b (ex_b + 0x1000) (str "r--p") 1 0 8 1 77 (str "/bin/a") VMA_SELF;
   Mv (ex_b + 0x2000) (ex_b + 0x3000) (str "rw-p") 3 1 8 1 77 (str "/bin/a") VMA_SELF;
   Mv (ex_b + 0x4000) (ex_b + 0x5000) (str "rw-p") 3 2 8 1 77 (str "/bin/a") VMA_SELF].
Definition off_a : list aph := [Ap (Ph 1 4 0 0 0x628 0x628) 0x1000; Ap (Ph 1 6 0x1000 0x2000 0x220 0x228) 0x1000; Ap (Ph 1 6 0x2000 0x4000 0x220 0x228) 0x1000].
Definition off_elf (k : nat) : option (list aph) := match k with O => Some off_a | _ => None end.
Theorem C200_voffset_refuted : exists elf l k v b o h u ph bias p q,
  nth_error (listing 12 elf l) k = Some (v, b, o) /\ file_of l elf k h u ph /\ placed bias u (map a_ph ph) /\
  segment (map a_ph ph) p /\ is_mapping_of bias p v /\ file_page p v /\
  segment (map a_ph ph) q /\ o_voffset o = p_vaddr q /\ p_vaddr q <> p_vaddr p.
Proof.
  exists off_elf, off_l, 2%nat. do 3 eexists. exists 0%nat. eexists. exists off_a, ex_b, (Ph 1 6 0x2000 0x4000 0x220 0x228), (Ph 1 6 0x1000 0x2000 0x220 0x228).
  split; [vm_compute; reflexivity|]. split; [|split].
  - split; [reflexivity|]. split; [|split; [reflexivity|intros j _ _ Hj; destruct j; [contradiction|reflexivity]]].
    intros j Hj. assert (J : (j = 0 \/ j = 1 \/ j = 2)%nat) by lia. destruct J as [->|[-> | -> ]]; reflexivity.
  - assert (S : forall p, In p (map a_ph off_a) -> p = Ph 1 4 0 0 0x628 0x628 \/ p = Ph 1 6 0x1000 0x2000 0x220 0x228 \/ p = Ph 1 6 0x2000 0x4000 0x220 0x228) by (intros p [<-|[<-|[<-|[]]]]; auto).
    split; [split; [reflexivity|split; [unfold ex_b; lia|]]|split].
    + intros p [I T]. destruct (S p I) as [->|[->| ->]]; cbn; unfold ex_b; repeat split; (reflexivity || lia).
    + intros p I _. destruct (S p I) as [->|[->| ->]]; cbn; unfold ex_b; lia.
    + exists (Ph 1 4 0 0 0x628 0x628). split; [|reflexivity]. split; [split; [left; reflexivity|reflexivity]|].
      intros q [I T]. destruct (S q I) as [->|[->| ->]]; cbn; lia.
  - split; [split; [right; right; left; reflexivity|reflexivity]|]. split; [repeat split; vm_compute; reflexivity|]. split; [vm_compute; reflexivity|].
    split; [split; [right; left; reflexivity|reflexivity]|]. split; [reflexivity|discriminate].
Qed.
Print Assumptions C200_voffset_refuted.

(** Right for the mappings other than the first of the file, if in the file the segments are at the
    same pages as in memory (4096-byte alignment) and each begins in a page of its own.
    For the first mapping 0 is shown.  Missing (false): other files. *)
Theorem C200_voffset_partial : forall elf l k v b o h u ph p,
  nth_error (listing 12 elf l) k = Some (v, b, o) -> file_of l elf k h u ph -> lowest ULONG_MAX (map a_ph ph) <> ULONG_MAX ->
  (forall a, In a ph -> p_type (a_ph a) = 1 -> a_align a = 4096 /\ 0 <= p_vaddr (a_ph a) < 2 ^ 64 /\ page_down (p_offset (a_ph a)) = page_down (p_vaddr (a_ph a))) ->
  (forall q, segment (map a_ph ph) q -> page_down (p_vaddr q) = page_down (p_vaddr p) -> p_vaddr q = p_vaddr p) ->
  segment (map a_ph ph) p -> file_page p v -> m_prot u <> 0 ->
  o_voffset o = if (h =? k)%nat then 0 else p_vaddr p.
Proof.
  intros elf l k v b o h u ph p H F Lw A U [Ip Tp] Fp Pu. destruct (in_listing _ _ _ _ _ _ _ _ _ _ H F) as [K ->].
  unfold peek_role. destruct (Z.eqb_spec (lowest ULONG_MAX (map a_ph ph)) ULONG_MAX); [contradiction|]. rewrite phdr_keeps. destruct (h =? k)%nat; [reflexivity|].
  apply in_map_iff in Ip. destruct Ip as (a & Ea & Ia). subst p. destruct (A a Ia Tp) as (A1 & A2 & A3).
  assert (O : u64 (Z.shiftl (m_pgoff v) 12) = page_down (p_vaddr (a_ph a))).
  { rewrite Z.shiftl_mul_pow2 by lia. change (2 ^ 12) with 4096. rewrite Fp, A3. unfold u64, wrap. apply Z.mod_small.
    unfold page_down, page. pose proof (Z.div_mod (p_vaddr (a_ph a)) 4096 ltac:(lia)). pose proof (Z.mod_pos_bound (p_vaddr (a_ph a)) 4096 ltac:(lia)).
    pose proof (Z.div_pos (p_vaddr (a_ph a)) 4096 ltac:(lia) ltac:(lia)). lia. }
  apply voffset_is; [|exact Pu|right; exists a; rewrite A1, align_page by exact A2; auto].
  intros c Ic Tc. destruct (A c Ic Tc) as (C1 & C2 & C3). rewrite C1, align_page, O by exact C2. intros E. apply U; [split; [apply in_map; exact Ic|exact Tc]|congruence].
Qed.
Print Assumptions C200_voffset_partial.

Definition flat_a : list aph := [Ap (Ph 1 4 0 0 0x628 0x628) 0x1000; Ap (Ph 1 5 0x1000 0x1000 0x185 0x185) 0x1000; Ap (Ph 1 6 0x2df0 0x2df0 0x220 0x228) 0x1000].
Definition flat_elf (k : nat) : option (list aph) := match k with O => Some flat_a | _ => None end.
Definition flat_l : list mvma :=
  [Mv ex_b (ex_b + 0x1000) (str "r--p") 1 0 8 1 77 (str "/bin/a") VMA_SELF;
   Mv (ex_b + 0x1000) (ex_b + 0x2000) (str "r-xp") 5 1 8 1 77 (str "/bin/a") VMA_SELF;
   Mv (ex_b + 0x2000) (ex_b + 0x4000) (str "rw-p") 3 2 8 1 77 (str "/bin/a") VMA_SELF].
Example C200_ex : map (fun '(_, _, o) => o_voffset o) (listing 12 flat_elf flat_l) = [0; 0x1000; 0x2df0] /\
  file_of flat_l flat_elf 2 0 (nth 0 flat_l (Mv 0 0 [] 0 0 0 0 0 [] VMA_NONE)) flat_a /\ lowest ULONG_MAX (map a_ph flat_a) <> ULONG_MAX /\
  (forall a, In a flat_a -> p_type (a_ph a) = 1 -> a_align a = 4096 /\ 0 <= p_vaddr (a_ph a) < 2 ^ 64 /\ page_down (p_offset (a_ph a)) = page_down (p_vaddr (a_ph a))) /\
  (forall q, segment (map a_ph flat_a) q -> page_down (p_vaddr q) = page_down 0x2df0 -> p_vaddr q = 0x2df0) /\
  segment (map a_ph flat_a) (Ph 1 6 0x2df0 0x2df0 0x220 0x228) /\ file_page (Ph 1 6 0x2df0 0x2df0 0x220 0x228) (nth 2 flat_l (Mv 0 0 [] 0 0 0 0 0 [] VMA_NONE)).
Proof.
  split; [vm_compute; reflexivity|]. split; [|split; [|split; [|split; [|split]]]].
  - split; [reflexivity|]. split; [|split; [reflexivity|intros j _ _ Hj; destruct j; [contradiction|reflexivity]]].
    intros j Hj. assert (J : (j = 0 \/ j = 1 \/ j = 2)%nat) by lia. destruct J as [->|[-> | -> ]]; reflexivity.
  - vm_compute. discriminate.
  - intros a [<-|[<-|[<-|[]]]] _; cbn; repeat split; lia.
  - intros q [[<-|[<-|[<-|[]]]] _]; vm_compute; (reflexivity || discriminate).
  - split; [right; right; left; reflexivity|reflexivity].
  - vm_compute. reflexivity.
Qed.
