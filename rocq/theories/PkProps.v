(** C68, C113-C115: ELF headers in the memory of a process. *)
From Coq Require Import ZArith String List Bool Lia ZifyBool.
From Verif Require Import Word WordLemmas Str VmaModel PkModel PkSpec.
Import ListNotations.
Open Scope Z_scope.

Lemma lowest_min : forall l acc, lowest acc l <= acc /\ (forall p, segment l p -> lowest acc l <= p_vaddr p) /\
  (lowest acc l = acc \/ exists p, segment l p /\ p_vaddr p = lowest acc l).
Proof.
  induction l as [|p l IH]; intros acc; cbn [lowest].
  - split; [lia|]. split; [intros q [[] _]|left; reflexivity].
  - set (acc' := if p_type p =? PT_LOAD then if acc <=? p_vaddr p then acc else p_vaddr p else acc).
    destruct (IH acc') as (A & B & C).
    assert (Ha : acc' <= acc /\ (p_type p = 1 -> acc' <= p_vaddr p) /\ (acc' = acc \/ p_type p = 1 /\ acc' = p_vaddr p)).
    { unfold acc', PT_LOAD. destruct (Z.eqb_spec (p_type p) 1); [|lia]. destruct (Z.leb_spec acc (p_vaddr p)); lia. }
    split; [lia|]. split.
    + intros q [[<-|Hq] T]; [|apply B; split; assumption]. destruct Ha as (_ & Ha & _). specialize (Ha T). lia.
    + destruct C as [C|(q & [Hq T] & E)]; [|right; exists q; split; [split; [right; exact Hq|exact T]|exact E]].
      destruct Ha as (_ & _ & [Ha|[T Ha]]); [left; lia|]. right. exists p. split; [split; [left; reflexivity|exact T]|lia].
Qed.

Lemma lowest_first l p : first_segment l p -> p_vaddr p <= ULONG_MAX -> lowest ULONG_MAX l = p_vaddr p.
Proof.
  intros [S M] B. destruct (lowest_min l ULONG_MAX) as (_ & L & [E|(q & Sq & E)]).
  - specialize (L p S). lia.
  - specialize (L p S). specialize (M q Sq). lia.
Qed.

(** The state after a successful look at a mapping with complete reads. *)
Definition seen (type : vma_type) (name : list Z) (start : Z) (h : header) (ph : list phdr) : Z * velf :=
  peek type name start fresh_elf 64 h (56 * h_phnum h) ph [].

(** Such a mapping is looked at. *)
Definition looked_at (type : vma_type) (name : list Z) (h : header) (ph : list phdr) : Prop :=
  skipped type = false /\ prefixb (str "/etc") name = false /\ prefixb (str "/sys") name = false /\
  h_ok h = true /\ h_phnum h = Z.of_nat (List.length ph) /\ h_phnum h < 65536.

Lemma seen_load type name start h ph p : looked_at type name h ph -> first_segment ph p -> p_vaddr p < ULONG_MAX ->
  exists v, seen type name start h ph = (0, v) /\ v_is_elf v = true /\ v_elf v = Valid /\ v_phdrs v = Valid /\ v_load v = u64 (start - p_vaddr p).
Proof.
  intros (K & E1 & E2 & O & N & B) F V. unfold seen, peek. rewrite K, E1, E2. cbn [fresh_elf v_elf v_is_elf orb].
  change (u64 64 <? 64) with false. change (64 =? -1) with false. cbv iota zeta. rewrite O. cbn [negb].
  assert (P : (0 < List.length ph)%nat) by (destruct F as [[I _] _]; destruct ph; [contradiction|cbn; lia]).
  destruct (Z.eqb_spec (h_phnum h) 0); [lia|]. cbn [negb andb].
  assert (U : u32 (56 * h_phnum h) = u32 (h_phnum h * 56)) by (f_equal; lia). rewrite U, Z.ltb_irrefl.
  destruct (Z.eqb_spec (56 * h_phnum h) (-1)); [lia|].
  rewrite (lowest_first ph p F) by lia. destruct (Z.eqb_spec (p_vaddr p) ULONG_MAX); [lia|].
  eexists. split; [reflexivity|]. repeat split; reflexivity.
Qed.

(** ** C68 *)

(** A file whose only segment starts in the middle of a page (ld -N, or headers followed by
    code): the addresses are too low by that much. *)
Theorem C68_bias_refuted : exists type name bias ph p h v value a,
  sound bias ph /\ header_segment ph p /\ first_segment ph p /\ looked_at type name h ph /\
  seen type name (mapped_from bias p) h ph = (0, v) /\ sym_addr v value = Some a /\ a <> bias + value.
Proof.
  exists VMA_SELF, (str "/bin/a"), 0, [Ph 1 5 0x78 0x400078 0x100 0x100], (Ph 1 5 0x78 0x400078 0x100 0x100), (Hd true 2 1).
  eexists. exists 0x400080. eexists.
  assert (S : forall q, segment [Ph 1 5 0x78 0x400078 0x100 0x100] q -> q = Ph 1 5 0x78 0x400078 0x100 0x100) by (intros q [[<-|[]] _]; reflexivity).
  assert (S0 : segment [Ph 1 5 0x78 0x400078 0x100 0x100] (Ph 1 5 0x78 0x400078 0x100 0x100)) by (split; [left; reflexivity|reflexivity]).
  split; [split; [reflexivity|split; [lia|]]|].
  { intros q Hq. apply S in Hq. subst q. cbn [p_vaddr p_filesz p_offset]. repeat split; (reflexivity || lia). }
  split; [split; [exact S0|cbn; unfold page; lia]|]. split; [split; [exact S0|intros q Hq; apply S in Hq; subst q; lia]|].
  split; [repeat split; cbn; lia|]. split; [vm_compute; reflexivity|]. split; [vm_compute; reflexivity|]. discriminate.
Qed.
Print Assumptions C68_bias_refuted.

(** Exactly when it is right: the segment with the header begins at the lowest address of
    all segments, and that is the begin of a page.  So it is for the files that usual
    linkers make.  Missing (false): the other files. *)
Theorem C68_bias_partial : forall type name bias ph ps pf h, sound bias ph -> header_segment ph ps -> first_segment ph pf ->
  looked_at type name h ph ->
  exists v, seen type name (mapped_from bias ps) h ph = (0, v) /\
    ((forall value, 0 <= value -> bias + value < 2 ^ 64 -> sym_addr v value = Some (bias + value)) <->
     page_down (p_vaddr ps) = p_vaddr pf).
Proof.
  intros type name bias ph ps pf h (Bp & B0 & S) [Ss So] F L.
  destruct (S pf (proj1 F)) as (F0 & F1 & F2 & F3). destruct (S ps Ss) as (P0 & P1 & P2 & P3).
  destruct (seen_load type name (mapped_from bias ps) h ph pf L F) as (v & E & _ & V & _ & Ld); [clear - F0 F1 F2 B0; change ULONG_MAX with (2 ^ 64 - 1); lia|].
  exists v. split; [exact E|]. unfold sym_addr. rewrite V, Ld.
  assert (M : mapped_from bias ps = bias + page_down (p_vaddr ps)).
  { clear - Bp. unfold mapped_from, page_down, page in *. apply Z.mod_divide in Bp; [|discriminate]. destruct Bp as [k ->].
    rewrite (Z.add_comm (k * 4096)), Z.div_add by discriminate. ring. }
  assert (D : 0 <= page_down (p_vaddr ps) <= p_vaddr ps).
  { clear - P0. unfold page_down, page. lia. }
  rewrite M. set (d := page_down (p_vaddr ps)) in *. clear - Bp B0 F0 F1 F2 P0 P1 P2 D. clear Bp. split.
  - intros A. specialize (A 0 (Z.le_refl 0)). assert (A1 : bias + 0 < 2 ^ 64) by (clear A; lia). specialize (A A1).
    apply (f_equal (fun o => match o with Some x => x | None => 0 end)) in A. cbv beta iota in A.
    rewrite Z.add_0_l, Z.add_0_r in A. unfold u64, wrap in A. rewrite Zmod_mod in A.
    assert (X : (bias + d - p_vaddr pf - bias) mod 2 ^ 64 = 0).
    { rewrite Zminus_mod, A, (Z.mod_small bias) by (clear A; lia). rewrite Z.sub_diag. reflexivity. }
    clear A. apply Z.mod_divide in X; [|discriminate]. destruct X as [k X].
    assert (L1 : - 2 ^ 64 < k * 2 ^ 64 < 2 ^ 64) by lia. change (2 ^ 64) with 18446744073709551616 in *. lia.
  - intros A value V0 V1. rewrite A. f_equal. unfold u64, wrap. rewrite Zplus_mod_idemp_r. rewrite Z.mod_small; lia.
Qed.
Print Assumptions C68_bias_partial.

Definition ex_ph := [Ph 6 4 64 64 0x2d8 0x2d8; Ph 1 4 0 0 0x628 0x628; Ph 1 5 0x1000 0x1000 0x185 0x185; Ph 1 6 0x2df0 0x3df0 0x220 0x228].
Example C68_bias_partial_ex : sound 0x555555554000 ex_ph /\ header_segment ex_ph (Ph 1 4 0 0 0x628 0x628) /\ first_segment ex_ph (Ph 1 4 0 0 0x628 0x628) /\
  looked_at VMA_SELF (str "/bin/a") (Hd true 3 4) ex_ph /\ page_down 0 = 0.
Proof.
  assert (S : forall q, segment ex_ph q -> q = Ph 1 4 0 0 0x628 0x628 \/ q = Ph 1 5 0x1000 0x1000 0x185 0x185 \/ q = Ph 1 6 0x2df0 0x3df0 0x220 0x228).
  { intros q [I T]. cbn [ex_ph In] in I. destruct I as [<-|[<-|[<-|[<-|[]]]]]; auto. discriminate. }
  assert (S0 : segment ex_ph (Ph 1 4 0 0 0x628 0x628)) by (split; [right; left; reflexivity|reflexivity]).
  split; [split; [reflexivity|split; [lia|]]|].
  { intros q Hq. apply S in Hq. destruct Hq as [->|[->| ->]]; cbn [p_vaddr p_filesz p_offset]; repeat split; (reflexivity || lia). }
  split; [split; [exact S0|cbn; unfold page; lia]|]. split; [split; [exact S0|]|].
  { intros q Hq. apply S in Hq. destruct Hq as [->|[->| ->]]; cbn [p_vaddr]; lia. }
  split; [repeat split; cbn; lia|]. reflexivity.
Qed.

(** ** C113: no released memory is used *)

(** The read of the program headers is cut short, for instance because a mapping ends in
    the middle of them: the memory is released twice when the process is closed, and is
    used in between if the file has symbols. *)
Theorem C113_no_dangling_refuted : exists type name start h r2 ph junk err v,
  peek type name start fresh_elf 64 h r2 ph junk = (err, v) /\ 0 <= r2 /\ vma_free_elf v = None /\ (forall value, sym_addr v value = None) /\ v_is_elf v = true.
Proof.
  exists VMA_NONE, (str "/tmp/x"), 0x10000, (Hd true 2 3), 56, ex_ph, []. eexists. eexists.
  split; [vm_compute; reflexivity|]. split; [lia|]. split; [reflexivity|]. split; reflexivity.
Qed.
Print Assumptions C113_no_dangling_refuted.

(** What does hold: with every other outcome of the reads (all bytes or a failure) closing
    is safe, and so is every use of what was found.  Missing (false): short reads. *)
Theorem C113_no_dangling_partial : forall type name start r1 h r2 ph junk err v,
  0 <= h_phnum h < 65536 -> (r2 = -1 \/ 56 * h_phnum h <= r2 < 2 ^ 31) ->
  peek type name start fresh_elf r1 h r2 ph junk = (err, v) ->
  (exists v', vma_free_elf v = Some v') /\ (v_is_elf v = true -> forall value, exists a, sym_addr v value = Some a) /\
  (v_is_elf v = true <-> v_elf v = Valid).
Proof.
  intros type name start r1 h r2 ph junk err v Hn H2 H. unfold peek in H.
  assert (F : (exists v', vma_free_elf fresh_elf = Some v') /\ (v_is_elf fresh_elf = true -> forall value, exists a, sym_addr fresh_elf value = Some a) /\
    (v_is_elf fresh_elf = true <-> v_elf fresh_elf = Valid)).
  { split; [eexists; reflexivity|]. split; [discriminate|]. cbn. split; discriminate. }
  destruct (skipped type); [injection H as <- <-; exact F|].
  cbn [fresh_elf v_elf v_is_elf] in H. destruct (_ || _); [injection H as <- <-; exact F|].
  destruct (u64 r1 <? 64); [injection H as <- <-; exact F|].
  cbv zeta in H. destruct (r1 =? -1); cbn [h_ok negb h_phnum] in H; [injection H as <- <-; exact F|].
  destruct (h_ok h); cbn [negb] in H; [|injection H as <- <-; exact F].
  assert (Sh : negb (h_phnum h =? 0) && (u32 r2 <? u32 (h_phnum h * 56)) = false).
  { unfold u32, wrap. destruct (Z.eqb_spec (h_phnum h) 0); [reflexivity|]. cbn [negb andb]. apply Z.ltb_ge.
    rewrite (Z.mod_small (h_phnum h * 56)) by lia. destruct H2 as [->|H2]; [change ((-1) mod 2 ^ 32) with (2 ^ 32 - 1); lia|].
    rewrite Z.mod_small by lia. lia. }
  rewrite Sh in H. destruct (_ =? ULONG_MAX); injection H as <- <-.
  - split; [eexists; reflexivity|]. split; [discriminate|]. cbn. split; discriminate.
  - split; [unfold vma_free_elf; cbn; destruct (h_phnum h =? 0); eexists; reflexivity|].
    split; [intros _ value; eexists; reflexivity|]. cbn. split; reflexivity.
Qed.
Print Assumptions C113_no_dangling_partial.

Example C113_no_dangling_partial_ex : exists v, seen VMA_SELF (str "/bin/a") 0x555555554000 (Hd true 3 4) ex_ph = (0, v) /\ v_load v = 0x555555554000 /\ v_is_elf v = true.
Proof. eexists. split; [vm_compute; reflexivity|]. split; reflexivity. Qed.

(** ** C114: what cannot be read is not used *)

(** The read of the program headers fails: what happens to be in the allocated memory is
    taken for program headers, and determines the addresses of all symbols. *)
Theorem C114_unread_unused_refuted : exists type name start h ph junk junk' v v' value,
  peek type name start fresh_elf 64 h (-1) ph junk = (0, v) /\ peek type name start fresh_elf 64 h (-1) ph junk' = (0, v') /\
  sym_addr v value <> None /\ sym_addr v' value <> None /\ sym_addr v value <> sym_addr v' value.
Proof.
  exists VMA_NONE, (str "/tmp/x"), 0x10000, (Hd true 2 1), [Ph 1 4 0 0 0x628 0x628], [Ph 1 4 0 0 0 0], [Ph 1 4 0 0x1000 0 0]. eexists. eexists. exists 0x500.
  split; [vm_compute; reflexivity|]. split; [vm_compute; reflexivity|]. split; [discriminate|]. split; [discriminate|]. vm_compute. discriminate.
Qed.
Print Assumptions C114_unread_unused_refuted.

(** What does hold: nothing is taken from a mapping whose header cannot be read, and
    otherwise uninitialised memory does not matter unless the read of the program headers
    fails.  Missing (false): that failure. *)
Theorem C114_unread_unused_partial : forall type name start r1 h h' r2 ph junk junk',
  -1 <= r1 <= 64 ->
  (r1 < 64 -> forall err v, peek type name start fresh_elf r1 h r2 ph junk = (err, v) -> v = fresh_elf /\ peek type name start fresh_elf r1 h' r2 ph junk' = (err, v)) /\
  (r2 <> -1 -> peek type name start fresh_elf r1 h r2 ph junk = peek type name start fresh_elf r1 h r2 ph junk').
Proof.
  intros type name start r1 h h' r2 ph junk junk' R. split.
  - intros L err v H. unfold peek in *. destruct (skipped type); [injection H as <- <-; split; reflexivity|].
    cbn [fresh_elf v_elf v_is_elf] in *. destruct (_ || _); [injection H as <- <-; split; reflexivity|].
    destruct (Z.eqb_spec r1 (-1)) as [->|N].
    + change (u64 (-1) <? 64) with false in *. cbn [h_ok negb] in *. injection H as <- <-. split; reflexivity.
    + assert (X : u64 r1 <? 64 = true) by (unfold u64, wrap; rewrite Z.mod_small by lia; apply Z.ltb_lt; lia). rewrite X in *.
      injection H as <- <-. split; reflexivity.
  - intros N. unfold peek. apply Z.eqb_neq in N. rewrite N. reflexivity.
Qed.
Print Assumptions C114_unread_unused_partial.

Example C114_unread_unused_partial_ex : peek VMA_NONE (str "/tmp/x") 0x10000 fresh_elf 60 (Hd true 2 1) (-1) ex_ph [] = (- EAGAIN, fresh_elf).
Proof. reflexivity. Qed.

(** ** C115: the mapping of a segment is recognised *)

(** Linux and glibc map a segment from [mapped_from] to [mapped_to] with the protection of
    its flags: with the right load address exactly that mapping matches. *)
Theorem C115_segment_match : forall bias ph p start stop prot, sound bias ph -> segment ph p ->
  0 <= start < 2 ^ 64 -> 0 <= stop < 2 ^ 64 ->
  (match_phdr start stop prot p bias = true <->
   start = mapped_from bias p /\ stop = mapped_to bias p /\ vma_prot2flags prot = Z.land (p_flags p) 7).
Proof.
  intros bias ph p start stop prot (Bp & B0 & S) Sp R1 R2. destruct (S p Sp) as (P0 & P1 & P2 & _).
  apply Z.mod_divide in Bp; [|discriminate]. destruct Bp as [k Bk]. unfold page in Bk.
  assert (A : pagestart (u64 (bias + p_vaddr p)) = mapped_from bias p).
  { unfold u64, wrap. rewrite Z.mod_small by lia. unfold pagestart, mapped_from, page_down, page.
    pose proof (Z.div_mod (bias + p_vaddr p) 4096 ltac:(lia)). lia. }
  assert (M : (bias + p_vaddr p) mod 4096 = p_vaddr p mod 4096) by (rewrite Bk, Z.add_comm, Z.mod_add by lia; reflexivity).
  assert (B : u64 (mapped_from bias p + pagealign (u64 (p_filesz p + pageoffset (p_vaddr p)))) = mapped_to bias p).
  { pose proof (Z.mod_pos_bound (p_vaddr p) 4096 ltac:(lia)). unfold pageoffset, pagealign.
    unfold u64, wrap. rewrite (Z.mod_small (p_filesz p + _)) by lia. rewrite (Z.mod_small (p_filesz p + p_vaddr p mod 4096 + 4095)) by lia.
    unfold pagestart, mapped_to, page_up, page, mapped_from, page_down, page.
    set (x := bias + p_vaddr p) in *. pose proof (Z.div_mod x 4096 ltac:(lia)) as D.
    assert (Q : (x + p_filesz p + 4096 - 1) / 4096 = x / 4096 + (p_filesz p + p_vaddr p mod 4096 + 4095) / 4096).
    { replace (x + p_filesz p + 4096 - 1) with ((p_filesz p + p_vaddr p mod 4096 + 4095) + (x / 4096) * 4096) by lia. rewrite Z.div_add by lia. lia. }
    pose proof (Z.div_mod (p_filesz p + p_vaddr p mod 4096 + 4095) 4096 ltac:(lia)).
    pose proof (Z.mod_pos_bound (p_filesz p + p_vaddr p mod 4096 + 4095) 4096 ltac:(lia)).
    pose proof (Z.div_pos x 4096 ltac:(lia) ltac:(lia)). pose proof (Z.div_pos (p_filesz p + p_vaddr p mod 4096 + 4095) 4096 ltac:(lia) ltac:(lia)).
    pose proof (Z.mod_pos_bound x 4096 ltac:(lia)).
    rewrite Z.mod_small by lia. lia. }
  unfold match_phdr. rewrite A, B, !andb_true_iff, !Z.eqb_eq. split; intros H; repeat split; try tauto; destruct H as [[? ?] ?] || destruct H as (? & ? & ?); congruence.
Qed.
Print Assumptions C115_segment_match.

Example C115_segment_match_ex : match_phdr 0x555555555000 0x555555556000 5 (Ph 1 5 0x1000 0x1000 0x185 0x185) 0x555555554000 = true.
Proof. vm_compute. reflexivity. Qed.
