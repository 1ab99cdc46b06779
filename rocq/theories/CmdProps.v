(** Properties of the ultask commands: C64, C65, C100-C105. *)
From Coq Require Import ZArith String List Bool Lia.
From Verif Require Import Word WordLemmas RbModel Str VmaModel VmaSpec VmaProps ScModel ScSpec ScProofs ScProps CmdModel CmdSpec.
From Verif Require InsnModel InsnSpec InsnProps.
Import ListNotations.
Open Scope Z_scope.

(** ** An example: /bin/a at 0x400000-0x403000 (two mappings), the stack. *)
Definition ex_s : vroot := match read_task_vmas 8 ex_info false ex_root [16; 32; 48] with Some s => s | None => ex_root end.
Lemma ex_exact : lookup_exact 8 ex_info ex_s [16; 32; 48].
Proof.
  destruct (C08_lookup_exact ex_info ex_root [16; 32; 48] 8 eq_refl ex_map ex_alloc) as (s' & E & L); [cbn; lia|].
  unfold ex_s. rewrite E. exact L.
Qed.

Lemma found fuel info s vs x a : lookup_exact fuel info s vs -> find_vma fuel info s x = Some a -> 
  ((a =? 0) = false /\ In a vs /\ covers info a x) \/ ((a =? 0) = true /\ ~ mapped info vs x) \/ (In a vs /\ covers info a x /\ a = 0).
Proof.
  intros L F. destruct (L x) as (b & F' & H). rewrite F in F'. injection F' as <-.
  destruct H as [[H1 H2]|[-> H]].
  - destruct (Z.eqb_spec a 0); [right; right; auto|left; auto].
  - right. left. split; [reflexivity|]. intros (v & Hv & Hc). apply (H v); auto.
Qed.

(** Nodes are at addresses other than NULL. *)
Definition nonnull (vs : list Z) : Prop := ~ In 0 vs.

Lemma found_iff fuel info s vs x : nonnull vs -> lookup_exact fuel info s vs ->
  exists a, find_vma fuel info s x = Some a /\ ((a =? 0) = false <-> mapped info vs x) /\ ((a =? 0) = false -> In a vs /\ covers info a x).
Proof.
  intros N L. destruct (L x) as (a & F & H). exists a. split; [exact F|].
  destruct H as [[H1 H2]|[-> H]].
  - assert (E : (a =? 0) = false) by (apply Z.eqb_neq; intros ->; contradiction).
    rewrite E. split; [|auto]. split; auto. intros _. exists a. auto.
  - cbn. split; [|discriminate]. split; [discriminate|]. intros (v & Hv & Hc). exfalso. apply (H v); auto.
Qed.

(** ** C64 *)

(** The range 0x3ff000-0x404000 contains both mappings of /bin/a and is accepted. *)
Theorem C64_overlap_refused_refuted : exists fuel info s vs addr len,
  memory_map info vs /\ lookup_exact fuel info s vs /\ addr <> 0 /\ 0 < len /\ addr + len < 2 ^ 64 /\
  overlaps info vs addr len /\ map_in_use fuel info s addr len = Some false.
Proof.
  exists 8%nat, ex_info, ex_s, [16; 32; 48], 0x3ff000, 0x5000.
  split; [exact ex_map|]. split; [exact ex_exact|]. split; [lia|]. split; [lia|]. split; [lia|]. split.
  - exists 0x401000. split; [lia|]. exists 32. split; [cbn; auto|]. vm_compute. split; congruence.
  - vm_compute. reflexivity.
Qed.
Print Assumptions C64_overlap_refused_refuted.

(** The page just below /bin/a is free but refused. *)
Theorem C64_free_accepted_refuted : exists fuel info s vs addr len,
  memory_map info vs /\ lookup_exact fuel info s vs /\ addr <> 0 /\ 0 < len /\ addr + len < 2 ^ 64 /\
  ~ overlaps info vs addr len /\ map_in_use fuel info s addr len = Some true.
Proof.
  exists 8%nat, ex_info, ex_s, [16; 32; 48], 0x3ff000, 0x1000.
  split; [exact ex_map|]. split; [exact ex_exact|]. split; [lia|]. split; [lia|]. split; [lia|]. split.
  - intros (x & Hx & v & Hv & Hc). unfold covers in Hc. cbn in Hv.
    destruct Hv as [<-|[<-|[<-|[]]]]; cbv [ex_info Z.eqb Pos.eqb vm_start vm_end] in Hc; lia.
  - vm_compute. reflexivity.
Qed.
Print Assumptions C64_free_accepted_refuted.

(** What does hold: a refused range, with the address just after it, touches a mapping;
    an accepted one overlaps only mappings that lie inside of it, hence none if every
    mapping is longer than the range.  A refused request does nothing to the target.
    Missing (false): the two statements above. *)
Theorem C64_overlap_partial : forall fuel info s vs addr len,
  lookup_exact fuel info s vs -> nonnull vs -> addr <> 0 -> 0 <= len -> 0 <= addr -> addr + len < 2 ^ 64 ->
  exists used, map_in_use fuel info s addr len = Some used /\
    (used = true -> overlaps info vs addr (len + 1)) /\
    (used = false -> forall v x, In v vs -> covers info v x -> addr <= x < addr + len ->
       addr < vm_start (info v) /\ vm_end (info v) <= addr + len) /\
    (used = false -> (forall v, In v vs -> len <= vm_end (info v) - vm_start (info v)) -> ~ overlaps info vs addr len) /\
    (used = true -> forall a nn x86 e libc garbage w ro nx file,
       mmap_a_file fuel a nn x86 e libc garbage info s w addr len ro nx file = Some (- EINVAL, w)).
Proof.
  intros fuel info s vs addr len L N A0 Hl A1 Hu. unfold mmap_a_file.
  assert (E : exists used, map_in_use fuel info s addr len = Some used /\
    (used = true -> overlaps info vs addr (len + 1)) /\
    (used = false -> ~ mapped info vs addr /\ ~ mapped info vs (addr + len))).
  { unfold map_in_use. destruct (Z.eqb_spec addr 0) as [|_]; [contradiction|].
    destruct (found_iff fuel info s vs addr N L) as (v & F & I & _). rewrite F.
    destruct (v =? 0) eqn:V; cbn [negb].
    - assert (U : u64 (addr + len) = addr + len) by (apply u64_small; lia). rewrite U.
      destruct (found_iff fuel info s vs (addr + len) N L) as (v' & F' & I' & _). rewrite F'.
      exists (negb (v' =? 0)). split; [reflexivity|]. destruct (v' =? 0) eqn:V'; cbn [negb]; (split; [|]); try discriminate.
      + intros _. split; [intros M; apply I in M; discriminate|intros M; apply I' in M; discriminate].
      + intros _. exists (addr + len). split; [lia|]. apply I'. reflexivity.
    - exists true. split; [reflexivity|]. split; [|discriminate]. intros _. exists addr. split; [lia|]. apply I. reflexivity. }
  destruct E as (used & E & Ht & Hf). exists used. split; [exact E|]. split; [exact Ht|].
  assert (In1 : used = false -> forall v x, In v vs -> covers info v x -> addr <= x < addr + len ->
       addr < vm_start (info v) /\ vm_end (info v) <= addr + len).
  { intros U v x Hv Hc Hx. destruct (Hf U) as [M1 M2]. unfold covers in Hc. split.
    - destruct (Z.lt_ge_cases addr (vm_start (info v))); [assumption|]. exfalso. apply M1. exists v. split; auto. unfold covers. lia.
    - destruct (Z.le_gt_cases (vm_end (info v)) (addr + len)); [assumption|]. exfalso. apply M2. exists v. split; auto. unfold covers. lia. }
  split; [exact In1|]. split.
  - intros U Long (x & Hx & v & Hv & Hc). destruct (In1 U v x Hv Hc Hx). specialize (Long v Hv). lia.
  - intros U a nn x86 e libc garbage w ro nx file. subst used. rewrite E. reflexivity.
Qed.
Print Assumptions C64_overlap_partial.

Example C64_overlap_partial_ex : lookup_exact 8 ex_info ex_s [16; 32; 48] /\ nonnull [16; 32; 48] /\
  map_in_use 8 ex_info ex_s 0x401000 4096 = Some true /\ map_in_use 8 ex_info ex_s 0x500000 4096 = Some false.
Proof. split; [exact ex_exact|]. split; [intros [H|[H|[H|[]]]]; discriminate|]. split; vm_compute; reflexivity. Qed.

(** ** C65 *)

(** The last page of /bin/a is refused. *)
Theorem C65_region_accepted_refuted : exists fuel info s vs addr len,
  memory_map info vs /\ lookup_exact fuel info s vs /\ 0 < addr /\ 0 < len /\ addr + len < 2 ^ 64 /\
  (exists v, In v vs /\ vm_start (info v) <= addr /\ addr + len <= vm_end (info v)) /\
  all_mapped info vs addr len /\ region_exists fuel info s addr len = Some false.
Proof.
  exists 8%nat, ex_info, ex_s, [16; 32; 48], 0x402000, 0x1000.
  split; [exact ex_map|]. split; [exact ex_exact|]. split; [lia|]. split; [lia|]. split; [lia|]. split; [|split].
  - exists 16. split; [cbn; auto|]. vm_compute. split; congruence.
  - intros x Hx. exists 16. split; [cbn; auto|]. unfold covers. change (vm_start (ex_info 16)) with 4202496. change (vm_end (ex_info 16)) with 4206592. lia.
  - vm_compute. reflexivity.
Qed.
Print Assumptions C65_region_accepted_refuted.

(** A region from /bin/a to the stack, with a large hole, passes the check. *)
Theorem C65_hole_refused_refuted : exists fuel info s vs addr len,
  memory_map info vs /\ lookup_exact fuel info s vs /\ 0 < addr /\ 0 < len /\ addr + len < 2 ^ 64 /\
  ~ all_mapped info vs addr len /\ region_exists fuel info s addr len = Some true.
Proof.
  exists 8%nat, ex_info, ex_s, [16; 32; 48], 0x402000, (140000000000000 - 0x402000).
  split; [exact ex_map|]. split; [exact ex_exact|]. split; [lia|]. split; [lia|]. split; [lia|]. split.
  - intros H. destruct (H 0x500000 ltac:(lia)) as (v & Hv & Hc). cbn in Hv.
    destruct Hv as [<-|[<-|[<-|[]]]]; vm_compute in Hc; destruct Hc; congruence.
  - vm_compute. reflexivity.
Qed.
Print Assumptions C65_hole_refused_refuted.

(** What does hold: the check looks at the first byte and at the byte after the region.
    So a region that ends before the end of its mapping is accepted, one that starts or
    ends in a hole is refused, and then nothing is done to the target.  Missing (false):
    regions that end where the mapping ends; holes inside. *)
Theorem C65_region_partial : forall fuel info s vs addr len,
  lookup_exact fuel info s vs -> nonnull vs -> 0 < addr -> 0 < len -> addr + len < 2 ^ 64 ->
  exists ok, region_exists fuel info s addr len = Some ok /\
    (ok = true <-> mapped info vs addr /\ mapped info vs (addr + len)) /\
    ((exists v, In v vs /\ vm_start (info v) <= addr /\ addr + len < vm_end (info v)) -> ok = true) /\
    (ok = false -> forall a nn e libc garbage w prot,
       mprotect_a_region fuel a nn e libc garbage info s w addr len prot = Some (- EINVAL, w)).
Proof.
  intros fuel info s vs addr len L N A0 Hl Hu.
  assert (E : exists ok, region_exists fuel info s addr len = Some ok /\ (ok = true <-> mapped info vs addr /\ mapped info vs (addr + len))).
  { unfold region_exists. destruct (Z.eqb_spec addr 0), (Z.eqb_spec len 0); try lia. cbn [orb].
    destruct (found_iff fuel info s vs addr N L) as (v & F & I & _). rewrite F.
    destruct (v =? 0) eqn:V.
    - exists false. split; [reflexivity|]. split; [discriminate|]. intros [M _]. apply I in M. discriminate.
    - assert (U : u64 (addr + len) = addr + len) by (apply u64_small; lia). rewrite U.
      destruct (found_iff fuel info s vs (addr + len) N L) as (v' & F' & I' & _). rewrite F'.
      exists (negb (v' =? 0)). split; [reflexivity|]. destruct (v' =? 0) eqn:V'; cbn [negb].
      + split; [discriminate|]. intros [_ M]. apply I' in M. discriminate.
      + split; [|reflexivity]. intros _. split; [apply I; reflexivity|apply I'; reflexivity]. }
  destruct E as (ok & E & I). exists ok. split; [exact E|]. split; [exact I|]. split.
  - intros (v & Hv & H1 & H2). apply I. split; exists v; (split; [auto|]); unfold covers; lia.
  - intros -> a nn e libc garbage w prot. unfold mprotect_a_region. rewrite E. reflexivity.
Qed.
Print Assumptions C65_region_partial.

Example C65_region_partial_ex : lookup_exact 8 ex_info ex_s [16; 32; 48] /\ nonnull [16; 32; 48] /\
  region_exists 8 ex_info ex_s 0x400000 4096 = Some true /\ region_exists 8 ex_info ex_s 0x500000 4096 = Some false.
Proof. split; [exact ex_exact|]. split; [intros [H|[H|[H|[]]]]; discriminate|]. split; vm_compute; reflexivity. Qed.

(** ** C100 *)

(** The kernel refuses the mapping; the command reports success. *)
Theorem C100_map_reported_refuted : exists fuel info s w addr len file w4 v w',
  task_mmap fuel x86_arch x86_nrs nomap_env 0x7000 0 w addr len 7 2 3 0 = Some (v, w4) /\ err_code v /\
  mmap_a_file fuel x86_arch x86_nrs true nomap_env 0x7000 0 info s w addr len false false file = Some (0, w').
Proof.
  exists 8%nat, ex_info, ex_s, ex_w, 0x500000, 8192, (str "/tmp/file").
  destruct (result_with (task_mmap 8 x86_arch x86_nrs nomap_env 0x7000 0 ex_w 0x500000 8192 7 2 3 0)
     (fun x => (2 ^ 64 - 4096 <? fst x) && (fst x <? 2 ^ 64))) as ([v w4] & E & P); [vm_compute; reflexivity|].
  destruct (result_with (mmap_a_file 8 x86_arch x86_nrs true nomap_env 0x7000 0 ex_info ex_s ex_w 0x500000 8192 false false (str "/tmp/file"))
     (fun x => fst x =? 0)) as ([r w'] & E' & P'); [vm_compute; reflexivity|].
  cbn [fst] in P, P'. apply andb_true_iff in P. destruct P as [P1 P2]. apply Z.ltb_lt in P1, P2. apply Z.eqb_eq in P'. subst r.
  exists w4, v, w'. split; [exact E|]. split; [split; auto|exact E'].
Qed.
Print Assumptions C100_map_reported_refuted.

(** The protection asked for: readable, writable unless [ro], executable unless [nx]. *)
Definition wanted_prot (ro nx : bool) : Z := 1 + (if ro then 0 else 2) + (if nx then 0 else 4).

(** What does hold: success means that the target was stopped, the file opened and sized,
    and a private mapping of it with the wanted protection was asked for at the address.
    Missing (false): that the mapping was made. *)
Theorem C100_map_reported_partial : forall fuel a nn x86 e libc garbage info s w addr len ro nx file w',
  mmap_a_file fuel a nn x86 e libc garbage info s w addr len ro nx file = Some (0, w') ->
  exists w1 fd w2 w3 v w4 c w5, 
    task_attach fuel e w = Some (0, w1) /\
    task_open fuel a nn e libc garbage x86 w1 file 2 0 = Some (fd, w2) /\ 0 < fd /\
    task_ftruncate fuel a nn e libc garbage w2 fd len = Some (0, w3) /\
    task_mmap fuel a nn e libc garbage w3 addr len (wanted_prot ro nx) 2 fd 0 = Some (v, w4) /\
    task_close fuel a nn e libc garbage w4 fd = Some (c, w5) /\ w' = snd (task_detach e w5).
Proof.
  intros fuel a nn x86 e libc garbage info s w addr len ro nx file w' H. unfold mmap_a_file in H.
  destruct (map_in_use fuel info s addr len) as [[|]|]; try discriminate.
  destruct (task_attach fuel e w) as [[r w1]|]; [|discriminate].
  destruct (Z.eqb_spec r 0) as [->|R]; cbn [negb] in H; [|injection H as -> _; contradiction].
  destruct (task_open _ _ _ _ _ _ _ _ _ _ _) as [[fd w2]|] eqn:EO; [|discriminate].
  destruct (Z.leb_spec fd 0) as [F|F]; [discriminate|].
  destruct (task_ftruncate _ _ _ _ _ _ _ _ _) as [[r3 w3]|] eqn:ET; [|discriminate].
  destruct (Z.eqb_spec r3 0) as [->|R]; cbn [negb] in H.
  - assert (P : (let prot := 7 in let prot := if ro then Z.land prot (Z.lnot 2) else prot in
                 if nx then Z.land prot (Z.lnot 4) else prot) = wanted_prot ro nx) by (destruct ro, nx; reflexivity).
    cbv zeta in P, H. rewrite P in H.
    destruct (task_mmap _ _ _ _ _ _ _ _ _ _ _ _ _) as [[v w4]|] eqn:EM; [|discriminate].
    destruct (task_close _ _ _ _ _ _ _ _) as [[c w5]|] eqn:EC; [|discriminate].
    destruct (task_detach e w5) as [d w6] eqn:ED. injection H as <-.
    exists w1, fd, w2, w3, v, w4, c, w5. rewrite ED. repeat split; auto.
  - destruct (task_close _ _ _ _ _ _ _ _) as [[c w5]|]; [|discriminate].
    destruct (task_detach e w5) as [d w6]. injection H as -> _. contradiction.
Qed.
Print Assumptions C100_map_reported_partial.

Example C100_map_reported_partial_ex : 
  match mmap_a_file 8 x86_arch x86_nrs true nomap_env 0x7000 0 ex_info ex_s ex_w 0x500000 8192 false true (str "/tmp/file") with
  | Some (r, w) => r = 0 /\ t_attached (w_t w) = false | None => False end.
Proof. vm_compute. auto. Qed.

(** ** C101 *)

(** Unmapping the first mapping of /bin/a, a file of 10000 bytes: the range asked for
    includes the next mapping. *)
Theorem C101_unmap_exact_refuted : exists fuel info s vs fsz addr a start size v,
  memory_map info vs /\ lookup_exact fuel info s vs /\ In a vs /\ covers info a addr /\
  munmap_range fuel info s fsz addr = Some (Some (start, size)) /\
  In v vs /\ v <> a /\ covers info v (start + size - 1).
Proof.
  exists 8%nat, ex_info, ex_s, [16; 32; 48], (fun _ => Some 10000), 0x400010, 32, 0x400000, 10000, 16.
  split; [exact ex_map|]. split; [exact ex_exact|]. split; [cbn; auto|]. split; [vm_compute; split; congruence|].
  split; [vm_compute; reflexivity|]. split; [cbn; auto|]. split; [lia|]. vm_compute. split; congruence.
Qed.
Print Assumptions C101_unmap_exact_refuted.

(** The kernel refuses to unmap; the command reports success. *)
Theorem C101_unmap_reported_refuted : exists fuel info s w addr start size v w1 w',
  munmap_range fuel info s (fun _ => None) addr = Some (Some (start, size)) /\
  task_munmap fuel x86_arch x86_nrs (ex_env (2 ^ 64 - EINVAL)) 0x7000 0 w start size = Some (v, w1) /\ v < 0 /\
  munmap_an_vma fuel x86_arch x86_nrs (ex_env (2 ^ 64 - EINVAL)) 0x7000 0 info s w (fun _ => None) addr = Some (0, w').
Proof.
  exists 8%nat, ex_info, ex_s, ex_w, 0x400010, 0x400000, 0x2000.
  destruct (result_with (task_munmap 8 x86_arch x86_nrs (ex_env (2 ^ 64 - EINVAL)) 0x7000 0 ex_w 0x400000 0x2000) (fun x => fst x <? 0))
    as ([v w1] & E & P); [vm_compute; reflexivity|].
  destruct (result_with (munmap_an_vma 8 x86_arch x86_nrs (ex_env (2 ^ 64 - EINVAL)) 0x7000 0 ex_info ex_s ex_w (fun _ => None) 0x400010) (fun x => fst x =? 0))
    as ([r w'] & E' & P'); [vm_compute; reflexivity|].
  cbn [fst] in P, P'. apply Z.ltb_lt in P. apply Z.eqb_eq in P'. subst r.
  exists v, w1, w'. split; [vm_compute; reflexivity|]. auto.
Qed.
Print Assumptions C101_unmap_reported_refuted.

(** What does hold: the range starts at the mapping that holds the address and, if its
    name is not that of a file, is that mapping; without such a mapping nothing is done.
    Missing (false): file mappings, and that failures are reported. *)
Theorem C101_unmap_partial : forall fuel info s vs fsz addr,
  memory_map info vs -> lookup_exact fuel info s vs -> nonnull vs ->
  (exists v n, In v vs /\ covers info v addr /\ munmap_range fuel info s fsz addr = Some (Some (vm_start (info v), n)) /\
     (fsz (vm_name (info v)) = None -> vm_start (info v) + n = vm_end (info v))) \/
  (~ mapped info vs addr /\ forall a nn e libc garbage w,
     munmap_an_vma fuel a nn e libc garbage info s w fsz addr = Some (-1, w)).
Proof.
  intros fuel info s vs fsz addr M L N. destruct (found_iff fuel info s vs addr N L) as (v & F & I & J).
  unfold munmap_an_vma, munmap_range. rewrite F. destruct (v =? 0) eqn:V.
  - right. split; [intros H; apply I in H; discriminate|]. reflexivity.
  - left. destruct (J eq_refl) as [Hv Hc]. exists v. eexists. split; [exact Hv|]. split; [exact Hc|]. split; [reflexivity|].
    intros ->. destruct M as [P _]. rewrite Forall_forall in P. specialize (P v Hv). unfold proper in P.
    rewrite u64_small by lia. lia.
Qed.
Print Assumptions C101_unmap_partial.

Example C101_unmap_partial_ex : memory_map ex_info [16; 32; 48] /\ lookup_exact 8 ex_info ex_s [16; 32; 48] /\ nonnull [16; 32; 48] /\
  munmap_range 8 ex_info ex_s (fun _ => None) 140000000000001 = Some (Some (140000000000000, 4096)).
Proof.
  split; [exact ex_map|]. split; [exact ex_exact|]. split; [intros [H|[H|[H|[]]]]; discriminate|]. vm_compute. reflexivity.
Qed.

(** ** C102 *)

(** No read or write transfers more bytes than asked for, none is negative. *)
Definition transfers (e : env) : Prop :=
  forall n a s k, e_read e n a s = Some k \/ e_write e n a s = Some k -> 0 <= k <= s.

Lemma nth_error_nth0 (l : list Z) i b : nth_error l i = Some b -> nth i l 0 = b.
Proof. intros H. apply nth_error_nth. exact H. Qed.

Lemma entry_len ia to : List.length (InsnModel.jump_entry ia to) = 16%nat.
Proof. destruct ia; reflexivity. Qed.

(** The command that redirects [from] to [to]: success means that executing at [from]
    continues at [to] and nothing but the 16 bytes there changed; in no case anything
    else changes, and an address outside of the process is refused without writing. *)
Theorem C102_redirect : forall fuel ia e info s vs w from to ret w',
  memory_map info vs -> lookup_exact fuel info s vs -> nonnull vs -> transfers e -> 
  0 < from -> from + 16 < 2 ^ 64 -> 0 < to < 2 ^ 64 ->
  run_jmp fuel e info s ia w from to = Some (ret, w') ->
  same_outside w w' from 16 /\ t_regs (w_t w') = t_regs (w_t w) /\
  (ret = 0 -> mapped info vs from /\ mapped info vs to /\ InsnSpec.code_at (t_mem (w_t w')) from (InsnModel.jump_entry ia to)) /\
  (~ mapped info vs from \/ ~ mapped info vs to -> ret = - ENOENT /\ w' = w).
Proof.
  intros fuel ia e info s vs w from to ret w' M L N T F1 F2 Ht H. unfold run_jmp in H.
  destruct (Z.eqb_spec from 0), (Z.eqb_spec to 0); try lia. cbn [orb] in H.
  destruct (found_iff fuel info s vs from N L) as (v & Fv & Iv & _). rewrite Fv in H.
  destruct (found_iff fuel info s vs to N L) as (v' & Fv' & Iv' & _). rewrite Fv' in H.
  assert (S0 : forall t n c, same_outside w (W t n c) from 16 <-> forall x, ~ within from 16 x -> t_mem t x = t_mem (w_t w) x) by (intros; reflexivity).
  destruct ((v =? 0) || (v' =? 0)) eqn:V.
  { injection H as <- <-. split; [intros x _; reflexivity|]. split; [reflexivity|]. split; [discriminate|auto]. }
  apply orb_false_iff in V. destruct V as [V V'].
  assert (MA : mapped info vs from /\ mapped info vs to) by (split; [apply Iv|apply Iv']; auto).
  assert (NM : ~ (~ mapped info vs from \/ ~ mapped info vs to)) by tauto.
  unfold memcpy_from_task in H. destruct (e_read e (w_n w) from 16) as [k|].
  2:{ change ((u64 (-1) =? u64 (-1)) || (u64 (-1) <? 16)) with true in H. cbn iota in H. injection H as <- <-.
      split; [intros x _; reflexivity|]. split; [reflexivity|]. split; [discriminate|tauto]. }
  destruct ((u64 k =? u64 (-1)) || (u64 k <? 16)).
  { injection H as <- <-. split; [intros x _; reflexivity|]. split; [reflexivity|]. split; [discriminate|tauto]. }
  unfold memcpy_to_task in H. cbn [tick w_n w_t] in H. destruct (e_write e (S (w_n w)) from 16) as [k'|] eqn:EW.
  2:{ change ((u64 (-1) =? u64 (-1)) || (u64 (-1) <? 16)) with true in H. cbn iota in H. injection H as <- <-.
      split; [intros x _; reflexivity|]. split; [reflexivity|]. split; [discriminate|tauto]. }
  pose proof (T _ _ _ _ (or_intror EW)) as K.
  assert (SO : forall t, t = (fun x => if (from <=? x) && (x <? from + k') then of_list (InsnModel.jmp_table_entry (InsnModel.arch_jmp_table_jmp ia) to) (x - from) else t_mem (w_t w) x) ->
     forall x, ~ within from 16 x -> t x = t_mem (w_t w) x).
  { intros t -> x Hx. unfold within in Hx. destruct (Z.leb_spec from x), (Z.ltb_spec x (from + k')); cbn [andb]; auto. lia. }
  rewrite (u64_small k') in H by lia.
  destruct (Z.eqb_spec k' (u64 (-1))) as [E|E].
  { change (u64 (-1)) with (2 ^ 64 - 1) in E. lia. }
  cbn [orb] in H. destruct (Z.ltb_spec k' 16) as [K16|K16]; injection H as <- <-; cbn [w_t tick set_t t_regs].
  - split; [intros x Hx; cbn [w_t tick set_t t_mem]; exact (SO _ eq_refl x Hx)|]. split; [reflexivity|]. split; [discriminate|tauto].
  - split; [intros x Hx; cbn [w_t tick set_t t_mem]; exact (SO _ eq_refl x Hx)|]. split; [reflexivity|]. split; [|tauto]. intros _. split; [apply MA|]. split; [apply MA|].
    assert (k' = 16) by lia. subst k'. intros i b Hb.
    assert (Hi : (i < 16)%nat) by (rewrite <- (entry_len ia to); apply nth_error_Some; congruence).
    assert (AD : InsnSpec.addr64 (from + Z.of_nat i) = from + Z.of_nat i) by (unfold InsnSpec.addr64; apply Z.mod_small; lia).
    rewrite AD. cbn [t_mem]. destruct (Z.leb_spec from (from + Z.of_nat i)), (Z.ltb_spec (from + Z.of_nat i) (from + 16)); try lia. cbn [andb].
    replace (from + Z.of_nat i - from) with (Z.of_nat i) by lia.
    rewrite of_list_nth by (fold (InsnModel.jump_entry ia to); rewrite entry_len; lia). apply nth_error_nth0. exact Hb.
Qed.
Print Assumptions C102_redirect.

(** Executing at [from] afterwards. *)
Theorem C102_redirect_x86 : forall fuel e info s vs w from to w' regs,
  memory_map info vs -> lookup_exact fuel info s vs -> nonnull vs -> transfers e ->
  0 < from -> from + 16 < 2 ^ 64 -> 0 < to < 2 ^ 64 ->
  run_jmp fuel e info s InsnModel.X86_64 w from to = Some (0, w') ->
  InsnSpec.x86_step (InsnSpec.XCpu regs from (t_mem (w_t w'))) = Some (InsnSpec.XCpu regs to (t_mem (w_t w'))).
Proof.
  intros fuel e info s vs w from to w' regs M L N T F1 F2 Ht H. apply InsnProps.C20_x86_jump_entry; [lia|].
  apply (C102_redirect fuel InsnModel.X86_64 e info s vs w from to 0 w' M L N T F1 F2 Ht H). reflexivity.
Qed.
Print Assumptions C102_redirect_x86.

Theorem C102_redirect_a64 : forall fuel e info s vs w from to w' regs,
  memory_map info vs -> lookup_exact fuel info s vs -> nonnull vs -> transfers e ->
  0 < from -> from + 16 < 2 ^ 64 -> 0 < to < 2 ^ 64 ->
  run_jmp fuel e info s InsnModel.AARCH64 w from to = Some (0, w') ->
  InsnSpec.a64_steps 2 (InsnSpec.ACpu regs from (t_mem (w_t w'))) =
    Some (InsnSpec.ACpu (InsnSpec.set_reg regs 17 to) to (t_mem (w_t w'))).
Proof.
  intros fuel e info s vs w from to w' regs M L N T F1 F2 Ht H. apply InsnProps.C21_a64_jump_entry; [lia|].
  apply (C102_redirect fuel InsnModel.AARCH64 e info s vs w from to 0 w' M L N T F1 F2 Ht H). reflexivity.
Qed.
Print Assumptions C102_redirect_a64.

(** An environment whose reads and writes succeed for at most 4096 bytes. *)
Definition page_env : env :=
  Env (fun _ => None) (fun _ => None) (fun _ _ s => if (0 <=? s) && (s <=? 4096) then Some s else None)
      (fun _ _ s => if (0 <=? s) && (s <=? 4096) then Some s else None) (fun _ => None)
      (fun _ _ _ _ => WFail) (fun _ => None) (fun _ r m => WStopped SIGSTOP r m) (fun _ => None) (fun _ => 0xa5).
Lemma page_transfers : transfers page_env.
Proof.
  intros n a s k [H|H]; cbn in H; destruct ((0 <=? s) && (s <=? 4096)) eqn:E; try discriminate; injection H as <-;
    apply andb_true_iff in E; destruct E as [E1 E2]; apply Z.leb_le in E1, E2; lia.
Qed.

Example C102_redirect_ex : memory_map ex_info [16; 32; 48] /\ lookup_exact 8 ex_info ex_s [16; 32; 48] /\ nonnull [16; 32; 48] /\
  transfers page_env /\
  match run_jmp 8 page_env ex_info ex_s InsnModel.X86_64 ex_w 0x401000 0x402010 with
  | Some (r, w) => r = 0 /\ t_mem (w_t w) 0x401000 = 0xff /\ t_mem (w_t w) 0x401010 = 0x10 | None => False end.
Proof.
  split; [exact ex_map|]. split; [exact ex_exact|]. split; [intros [H|[H|[H|[]]]]; discriminate|]. split; [exact page_transfers|].
  vm_compute. auto.
Qed.

(** ** C103 *)

(** Dumping 8192 bytes at 0x402000 of which only the first 4096 are mapped: the read fails,
    the file is filled with whatever malloc left, success is reported. *)
Theorem C103_dump_failure_refuted : exists fuel e info s vs w addr size l w',
  memory_map info vs /\ lookup_exact fuel info s vs /\ (forall n, e_read e n addr size = None) /\
  dump_task_addr_to_file fuel e info s w [] true (Some size) 0 addr size = Some (0, Some l, w') /\
  ~ content w addr size l.
Proof.
  exists 8%nat, page_env, ex_info, ex_s, [16; 32; 48], ex_w, 0x402000, 8192. eexists. eexists.
  split; [exact ex_map|]. split; [exact ex_exact|]. split; [reflexivity|]. split; [vm_compute; reflexivity|].
  intros [_ H]. specialize (H 0%nat). vm_compute in H.
  assert (X : 165 = 0) by (apply H; lia). discriminate.
Qed.
Print Assumptions C103_dump_failure_refuted.

(** Dumping over an existing longer file (option --force): the end of the old content stays. *)
Theorem C103_dump_over_refuted : exists fuel e info s vs w old addr size l w',
  memory_map info vs /\ lookup_exact fuel info s vs /\ (forall n, e_read e n addr size = Some size) /\
  dump_task_addr_to_file fuel e info s w old true (Some size) 0 addr size = Some (0, Some l, w') /\
  ~ content w addr size l.
Proof.
  exists 8%nat, page_env, ex_info, ex_s, [16; 32; 48], ex_w, [1; 2; 3; 4; 5], 0x402000, 4. eexists. eexists.
  split; [exact ex_map|]. split; [exact ex_exact|]. split; [reflexivity|]. split; [vm_compute; reflexivity|].
  intros [H _]. vm_compute in H. discriminate.
Qed.
Print Assumptions C103_dump_over_refuted.

Lemma bytes_of_length n : forall b i, List.length (bytes_of n b i) = n.
Proof. induction n; intros; cbn [bytes_of List.length]; auto. Qed.
Lemma bytes_of_nth n : forall b i j, (j < n)%nat -> nth j (bytes_of n b i) 0 = b (i + Z.of_nat j).
Proof.
  induction n as [|n IH]; intros b i j H; [lia|]. cbn [bytes_of]. destruct j as [|j].
  - cbn [nth]. f_equal. lia.
  - cbn [nth]. rewrite IH by lia. f_equal. lia.
Qed.

(** What does hold: if the target's memory could be read, success means that a new file
    (or one that was not longer) has exactly that memory as its content; the target is not
    changed; if the file cannot be written completely, or the address is not mapped, this is
    reported.  Missing (false): unreadable ranges and longer files. *)
Theorem C103_dump_partial : forall fuel e info s vs w old opens wr err addr size ret o w',
  lookup_exact fuel info s vs -> nonnull vs -> 0 < err < 4096 -> 0 <= size < 2 ^ 31 ->
  (forall k, wr = Some k -> 0 <= k <= size) ->
  dump_task_addr_to_file fuel e info s w old opens wr err addr size = Some (ret, o, w') ->
  w_t w' = w_t w /\
  (e_read e (w_n w) addr size = Some size -> Z.of_nat (List.length old) <= size -> ret = 0 ->
     exists l, o = Some l /\ content w addr size l) /\
  (~ mapped info vs addr \/ opens = false \/ wr <> Some size -> ret < 0).
Proof.
  intros fuel e info s vs w old opens wr err addr size ret o w' L N He Hs Hk H. unfold dump_task_addr_to_file in H.
  destruct (found_iff fuel info s vs addr N L) as (v & F & I & _). rewrite F in H.
  destruct (v =? 0) eqn:V.
  { injection H as <- <- <-. split; [reflexivity|]. split; [discriminate|]. intros _. unfold ENOENT. lia. }
  destruct opens; cbn [negb] in H.
  2:{ injection H as <- <- <-. split; [reflexivity|]. split; [lia|]. intros _. lia. }
  destruct (memcpy_from_task e w (e_junk e) addr size) as [[n b] w1] eqn:EM.
  assert (W1 : w_t w1 = w_t w) by (unfold memcpy_from_task in EM; destruct (e_read e (w_n w) addr size); injection EM as <- <- <-; reflexivity).
  destruct wr as [k|].
  - specialize (Hk k eq_refl).
    assert (S : s32 k = k). { unfold s32, sgn. rewrite Z.mod_small by lia. destruct (Z.ltb_spec k (2 ^ (32 - 1))); lia. }
    rewrite S in H. destruct (Z.eqb_spec k size) as [->|K]; injection H as <- <- <-.
    + split; [exact W1|]. split.
      * intros R Lo _. eexists. split; [reflexivity|]. unfold write_file.
        assert (SK : skipn (Z.to_nat size) old = []) by (apply skipn_all2; lia).
        rewrite SK, app_nil_r. split; [rewrite bytes_of_length; lia|].
        intros i Hi. rewrite bytes_of_length in Hi. rewrite bytes_of_nth by exact Hi.
        unfold memcpy_from_task in EM. rewrite R in EM. injection EM as <- <- <-. cbn [Z.add].
        destruct (Z.leb_spec 0 (Z.of_nat i)), (Z.ltb_spec (Z.of_nat i) size); try lia. reflexivity.
      * intros [G|[G|G]]; [exfalso; apply G; apply I; reflexivity|discriminate|contradiction].
    + split; [exact W1|]. split; [lia|]. intros _. lia.
  - injection H as <- <- <-. split; [exact W1|]. split; [lia|]. intros _. lia.
Qed.
Print Assumptions C103_dump_partial.

Example C103_dump_partial_ex : lookup_exact 8 ex_info ex_s [16; 32; 48] /\ nonnull [16; 32; 48] /\ 
  match dump_task_addr_to_file 8 page_env ex_info ex_s ex_w [9] true (Some 4) 5 0x402003 4 with
  | Some (r, Some l, _) => r = 0 /\ l = [3; 4; 5; 6] | _ => False end.
Proof. split; [exact ex_exact|]. split; [intros [H|[H|[H|[]]]]; discriminate|]. vm_compute. auto. Qed.

(** Dumping a mapping: the same for the range of the mapping that holds the address. *)
Theorem C103_dump_mapping : forall fuel e info s vs w old opens wr err addr,
  memory_map info vs -> lookup_exact fuel info s vs -> nonnull vs -> 
  (exists v, In v vs /\ covers info v addr /\
    dump_task_vma_to_file fuel e info s w old opens wr err addr =
    dump_task_addr_to_file fuel e info s w old opens wr err (vm_start (info v)) (vm_end (info v) - vm_start (info v))) \/
  (~ mapped info vs addr /\ dump_task_vma_to_file fuel e info s w old opens wr err addr = Some (- ENOENT, None, w)).
Proof.
  intros fuel e info s vs w old opens wr err addr M L N. destruct (found_iff fuel info s vs addr N L) as (v & F & I & J).
  unfold dump_task_vma_to_file. rewrite F. destruct (v =? 0) eqn:V.
  - right. split; [intros H; apply I in H; discriminate|reflexivity].
  - left. destruct (J eq_refl) as [Hv Hc]. exists v. split; [exact Hv|]. split; [exact Hc|].
    destruct M as [P _]. rewrite Forall_forall in P. specialize (P v Hv). unfold proper in P. rewrite u64_small by lia. reflexivity.
Qed.
Print Assumptions C103_dump_mapping.

(** ** C104 *)

(** The target has the empty string, but reading fails: the caller gets what its buffer
    held before, and is not told. *)
Theorem C104_read_string_refuted : exists e w dst src,
  string_at (t_mem (w_t w)) src 0 /\ fst (strcpy_from_task e w dst src) 0 <> 0.
Proof.
  exists noread_env, ex_w, (fun i => if i <? 3 then 7 else 0), 0x5000. split; [split; [reflexivity|intros i H; lia]|].
  vm_compute. discriminate.
Qed.
Print Assumptions C104_read_string_refuted.

(** Every byte of the string can be read. *)
Definition reads (e : env) : Prop := forall n a, e_read e n a 1 = Some 1.

Lemma strcpy_loop_copies e src : reads e -> forall n w dst i,
  0 <= src -> 0 <= i -> src + i + Z.of_nat n < 2 ^ 64 ->
  let m := t_mem (w_t w) in
  w_t (snd (strcpy_loop e n w dst src i)) = w_t w /\
  exists k, (k <= n)%nat /\ (forall j, (j < k)%nat -> m (src + i + Z.of_nat j) <> 0) /\
    (k = n \/ m (src + i + Z.of_nat k) = 0) /\
    (forall j, (j <= k)%nat -> fst (strcpy_loop e n w dst src i) (i + Z.of_nat j) = m (src + i + Z.of_nat j)) /\
    (forall x, ~ i <= x <= i + Z.of_nat k -> fst (strcpy_loop e n w dst src i) x = dst x).
Proof.
  intros R. induction n as [|n IH]; intros w dst i Hs Hi Hb m.
  - cbn [strcpy_loop]. unfold memcpy_from_task. rewrite R. cbn [fst snd w_t tick]. split; [reflexivity|].
    exists 0%nat. split; [lia|]. split; [intros; lia|]. split; [auto|]. rewrite u64_small by lia. cbn [Z.leb Z.ltb Z.compare andb].
    split.
    + intros j Hj. assert (j = 0%nat) by lia. subst j. replace (i + Z.of_nat 0) with i by lia. rewrite Z.eqb_refl.
      unfold m. f_equal; lia.
    + intros x Hx. destruct (Z.eqb_spec x i); [lia|reflexivity].
  - cbn [strcpy_loop]. unfold memcpy_from_task at 1 2 3. rewrite R. cbn [Z.leb Z.ltb Z.compare andb].
    rewrite u64_small by lia. rewrite Z.eqb_refl.
    destruct (Z.eqb_spec (t_mem (w_t w) (src + i + 0)) 0) as [E|E].
    + cbn [fst snd w_t tick]. split; [reflexivity|]. exists 0%nat. split; [lia|]. split; [intros; lia|].
      split; [right; unfold m; replace (src + i + Z.of_nat 0) with (src + i + 0) by lia; exact E|]. split.
      * intros j Hj. assert (j = 0%nat) by lia. subst j. replace (i + Z.of_nat 0) with i by lia. rewrite Z.eqb_refl.
        unfold m. f_equal; lia.
      * intros x Hx. destruct (Z.eqb_spec x i); [lia|reflexivity].
    + set (dst1 := fun j => if j =? i then t_mem (w_t w) (src + i + 0) else dst j).
      destruct (IH (tick w) dst1 (i + 1) Hs ltac:(lia) ltac:(lia)) as (Ew & k & Hk & Nz & En & C & O).
      split; [exact Ew|]. exists (S k). split; [lia|]. cbn [w_t tick] in *. fold m in Nz, En, C. split; [|split; [|split]].
      * intros j Hj. destruct j as [|j].
        -- unfold m. replace (src + i + Z.of_nat 0) with (src + i + 0) by lia. exact E.
        -- specialize (Nz j ltac:(lia)). replace (src + i + Z.of_nat (S j)) with (src + (i + 1) + Z.of_nat j) by lia. exact Nz.
      * destruct En as [->|En]; [left; reflexivity|right].
        replace (src + i + Z.of_nat (S k)) with (src + (i + 1) + Z.of_nat k) by lia. exact En.
      * intros j Hj. destruct j as [|j].
        -- rewrite O by lia. unfold dst1. replace (i + Z.of_nat 0) with i by lia. rewrite Z.eqb_refl. unfold m. f_equal; lia.
        -- specialize (C j ltac:(lia)). replace (src + i + Z.of_nat (S j)) with (src + (i + 1) + Z.of_nat j) by lia.
           replace (i + Z.of_nat (S j)) with (i + 1 + Z.of_nat j) by lia. exact C.
      * intros x Hx. rewrite O by lia. unfold dst1. destruct (Z.eqb_spec x i); [lia|reflexivity].
Qed.

(** What does hold: if all bytes can be read, a string of at most 1024 bytes is copied with
    its terminator and nothing else is written; of a longer one the first 1025 bytes are
    copied, without terminator.  Missing (false): failing reads. *)
Theorem C104_read_string_partial : forall e w dst src n, reads e ->
  0 <= src -> src + 1024 < 2 ^ 64 -> string_at (t_mem (w_t w)) src n ->
  let r := strcpy_from_task e w dst src in
  w_t (snd r) = w_t w /\
  ((n <= 1024)%nat -> (forall i, (i <= n)%nat -> fst r (Z.of_nat i) = t_mem (w_t w) (src + Z.of_nat i)) /\
     forall x, ~ 0 <= x <= Z.of_nat n -> fst r x = dst x) /\
  ((1024 < n)%nat -> (forall i, (i <= 1024)%nat -> fst r (Z.of_nat i) = t_mem (w_t w) (src + Z.of_nat i)) /\
     forall x, ~ 0 <= x <= 1024 -> fst r x = dst x).
Proof.
  intros e w dst src n R Hs Hb [Z0 Nz] r. unfold r, strcpy_from_task. 
  assert (G : forall N, src + Z.of_nat N < 2 ^ 64 ->
    w_t (snd (strcpy_loop e N w dst src 0)) = w_t w /\
    ((n <= N)%nat -> (forall i, (i <= n)%nat -> fst (strcpy_loop e N w dst src 0) (Z.of_nat i) = t_mem (w_t w) (src + Z.of_nat i)) /\
       forall x, ~ 0 <= x <= Z.of_nat n -> fst (strcpy_loop e N w dst src 0) x = dst x) /\
    ((N < n)%nat -> (forall i, (i <= N)%nat -> fst (strcpy_loop e N w dst src 0) (Z.of_nat i) = t_mem (w_t w) (src + Z.of_nat i)) /\
       forall x, ~ 0 <= x <= Z.of_nat N -> fst (strcpy_loop e N w dst src 0) x = dst x)).
  { intros N HN. destruct (strcpy_loop_copies e src R N w dst 0 Hs ltac:(lia) ltac:(lia)) as (Ew & k & Hk & Nk & En & C & O).
    split; [exact Ew|]. rewrite Z.add_0_r in Nk, En. 
    assert (C' : forall j, (j <= k)%nat -> fst (strcpy_loop e N w dst src 0) (Z.of_nat j) = t_mem (w_t w) (src + Z.of_nat j)).
    { intros j Hj. specialize (C j Hj). rewrite Z.add_0_r in C. exact C. }
    split; intros Hn.
    - assert (k = n).
      { destruct (Nat.lt_total k n) as [Q|[Q|Q]]; [|exact Q|exfalso; apply (Nk n Q); exact Z0].
        destruct En as [En|En]; [lia|exfalso; apply (Nz k Q); exact En]. }
      subst k. split; [exact C'|]. intros x Hx. apply O. lia.
    - assert (k = N).
      { destruct En as [En|En]; [exact En|]. exfalso. apply (Nz k); [lia|exact En]. }
      subst k. split; [exact C'|]. intros x Hx. apply O. lia. }
  assert (HM : Z.of_nat MAX_STR_LEN = 1024) by reflexivity.
  specialize (G MAX_STR_LEN). rewrite HM in G. apply G. exact Hb.
Qed.
Print Assumptions C104_read_string_partial.

Example C104_read_string_partial_ex : reads (ex_env 0) /\ string_at (t_mem (w_t ex_w)) 0x50fe 2 /\
  fst (strcpy_from_task (ex_env 0) ex_w (fun _ => 0) 0x50fe) 1 = 255.
Proof.
  split; [intros n a; reflexivity|]. split.
  - split; [reflexivity|]. intros [|[|i]] H; [vm_compute; discriminate|vm_compute; discriminate|lia].
  - vm_compute. reflexivity.
Qed.

(** ** C105 *)

(** A redirection to an address outside of the process fails, the command exits with 0. *)
Theorem C105_exit_status_refuted : exists fuel info s e rq w rs w',
  ultask_actions fuel x86_arch x86_nrs true e 0x7000 0 info s InsnModel.X86_64 w rq = Some (0, rs, w') /\
  In (- ENOENT) rs.
Proof.
  exists 8%nat, ex_info, ex_s, page_env, (Rq None None None None (Some (0x401000, 0x10))), ex_w. eexists. eexists.
  split; [vm_compute; reflexivity|]. cbn. auto.
Qed.
Print Assumptions C105_exit_status_refuted.

(** What does hold: of the changes of protection, mappings and unmappings, a failure that
    was noticed is reported.  Missing (false): dumps and redirections. *)
Theorem C105_exit_status_partial : forall fuel a nn x86 e libc garbage info s ia w rq st rs w',
  rq_dump rq = None -> rq_jmp rq = None -> Forall (fun r => r <= 0) rs ->
  ultask_actions fuel a nn x86 e libc garbage info s ia w rq = Some (st, rs, w') ->
  st = 0 -> Forall (fun r => r = 0) rs.
Proof.
  intros fuel a nn x86 e libc garbage info s ia w [rp rm ru rd rj] st rs w' D J Neg H St. cbn in D, J. subst rd rj.
  unfold ultask_actions in H. cbn [rq_protect rq_map rq_unmap rq_dump rq_jmp] in H.
  destruct rp as [[[pa pl] pp]|].
  - destruct (mprotect_a_region _ _ _ _ _ _ _ _ _ _ _ _) as [[r1 w1]|]; [|discriminate].
    destruct rm as [[[[[ma ml] ro] nx] mf]|].
    + destruct (mmap_a_file _ _ _ _ _ _ _ _ _ _ _ _ _ _ _) as [[r2 w2]|]; [|discriminate].
      destruct ru as [[ua uf]|].
      * destruct (munmap_an_vma _ _ _ _ _ _ _ _ _ _ _) as [[r3 w3]|]; [|discriminate]. injection H as <- <- <-.
        cbn [app] in *. inversion_clear Neg as [|x l N1 N2]. inversion_clear N2 as [|x l N3 N4]. inversion_clear N4 as [|x l N5 N6]. repeat (constructor; try lia).
      * injection H as <- <- <-. cbn [app] in *. inversion_clear Neg as [|x l N1 N2]. inversion_clear N2 as [|x l N3 N4]. repeat (constructor; try lia).
    + destruct ru as [[ua uf]|].
      * destruct (munmap_an_vma _ _ _ _ _ _ _ _ _ _ _) as [[r3 w3]|]; [|discriminate]. injection H as <- <- <-.
        cbn [app] in *. inversion_clear Neg as [|x l N1 N2]. inversion_clear N2 as [|x l N3 N4]. repeat (constructor; try lia).
      * injection H as <- <- <-. cbn [app] in *. repeat (constructor; try lia).
  - destruct rm as [[[[[ma ml] ro] nx] mf]|].
    + destruct (mmap_a_file _ _ _ _ _ _ _ _ _ _ _ _ _ _ _) as [[r2 w2]|]; [|discriminate].
      destruct ru as [[ua uf]|].
      * destruct (munmap_an_vma _ _ _ _ _ _ _ _ _ _ _) as [[r3 w3]|]; [|discriminate]. injection H as <- <- <-.
        cbn [app] in *. inversion_clear Neg as [|x l N1 N2]. inversion_clear N2 as [|x l N3 N4]. repeat (constructor; try lia).
      * injection H as <- <- <-. cbn [app] in *. repeat (constructor; try lia).
    + destruct ru as [[ua uf]|].
      * destruct (munmap_an_vma _ _ _ _ _ _ _ _ _ _ _) as [[r3 w3]|]; [|discriminate]. injection H as <- <- <-.
        cbn [app] in *. repeat (constructor; try lia).
      * injection H as <- <- <-. constructor.
Qed.
Print Assumptions C105_exit_status_partial.

Example C105_exit_status_partial_ex :
  match ultask_actions 8 x86_arch x86_nrs true nomap_env 0x7000 0 ex_info ex_s InsnModel.X86_64 ex_w
          (Rq (Some (0x500000, 4096, 1)) (Some (0x500000, 8192, false, false, str "/tmp/file")) None None None) with
  | Some (st, rs, _) => st = - EINVAL /\ rs = [- EINVAL; 0] | None => False end.
Proof. vm_compute. auto. Qed.
