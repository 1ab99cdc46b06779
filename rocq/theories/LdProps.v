(** Properties C35-C40 and C82-C85: the patch loader. *)
From Coq Require Import ZArith String List Bool Lia ZifyBool ZifyNat.
From Verif Require Import Word WordLemmas Str ElfDefs TextModel TextProofs X86RelocModel LdModel LdSpec LdProofs LdSyms LdMore LdEx.
Import ListNotations.
Open Scope Z_scope.

Definition bytes_ok (f : list Z) : Prop := Forall (fun b => 0 <= b < 256) f.
Lemma bytes_check f : forallb (fun b => (0 <=? b) && (b <? 256)) f = true -> bytes_ok f.
Proof. intros H. unfold bytes_ok. rewrite forallb_forall in H. apply Forall_forall. intros x Hx. apply H in Hx. lia. Qed.
Definition ex_img : mem := of_bytes ex_file.
Definition ex_th : Z := 0x7000000.
Definition ex_li : linfo := Li 480 352 2 80 153 160 168 176 (Some (str "deadbeef")) 8 328.
Definition ex_lookup (s : list Z) : option Z :=
  if str_eqb s (str "helper") then Some 0x401000 else if str_eqb s (str "old_fn") then Some 0x402000 else None.
Lemma some_pair {A B} (a a' : A) (b b' : B) : Some (a, b) = Some (a', b') -> a = a' /\ b = b'.
Proof. intros H. split; congruence. Qed.
(** Change the bytes of a list from position [i] on. *)
Definition patch_list (l : list Z) (i : nat) (new : list Z) : list Z := firstn i l ++ new ++ skipn (i + List.length new) l.

(** ** C35: a malformed patch file is never accepted *)

(** False: the error of the section header check is dropped (patch.c 231-232), and the
    function returns 0 with everything released.  (Its caller then passes the null path
    to the target.) *)
Theorem C35_malformed_accepted_refuted : exists f, bytes_ok f /\
  alloc_patch_file (AEnv (Some f) true true) = Some (0, None) /\
  let m := of_bytes f in ~ (ld 8 m 40 < len f /\ ld 8 m 40 + 64 * ld 2 m 60 <= len f).
Proof.
  exists (firstn 64 ex_file). split; [apply bytes_check; vm_compute; reflexivity|].
  split; [vm_compute; reflexivity|]. vm_compute. intros [X _]. discriminate X.
Qed.
Print Assumptions C35_malformed_accepted_refuted.

(** What does hold: whatever the file system answers, 0 with an image means that the file
    exists, is not smaller than an ELF header, starts with the ELF magic and has its
    section table inside, and the image holds the file's bytes; 0 without an image only
    happens for the wrong section table; everything else is an error. *)
Theorem C35_loader_partial : forall e f r o, ae_file e = Some f -> bytes_ok f -> len f < 2 ^ 31 ->
  alloc_patch_file e = Some (r, o) ->
  let m := of_bytes f in
  let table := ld 8 m 40 < len f /\ ld 8 m 40 + 64 * ld 2 m 60 <= len f in
  (r = 0 /\ o = Some (m, len f) /\ 64 <= len f /\ m 0 = 0x7f /\ m 1 = 69 /\ m 2 = 76 /\ m 3 = 70 /\ table) \/
  (r = 0 /\ o = None /\ 64 <= len f /\ m 0 = 0x7f /\ ~ table) \/
  r < 0.
Proof.
  intros e f r o Hf Hb Hl H. cbv zeta. unfold alloc_patch_file in H. rewrite Hf in H.
  assert (Es : u64 (s32 (len f)) = len f).
  { unfold s32. rewrite sgn_id by (pose proof (len_nonneg f); lia). apply wrap_id. pose proof (len_nonneg f). lia. }
  rewrite Es in H. replace (firstn (Z.to_nat (len f)) f) with f in H by (unfold len; rewrite Nat2Z.id; symmetry; apply firstn_all). unfold sizeof_ehdr in H.
  destruct (Z.ltb_spec (len f) 64); [apply some_pair in H; destruct H as [<- <-]; right; right; unfold ENOEXEC; lia|].
  destruct (negb (ae_mmap e) || (2 ^ 63 <=? len f)); [apply some_pair in H; destruct H as [<- <-]; right; right; unfold ENOMEM; lia|].
  destruct (negb (ae_copy e)); [apply some_pair in H; destruct H as [<- <-]; right; right; unfold EFAULT; lia|].
  destruct (magic_ok (of_bytes f)) eqn:Em; cbn [negb] in H; [|apply some_pair in H; destruct H as [<- <-]; right; right; unfold ENOENT; lia].
  unfold magic_ok in Em. rewrite !andb_true_iff in Em. destruct Em as [[[M0 M1] M2] M3]. apply Z.eqb_eq in M0, M1, M2, M3.
  ob H. unfold chk_load_info_len in E. ob E. apply rd_inv in E0. destruct E0 as (-> & _). ob E. apply rd_inv in E0. destruct E0 as (-> & _).
  apply some_inj in E. pose proof (ld_range 8 _ 40 (of_bytes_byte f Hb)) as R1. pose proof (ld_range 2 _ 60 (of_bytes_byte f Hb)) as R2.
  change (2 ^ (8 * Z.of_nat 8)) with (2 ^ 64) in R1. change (2 ^ (8 * Z.of_nat 2)) with 65536 in R2. unfold sizeof_shdr in E.
  destruct (Z.leb_spec (len f) (ld 8 (of_bytes f) 40)) as [L|L]; cbn [orb] in E.
  { subst z. change (negb (- EFAULT =? 0)) with true in H. apply some_pair in H; destruct H as [<- <-]. right. left. repeat (split; [auto|]). intros [X _]. lia. }
  unfold u64 in E. rewrite (wrap_id 64 (len f - ld 8 (of_bytes f) 40)) in E by lia. rewrite (wrap_id 64 (ld 2 (of_bytes f) 60 * 64)) in E by lia.
  destruct (Z.ltb_spec (len f - ld 8 (of_bytes f) 40) (ld 2 (of_bytes f) 60 * 64)) as [L2|L2]; subst z.
  - change (negb (- EFAULT =? 0)) with true in H. apply some_pair in H; destruct H as [<- <-]. right. left. repeat (split; [auto|]). intros [_ X]. lia.
  - change (negb (0 =? 0)) with false in H. apply some_pair in H; destruct H as [<- <-]. left. repeat (split; [auto|]). lia.
Qed.
Print Assumptions C35_loader_partial.

Theorem C35_missing_file : forall e, ae_file e = None -> alloc_patch_file e = Some (- EEXIST, None).
Proof. intros e H. unfold alloc_patch_file. rewrite H. reflexivity. Qed.
Print Assumptions C35_missing_file.

Example C35_ex : bytes_ok ex_file /\ len ex_file < 2 ^ 31 /\
  exists r, alloc_patch_file (AEnv (Some ex_file) true true) = Some (0, r) /\ exists m, r = Some (m, 1184) /\ m 1 = 69.
Proof.
  split; [apply bytes_check; vm_compute; reflexivity|]. split; [reflexivity|].
  eexists. split; [vm_compute; reflexivity|]. eexists. split; reflexivity.
Qed.

(** ** C36: section data inside the image *)

(** False: offset plus size is computed modulo 2^64 (patch.c 585-590). *)
Definition wrapped_img : mem := of_bytes (patch_list ex_file (480 + 64 + 24) (le_bytes 8 (2 ^ 64 - 16) ++ le_bytes 8 32)).
Theorem C36_sections_inside_refuted : exists img l th li n j,
  byte_mem img /\ ld 2 img 60 = n /\ table_inside (li_sechdrs li) n l /\
  (match rewrite_section_headers img l th li with Some (0, _) => True | _ => False end) /\
  1 <= j < n /\ sh_type (section img (li_sechdrs li) j) <> SHT_NOBITS /\
  l < sh_offset (section img (li_sechdrs li) j) + sh_size (section img (li_sechdrs li) j).
Proof.
  exists wrapped_img, ex_len, ex_th, ex_li, 11, 1.
  split; [apply of_bytes_byte, bytes_check; vm_compute; reflexivity|].
  split; [vm_compute; reflexivity|]. split; [vm_compute; repeat split; discriminate|]. split; [vm_compute; exact I|].
  split; [lia|]. split; vm_compute; [discriminate|reflexivity].
Qed.
Print Assumptions C36_sections_inside_refuted.

(** What does hold: sections whose end is below 2^64 lie inside the image, no accepted
    section without file content has a size, the address is the one of the file offset in
    the target, and nothing but the address fields and the flags of the metadata section
    is changed. *)
Theorem C36_sections_partial : forall img l th li err img' n, byte_mem img ->
  ld 2 img 60 = n -> table_inside (li_sechdrs li) n l -> 1 <= n -> 0 <= li_info_idx li < n ->
  rewrite_section_headers img l th li = Some (err, img') ->
  same_outside (fun x => exists j, 0 <= j < n /\ (li_sechdrs li + 64 * j + 16 <= x < li_sechdrs li + 64 * j + 24 \/
     j = li_info_idx li /\ li_sechdrs li + 64 * j + 8 <= x < li_sechdrs li + 64 * j + 16)) img img' /\
  (err = 0 -> forall j, 1 <= j < n ->
     let s := section img (li_sechdrs li) j in let s' := section img' (li_sechdrs li) j in
     (sh_type s = SHT_NOBITS -> sh_size s = 0) /\
     (sh_type s <> SHT_NOBITS -> sh_offset s + sh_size s < 2 ^ 64 -> sh_offset s + sh_size s <= l) /\
     sh_addr s' = (th + sh_offset s) mod 2 ^ 64 /\ sh_offset s' = sh_offset s /\ sh_size s' = sh_size s /\
     sh_type s' = sh_type s /\ (j <> li_info_idx li -> sh_flags s' = sh_flags s)).
Proof.
  intros img l th li err img' n Hb Hn T N1 Hi H. destruct (rewrite_spec img l th li err img' n Hn T N1 Hi H) as [F S]. split; [exact F|].
  intros E j Hj. destruct (S E j Hj) as (A & B & C). cbv zeta in A, B, C |- *. rewrite C.
  pose proof (ld_range 8 img (li_sechdrs li + 64 * j + 24) Hb) as R1. pose proof (ld_range 8 img (li_sechdrs li + 64 * j + 32) Hb) as R2.
  change (ld 8 img (li_sechdrs li + 64 * j + 24)) with (sh_offset (section img (li_sechdrs li) j)) in R1.
  change (ld 8 img (li_sechdrs li + 64 * j + 32)) with (sh_size (section img (li_sechdrs li) j)) in R2.
  set (s := section img (li_sechdrs li) j) in *. split; [intros T0; specialize (A T0); lia|]. split.
  - intros T0 W. specialize (B T0). unfold u64 in B. rewrite wrap_id in B by lia. auto.
  - destruct (Z.eqb_spec j (li_info_idx li)); unfold set_addr, set_flags; cbn [sh_addr sh_offset sh_size sh_type sh_flags]; repeat (split; [reflexivity|]);
      [contradiction|reflexivity].
Qed.
Print Assumptions C36_sections_partial.

Example C36_ex : byte_mem ex_img /\ ld 2 ex_img 60 = 11 /\ table_inside (li_sechdrs ex_li) 11 ex_len /\
  match rewrite_section_headers ex_img ex_len ex_th ex_li with
  | Some (0, m) => sh_addr (section m 480 8) = 0x7000000 + 232 /\ sh_flags (section m 480 2) = 0x100001
  | _ => False end.
Proof.
  split; [apply of_bytes_byte, bytes_check; vm_compute; reflexivity|].
  split; [vm_compute; reflexivity|]. split; [vm_compute; repeat split; discriminate|]. vm_compute. auto.
Qed.

(** ** C37: section lookup by name *)
Theorem C37_find_sec : forall img l t ss name r, ~ In 0 name ->
  let named j := string_at img (ss + sh_name (section img t j)) name in
  ~ named 0 ->
  find_sec img l t ss name = Some r ->
  (r <> 0 -> 1 <= r < ld 2 img 60 /\ named r /\ forall j, 0 <= j < r -> ~ named j) /\
  (r = 0 <-> forall j, 0 <= j < ld 2 img 60 -> ~ named j).
Proof.
  intros img l t ss name r N named N0 H. destruct (find_sec_spec img l t ss name r N H) as [_ S].
  destruct (S N0) as [A B]. split; [exact A|]. split; [exact B|]. intros Nj. destruct (Z.eq_dec r 0); auto.
  destruct (A n) as (R & X & _). exfalso. apply (Nj r); auto. lia.
Qed.
Print Assumptions C37_find_sec.

(** The lookup stays inside the image if the table is inside and the names end there. *)
Theorem C37_find_sec_defined : forall img l t ss name, ~ In 0 name -> byte_mem img -> table_inside t (ld 2 img 60) l ->
  (forall j, 0 <= j < ld 2 img 60 -> exists z, img z = 0 /\ z < l /\ 0 <= ss + sh_name (section img t j) <= z) ->
  exists r, find_sec img l t ss name = Some r.
Proof.
  intros img l t ss name N Hb (T1 & T2 & T3) Z0. unfold find_sec, e_shnum. rewrite rd_ok by lia.
  apply find_sec_loop_def; auto. intros j Hj. split; [lia|]. split; [lia|]. destruct (Z0 j ltac:(lia)) as (z & A & B & C). exists z. auto.
Qed.
Print Assumptions C37_find_sec_defined.

Example C37_ex : find_sec ex_img ex_len 480 352 (str ".symtab") = Some 8 /\ find_sec ex_img ex_len 480 352 (str ".data") = Some 0 /\
  ~ string_at ex_img (352 + sh_name (section ex_img 480 0)) (str ".symtab").
Proof.
  split; [vm_compute; reflexivity|]. split; [vm_compute; reflexivity|]. intros (_ & F & _). specialize (F 0%nat ltac:(cbn; lia)).
  vm_compute in F. discriminate F.
Qed.

(** ** C38: unresolved strong symbols *)

(** False: a symbol that is found after one that is not sets the result back to 0
    (patch.c 735); weak_fn of the example made global and put before helper. *)
Definition unresolved_img : mem := of_bytes (patch_list (patch_list ex_file (232 + 24 * 2) (firstn 24 (skipn 72 ex_symtab)))
  (232 + 24 * 3) (firstn 24 (skipn 48 ex_symtab))).
Definition strong_img : mem := st 1 unresolved_img (232 + 24 * 2 + 4) 0x12.
Theorem C38_unresolved_rejected_refuted : exists lookup img l th li q,
  byte_mem img /\
  (match rewrite_section_headers img l th li with
   | Some (0, img1) => match simplify_symbols lookup img1 l th li with Some (0, _) => True | _ => False end
   | _ => False end) /\
  q = sh_offset (section img (li_sechdrs li) (li_sym li)) + 24 * 2 /\
  unresolved lookup (li_strtab li) img q /\ sym_bind img q = STB_GLOBAL.
Proof.
  exists ex_lookup, strong_img, ex_len, ex_th, ex_li, (232 + 24 * 2).
  split; [apply st_byte, of_bytes_byte, bytes_check; vm_compute; reflexivity|].
  split; [vm_compute; exact I|]. split; [vm_compute; reflexivity|]. split; [|vm_compute; reflexivity].
  split; [vm_compute; reflexivity|]. exists (str "weak_fn"). split; [|left; vm_compute; reflexivity]. split; [vm_compute; intuition discriminate|].
  split; [|vm_compute; reflexivity]. intros i Hi. do 7 (destruct i as [|i]; [vm_compute; reflexivity|]). vm_compute in Hi. lia.
Qed.
Print Assumptions C38_unresolved_rejected_refuted.

(** The same for a common symbol, and for one whose address was resolved but comes later:
    the exact rule.  The table may not overlap the names and section headers it uses. *)
Theorem C38_symbols_partial : forall lookup img l th li ret img' p n,
  byte_mem img -> p = (sh_addr (section img (li_sechdrs li) (li_sym li)) - th) mod 2 ^ 64 ->
  n = sh_size (section img (li_sechdrs li) (li_sym li)) / 24 -> 1 <= n ->
  apart (li_strtab li) (li_sechdrs li) img (p + 24) (Z.to_nat (n - 1)) ->
  simplify_symbols lookup img l th li = Some (ret, img') ->
  let bad j := bad_symbol lookup (li_strtab li) (str "__gnu_lto") img (p + 24 * j) in
  let found j := exists a, resolved lookup (li_strtab li) img (p + 24 * j) a in
  (forall x, ~ (exists k, 1 <= k < n /\ p + 24 * k + 8 <= x < p + 24 * k + 16) -> img' x = img x) /\
  (forall k, 1 <= k < n -> new_value lookup (li_strtab li) (li_sechdrs li) img (p + 24 * k) (sym_value img' (p + 24 * k))) /\
  ((forall j, 1 <= j < n -> ~ bad j) -> ret = 0) /\
  (ret = 0 -> forall j, 1 <= j < n -> bad j -> exists k, j < k < n /\ found k).
Proof.
  intros lookup img l th li ret img' p n Hb Hp Hn N1 A H bad found. unfold simplify_symbols in H.
  ob H. unfold symtab_off in E. ob E. apply rd_inv in E0. destruct E0 as (-> & _). apply some_inj in E. subst z.
  change (ld 8 img (sec (li_sechdrs li) (li_sym li) + 16)) with (sh_addr (section img (li_sechdrs li) (li_sym li))) in H.
  ob H. unfold symtab_num in E. ob E. apply rd_inv in E0. destruct E0 as (-> & _). apply some_inj in E. subst z.
  change (ld 8 img (sec (li_sechdrs li) (li_sym li) + 32)) with (sh_size (section img (li_sechdrs li) (li_sym li))) in H.
  unfold sizeof_sym in H. change (u64 (sh_addr (section img (li_sechdrs li) (li_sym li)) - th)) with ((sh_addr (section img (li_sechdrs li) (li_sym li)) - th) mod 2 ^ 64) in H.
  rewrite <- Hp, <- Hn in H. replace (Z.to_nat n - 1)%nat with (Z.to_nat (n - 1)) in H by lia.
  destruct (simplify_loop_spec lookup (li_strtab li) (li_sechdrs li) _ _ _ _ _ _ _ _ eq_refl eq_refl Hb A H) as (F & NV & V).
  change LTO with (str "__gnu_lto") in V.
  assert (Q : forall j, p + 24 + 24 * j = p + 24 * (j + 1)) by (intros; lia).
  split; [|split; [|split]].
  - intros x Nx. apply F. intros (k & Hk & Vk). apply Nx. exists (k + 1). unfold value_field in Vk. lia.
  - intros k Hk. specialize (NV (k - 1) ltac:(lia)). replace (p + 24 + 24 * (k - 1)) with (p + 24 * k) in NV by lia. exact NV.
  - intros Nb. apply V. right. split; auto. intros j Hj. rewrite Q. apply Nb. lia.
  - intros E j Hj Bj. apply V in E. destruct E as [(k & a & Hk & R & L)|(_ & L)].
    + rewrite Q in R. destruct (Z_lt_dec j (k + 1)) as [Lt|Ge].
      * exists (k + 1). split; [lia|]. exists a. auto.
      * destruct (Z.eq_dec j (k + 1)) as [->|Nj].
        -- exfalso. destruct Bj as [(X & _)|((_ & s & S & Ls) & _)]; destruct R as (R1 & R2 & s' & S' & L').
           ++ rewrite R1 in X. discriminate.
           ++ rewrite (string_at_fun _ _ _ _ S S') in Ls. destruct Ls as [Ls|Ls]; congruence.
        -- exfalso. apply (L (j - 1) ltac:(lia)). rewrite Q. replace (j - 1 + 1) with j by lia. exact Bj.
    + exfalso. apply (L (j - 1) ltac:(lia)). rewrite Q. replace (j - 1 + 1) with j by lia. exact Bj.
Qed.
Print Assumptions C38_symbols_partial.

(** The example after its section headers were rewritten. *)
Definition ex_rew : mem := match rewrite_section_headers ex_img ex_len ex_th ex_li with Some (_, m) => m | None => ex_img end.
Example C38_ex : (sh_addr (section ex_rew 480 8) - ex_th) mod 2 ^ 64 = 232 /\ sh_size (section ex_rew 480 8) / 24 = 4 /\
  apart 328 480 ex_rew (232 + 24) 3 /\
  match simplify_symbols ex_lookup ex_rew ex_len ex_th ex_li with
  | Some (0, m) => sym_value m (232 + 24) = 0x7000000 + 64 /\ sym_value m (232 + 48) = 0x401000 | _ => False end.
Proof.
  split; [vm_compute; reflexivity|]. split; [vm_compute; reflexivity|]. split; [|vm_compute; auto].
  intros k Hk. assert (D : k = 0 \/ k = 1 \/ k = 2) by lia. destruct D as [->|[->| ->]]; cbv zeta.
  - split; [exists 335|]; vm_compute; intuition discriminate.
  - split; [exists 342|]; vm_compute; intuition discriminate.
  - split; [exists 350|]; vm_compute; intuition discriminate.
Qed.

(** ** C39: the metadata strings *)
Theorem C39_strings : forall img l p src dst, ~ In 0 src -> ~ In 0 dst ->
  let t := strtab_bytes src dst in
  (forall i, (i < List.length t)%nat -> img (p + Z.of_nat i) = nth i t 0) -> 0 <= p -> p + Z.of_nat (List.length t) <= l ->
  exists a b, parse_ulpatch_strtab img l p = Some (0, a, b) /\ string_at img a src /\ string_at img b dst.
Proof.
  intros img l p src dst Ns Nd t F P L. unfold t, strtab_bytes in F, L. clear t.
  assert (Ln : List.length (SEC_MAGIC ++ [0] ++ src ++ [0] ++ dst ++ [0]) = (9 + List.length src + 1 + List.length dst + 1)%nat).
  { rewrite !app_length. cbn [List.length]. change (List.length SEC_MAGIC) with 8%nat. lia. }
  rewrite Ln in L. assert (M : string_at img p SEC_MAGIC).
  { split; [apply magic_no0|]. split.
    - intros i Hi. change (List.length SEC_MAGIC) with 8%nat in Hi. rewrite F by lia. apply app_nth1. exact Hi.
    - change (List.length SEC_MAGIC) with 8%nat. rewrite F by lia. reflexivity. }
  assert (S : string_at img (p + 9) src).
  { split; auto. split.
    - intros i Hi. replace (p + 9 + Z.of_nat i) with (p + Z.of_nat (9 + i)) by lia. rewrite F by lia.
      change (SEC_MAGIC ++ [0] ++ src ++ [0] ++ dst ++ [0]) with ((SEC_MAGIC ++ [0]) ++ src ++ [0] ++ dst ++ [0]).
      rewrite app_nth2 by (cbn; lia). replace (9 + i - List.length (SEC_MAGIC ++ [0%Z]))%nat with i by (cbn; lia). apply app_nth1. auto.
    - replace (p + 9 + Z.of_nat (List.length src)) with (p + Z.of_nat (9 + List.length src)) by lia. rewrite F by lia.
      change (SEC_MAGIC ++ [0] ++ src ++ [0] ++ dst ++ [0]) with ((SEC_MAGIC ++ [0]) ++ src ++ [0] ++ dst ++ [0]).
      rewrite app_nth2 by (cbn; lia). replace (9 + List.length src - List.length (SEC_MAGIC ++ [0%Z]))%nat with (List.length src) by (cbn; lia).
      rewrite app_nth2 by lia. rewrite Nat.sub_diag. reflexivity. }
  assert (D : string_at img (p + 9 + Z.of_nat (List.length src) + 1) dst).
  { assert (Ea : SEC_MAGIC ++ [0] ++ src ++ [0] ++ dst ++ [0] = (SEC_MAGIC ++ [0] ++ src ++ [0]) ++ dst ++ [0]) by (rewrite <- !app_assoc; reflexivity).
    assert (La : List.length (SEC_MAGIC ++ [0] ++ src ++ [0]) = (9 + List.length src + 1)%nat).
    { rewrite !app_length. cbn [List.length]. change (List.length SEC_MAGIC) with 8%nat. lia. }
    split; auto. split.
    - intros i Hi. replace (p + 9 + Z.of_nat (List.length src) + 1 + Z.of_nat i) with (p + Z.of_nat (9 + List.length src + 1 + i)) by lia. rewrite F by lia.
      rewrite Ea, app_nth2 by lia. rewrite La. replace (9 + List.length src + 1 + i - (9 + List.length src + 1))%nat with i by lia. apply app_nth1. auto.
    - replace (p + 9 + Z.of_nat (List.length src) + 1 + Z.of_nat (List.length dst)) with (p + Z.of_nat (9 + List.length src + 1 + List.length dst)) by lia. rewrite F by lia.
      rewrite Ea, app_nth2 by lia. rewrite La. replace (9 + List.length src + 1 + List.length dst - (9 + List.length src + 1))%nat with (List.length dst) by lia.
      rewrite app_nth2 by lia. rewrite Nat.sub_diag. reflexivity. }
  exists (p + 9), (p + 9 + Z.of_nat (List.length src) + 1). split; auto. apply parse_strtab_ok with dst; auto; lia.
Qed.
Print Assumptions C39_strings.

Theorem C39_no_magic : forall img l p r a b, ~ string_at img p (str ".ULPATCH") ->
  parse_ulpatch_strtab img l p = Some (r, a, b) -> r = - ENOENT.
Proof.
  intros img l p r a b N H. apply parse_strtab_inv in H. destruct H as [(_ & M & _)|(E & _)]; auto. contradiction.
Qed.
Print Assumptions C39_no_magic.

Example C39_ex : strtab_bytes (str "new_fn") (str "old_fn") = firstn 23 ex_ulpatch_strtab /\
  parse_ulpatch_strtab ex_img ex_len 144 = Some (0, 153, 160) /\ parse_ulpatch_strtab ex_img ex_len 168 = Some (- ENOENT, 0, 0).
Proof. vm_compute. auto. Qed.

(** ** C40: the metadata record.  [emit] is the sequence of directives of the macro
    (meta.h 48-59), with arbitrary values. *)
Definition emit (id target patch virt o1 o2 time flags version pad : Z) : list Z :=
  le_bytes 4 id ++ le_bytes 8 target ++ le_bytes 8 patch ++ le_bytes 8 virt ++ le_bytes 8 o1 ++ le_bytes 8 o2 ++ le_bytes 8 time
  ++ le_bytes 4 flags ++ le_bytes 4 version ++ le_bytes 4 pad.

Theorem C40_layout : forall id target patch virt o1 o2 time flags version pad,
  let m := of_bytes (emit id target patch virt o1 o2 time flags version pad) in
  ld 4 m ui_id = id mod 2 ^ 32 /\ ld 8 m ui_target = target mod 2 ^ 64 /\ ld 8 m ui_patch = patch mod 2 ^ 64 /\
  ld 8 m ui_virtual = virt mod 2 ^ 64 /\ bytes_at m ui_orig 16 = le_bytes 8 o1 ++ le_bytes 8 o2 /\ ld 8 m ui_time = time mod 2 ^ 64 /\
  ld 4 m ui_flags = flags mod 2 ^ 32 /\ ld 4 m ui_version = version mod 2 ^ 32 /\ ld 4 m ui_pad = pad mod 2 ^ 32 /\
  len (emit id target patch virt o1 o2 time flags version pad) = sizeof_ulpatch_info.
Proof.
  intros. unfold m, emit.
  assert (G : forall l1 n v l2 off, len l1 = off -> ld n (of_bytes (l1 ++ le_bytes n v ++ l2)) off = v mod 2 ^ (8 * Z.of_nat n)).
  { intros l1 n v l2 off <-. apply ld_in. }
  set (b1 := le_bytes 4 id). set (b2 := le_bytes 8 target). set (b3 := le_bytes 8 patch). set (b4 := le_bytes 8 virt).
  set (b5 := le_bytes 8 o1). set (b6 := le_bytes 8 o2). set (b7 := le_bytes 8 time). set (b8 := le_bytes 4 flags).
  set (b9 := le_bytes 4 version). set (b10 := le_bytes 4 pad).
  assert (L : len b1 = 4 /\ len b2 = 8 /\ len b3 = 8 /\ len b4 = 8 /\ len b5 = 8 /\ len b6 = 8 /\ len b7 = 8 /\ len b8 = 4 /\ len b9 = 4 /\ len b10 = 4).
  { unfold len, b1, b2, b3, b4, b5, b6, b7, b8, b9, b10. rewrite !le_bytes_length. repeat split. }
  destruct L as (L1 & L2 & L3 & L4 & L5 & L6 & L7 & L8 & L9 & L10).
  split; [apply (G [] 4%nat); reflexivity|].
  split; [apply (G b1 8%nat); exact L1|].
  split; [rewrite (app_assoc b1 b2); apply (G (b1 ++ b2) 8%nat); rewrite len_app; unfold ui_patch; lia|].
  split; [rewrite (app_assoc b2 b3), (app_assoc b1); apply (G (b1 ++ b2 ++ b3) 8%nat); rewrite !len_app; unfold ui_virtual; lia|].
  split.
  { replace (b1 ++ b2 ++ b3 ++ b4 ++ b5 ++ b6 ++ b7 ++ b8 ++ b9 ++ b10) with ((b1 ++ b2 ++ b3 ++ b4) ++ (b5 ++ b6) ++ (b7 ++ b8 ++ b9 ++ b10)) by (rewrite <- !app_assoc; reflexivity).
    replace ui_orig with (len (b1 ++ b2 ++ b3 ++ b4)) by (rewrite !len_app; unfold ui_orig; lia).
    apply bytes_at_in. rewrite app_length. unfold b5, b6. rewrite !le_bytes_length. reflexivity. }
  split; [replace (b1 ++ b2 ++ b3 ++ b4 ++ b5 ++ b6 ++ b7 ++ b8 ++ b9 ++ b10) with ((b1 ++ b2 ++ b3 ++ b4 ++ b5 ++ b6) ++ b7 ++ (b8 ++ b9 ++ b10)) by (rewrite <- !app_assoc; reflexivity);
    apply (G _ 8%nat); rewrite !len_app; unfold ui_time; lia|].
  split; [replace (b1 ++ b2 ++ b3 ++ b4 ++ b5 ++ b6 ++ b7 ++ b8 ++ b9 ++ b10) with ((b1 ++ b2 ++ b3 ++ b4 ++ b5 ++ b6 ++ b7) ++ b8 ++ (b9 ++ b10)) by (rewrite <- !app_assoc; reflexivity);
    apply (G _ 4%nat); rewrite !len_app; unfold ui_flags; lia|].
  split; [replace (b1 ++ b2 ++ b3 ++ b4 ++ b5 ++ b6 ++ b7 ++ b8 ++ b9 ++ b10) with ((b1 ++ b2 ++ b3 ++ b4 ++ b5 ++ b6 ++ b7 ++ b8) ++ b9 ++ b10) by (rewrite <- !app_assoc; reflexivity);
    apply (G _ 4%nat); rewrite !len_app; unfold ui_version; lia|].
  split.
  - replace (b1 ++ b2 ++ b3 ++ b4 ++ b5 ++ b6 ++ b7 ++ b8 ++ b9 ++ b10) with ((b1 ++ b2 ++ b3 ++ b4 ++ b5 ++ b6 ++ b7 ++ b8 ++ b9) ++ b10 ++ []) by (rewrite <- !app_assoc, app_nil_r; reflexivity).
    apply (G _ 4%nat). rewrite !len_app. unfold ui_pad. lia.
  - rewrite !len_app. unfold sizeof_ulpatch_info. lia.
Qed.
Print Assumptions C40_layout.

(** The fields, as (offset, size). *)
Definition ui_fields : list (Z * nat) :=
  [(ui_id, 4%nat); (ui_target, 8%nat); (ui_patch, 8%nat); (ui_virtual, 8%nat); (ui_orig, 16%nat); (ui_time, 8%nat);
   (ui_flags, 4%nat); (ui_version, 4%nat); (ui_pad, 4%nat)].

Theorem C40_fields_independent : forall f g base m v, In f ui_fields -> In g ui_fields -> f <> g ->
  ld (snd g) (st (snd f) m (base + fst f) v) (base + fst g) = ld (snd g) m (base + fst g).
Proof.
  intros f g base m v Hf Hg N. apply ld_st_disj.
  assert (D : fst f + Z.of_nat (snd f) <= fst g \/ fst g + Z.of_nat (snd g) <= fst f).
  { unfold ui_fields in *. cbn [In] in Hf, Hg.
    repeat (destruct Hf as [<-|Hf]; [repeat (destruct Hg as [<-|Hg]; [first [exfalso; apply N; reflexivity|vm_compute; intuition discriminate]|]); destruct Hg|]).
    destruct Hf. }
  lia.
Qed.
Print Assumptions C40_fields_independent.

(** The backup area has the size of the jump entry (two 64-bit words), and the macro
    emits the version the loader asks for. *)
Theorem C40_macro : emit 0 0 0 0 0 0 0 0 5 0x44332211 = info_bytes /\
  (exists f, In f ui_fields /\ fst f = ui_orig /\ Z.of_nat (snd f) = 8 + 8) /\
  ld 4 (of_bytes info_bytes) ui_version = ULPATCH_FILE_VERSION.
Proof.
  split; [vm_compute; reflexivity|]. split; [|vm_compute; reflexivity]. exists (ui_orig, 16%nat). split; [cbn; tauto|]. split; reflexivity.
Qed.
Print Assumptions C40_macro.

Example C40_ex : info_bytes = ex_ulpatch_info /\ ld 4 (st 8 (of_bytes info_bytes) ui_time (2 ^ 64 - 1)) ui_flags = 0 /\
  ld 8 (of_bytes (emit 7 0x401000 0x7000040 0x401000 1 2 3 0 5 0)) ui_patch = 0x7000040.
Proof. vm_compute. auto. Qed.

(** ** C82: the loader stays inside the patch image *)

(** False: e_shstrndx, sh_name, sh_offset and sh_link are used unchecked.  The example with
    e_shstrndx 300 is accepted by the file loader, and then read outside. *)
Definition wild_file : list Z := patch_list ex_file 62 (le_bytes 2 300).
Theorem C82_inside_image_refuted : exists f, bytes_ok f /\
  (match alloc_patch_file (AEnv (Some f) true true) with
   | Some (0, Some (m, l)) => setup_load_info m l = None | _ => False end).
Proof.
  exists wild_file. split; [apply bytes_check; vm_compute; reflexivity|].
  vm_compute. reflexivity.
Qed.
Print Assumptions C82_inside_image_refuted.

Theorem C82_inside_image_partial : forall m l, byte_mem m -> well_formed m l -> exists r, setup_load_info m l = Some r.
Proof.
  intros m l Hb W. destruct W as [(T1 & T2 & T3) SX NM WI WS WN WL].
  assert (N1 : 1 <= ld 2 m 60) by (pose proof (ld_range 2 m 62 Hb); lia).
  set (t := ld 8 m 40) in *. set (n := ld 2 m 60) in *. set (x := ld 2 m 62) in *.
  assert (Hx : 0 <= x) by (apply ld_range; auto).
  set (ss := sh_offset (section m t x)) in *.
  assert (Hss : 0 <= ss) by (apply ld_range; auto).
  assert (Off : forall j, 0 <= sh_offset (section m t j)) by (intros; apply ld_range; auto).
  assert (FS : forall name, ~ In 0 (str name) -> exists r, find_sec m l t ss (str name) = Some r /\
            (r <> 0 -> 1 <= r < n /\ sec_named m name r)).
  { intros name N. destruct (C37_find_sec_defined m l t ss (str name) N Hb ltac:(repeat split; lia)) as [r Er].
    - intros j Hj. destruct (NM j Hj) as (z & A & B & C). exists z. split; auto. split; auto. split; [|exact C].
      assert (0 <= sh_name (section m t j)) by (apply ld_range; auto). lia.
    - exists r. split; auto. intros Nr. destruct (find_sec_spec m l t ss (str name) r N Er) as [A B].
      assert (N0 : ~ string_at m (ss + sh_name (section m t 0)) (str name)) by (intros X; apply Nr, A, X).
      destruct (B N0) as [C _]. destruct (C Nr) as (D & E & _). split; auto. }
  assert (GO : forall j, 0 <= j < n -> rd 8 m l (sec t j + 24) = Some (sh_offset (section m t j))).
  { intros j Hj. rewrite rd_ok by (unfold sec, sizeof_shdr; lia). reflexivity. }
  unfold setup_load_info, e_shoff, e_shstrndx, g_offset, g_type. rewrite rd_ok by lia. fold t. rewrite rd_ok by lia. fold x.
  rewrite GO by lia. fold ss.
  destruct (FS ".ulpatch.info"%string ltac:(vm_compute; intuition discriminate)) as (ri & Ei & Pi). rewrite Ei.
  destruct (Z.eqb_spec ri 0) as [Z1|Z1]; [eauto|]. specialize (Pi Z1). rewrite GO by lia.
  pose proof (WI ri ltac:(lia) (proj2 Pi)) as Wi. specialize (Off ri) as Oi. fold t in Wi.
  rewrite rd_ok by (unfold ui_version; lia).
  match goal with |- context [negb ?b] => destruct b; cbn [negb]; [|eauto] end.
  destruct (FS ".ulpatch.strtab"%string ltac:(vm_compute; intuition discriminate)) as (rs & Es & Ps). rewrite Es.
  destruct (Z.eqb_spec rs 0) as [Z2|Z2]; [eauto|]. specialize (Ps Z2). rewrite GO by lia.
  destruct (FS ".ulpatch.author"%string ltac:(vm_compute; intuition discriminate)) as (ra & Ea & Pa). rewrite Ea.
  destruct (Z.eqb_spec ra 0) as [Z3|Z3]; [eauto|]. specialize (Pa Z3). rewrite GO by lia.
  destruct (FS ".ulpatch.license"%string ltac:(vm_compute; intuition discriminate)) as (rl & El & Pl). rewrite El.
  destruct (Z.eqb_spec rl 0) as [Z4|Z4]; [eauto|]. specialize (Pl Z4). rewrite GO by lia.
  destruct (FS ".note.gnu.build-id"%string ltac:(vm_compute; intuition discriminate)) as (rn & En & Pn). rewrite En.
  destruct (Z.eqb_spec rn 0) as [Z5|Z5]; [eauto|]. specialize (Pn Z5). rewrite rd_ok by (unfold sec, sizeof_shdr; lia).
  match goal with |- context [negb ?b] => destruct b; cbn [negb]; [|eauto] end. rewrite GO by lia.
  pose proof (WN rn ltac:(lia) (proj2 Pn)) as Wn. fold t in Wn. cbv zeta in Wn. specialize (Off rn) as On.
  set (o := sh_offset (section m t rn)) in *.
  assert (R1 : 0 <= ld 4 m o) by (apply ld_range; auto). assert (R2 : 0 <= ld 4 m (o + 4)) by (apply ld_range; auto).
  rewrite rd_ok by lia.
  match goal with |- exists r, match ?X with Some _ => _ | None => _ end = Some r => assert (B : exists b, X = Some b) end.
  { destruct (ld 4 m (o + 8) =? NT_GNU_BUILD_ID); [|eauto]. rewrite !rd_ok by lia. cbv zeta. unfold inb.
    destruct ((0 <=? o + 12 + ld 4 m o) && (o + 12 + ld 4 m o + Z.of_nat (Z.to_nat (ld 4 m (o + 4))) <=? l)) eqn:Eb; [eauto|lia]. }
  destruct B as [b ->].
  destruct (WS rs ltac:(lia) (proj2 Ps)) as (z1 & z2 & A1 & A2 & A3 & A4). fold t in A3. specialize (Off rs) as Os.
  destruct (parse_strtab_def m l (sh_offset (section m t rs)) z1 z2 A1 A2 ltac:(lia) ltac:(lia)) as [[[e1 s1] d1] ->].
  destruct (negb (e1 =? 0)); [eauto|]. unfold e_shnum. rewrite rd_ok by lia. fold n.
  destruct (find_symtab_def m l t (Z.to_nat n - 1) 1) as [q ->].
  { intros j Hj. split; [lia|]. split; [lia|]. intros Ty. specialize (WL j ltac:(lia) Ty). fold t in WL.
    assert (0 <= sh_link (section m t j)) by (apply ld_range; auto). lia. }
  destruct q as [[? ?]|]; eauto.
Qed.
Print Assumptions C82_inside_image_partial.

Lemma below11 (P : Z -> Prop) : P 0 -> P 1 -> P 2 -> P 3 -> P 4 -> P 5 -> P 6 -> P 7 -> P 8 -> P 9 -> P 10 -> forall j, 0 <= j < 11 -> P j.
Proof.
  intros. assert (E : j = 0 \/ j = 1 \/ j = 2 \/ j = 3 \/ j = 4 \/ j = 5 \/ j = 6 \/ j = 7 \/ j = 8 \/ j = 9 \/ j = 10) by lia.
  intuition (subst; auto).
Qed.
Ltac use11 := match goal with |- forall j, _ -> @?P j => apply (below11 P) end; cbv beta.
Example C82_ex : well_formed ex_img ex_len /\ setup_load_info ex_img ex_len = Some (inr ex_li).
Proof.
  split; [|vm_compute; reflexivity]. assert (N : ld 2 ex_img 60 = 11) by (vm_compute; reflexivity). constructor.
  - vm_compute. repeat split; discriminate.
  - vm_compute. reflexivity.
  - rewrite N. use11; exists 477; vm_compute; repeat split; discriminate.
  - rewrite N. use11; intros _; vm_compute; discriminate.
  - rewrite N. use11; intros (_ & F & _); pose proof (F 1%nat ltac:(vm_compute; lia)) as F1; specialize (F 10%nat ltac:(vm_compute; lia));
      first [vm_compute in F; discriminate F|vm_compute in F1; discriminate F1|exists 152, 159; vm_compute; repeat split; discriminate].
  - rewrite N. use11; intros (_ & F & _); specialize (F 1%nat ltac:(vm_compute; lia));
      first [vm_compute in F; discriminate F|vm_compute; discriminate].
  - rewrite N. use11; intros F; first [vm_compute in F; discriminate F|vm_compute; reflexivity].
Qed.

(** ** C83: all relocation sections are applied *)

(** [reloc m i] applies relocation section [i]; the images it meets satisfy [Inv], and it
    does not overwrite the section headers. *)
Theorem C83_all_relocations : forall reloc (Inv : mem -> Prop) img l li err img' n t,
  t = li_sechdrs li -> n = ld 2 img 60 ->
  (forall m i e m', Inv m -> reloc m i = (e, m') -> Inv m' /\ forall x, t <= x < t + 64 * n -> m' x = m x) ->
  (forall m, Inv m -> byte_mem m) -> Inv img ->
  apply_relocations reloc img l li = Some (err, img') ->
  (0 <= err -> chain reloc (filter (refers SHT_RELA img t n) (zseq 0 (Z.to_nat n))) img img' /\
     forall j, 0 <= j < n -> refers SHT_REL img t n j = false) /\
  (err < 0 -> exists d m1, 0 <= d < n /\
     chain reloc (filter (refers SHT_RELA img t n) (zseq 0 (Z.to_nat d))) img m1 /\
     ((refers SHT_REL img t n d = true /\ img' = m1) \/ (refers SHT_RELA img t n d = true /\ reloc m1 d = (err, img')))).
Proof.
  intros reloc Inv img l li err img' n t Ht Hn K B HI H. unfold apply_relocations in H. ob H. apply e_shnum_val in E. subst z. rewrite <- Hn in *.
  assert (N0 : 0 <= n) by (rewrite Hn; apply ld_range; auto).
  destruct (apply_loop_spec reloc t n Inv K B li l (Z.to_nat n) (eq_sym Ht) img 0 0 err img' HI ltac:(lia) ltac:(lia) ltac:(lia) H) as [P Q].
  split.
  - intros E. destruct (P E) as [C D]. split; auto. intros j Hj. apply D. lia.
  - intros E. destruct (Q E) as (d & m1 & Hd & C & _ & D). exists (Z.of_nat d), m1. split; [lia|]. rewrite Nat2Z.id. split; auto.
    cbn [Z.add] in D. destruct D as [(D1 & D2 & _)|D]; auto.
Qed.
Print Assumptions C83_all_relocations.

(** The example's relocation section, applied by the x86-64 code. *)
Definition ex_sym : mem := match simplify_symbols ex_lookup ex_rew ex_len ex_th ex_li with Some (_, m) => m | None => ex_rew end.
Definition ex_reloc (m : mem) (i : Z) : Z * mem :=
  x86_apply_relocate_add (X86Job 0 ex_th (fun k => section ex_sym 480 k) 8 i) m.
Example C83_ex : filter (refers SHT_RELA ex_sym 480 11) (zseq 0 11) = [7] /\
  match apply_relocations ex_reloc ex_sym ex_len ex_li with
  | Some (0, m) => ld 4 m (64 + 5) = (0x401000 - 4 - (0x7000000 + 64 + 5)) mod 2 ^ 32 /\ m (64 + 9) = 93 | _ => False end.
Proof. vm_compute. auto. Qed.

(** ** C84: the whole file becomes the image *)

(** False: the size of the file goes through an int (fsize, file.c 22-40). *)
Definition big_head : list Z := [127; 69; 76; 70] ++ repeat 0 60.
Theorem C84_whole_file_refuted : exists f m, bytes_ok f /\
  alloc_patch_file (AEnv (Some f) true true) = Some (0, Some (m, 64)) /\ len f = 2 ^ 32 + 64.
Proof.
  exists (big_head ++ repeat 0 (Z.to_nat (2 ^ 32))), (of_bytes big_head).
  assert (L : len (big_head ++ repeat 0 (Z.to_nat (2 ^ 32))) = 2 ^ 32 + 64).
  { rewrite len_app. unfold len at 2. rewrite repeat_length, Z2Nat.id by lia. change (len big_head) with 64. lia. }
  split; [|split; [|exact L]].
  - unfold bytes_ok. apply Forall_app. split; [apply bytes_check; vm_compute; reflexivity|].
    apply Forall_forall. intros x Hx. apply repeat_spec in Hx. lia.
  - unfold alloc_patch_file. cbn [ae_file ae_mmap ae_copy]. rewrite L. change (u64 (s32 (2 ^ 32 + 64))) with 64.
    change (Z.to_nat 64) with (List.length big_head).
    rewrite firstn_app, Nat.sub_diag, firstn_all. rewrite firstn_O, app_nil_r. vm_compute. reflexivity.
Qed.
Print Assumptions C84_whole_file_refuted.

Theorem C84_whole_file_partial : forall e f r m l, ae_file e = Some f -> len f < 2 ^ 31 ->
  alloc_patch_file e = Some (r, Some (m, l)) -> l = len f /\ forall i, 0 <= i < len f -> m i = nth (Z.to_nat i) f 0.
Proof.
  intros e f r m l Hf Hl H. unfold alloc_patch_file in H. rewrite Hf in H.
  assert (Es : u64 (s32 (len f)) = len f).
  { unfold s32. rewrite sgn_id by (pose proof (len_nonneg f); lia). apply wrap_id. pose proof (len_nonneg f). lia. }
  rewrite Es in H. replace (firstn (Z.to_nat (len f)) f) with f in H by (unfold len; rewrite Nat2Z.id; symmetry; apply firstn_all).
  assert (G : (m, l) = (of_bytes f, len f)).
  { destruct (len f <? sizeof_ehdr); [discriminate|]. destruct (negb (ae_mmap e) || (2 ^ 63 <=? len f)); [discriminate|].
    destruct (negb (ae_copy e)); [congruence|]. destruct (negb (magic_ok (of_bytes f))); [discriminate|]. ob H.
    destruct (negb (z =? 0)); [discriminate|congruence]. }
  assert (m = of_bytes f /\ l = len f) as [-> ->] by (split; congruence). split; auto. intros i Hi. unfold of_bytes.
  destruct ((0 <=? i) && (i <? len f)) eqn:E; [auto|lia].
Qed.
Print Assumptions C84_whole_file_partial.

Example C84_ex : len ex_file < 2 ^ 31 /\ exists m, alloc_patch_file (AEnv (Some ex_file) true true) = Some (0, Some (m, 1184)).
Proof. split; [reflexivity|]. eexists. vm_compute. reflexivity. Qed.

(** ** C85: the function is redirected into the patch *)

(** False: the symbol searched by name may be an undefined one; then the recorded address
    is one of the target.  The example with new_fn replaced by an undefined symbol named old_fn. *)
Definition self_img : mem :=
  of_bytes (patch_list (patch_list ex_file 153 (str "old_fn")) 329 (str "old_fn")).
Definition undef_img : mem := st 2 self_img (232 + 24 + 6) 0.
Definition prepare (img : mem) : option (Z * mem) :=
  match rewrite_section_headers img ex_len ex_th ex_li with
  | Some (0, m1) => match simplify_symbols ex_lookup m1 ex_len ex_th ex_li with
     | Some (0, m2) => match solve_patch_symbols ex_lookup m2 ex_len ex_li 0 77 with Some (r, m3, _) => Some (r, m3) | None => None end
     | _ => None end
  | _ => None end.
Theorem C85_redirected_into_patch_refuted :
  exists img img', byte_mem img /\ setup_load_info img ex_len = Some (inr ex_li) /\ prepare img = Some (0, img') /\
    ld 8 img' (li_info ex_li + ui_patch) = ld 8 img' (li_info ex_li + ui_target) /\
    ~ (ex_th <= ld 8 img' (li_info ex_li + ui_patch) < ex_th + ex_len).
Proof.
  exists undef_img. assert (W : match prepare undef_img with Some (r, m) => (r =? 0) &&
     (ld 8 m (li_info ex_li + ui_patch) =? 0x402000) && (ld 8 m (li_info ex_li + ui_target) =? 0x402000) | None => false end = true) by (vm_compute; reflexivity).
  destruct (prepare undef_img) as [[r img']|]; [|discriminate]. exists img'. rewrite !andb_true_iff in W. destruct W as [[W1 W2] W3].
  apply Z.eqb_eq in W1, W2, W3. subst r. split; [apply st_byte, of_bytes_byte, bytes_check; vm_compute; reflexivity|].
  split; [vm_compute; reflexivity|]. split; [reflexivity|]. rewrite W2, W3. split; auto. unfold ex_th, ex_len. lia.
Qed.
Print Assumptions C85_redirected_into_patch_refuted.

(** What does hold: on success the record gets the address found for the destination name
    and the value of the last symbol with the source name, the next identifier and the
    time, and nothing else in the image changes; on failure nothing changes.  The record
    may not overlap the symbol table. *)
Theorem C85_recorded_partial : forall lookup img l li max_id now r img' id p n i,
  p = sh_offset (section img (li_sechdrs li) (li_sym li)) -> n = sh_size (section img (li_sechdrs li) (li_sym li)) / 24 ->
  i = li_info li -> (i + 64 <= p \/ p + 24 * n <= i) ->
  solve_patch_symbols lookup img l li max_id now = Some (r, img', id) ->
  exists src dst, string_at img (li_src li) src /\ string_at img (li_dst li) dst /\
  ((r = - ENOENT /\ img' = img /\ id = max_id /\
     (lookup dst = None \/ forall j, 0 <= j < n -> ~ string_at img (name_off (li_strtab li) img (p + 24 * j)) src)) \/
   (r = 0 /\ id = (max_id + 1) mod 2 ^ 32 /\
    exists taddr k, lookup dst = Some taddr /\ 0 <= k < n /\
      string_at img (name_off (li_strtab li) img (p + 24 * k)) src /\
      (forall j, k < j < n -> ~ string_at img (name_off (li_strtab li) img (p + 24 * j)) src) /\
      ld 4 img' (i + ui_id) = id /\
      ld 8 img' (i + ui_target) = taddr mod 2 ^ 64 /\ ld 8 img' (i + ui_virtual) = taddr mod 2 ^ 64 /\
      (byte_mem img -> ld 8 img' (i + ui_patch) = sym_value img (p + 24 * k)) /\
      ld 8 img' (i + ui_time) = now mod 2 ^ 64 /\
      same_outside (fun x => i <= x < i + 28 \/ i + 44 <= x < i + 52) img img')).
Proof.
  intros lookup img l li max_id now r img' id p n i Hp Hn Hi Ap H. destruct (solve_spec _ _ _ _ _ _ _ _ _ H) as (src & dst & S & D & C).
  exists src, dst. split; auto. split; auto. cbv zeta in C. rewrite <- Hp, <- Hn, <- Hi in C.
  destruct C as [C|(E & Eid & taddr & k & L & Hk & Sk & Lk & Em)]; [left; exact C|]. right. split; auto. split; auto.
  exists taddr, k. split; auto. split; auto. split; auto. split; auto. rewrite Em. unfold ui_id, ui_target, ui_virtual, ui_patch, ui_time.
  assert (F : id mod 2 ^ 32 = id) by (rewrite Eid; apply Z.mod_small; apply Z.mod_pos_bound; lia).
  split; [rewrite !ld_st_disj by lia; rewrite (ld_st 4); exact F|].
  split; [rewrite !ld_st_disj by lia; rewrite (ld_st 8); reflexivity|].
  split; [rewrite !(ld_st_disj 8 8 _ (i + 20) (i + 44)) by lia; rewrite (ld_st 8); change (2 ^ (8 * Z.of_nat 8)) with (2 ^ 64); apply Z.mod_mod; lia|].
  split.
  - intros Hb. rewrite (ld_st_disj 8 8 _ (i + 12) (i + 44)) by lia. rewrite (ld_st_disj 8 8 _ (i + 12) (i + 20)) by lia. rewrite (ld_st 8).
    rewrite !ld_st_disj by lia. unfold sym_value. apply Z.mod_small. apply ld_range. auto.
  - split; [rewrite (ld_st 8); reflexivity|]. intros x Nx. rewrite !st_out by lia. reflexivity.
Qed.
Print Assumptions C85_recorded_partial.

Example C85_ex : (80 + 64 <= sh_offset (section ex_sym 480 8)) /\
  match solve_patch_symbols ex_lookup ex_sym ex_len ex_li 4 77 with
  | Some (0, m, 5) => ld 8 m (80 + ui_patch) = 0x7000000 + 64 /\ ld 8 m (80 + ui_virtual) = 0x402000 /\ ld 4 m (80 + ui_version) = 5
  | _ => False end.
Proof. vm_compute. split; [discriminate|auto]. Qed.
