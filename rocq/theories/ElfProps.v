(** ELF reading: the property theorems C52-C56 and C90-C92. *)
From Coq Require Import ZArith String List Bool Lia.
From Verif Require TextModel.
From Verif Require Import Word RbModel RbSpec Str ElfDefs ElfModel ElfSpec SymProofs ElfProofs.
From Verif Require ElfFile ElfFileProofs.
Import ListNotations.
Open Scope Z_scope.

(** ** C52 *)
Theorem C52_header f : bytes_ok f -> (ehdr_ok (ehdr_of f) = true <-> elf64_header f).
Proof. exact (ehdr_ok_iff f). Qed.
Print Assumptions C52_header.

Definition ex_header : Word.mem := fun a =>
  if (0 <=? a) && (a <? 24) then nth (Z.to_nat a) [127; 69; 76; 70; 2; 1; 1; 0; 0; 0; 0; 0; 0; 0; 0; 0; 3; 0; 62; 0; 1; 0; 0; 0] 0 else 0.
Example C52_header_ex : bytes_ok ex_header /\ elf64_header ex_header /\ ehdr_ok (ehdr_of ex_header) = true /\
  ehdr_ok (ehdr_of (fun a => if a =? 5 then 2 else ex_header a)) = false.
Proof.
  split.
  { intros a. unfold ex_header. destruct ((0 <=? a) && (a <? 24)) eqn:E; [|lia].
    apply andb_true_iff in E. destruct E as [E1 E2]. apply Z.leb_le in E1. apply Z.ltb_lt in E2.
    assert (H : (Z.to_nat a < 24)%nat) by lia. revert H. generalize (Z.to_nat a) as n. intros n H.
    do 24 (destruct n as [|n]; [cbn; lia|]). lia. }
  split. { unfold elf64_header. repeat split; try reflexivity; left; discriminate. }
  split; reflexivity.
Qed.

(** ** C53 *)
Theorem C53_lookup (name : Z -> list Z) (g : Z -> gsym) s ns fuel :
  (forall n, cstr_ok (name n)) -> fresh_index s ns -> (List.length ns < fuel)%nat ->
  let info := fun n => alloc_symbol (name n) (g n) in
  exists rs s', link_all fuel info s ns = Some (rs, s') /\
    (forall nm, cstr_ok nm -> exists d u x,
       find_symbol fuel info s' nm = Some d /\ first_with (fun n => name n = nm /\ kind_is (g n) Defined) ns d /\
       find_undef_symbol fuel info s' nm = Some u /\ first_with (fun n => name n = nm /\ kind_is (g n) Undef) ns u /\
       find_extern_symbol fuel info s' nm = Some x /\ first_with (fun n => name n = nm /\ kind_is (g n) Extern) ns x) /\
    (forall L n R, ns = L ++ n :: R -> exists v, nth_error rs (List.length L) = Some v /\
       (v = 0 \/ v = - EINVAL) /\
       (v = 0 <-> forall m, In m L -> ~ (name m = name n /\ exists k, kind_is (g m) k /\ kind_is (g n) k))).
Proof.
  intros Hn Hf Hl info. destruct (index_ok name g s ns fuel Hn Hf Hl) as (rs & s' & A & B & C).
  exists rs, s'. split; [exact A|]. split; [|exact C]. intros nm Hnm.
  destruct (B nm Defined Hnm) as (d & D1 & D2). destruct (B nm Undef Hnm) as (u & U1 & U2). destruct (B nm Extern Hnm) as (x & X1 & X2).
  exists d, u, x. auto 10.
Qed.
Print Assumptions C53_lookup.

(** Kinds exclude each other and cover all symbols. *)
Theorem C53_kinds (g : gsym) : exists k, kind_is g k /\ forall k', kind_is g k' -> k' = k.
Proof.
  unfold kind_is. destruct (Z.eq_dec (g_st_shndx g) 0) as [E|E].
  - destruct (Z.eq_dec (g_st_info g mod 16) 0), (Z.eq_dec (g_st_info g / 16) 1), (Z.eq_dec (g_st_info g / 16) 2);
      try (exists Extern; split; [auto|intros [] H; auto; tauto]);
      (exists Undef; split; [split; [tauto|auto]|intros [] H; auto; tauto]).
  - destruct (Z_lt_ge_dec (g_st_shndx g) 65280).
    + exists Defined. split; auto. intros [] H; auto; lia.
    + exists Undef. split; [split; [tauto|lia]|]. intros [] H; auto; try tauto. lia.
Qed.
Print Assumptions C53_kinds.

Definition ex_names (n : Z) : list Z := str (if n =? 16 then "main" else if n =? 32 then "puts" else if n =? 48 then "main" else "main").
Definition ex_gsyms (n : Z) : gsym := if n =? 32 then Gs 16 0 else if n =? 48 then Gs 16 0 else Gs 18 12.
Definition ex_rbs : rbs := Rbs (fun a => if in_dec Z.eq_dec a [16; 32; 48; 64] then Some (Rbn 0 0 0) else None) 0.
Example C53_lookup_ex :
  fresh_index ex_rbs [16; 32; 48; 64] /\ (forall n, cstr_ok (ex_names n)) /\
  let info := fun n => alloc_symbol (ex_names n) (ex_gsyms n) in
  match link_all 6 info ex_rbs [16; 32; 48; 64] with
  | Some (rs, s') => rs = [0; 0; 0; - EINVAL] /\ find_symbol 6 info s' (str "main") = Some 16 /\
      find_extern_symbol 6 info s' (str "main") = Some 48 /\ find_extern_symbol 6 info s' (str "puts") = Some 32 /\
      find_undef_symbol 6 info s' (str "puts") = Some 0
  | None => False
  end.
Proof.
  split.
  { split; [reflexivity|]. split.
    - repeat constructor; cbn; intuition discriminate.
    - intros n Hn. split; [cbn in Hn; intuition (subst; unfold node_addr; cbn; lia)|].
      cbn [hp ex_rbs]. destruct (in_dec Z.eq_dec n [16; 32; 48; 64]); [discriminate|contradiction]. }
  split.
  { intros n. unfold ex_names, cstr_ok. destruct (n =? 16), (n =? 32), (n =? 48); cbn; repeat constructor; lia. }
  vm_compute. repeat split; reflexivity.
Qed.

(** ** C54 *)

(** The part before the version is returned and only the buffer is written, if it is
    shorter than the buffer; a longer one is refused and nothing is written. *)
Theorem C54_name_partial base v b blen : ~ In 64 base -> cstr_ok base -> 0 <= blen < 2 ^ 31 ->
  let r := asymbol_pure_name (base ++ 64 :: v) b blen in
  (Z.of_nat (List.length base) < blen -> pure_string (base ++ 64 :: v) r = Some base /\ forall i, ~ (0 <= i < blen) -> snd r i = b i) /\
  (blen < Z.of_nat (List.length base) < 2 ^ 32 -> pure_string (base ++ 64 :: v) r = None /\ forall i, snd r i = b i).
Proof.
  intros Hn Hc Hb r. split; intros Hl.
  - destruct (pure_ok base v b blen Hn Hc Hb ltac:(lia)) as [A B]. split; [exact A|]. intros i Hi. apply B. lia.
  - unfold r, asymbol_pure_name. rewrite at_index_split by auto. rewrite !u32_small by lia.
    destruct (Z.ltb_spec blen (Z.of_nat (List.length base))); [|lia]. split; reflexivity.
Qed.
Print Assumptions C54_name_partial.

Theorem C54_unversioned name b blen : ~ In 64 name -> pure_string name (asymbol_pure_name name b blen) = Some name /\
  forall i, snd (asymbol_pure_name name b blen) i = b i.
Proof. intros H. apply at_index_none in H. unfold asymbol_pure_name. rewrite H. split; reflexivity. Qed.
Print Assumptions C54_unversioned.

(** A name of exactly the length of the buffer puts the terminator behind the buffer. *)
Theorem C54_name_refuted : exists base v b blen i, ~ In 64 base /\ cstr_ok base /\ 0 <= blen < 2 ^ 31 /\
  ~ (0 <= i < blen) /\ snd (asymbol_pure_name (base ++ 64 :: v) b blen) i <> b i.
Proof.
  exists (repeat 97 256), (str "V1"), (fun _ => 7), 256, 256. split.
  { intros H. apply repeat_spec in H. discriminate. }
  split. { apply Forall_forall. intros c Hc. apply repeat_spec in Hc. lia. }
  split; [lia|]. split; [lia|]. vm_compute. discriminate.
Qed.
Print Assumptions C54_name_refuted.

Example C54_name_partial_ex :
  pure_string (str "stderr@GLIBC_2.2.5") (asymbol_pure_name (str "stderr@GLIBC_2.2.5") (fun _ => 7) 256) = Some (str "stderr") /\
  pure_string (str "stderr@GLIBC_2.2.5") (asymbol_pure_name (str "stderr@GLIBC_2.2.5") (fun _ => 7) 5) = None.
Proof. split; reflexivity. Qed.

(** ** C55 *)
Lemma nth_error_ext_local {A} (l1 : list A) : forall l2, (forall k, nth_error l1 k = nth_error l2 k) -> l1 = l2.
Proof.
  induction l1 as [|a l1 IH]; intros [|b l2] H; auto.
  - discriminate (H O).
  - discriminate (H O).
  - f_equal. { injection (H O). auto. } apply IH. intros k. exact (H (S k)).
Qed.
Theorem C55_filter v count l : 0 <= count -> (forall k, (k < Z.to_nat count)%nat -> nth_error l k = Some (v (Z.of_nat k))) ->
  List.length l = Z.to_nat count ->
  exists v' kept, remove_useless_symbols v count = (v', Z.of_nat (List.length kept)) /\
    (forall k, (k < List.length kept)%nat -> nth_error kept k = Some (v' (Z.of_nat k))) /\
    picked useful l kept /\ (forall x, x < 0 \/ count <= x -> v' x = v x).
Proof.
  intros Hc Hl Hn. assert (E : span v 0 (Z.to_nat count) = l).
  { apply nth_error_ext_local. intros k. unfold span. destruct (Nat.lt_ge_cases k (Z.to_nat count)) as [H|H].
    - rewrite Hl by auto. rewrite nth_error_map. rewrite (nth_error_nth' _ O) by (rewrite seq_length; auto). rewrite seq_nth by auto. reflexivity.
    - rewrite (proj2 (nth_error_None l k)) by lia. apply nth_error_None. rewrite map_length, seq_length. auto. }
  destruct (remove_ok v count Hc l E) as (v' & kept & A & B & C & D). exists v', kept. split; auto. split; auto.
  intros k Hk. rewrite <- B. unfold span. rewrite nth_error_map. rewrite (nth_error_nth' _ O) by (rewrite seq_length; auto). rewrite seq_nth by auto. reflexivity.
Qed.
Print Assumptions C55_filter.

Definition ex_syms : list asym :=
  [As (Some (str "")) 64 false SOther true false; As (Some (str "main")) 4096 false SOther true false;
   As (Some (str "puts")) 0 false SUnd false false; As (Some (str ".plt")) 4128 true SOther true false;
   As (Some (str ".text")) 4096 true SOther true false; As (Some (str "counter")) 16384 false SOther false true].
Example C55_filter_ex : let '(v, n) := remove_useless_symbols (vec ex_syms) 6 in
  n = 3 /\ map (fun i => a_name (v i)) [0; 1; 2] = [Some (str "main"); Some (str ".plt"); Some (str "counter")].
Proof. vm_compute. split; reflexivity. Qed.

(** ** C90 *)
Theorem C90_lookup c syms dynsyms synth b s nodes fuel all :
  considered syms dynsyms synth all -> Forall short_base all -> fresh_index s nodes ->
  (List.length all <= List.length nodes)%nat -> (List.length all < fuel)%nat ->
  exists info s', load_class fuel c syms dynsyms synth b s nodes = Some (info, s') /\
    forall base, cstr_ok base -> exists r, bfd_sym_addr_of fuel info s' base = Some r /\ first_addr c base all r.
Proof.
  intros Ha F Hi Hl Hf. assert (all = sorted_syms syms dynsyms synth) as ->.
  { destruct Ha as (k1 & P1 & ->). destruct (sorted_syms_ok syms dynsyms synth) as (k2 & P2 & ->). f_equal. eapply picked_unique; eauto. }
  apply load_class_ok; auto.
Qed.
Print Assumptions C90_lookup.

Definition ex_dyn : list asym :=
  [As (Some (str "memcpy@GLIBC_2.2.5")) 4096 false SOther true false;
   As (Some (str "memcpy@@GLIBC_2.14")) 8192 false SOther true false;
   As (Some (str "environ")) 16384 false SOther false true].
Definition ex_synth : list asym := [As (Some (str "free@plt")) 1024 false SOther true false].
Example C90_lookup_ex :
  match load_class 6 CText [] ex_dyn ex_synth (fun _ => 0) ex_rbs [16; 32; 48; 64],
        load_class 6 CPlt [] ex_dyn ex_synth (fun _ => 0) ex_rbs [16; 32; 48; 64] with
  | Some (i1, s1), Some (i2, s2) =>
      bfd_sym_addr_of 6 i1 s1 (str "memcpy") = Some 4096 /\ bfd_sym_addr_of 6 i1 s1 (str "free") = Some 1024 /\
      bfd_sym_addr_of 6 i1 s1 (str "environ") = Some 0 /\ bfd_sym_addr_of 6 i2 s2 (str "free") = Some 1024
  | _, _ => False
  end.
Proof. vm_compute. repeat split; reflexivity. Qed.

(** ** C91 *)
Theorem C91_any_file_refuted : exists syms, Forall (fun s => exists name, a_name s = Some name /\ cstr_ok name) syms /\
  forall fuel s nodes b, load_class fuel CText syms [] [] b s nodes = None.
Proof.
  exists [As (Some (repeat 97 257 ++ str "@V1")) 4096 false SOther true false]. split.
  { constructor; [|constructor]. eexists. split; [reflexivity|]. apply Forall_app. split.
    - apply Forall_forall. intros c Hc. apply repeat_spec in Hc. lia.
    - repeat constructor; lia. }
  intros fuel s nodes b. unfold load_class.
  assert (E : forall b, entries CText (sorted_syms [As (Some (repeat 97 257 ++ str "@V1")) 4096 false SOther true false] [] []) b = None).
  { intros b0. assert (S : sorted_syms [As (Some (repeat 97 257 ++ str "@V1")) 4096 false SOther true false] [] [] =
      [As (Some (repeat 97 257 ++ str "@V1")) 4096 false SOther true false]) by (vm_compute; reflexivity).
    rewrite S. cbn [entries a_name in_class a_code]. 
    assert (P : asymbol_pure_name (repeat 97 257 ++ str "@V1") b0 256 = (PNull, b0)).
    { unfold asymbol_pure_name. assert (at_index (repeat 97 257 ++ str "@V1") = Some 257) as -> by (vm_compute; reflexivity). reflexivity. }
    rewrite P. reflexivity. }
  rewrite E. reflexivity.
Qed.
Print Assumptions C91_any_file_refuted.

Theorem C91_any_file_partial c syms dynsyms synth b s nodes fuel :
  let all := sorted_syms syms dynsyms synth in
  Forall short_base all -> fresh_index s nodes -> (List.length all <= List.length nodes)%nat -> (List.length all < fuel)%nat ->
  exists r, load_class fuel c syms dynsyms synth b s nodes = Some r.
Proof.
  intros all F Hi Hl Hf. destruct (load_class_ok c syms dynsyms synth b s nodes fuel F Hi Hl Hf) as (info & s' & E & _). eauto.
Qed.
Print Assumptions C91_any_file_partial.

Example C91_any_file_partial_ex :
  exists r, load_class 6 CText ex_syms [] ex_synth (fun _ => 0) ex_rbs [16; 32; 48; 64] = Some r.
Proof. eexists. vm_compute. reflexivity. Qed.

(** ** C92 *)

(** The default version (two '@') is the one meant by a plain reference. *)
Theorem C92_default_version_refuted : exists dynsyms base v1 v2 a1 a2,
  dynsyms = [As (Some (base ++ str "@" ++ v1)) a1 false SOther true false;
             As (Some (base ++ str "@@" ++ v2)) a2 false SOther true false] /\ a1 <> a2 /\
  match load_class 6 CText [] dynsyms [] (fun _ => 0) ex_rbs [16; 32; 48; 64] with
  | Some (i, s) => bfd_sym_addr_of 6 i s base = Some a1
  | None => False
  end.
Proof.
  exists [As (Some (str "memcpy@GLIBC_2.2.5")) 4096 false SOther true false; As (Some (str "memcpy@@GLIBC_2.14")) 8192 false SOther true false],
    (str "memcpy"), (str "GLIBC_2.2.5"), (str "GLIBC_2.14"), 4096, 8192.
  split; [reflexivity|]. split; [discriminate|]. vm_compute. reflexivity.
Qed.
Print Assumptions C92_default_version_refuted.

(** With a single version the symbol itself is found. *)
Theorem C92_default_version_partial c syms dynsyms synth b s nodes fuel all base sym :
  considered syms dynsyms synth all -> Forall short_base all -> fresh_index s nodes ->
  (List.length all <= List.length nodes)%nat -> (List.length all < fuel)%nat -> cstr_ok base ->
  In sym all -> answers c base sym -> (forall s', In s' all -> answers c base s' -> s' = sym) ->
  exists info s', load_class fuel c syms dynsyms synth b s nodes = Some (info, s') /\
    bfd_sym_addr_of fuel info s' base = Some (a_value sym).
Proof.
  intros Ha F Hi Hl Hf Hb H1 H2 H3. destruct (C90_lookup c syms dynsyms synth b s nodes fuel all Ha F Hi Hl Hf) as (info & s' & E & G).
  exists info, s'. split; auto. destruct (G base Hb) as (r & R1 & R2). rewrite R1. f_equal.
  destruct R2 as [[_ Q]|(L & x & R & Q1 & Q2 & -> & _)].
  - exfalso. eapply Q; eauto.
  - f_equal. apply H3; auto. rewrite Q1, in_app_iff. right. left. auto.
Qed.
Print Assumptions C92_default_version_partial.

Example C92_default_version_partial_ex :
  In (As (Some (str "environ")) 16384 false SOther false true) (sorted_syms [] ex_dyn ex_synth) /\
  answers CData (str "environ") (As (Some (str "environ")) 16384 false SOther false true).
Proof.
  split; [vm_compute; tauto|]. exists (str "environ"). split; [reflexivity|]. split; [reflexivity|].
  split; [vm_compute; intuition discriminate|auto].
Qed.

(** ** C56 *)
Import ElfFile ElfFileProofs.

(** If no path is opened while it is open, files are ordinary and fewer than 65536 are open,
    nothing is released that is not owned, the open handles own exactly what they need and
    nothing else is owned. *)
Theorem C56_handles_partial l : disciplined l [] ->
  exists s, erun est0 l = Some s /\ map h_path (handles s) = open_paths l [] /\
    (forall i r, owned s i r = true <-> exists h, In h (handles s) /\ h_id h = i /\ needs h r).
Proof.
  intros D. destruct (run_ok l est0 [] einv0 D) as (s & E & I). exists s. split; auto. split; apply I.
Qed.
Print Assumptions C56_handles_partial.

(** Closing everything leaves nothing owned. *)
Theorem C56_balance_partial l : disciplined l [] -> open_paths l [] = [] ->
  exists s, erun est0 l = Some s /\ forall i r, owned s i r = false.
Proof.
  intros D H. destruct (C56_handles_partial l D) as (s & E & P & O). exists s. split; auto. intros i r.
  destruct (owned s i r) eqn:Q; auto. apply O in Q. destruct Q as (h & H1 & _). rewrite H in P. destruct (handles s); [destruct H1|discriminate].
Qed.
Print Assumptions C56_balance_partial.

Example C56_handles_partial_ex :
  let a := [47; 97] in let b := [47; 98] in
  let l := [Open a plain_file; Open b (Fe true true true true true true 1 1 false); Close a; Open a (Fe true true true false true true 1 0 false);
            Open a plain_file; Close b] in
  disciplined l [] /\ match erun est0 l with Some s => map h_path (handles s) = [a] | None => False end.
Proof.
  split; [|vm_compute; reflexivity]. cbn. unfold ordinary, plain_file. cbn.
  repeat match goal with |- _ /\ _ => split end; try lia; intuition (try discriminate; try lia).
Qed.

(** Opening a file twice and closing it once destroys the handle the other opener holds. *)
Theorem C56_shared_refuted : exists p f s1 s2 s3 h, ordinary f /\
  elf_file_open est0 p f = Some (Some h, s1) /\ elf_file_open s1 p f = Some (Some h, s2) /\
  elf_file_close s2 p = Some (0, s3) /\ owned s2 h RObj = true /\ owned s3 h RObj = false.
Proof.
  exists (str "/bin/a"), plain_file. eexists. eexists. eexists. exists 0%nat.
  split; [unfold ordinary; cbn; auto|]. split; [reflexivity|]. split; [reflexivity|]. split; [reflexivity|]. split; reflexivity.
Qed.
Print Assumptions C56_shared_refuted.

(** An object file without build id: closing releases a string literal. *)
Theorem C56_literal_refuted : exists p f s1 h, opens f = true /\ elf_file_open est0 p f = Some (Some h, s1) /\ elf_file_close s1 p = None.
Proof.
  exists (str "/tmp/a.o"), (Fe true true true true true true 0 0 true). eexists. exists 0%nat.
  split; [reflexivity|]. split; reflexivity.
Qed.
Print Assumptions C56_literal_refuted.

(** A second build id note, a second mcount symbol or a missing build id: memory is never released. *)
Theorem C56_leak_refuted : exists p, 
  (exists s1 h s2, elf_file_open est0 p (Fe true true true true true true 2 0 false) = Some (Some h, s1) /\
     elf_file_close s1 p = Some (0, s2) /\ handles s2 = [] /\ owned s2 h (RBid 0) = true) /\
  (exists s1 h s2, elf_file_open est0 p (Fe true true true true true true 1 2 false) = Some (Some h, s1) /\
     elf_file_close s1 p = Some (0, s2) /\ handles s2 = [] /\ owned s2 h (RMc 0) = true) /\
  (exists s1 h, elf_file_open est0 p (Fe true true true true true true 0 0 false) = Some (None, s1) /\ owned s1 h RSyms = true).
Proof.
  exists (str "/bin/a"). split; [|split].
  - eexists. exists 0%nat. eexists. split; [reflexivity|]. split; [reflexivity|]. split; reflexivity.
  - eexists. exists 0%nat. eexists. split; [reflexivity|]. split; [reflexivity|]. split; reflexivity.
  - eexists. exists 0%nat. split; reflexivity.
Qed.
Print Assumptions C56_leak_refuted.

(** With 65536 files open, none of them can be closed any more. *)
Theorem C56_many_refuted : exists l s p, erun est0 l = Some s /\ In p (map h_path (handles s)) /\ elf_file_close s p = Some (- ENOENT, s).
Proof.
  assert (Hn : exists n, Z.of_nat n = 65536) by (exists (Z.to_nat 65536); apply Z2Nat.id; lia).
  destruct Hn as (n & Hn). destruct (many_ok n) as (s & E & P & N). exists (many n), s, [1]. split; [exact E|]. split.
  - rewrite P. apply in_map_iff. exists O. split; [reflexivity|]. apply in_seq. lia.
  - unfold elf_file_close. rewrite N, Hn. reflexivity.
Qed.
Print Assumptions C56_many_refuted.
