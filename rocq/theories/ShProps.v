From Coq Require Import ZArith String List Bool Lia ZifyBool ZifyNat.
From Verif Require Import Word WordLemmas Str TextSpec ShModel ShSpec ShProofs.
From Verif Require TextModel TextProofs.
Import ListNotations.
Open Scope Z_scope.

(** * C116 *)

(** The memory [d] from [data] on holds the bytes [l]. *)
Definition at_start (d : Z -> Z) (l : list Z) : Prop := forall i, (i < List.length l)%nat -> d (Z.of_nat i) = nth i l 0.

Theorem C116_dump_layout : forall l d fuel, l <> [] -> Forall byte l -> Z.of_nat (List.length l) <= 2 ^ 31 - 16 -> at_start d l ->
  (List.length l < fuel)%nat ->
  exists r, memshow fuel true (Some d) (Z.of_nat (List.length l)) = Some r /\ dump_of l (sh_out r).
Proof.
  intros l d fuel N F Hn A Hf. set (n := Z.of_nat (List.length l)) in *.
  assert (P : 0 < n) by (subst n; destruct l; [congruence|cbn [List.length]; lia]).
  assert (D : forall i, 0 <= i < n -> d i = nth (Z.to_nat i) l 0).
  { intros i Hi. rewrite <- (A (Z.to_nat i)) by lia. f_equal. lia. }
  assert (B : forall i, 0 <= i < n -> byte (d i)).
  { intros i Hi. rewrite D by auto. rewrite Forall_forall in F. apply F. apply nth_In. lia. }
  unfold memshow. destruct (Z.leb_spec n 0); [lia|].
  set (m := Z.to_nat ((n + 15) / 16)).
  assert (Hm : n <= (0 + Z.of_nat m) * 16 < n + 16) by (subst m; lia).
  rewrite (memshow_loop_eq m) by lia. eexists. split; [reflexivity|]. cbn [sh_out app].
  assert (EM : (n + 15) / 16 = Z.of_nat m) by (subst m; lia). clearbody m.
  assert (NL : forall i r, 0 <= i / 16 < Z.of_nat m -> 0 <= r < 80 ->
            nth (Z.to_nat (80 * (i / 16) + r)) (lines d n m 0) 0 = nth (Z.to_nat r) (line d n (i / 16 * 16)) 0).
  { intros i r Hi Hr. replace (Z.to_nat (80 * (i / 16) + r)) with (80 * Z.to_nat (i / 16) + Z.to_nat r)%nat by lia.
    rewrite nth_lines by lia. do 2 f_equal. lia. }
  assert (COL : forall i, 0 <= i < 16 -> 10 <= hex_col i < 79 - 17).
  { intros i Hi. unfold hex_col. destruct (Z.leb_spec 8 i); lia. }
  assert (CELL : forall i, 0 <= i / 16 < Z.of_nat m -> 
     [nth (Z.to_nat (80 * (i / 16) + hex_col (i mod 16))) (lines d n m 0) 0;
      nth (S (Z.to_nat (80 * (i / 16) + hex_col (i mod 16)))) (lines d n m 0) 0] =
     if n <=? i then [32; 32] else hex2 (d i)).
  { intros i Hi. pose proof (Z.mod_pos_bound i 16 ltac:(lia)) as Hr. pose proof (COL _ Hr).
    replace (S (Z.to_nat (80 * (i / 16) + hex_col (i mod 16)))) with (Z.to_nat (80 * (i / 16) + (hex_col (i mod 16) + 1))) by lia.
    rewrite !NL by lia. replace (Z.to_nat (hex_col (i mod 16) + 1)) with (S (Z.to_nat (hex_col (i mod 16)))) by lia.
    rewrite nth_hex by auto. replace (i / 16 * 16 + i mod 16) with i by lia. reflexivity. }
  assert (CH : forall i, 0 <= i / 16 < Z.of_nat m ->
     nth (Z.to_nat (80 * (i / 16) + 62 + i mod 16)) (lines d n m 0) 0 =
     if n <=? i then 32 else if isprint (d i) then d i else 46).
  { intros i Hi. pose proof (Z.mod_pos_bound i 16 ltac:(lia)) as Hr.
    rewrite <- Z.add_assoc, NL by lia. rewrite nth_char by auto. unfold ccell.
    replace (i / 16 * 16 + i mod 16) with i by lia. reflexivity. }
  constructor.
  - rewrite lines_len. fold n. lia.
  - intros k Hk. fold n in Hk. destruct (hex8_digits (k * 16)) as (ds & L & V & G); [lia|]. exists ds. split; [auto|]. split; [lia|].
    intros j Hj. replace (Z.to_nat (80 * k) + j)%nat with (80 * Z.to_nat k + j)%nat by lia.
    rewrite nth_lines by lia. rewrite nth_off by lia. replace ((0 + Z.of_nat (Z.to_nat k)) * 16) with (k * 16) by lia. auto.
  - intros i Hi p. specialize (CELL (Z.of_nat i) ltac:(lia)). fold p in CELL. destruct (Z.leb_spec n (Z.of_nat i)); [lia|].
    destruct (hex2_vals (d (Z.of_nat i)) (B (Z.of_nat i) ltac:(lia))) as (h & lo & H1 & H2 & H3). rewrite <- CELL in H1, H2. cbn [nth] in H1, H2.
    exists h, lo. split; [auto|]. split; [auto|]. rewrite <- (A i Hi). auto.
  - intros i Hi c. subst c. rewrite CH by lia. destruct (Z.leb_spec n (Z.of_nat i)); [lia|]. rewrite (A i Hi). unfold isprint.
    destruct (Z.leb_spec 32 (nth i l 0)), (Z.leb_spec (nth i l 0) 126); cbn [andb]; split; intros; auto; lia.
  - fold n. intros i Hi p. specialize (CELL i ltac:(lia)). fold p in CELL. specialize (CH i ltac:(lia)).
    destruct (Z.leb_spec n i); [|lia]. injection CELL as E1 E2. auto.
  - intros p Hp. rewrite lines_len in Hp.
    replace p with (80 * (p / 80) + p mod 80)%nat at 1 by (symmetry; apply Nat.div_mod; lia).
    pose proof (Nat.mod_upper_bound p 80 ltac:(lia)).
    assert (p / 80 < m)%nat by (apply Nat.div_lt_upper_bound; lia).
    rewrite nth_lines by lia. rewrite line_newline by (auto; lia). lia.
Qed.
Print Assumptions C116_dump_layout.

(** A dump determines the bytes. *)
Lemma dump_determines l1 l2 t : dump_of l1 t -> dump_of l2 t -> l1 = l2.
Proof.
  assert (W : forall l1 l2 t, dump_of l1 t -> dump_of l2 t -> (List.length l1 <= List.length l2)%nat).
  { intros a b s H1 H2. pose proof (du_len a s H1) as L1. pose proof (du_len b s H2) as L2.
    destruct (le_lt_dec (List.length a) (List.length b)) as [|G]; auto. exfalso.
    pose proof (du_hex a s H1 (List.length b) G) as X. cbv zeta in X. destruct X as (h & lo & V1 & _).
    assert (R : Z.of_nat (List.length b) <= Z.of_nat (List.length b) < 16 * ((Z.of_nat (List.length b) + 15) / 16)).
    { clear - L1 L2 G. rewrite L1 in L2. lia. }
    pose proof (du_blank b s H2 _ R) as Y. cbv zeta in Y. destruct Y as (Y & _). rewrite Y in V1. unfold hex_val in V1. lia. }
  intros H1 H2. assert (L : List.length l1 = List.length l2) by (apply Nat.le_antisymm; eapply W; eassumption).
  apply (nth_ext _ _ 0 0 L). intros i Hi.
  pose proof (du_hex l1 t H1 i Hi) as X. pose proof (du_hex l2 t H2 i ltac:(lia)) as Y. cbv zeta in X, Y.
  destruct X as (h1 & o1 & A1 & A2 & A3). destruct Y as (h2 & o2 & B1 & B2 & B3).
  rewrite A3, B3. f_equal; [f_equal|]; eapply TextProofs.hex_val_inj; eassumption.
Qed.
Theorem C116_dump_injective : forall l1 l2 d1 d2 fuel r1 r2, l1 <> [] -> l2 <> [] -> Forall byte l1 -> Forall byte l2 ->
  Z.of_nat (List.length l1) <= 2 ^ 31 - 16 -> Z.of_nat (List.length l2) <= 2 ^ 31 - 16 -> at_start d1 l1 -> at_start d2 l2 ->
  (List.length l1 < fuel)%nat -> (List.length l2 < fuel)%nat ->
  memshow fuel true (Some d1) (Z.of_nat (List.length l1)) = Some r1 ->
  memshow fuel true (Some d2) (Z.of_nat (List.length l2)) = Some r2 ->
  sh_out r1 = sh_out r2 -> l1 = l2.
Proof.
  intros l1 l2 d1 d2 fuel r1 r2 N1 N2 F1 F2 L1 L2 A1 A2 G1 G2 R1 R2 E.
  destruct (C116_dump_layout l1 d1 fuel N1 F1 L1 A1 G1) as (x & Ex & Dx).
  destruct (C116_dump_layout l2 d2 fuel N2 F2 L2 A2 G2) as (y & Ey & Dy).
  rewrite R1 in Ex. rewrite R2 in Ey. injection Ex as <-. injection Ey as <-. rewrite E in Dx.
  exact (dump_determines _ _ _ Dx Dy).
Qed.
Print Assumptions C116_dump_injective.

Example C116_ex : exists r, memshow 30 true (Some (fun i => nth (Z.to_nat i) (str "ulpatch hex dump" ++ [10; 255]) 0)) 18 = Some r /\
  sh_out r = str "00000000  75 6c 70 61 74 63 68 20  68 65 78 20 64 75 6d 70   |ulpatch hex dump|" ++ [10] ++
             str "00000010  0a ff                                              |..              |" ++ [10].
Proof. eexists. split; vm_compute; reflexivity. Qed.

(** * C117 *)
Theorem C117_dump_reads_refuted : exists fuel d n r,
  memshow fuel true (Some d) n = Some r /\ exists o, In o (sh_reads r) /\ ~ 0 <= o < n.
Proof.
  exists 2%nat, (fun _ => 0), 1. eexists. split; [vm_compute; reflexivity|]. exists 15. split; [vm_compute; tauto|lia].
Qed.
Print Assumptions C117_dump_reads_refuted.

(** It reads exactly the bytes of the lines it begins: nothing beyond the data when their number is a multiple of 16. *)
Theorem C117_dump_reads_partial : forall d n fuel, 0 < n <= 2 ^ 31 - 16 -> n < Z.of_nat fuel ->
  exists r, memshow fuel true (Some d) n = Some r /\
    (forall o, In o (sh_reads r) <-> 0 <= o < 16 * ((n + 15) / 16)) /\
    ((16 | n) -> forall o, In o (sh_reads r) -> 0 <= o < n).
Proof.
  intros d n fuel Hn Hf. unfold memshow. destruct (Z.leb_spec n 0); [lia|].
  set (m := Z.to_nat ((n + 15) / 16)).
  assert (Hm : n <= (0 + Z.of_nat m) * 16 < n + 16) by (subst m; lia).
  assert (EM : (n + 15) / 16 = Z.of_nat m) by (subst m; lia). clearbody m.
  rewrite (memshow_loop_eq m) by lia. eexists. split; [reflexivity|]. cbn [sh_reads app].
  assert (I : forall o, In o (all_reads n m 0) <-> 0 <= o < 16 * ((n + 15) / 16)).
  { intros o. split; intros H0; [apply in_all_reads in H0|apply all_reads_in]; lia. }
  split; [exact I|]. intros (q & Q) o H0. apply I in H0. lia.
Qed.
Print Assumptions C117_dump_reads_partial.

(** * C118 *)
Theorem C118_dump_count_refuted : exists fuel d n r,
  memshow fuel true (Some d) n = Some r /\ 0 < n /\ sh_len r <> Z.of_nat (List.length (sh_out r)).
Proof. exists 2%nat, (fun _ => 0), 1. eexists. split; [vm_compute; reflexivity|]. split; [lia|]. vm_compute. discriminate. Qed.
Print Assumptions C118_dump_count_refuted.

(** The number returned grows by 15 for each line of 80 characters; without data, or without a
    stream, nothing is written. *)
Theorem C118_dump_count_partial : forall d n fuel,
  (0 < n <= 2 ^ 31 - 16 -> n < Z.of_nat fuel -> exists r, memshow fuel true (Some d) n = Some r /\
     80 * sh_len r = 15 * Z.of_nat (List.length (sh_out r)) /\ 0 < sh_len r) /\
  (n <= 0 -> forall fp, exists r, memshow fuel fp (Some d) n = Some r /\ sh_out r = [] /\ sh_reads r = [] /\ sh_len r < 0) /\
  (forall fp, exists r, memshow fuel fp None n = Some r /\ sh_out r = [] /\ sh_reads r = [] /\ sh_len r < 0) /\
  (0 < n -> exists r, memshow fuel false (Some d) n = Some r /\ sh_out r = [] /\ sh_reads r = [] /\ sh_len r = 0).
Proof.
  intros d n fuel. split; [|split; [|split]].
  - intros Hn Hf. unfold memshow. destruct (Z.leb_spec n 0); [lia|].
    set (m := Z.to_nat ((n + 15) / 16)).
    assert (Hm : n <= (0 + Z.of_nat m) * 16 < n + 16) by (subst m; lia). clearbody m.
    rewrite (memshow_loop_eq m) by lia. eexists. split; [reflexivity|]. cbn [sh_out sh_len app]. rewrite lines_len. lia.
  - intros H fp. unfold memshow. destruct (Z.leb_spec n 0); [|lia]. eexists. split; [reflexivity|]. cbn. unfold EINVAL. auto with zarith.
  - intros fp. eexists. split; [reflexivity|]. cbn. unfold EINVAL. auto with zarith.
  - intros H. unfold memshow. destruct (Z.leb_spec n 0); [lia|]. eexists. split; [reflexivity|]. auto.
Qed.
Print Assumptions C118_dump_count_partial.

(** * C119 *)

(** The shown text is one line that reads back as the bytes shown. *)
Theorem C119_shown_bytes_round_trip : forall mem out out_len, mem <> [] -> Forall byte mem ->
  Z.of_nat (List.length mem) <= out_len ->
  exists t, fmembytes mem = t ++ [10] /\ ~ In 10 t /\
    forall fuel, (List.length t < fuel)%nat ->
    exists out', TextModel.strbytes2mem fuel t out out_len 44 = Some (TextModel.S2m out' true (Some (Z.of_nat (List.length mem)))) /\
      (forall i, (i < List.length mem)%nat -> out' (Z.of_nat i) = nth i mem 0) /\
      only_within 0 (Z.of_nat (List.length mem)) out out'.
Proof.
  intros mem out out_len N F L. exists (TextProofs.text 44 mem). unfold fmembytes. rewrite fmembytes_text by lia. split; [reflexivity|].
  pose proof (TextProofs.text_chars 44 mem F) as TC. split.
  { intros I. rewrite Forall_forall in TC. specialize (TC _ I). unfold number_char in TC. lia. }
  intros fuel Hf.
  assert (S : ~ number_char 44) by (unfold number_char; lia).
  assert (P : 1 <= TextModel.len mem) by (unfold TextModel.len; destruct mem; [congruence|cbn [List.length]; lia]).
  unfold TextModel.strbytes2mem. change (44 =? 0) with false. cbv iota. fold (TextModel.len mem) in *.
  destruct (Z.ltb_spec out_len 1); [lia|].
  rewrite TextProofs.check_text by auto. rewrite TextProofs.skip_sep_text by auto.
  destruct (TextProofs.s2m_text 44 mem S fuel out 0 out_len N F ltac:(lia) ltac:(lia) Hf) as (o & R & O & C).
  exists o. split; [exact R|]. split; [intros i Hi; exact (C i Hi)|exact O].
Qed.
Print Assumptions C119_shown_bytes_round_trip.

(** print_bytes: the bytes in hexadecimal, each followed by a blank, and the number of characters written. *)
Fixpoint spaced (t : list Z) : list Z := match t with c1 :: c2 :: r => c1 :: c2 :: 32 :: spaced r | _ => [] end.
Theorem C119_print_bytes : forall mem, Forall byte mem ->
  exists t, hex_of mem t /\ print_bytes mem = (spaced t, Z.of_nat (List.length (spaced t))).
Proof.
  induction mem as [|u mem IH]; intros F; [exists []; split; [constructor|reflexivity]|].
  inversion F as [|x y B Fr]; subst. destruct (IH Fr) as (t & H & E).
  destruct (hex2_vals u B) as (h & l & H1 & H2 & H3). unfold hex2 in H1, H2. cbn [nth] in H1, H2.
  exists (hex_digit (u / 16) :: hex_digit (u mod 16) :: t). split; [econstructor; eauto|].
  cbn [print_bytes]. rewrite E. unfold hex2. cbn [spaced app List.length]. f_equal. lia.
Qed.
Print Assumptions C119_print_bytes.

Example C119_ex : fmembytes [0xe8; 0; 0x1f] = str "0xe8,0x00,0x1f" ++ [10] /\ print_bytes [0xe8; 0x1f] = (str "e8 1f ", 6).
Proof. split; reflexivity. Qed.

(** * C120 *)
Theorem C120_file_shown_refuted : exists fuel f out n, fprint_file fuel f = Some (out, n) /\ out <> f.
Proof. exists 5%nat, [65; 0; 66]. do 2 eexists. split; [reflexivity|discriminate]. Qed.
Print Assumptions C120_file_shown_refuted.

(** A file without NUL bytes is shown exactly and the count is its size; through the descriptor this holds for every file. *)
Theorem C120_file_shown_partial : forall f,
  (forall fuel, (List.length f < fuel)%nat -> ~ In 0 f -> fprint_file fuel f = Some (f, Z.of_nat (List.length f))) /\
  fprint_fd f = (f, Z.of_nat (List.length f)).
Proof.
  intros f. split.
  - intros fuel H N. destruct (fprint_file_total fuel f H) as ((o & n) & E).
    destruct (fprint_file_exact fuel f o n N E) as (-> & ->). exact E.
  - induction f as [|c f IH]; [reflexivity|]. cbn [fprint_fd]. rewrite IH. f_equal. cbn [List.length]. lia.
Qed.
Print Assumptions C120_file_shown_partial.

Example C120_ex : fprint_file 100 (str "7f0000000000-7f0000001000 r-xp 00000000 08:01 12 /usr/lib/libc.so.6" ++ [10; 65]) =
  Some (str "7f0000000000-7f0000001000 r-xp 00000000 08:01 12 /usr/lib/libc.so.6" ++ [10; 65], 69).
Proof. vm_compute. reflexivity. Qed.

(** * C121 *)

(** The four magic bytes; the type field of the header. *)
Definition is_elf (f : list Z) : Prop := firstn 4 f = [127; 69; 76; 70].
Definition is_rel (f : list Z) : Prop := is_elf f /\ exists a b, nth_error f 16 = Some a /\ a + 256 * b = 1 /\ (nth_error f 17 = Some b \/ nth_error f 17 = None /\ b = 0).

Theorem C121_file_type : forall f fd s, Forall byte f -> f <> [] -> 0 < fd -> ~ In fd (o_fds s) ->
  exists t, ftype (Some f) fd true s = (t, s) /\
    (Z.testbit t 0 = true <-> is_elf f) /\ (Z.testbit t 1 = true <-> is_rel f) /\ (t = 0 <-> ~ is_elf f).
Proof.
  intros f fd s F N Hfd I. unfold ftype, mmap_file. cbn [negb andb].
  destruct (Z.leb_spec fd 0); [lia|]. change (0 =? 0) with true. cbn [negb andb].
  destruct (Z.eqb_spec (Z.of_nat (List.length f)) 0); [destruct f; [congruence|cbn [List.length] in *; lia]|]. cbn [orb mm_mem].
  exists (file_type_mem (mapped f)). split.
  { unfold munmap_file. cbn [o_fds o_heap mm_fd]. destruct s as [fds hp]. cbn [o_fds o_heap] in *. f_equal. f_equal; [|lia].
    cbn [remove]. destruct (Z.eq_dec fd fd); [|congruence]. apply notin_remove. auto. }
  assert (M : ehdr_magic_ok (mapped f) = true <-> is_elf f).
  { unfold ehdr_magic_ok, mapped, is_elf. change (Z.to_nat 0) with 0%nat. change (Z.to_nat 1) with 1%nat. change (Z.to_nat 2) with 2%nat.
    change (Z.to_nat 3) with 3%nat. destruct f as [|a [|b [|c [|d f]]]]; cbn [nth firstn]; split; intros H0; try discriminate;
    try (injection H0 as -> -> -> ->; reflexivity); repeat (apply andb_prop in H0; destruct H0 as [H0 ?]); try discriminate; try lia.
    f_equal; [lia|f_equal; [lia|f_equal; [lia|f_equal; lia]]]. }
  assert (R : is_elf f -> (mapped f 16 + 256 * mapped f 17 =? 1) = true <-> is_rel f).
  { intros E. unfold is_rel, mapped. change (Z.to_nat 16) with 16%nat. change (Z.to_nat 17) with 17%nat. split.
    - intros H0. apply Z.eqb_eq in H0. split; auto.
      destruct (nth_error f 16) as [a|] eqn:E16.
      + exists a. rewrite (nth_error_nth f 16 0 E16) in H0. exists (nth 17 f 0). split; [auto|]. split; [auto|].
        destruct (nth_error f 17) as [b|] eqn:E17; [left; rewrite (nth_error_nth f 17 0 E17); auto|right].
        apply nth_error_None in E17. rewrite nth_overflow by auto. auto.
      + apply nth_error_None in E16. rewrite !nth_overflow in H0 by lia. lia.
    - intros (_ & a & b & E16 & E1 & E17). rewrite (nth_error_nth f 16 0 E16). destruct E17 as [E17|(E17 & ->)].
      + rewrite (nth_error_nth f 17 0 E17). lia.
      + apply nth_error_None in E17. rewrite (nth_overflow f) by auto. lia. }
  unfold file_type_mem. destruct (ehdr_magic_ok (mapped f)) eqn:G.
  - assert (E : is_elf f) by (apply M; auto). specialize (R E). destruct (mapped f 16 + 256 * mapped f 17 =? 1).
    + split; [split; auto|]. split; [split; auto; intros; apply R; auto|]. split; [intros; discriminate|contradiction].
    + split; [split; auto|]. split; [split; [discriminate|intros H0; apply R in H0; discriminate]|]. split; [intros; discriminate|contradiction].
  - assert (E : ~ is_elf f) by (intros E; apply M in E; discriminate).
    split; [split; [discriminate|contradiction]|]. split; [split; [discriminate|intros (H0 & _); contradiction]|]. split; auto.
Qed.
Print Assumptions C121_file_type.

Example C121_ex : ftype (Some ([127; 69; 76; 70; 2; 1; 1; 0; 0; 0; 0; 0; 0; 0; 0; 0; 1; 0; 62; 0])) 3 true (Own [0; 1; 2] 0) = (3, Own [0; 1; 2] 0) /\
  ftype (Some (str "#!/bin/sh")) 3 true (Own [0; 1; 2] 0) = (0, Own [0; 1; 2] 0).
Proof. split; reflexivity. Qed.

(** * C122 *)
Theorem C122_failed_map_leaves_nothing_refuted :
  exists creat content fd trunc tok mok s s', mmap_file creat content fd trunc tok mok s = (None, s') /\ o_fds s' <> o_fds s.
Proof. exists false, (Some []), 3, 0, true, true, (Own [0; 1; 2] 0). eexists. split; [reflexivity|discriminate]. Qed.
Print Assumptions C122_failed_map_leaves_nothing_refuted.

(** The type of an empty file is not known, and asking for it leaves a descriptor open each time. *)
Theorem C122_ftype_empty_refuted : forall fd s, 0 < fd -> o_fds (snd (ftype (Some []) fd true s)) = fd :: o_fds s.
Proof. intros fd s H. unfold ftype, mmap_file. cbn [negb andb]. destruct (Z.leb_spec fd 0); [lia|]. reflexivity. Qed.
Print Assumptions C122_ftype_empty_refuted.

(** A mapping that succeeds and is undone leaves everything as it was; one refused because the file does not
    exist changes nothing, and one refused by open(2) leaves no descriptor. *)
Theorem C122_failed_map_leaves_nothing_partial : forall creat content fd trunc tok mok s, ~ In fd (o_fds s) ->
  (forall m s', mmap_file creat content fd trunc tok mok s = (Some m, s') -> munmap_file m s' = s) /\
  (creat = false -> content = None -> mmap_file creat content fd trunc tok mok s = (None, s)) /\
  (fd <= 0 -> exists s', mmap_file creat content fd trunc tok mok s = (None, s') /\ o_fds s' = o_fds s).
Proof.
  intros creat content fd trunc tok mok s I. split; [|split].
  - intros m s' H. unfold mmap_file in H.
    destruct (negb creat && match content with None => true | _ => false end); [discriminate|].
    destruct (fd <=? 0); [discriminate|]. destruct (negb (trunc =? 0) && negb tok); [discriminate|].
    match type of H with context [if ?b then _ else _] => destruct b; [destruct (_ || _); discriminate| destruct (_ || _); [discriminate|]] end ||
    destruct (_ || _); [discriminate|].
    all: injection H as <- <-; unfold munmap_file; cbn [o_fds o_heap mm_fd]; destruct s as [fds hp]; cbn [o_fds o_heap] in *;
      f_equal; [|lia]; cbn [remove]; destruct (Z.eq_dec fd fd); [|congruence]; apply notin_remove; auto.
  - intros -> ->. reflexivity.
  - intros H. unfold mmap_file. destruct (negb creat && match content with None => true | _ => false end); [eauto|].
    destruct (Z.leb_spec fd 0); [|lia]. eexists. split; reflexivity.
Qed.
Print Assumptions C122_failed_map_leaves_nothing_partial.

Example C122_ex : exists m s', mmap_file false (Some [1; 2; 3]) 3 0 true true (Own [0; 1; 2] 0) = (Some m, s') /\
  mm_size m = 3 /\ munmap_file m s' = Own [0; 1; 2] 0.
Proof. do 2 eexists. split; [reflexivity|]. split; reflexivity. Qed.
