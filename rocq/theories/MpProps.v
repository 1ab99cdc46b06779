(** Properties of reading and listing the memory map of a process. *)
From Coq Require Import ZArith String List Bool Lia ZifyBool ZifyNat.
From Verif Require Import Word WordLemmas Str RbModel RbSpec VmaModel VmaSpec VmaProps PrModel PrSpec PrProofs MpModel MpSpec MpProofs.
From Verif Require TextModel MiscModel ShModel.
Import ListNotations.
Open Scope Z_scope.

(** The mapping [v] of the tool says of [m] what the kernel says. *)
Definition shows_range (shift : Z) (m : mapping) (v : mvma) : Prop :=
  m_start v = p_start m /\ m_end v = p_end m /\ m_perms v = perms_of m /\ m_prot v = prot_of m /\
  m_pgoff v = p_off m / 2 ^ shift /\ m_major v = p_major m /\ m_minor v = p_minor m.
Definition shows (shift : Z) (m : mapping) (v : mvma) : Prop :=
  shows_range shift m v /\ m_inode v = p_inode m /\ m_name v = p_path m.

Lemma prot_perms m : vma_perms2prot (nth 0 (perms_of m) 0) (nth 1 (perms_of m) 0) (nth 2 (perms_of m) 0) = prot_of m.
Proof. unfold perms_of, flag, prot_of. destruct (p_r m), (p_w m), (p_x m), (p_shared m); reflexivity. Qed.

Lemma read_lines ms ls : Forall2 line_of ms ls -> Forall valid ms -> Forall (fun l => Z.of_nat (List.length l) < 1023) ls ->
  forall shift pid exe fuel, 0 <= shift -> (List.length ls < fuel)%nat ->
  exists vs, read_maps fuel shift pid exe (text_of ls) = Some (true, vs) /\
    Forall2 (fun m v => shows_range shift m v /\ m_inode v = Z.min (2 ^ 63 - 1) (p_inode m) /\
                        (forall w, first_word (p_path m) w -> m_name v = firstn (Z.to_nat 255) w) /\ m_type v = get_vma_type pid exe (m_name v)) ms vs.
Proof.
  intros F V L shift pid exe fuel Hs. revert V L fuel. induction F as [|m l ms ls H F IH]; intros V L fuel Hf.
  - destruct fuel as [|fuel]; [cbn in Hf; lia|]. exists []. split; [reflexivity|constructor].
  - destruct fuel as [|fuel]; [cbn in Hf; lia|]. inversion V as [|? ? Vm Vr]; subst. inversion L as [|? ? Lm Lr]; subst. cbn [List.length] in Hf.
    destruct (IH Vr Lr fuel ltac:(lia)) as (vs & E & Fv).
    destruct (first_word_exists (p_path m)) as (w & W).
    destruct (scan_line_text m l w Vm H W) as (r & Sc & R).
    eexists. split.
    + unfold text_of. cbn [flat_map]. fold (text_of ls). rewrite <- app_assoc. cbn [app].
      cbn [read_maps]. destruct (l ++ 10 :: text_of ls) eqn:E0; [destruct l; discriminate|]. rewrite <- E0. clear E0.
      rewrite fgets_line by (try (eapply line_no_nl; eassumption); lia). rewrite Sc. destruct (Z.leb_spec r 0); [lia|]. rewrite E. reflexivity.
    + constructor; [|exact Fv]. unfold shows_range, make_vma. cbn [m_start m_end m_perms m_prot m_pgoff m_major m_minor m_inode m_name m_type r_start r_end r_perms r_off r_major r_minor r_inode r_name].
      rewrite prot_perms, Z.shiftr_div_pow2 by lia. repeat split.
      intros w' W'. rewrite <- (word_first _ _ W'), <- (word_first _ _ W). reflexivity.
Qed.

Lemma no_blanks t : forallb (fun c => negb ((c =? 32) || ((9 <=? c) && (c <=? 13)))) t = true -> Forall (fun c => ~ blank c) t.
Proof. intros H. rewrite forallb_forall in H. apply Forall_forall. intros c I. specialize (H c I). unfold blank. lia. Qed.

Lemma F2_length {A B} (R : A -> B -> Prop) l r : Forall2 R l r -> List.length l = List.length r.
Proof. induction 1; cbn [List.length]; congruence. Qed.

(** * C137 *)
Definition ex_text (name : list Z) : list Z := str "00400000-00452000 r-xp 00001000 08:02 173521                             " ++ name.
Definition ex_map (inode : Z) (name : list Z) : mapping := Mp 4194304 4530176 true false true false 4096 8 2 inode name.
Lemma ex_line name : line_of (ex_map 173521 name) (ex_text name).
Proof.
  exists (str "00400000"), (str "00452000"), (str "00001000"), (str "08"), (str "02"), 28%nat.
  assert (F : forall t, forallb (fun c => (48 <=? c) && (c <=? 57)) t = true -> Forall hexchar t).
  { intros t H. rewrite forallb_forall in H. apply Forall_forall. intros c I. specialize (H c I). unfold hexchar. lia. }
  repeat (split; [split; [discriminate|split; [apply F; reflexivity|reflexivity]]|]).
  reflexivity.
Qed.
Definition ex_text2 (name : list Z) : list Z := str "00500000-00601000 rw-p 00000000 00:00 0 " ++ name.
Definition ex_map2 (name : list Z) : mapping := Mp 5242880 6295552 true true false false 0 0 0 0 name.
Lemma ex_line2 name : line_of (ex_map2 name) (ex_text2 name).
Proof.
  exists (str "00500000"), (str "00601000"), (str "00000000"), (str "00"), (str "00"), 0%nat.
  assert (F : forall t, forallb (fun c => (48 <=? c) && (c <=? 57)) t = true -> Forall hexchar t).
  { intros t H. rewrite forallb_forall in H. apply Forall_forall. intros c I. specialize (H c I). unfold hexchar. lia. }
  repeat (split; [split; [discriminate|split; [apply F; reflexivity|reflexivity]]|]).
  reflexivity.
Qed.
Lemma ex_valid inode name : 0 <= inode < 2 ^ 64 -> ~ In 10 name -> ~ In 0 name -> (forall c r, name = c :: r -> ~ blank c) -> valid (ex_map inode name).
Proof. intros I N1 N2 B. unfold valid, ex_map. cbn [p_start p_end p_off p_major p_minor p_inode p_path]. repeat (split; [lia|]). auto. Qed.

(** A file with a blank in its path; and an inode number from 2^63 up. *)
Theorem C137_map_read_refuted :
  (exists m l fuel shift pid exe v, valid m /\ line_of m l /\ (List.length l < 128)%nat /\ p_inode m < 2 ^ 32 /\
     read_maps fuel shift pid exe (text_of [l]) = Some (true, [v]) /\ ~ shows shift m v) /\
  (exists m l fuel shift pid exe v, valid m /\ line_of m l /\ (List.length l < 128)%nat /\ Forall (fun c => ~ blank c) (p_path m) /\
     read_maps fuel shift pid exe (text_of [l]) = Some (true, [v]) /\ ~ shows shift m v).
Proof.
  split.
  - exists (ex_map 173521 (str "/opt/My App/libfoo.so")), (ex_text (str "/opt/My App/libfoo.so")), 9%nat, 12, 77, (str "/bin/x"). eexists.
    split; [apply ex_valid; [lia|vm_compute; intuition discriminate|vm_compute; intuition discriminate|]|].
    { intros c r E. injection E as <- _. vm_compute. intuition (discriminate || lia). }
    split; [apply ex_line|]. split; [vm_compute; lia|]. split; [reflexivity|]. split; [vm_compute; reflexivity|].
    intros (_ & _ & H). vm_compute in H. discriminate.
  - exists (ex_map (2 ^ 63) (str "/bin/x")), (str "00400000-00452000 r-xp 00001000 08:02 9223372036854775808 " ++ str "/bin/x"), 9%nat, 12, 77, (str "/bin/x"). eexists.
    split; [apply ex_valid; [lia|vm_compute; intuition discriminate|vm_compute; intuition discriminate|]|].
    { intros c r E. injection E as <- _. vm_compute. intuition (discriminate || lia). }
    split.
    { exists (str "00400000"), (str "00452000"), (str "00001000"), (str "08"), (str "02"), 0%nat.
      assert (F : forall t, forallb (fun c => (48 <=? c) && (c <=? 57)) t = true -> Forall hexchar t).
      { intros t H. rewrite forallb_forall in H. apply Forall_forall. intros c I. specialize (H c I). unfold hexchar. lia. }
      repeat (split; [split; [discriminate|split; [apply F; reflexivity|reflexivity]]|]). reflexivity. }
    split; [vm_compute; lia|]. split; [apply no_blanks; reflexivity|]. split; [vm_compute; reflexivity|].
    intros (_ & H & _). vm_compute in H. discriminate.
Qed.
Print Assumptions C137_map_read_refuted.

(** Without blanks and long names, and with inode numbers below 2^63, the map is read as it is. *)
Theorem C137_map_read_partial : forall ms ls shift pid exe fuel,
  Forall2 line_of ms ls -> Forall valid ms -> Forall (fun l => Z.of_nat (List.length l) < 1023) ls -> 0 <= shift -> (List.length ls < fuel)%nat ->
  Forall (fun m => Forall (fun c => ~ blank c) (p_path m) /\ Z.of_nat (List.length (p_path m)) <= 255 /\ p_inode m < 2 ^ 63) ms ->
  exists vs, read_maps fuel shift pid exe (text_of ls) = Some (true, vs) /\ Forall2 (shows shift) ms vs.
Proof.
  intros ms ls shift pid exe fuel F V L Hs Hf N. destruct (read_lines ms ls F V L shift pid exe fuel Hs Hf) as (vs & E & G).
  exists vs. split; [exact E|]. clear F E L Hf. revert V N. induction G as [|m v ms vs (A & B & C & _) G IH]; intros V N; [constructor|].
  inversion V as [|? ? Vm Vr]; subst. inversion N as [|? ? (N1 & N2 & N3) Nr]; subst. constructor; [|auto].
  split; [exact A|]. split; [rewrite B; lia|]. rewrite (C (p_path m)); [apply firstn_all2; lia|]. split; [auto|left; reflexivity].
Qed.
Print Assumptions C137_map_read_partial.

Example C137_ex : exists vs, read_maps 9 12 77 (str "/bin/x") (text_of [ex_text (str "/bin/x"); str "7ffc0000-7ffd0000 rw-p 00000000 00:00 0 "; str "7fff0-80000 rw-s 0 0:0 0 [stack]"]) =
  Some (true, vs) /\ map m_name vs = [str "/bin/x"; []; str "[stack]"] /\ map m_prot vs = [5; 3; 3] /\ map m_pgoff vs = [1; 0; 0] /\ map m_type vs = [VMA_SELF; VMA_ANON; VMA_STACK].
Proof. eexists. split; [vm_compute; reflexivity|]. repeat split. Qed.

(** * C138 *)
(** A file that was deleted and replaced (as by an upgrade), and its replacement: the reading is the same. *)
Theorem C138_deleted_refuted : exists m1 m2 l1 l2 fuel shift pid exe v, valid m1 /\ valid m2 /\ line_of m1 l1 /\ line_of m2 l2 /\
  p_path m2 = p_path m1 ++ str " (deleted)" /\
  read_maps fuel shift pid exe (text_of [l1]) = Some (true, [v]) /\ read_maps fuel shift pid exe (text_of [l2]) = Some (true, [v]).
Proof.
  exists (ex_map 173521 (str "/lib/libc.so.6")), (ex_map 173521 (str "/lib/libc.so.6 (deleted)")), (ex_text (str "/lib/libc.so.6")), (ex_text (str "/lib/libc.so.6 (deleted)")), 9%nat, 12, 77, (str "/bin/x"). eexists.
  split; [apply ex_valid; [lia|vm_compute; intuition discriminate|vm_compute; intuition discriminate|]|].
  { intros c r E. injection E as <- _. vm_compute. intuition (discriminate || lia). }
  split; [apply ex_valid; [lia|vm_compute; intuition discriminate|vm_compute; intuition discriminate|]|].
  { intros c r E. injection E as <- _. vm_compute. intuition (discriminate || lia). }
  split; [apply ex_line|]. split; [apply ex_line|]. split; [reflexivity|]. split; vm_compute; reflexivity.
Qed.
Print Assumptions C138_deleted_refuted.

(** The name is always the first word of the path, at most 255 bytes of it; it is the path exactly if the path has no blanks
    and at most 255 bytes. *)
Theorem C138_deleted_partial : forall ms ls shift pid exe fuel,
  Forall2 line_of ms ls -> Forall valid ms -> Forall (fun l => Z.of_nat (List.length l) < 1023) ls -> 0 <= shift -> (List.length ls < fuel)%nat ->
  exists vs, read_maps fuel shift pid exe (text_of ls) = Some (true, vs) /\
    Forall2 (fun m v => shows_range shift m v /\ (forall w, first_word (p_path m) w -> m_name v = firstn (Z.to_nat 255) w) /\
      (m_name v = p_path m <-> Forall (fun c => ~ blank c) (p_path m) /\ Z.of_nat (List.length (p_path m)) <= 255)) ms vs.
Proof.
  intros ms ls shift pid exe fuel F V L Hs Hf. destruct (read_lines ms ls F V L shift pid exe fuel Hs Hf) as (vs & E & G).
  exists vs. split; [exact E|]. clear F E L Hf V. induction G as [|m v ms vs (A & B & C & _) G IH]; constructor; [|auto].
  split; [exact A|]. split; [exact C|]. split.
  - intros E. destruct (first_word_exists (p_path m)) as (w & W). pose proof (C w W) as Cw. rewrite E in Cw.
    pose proof (first_word_len _ _ W) as Lw. pose proof (firstn_le_length (Z.to_nat 255) w) as L2.
    assert (Lx : List.length (p_path m) = List.length (firstn (Z.to_nat 255) w)) by (rewrite <- Cw; reflexivity).
    rewrite firstn_length in Lx. split; [|lia]. destruct W as (Fw & _). rewrite Cw. apply Forall_forall. intros c I.
    rewrite Forall_forall in Fw. apply Fw. rewrite <- (firstn_skipn (Z.to_nat 255) w). apply in_app_iff. left. exact I.
  - intros (N1 & N2). rewrite (C (p_path m)); [apply firstn_all2; lia|]. split; [auto|left; reflexivity].
Qed.
Print Assumptions C138_deleted_partial.

Example C138_ex : first_word (str "/lib/libc.so.6 (deleted)") (str "/lib/libc.so.6").
Proof. split; [apply no_blanks; reflexivity|]. right. exists 32, (str "(deleted)"). split; [reflexivity|]. left. reflexivity. Qed.

(** * C139 *)
Lemma repeat_no (c d : Z) n : c <> d -> ~ In c (repeat d n).
Proof. intros N I. apply repeat_spec in I. auto. Qed.
Lemma ex_long d n tail : d <> 10 -> d <> 0 -> ~ In 10 tail -> ~ In 0 tail -> valid (ex_map 173521 (47 :: repeat d n ++ tail)).
Proof.
  intros N1 N2 T1 T2. apply ex_valid; [lia| | |].
  - intros [I|I]; [discriminate|]. apply in_app_iff in I. destruct I as [I|I]; [eapply repeat_no; [|exact I]; auto|auto].
  - intros [I|I]; [discriminate|]. apply in_app_iff in I. destruct I as [I|I]; [eapply repeat_no; [|exact I]; auto|auto].
  - intros c r E. injection E as <- _. unfold blank. lia.
Qed.
(** A path of about thousand bytes: either a second, wild mapping appears, or the map cannot be read at all. *)
Theorem C139_one_per_line_refuted :
  (exists m l fuel shift pid exe v v', valid m /\ line_of m l /\ read_maps fuel shift pid exe (text_of [l]) = Some (true, [v; v']) /\
     m_start v' = 2 ^ 64 - 1 /\ m_end v' = 0) /\
  (exists m l fuel shift pid exe v, valid m /\ line_of m l /\ read_maps fuel shift pid exe (text_of [l]) = Some (false, [v])).
Proof.
  split.
  - exists (ex_map 173521 (47 :: repeat 97 (Z.to_nat 999) ++ [])), (ex_text (47 :: repeat 97 (Z.to_nat 999) ++ [])), 9%nat, 12, 77, (str "/bin/x"). do 2 eexists.
    split; [apply ex_long; try discriminate; intros []|]. split; [apply ex_line|]. split; [vm_compute; reflexivity|]. split; reflexivity.
  - exists (ex_map 173521 (47 :: repeat 122 (Z.to_nat 999) ++ [])), (ex_text (47 :: repeat 122 (Z.to_nat 999) ++ [])), 9%nat, 12, 77, (str "/bin/x"). eexists.
    split; [apply ex_long; try discriminate; intros []|]. split; [apply ex_line|]. vm_compute. reflexivity.
Qed.
Print Assumptions C139_one_per_line_refuted.

(** If all lines are shorter than 1023 bytes there is one mapping for each line, in order, whatever the paths are. *)
Theorem C139_one_per_line_partial : forall ms ls shift pid exe fuel,
  Forall2 line_of ms ls -> Forall valid ms -> Forall (fun l => Z.of_nat (List.length l) < 1023) ls -> 0 <= shift -> (List.length ls < fuel)%nat ->
  exists vs, read_maps fuel shift pid exe (text_of ls) = Some (true, vs) /\ List.length vs = List.length ms /\
    Forall2 (fun m v => m_start v = p_start m /\ m_end v = p_end m) ms vs.
Proof.
  intros ms ls shift pid exe fuel F V L Hs Hf. destruct (read_lines ms ls F V L shift pid exe fuel Hs Hf) as (vs & E & G).
  exists vs. split; [exact E|]. split; [symmetry; eapply F2_length; exact G|].
  clear -G. induction G as [|m v ms vs ((A & B & _) & _) G IH]; constructor; auto.
Qed.
Print Assumptions C139_one_per_line_partial.

Example C139_ex : valid (ex_map 173521 (47 :: repeat 120 (Z.to_nat 940) ++ [])) /\ line_of (ex_map 173521 (47 :: repeat 120 (Z.to_nat 940) ++ [])) (ex_text (47 :: repeat 120 (Z.to_nat 940) ++ [])) /\
  Z.of_nat (List.length (ex_text (47 :: repeat 120 (Z.to_nat 940) ++ []))) < 1023.
Proof. split; [apply ex_long; try discriminate; intros []|]. split; [apply ex_line|]. vm_compute. reflexivity. Qed.

(** * C140 *)
(** The path of a file in the target is chosen so that what is behind the first 1023 bytes of its line is taken for addresses
    and a permission word of many bytes. *)
Theorem C140_buffers_refuted : exists m l fuel shift pid exe, valid m /\ line_of m l /\ (List.length [l] < fuel)%nat /\
  read_maps fuel shift pid exe (text_of [l]) = None.
Proof.
  exists (ex_map 173521 (47 :: repeat 97 (Z.to_nat 949) ++ str "1-1 AAAAAAAAAAAAAAAA")), (ex_text (47 :: repeat 97 (Z.to_nat 949) ++ str "1-1 AAAAAAAAAAAAAAAA")), 9%nat, 12, 77, (str "/bin/x").
  split; [apply ex_long; try discriminate; vm_compute; intuition discriminate|]. split; [apply ex_line|]. split; [vm_compute; lia|]. vm_compute. reflexivity.
Qed.
Print Assumptions C140_buffers_refuted.

Theorem C140_buffers_partial : forall ms ls shift pid exe fuel,
  Forall2 line_of ms ls -> Forall valid ms -> Forall (fun l => Z.of_nat (List.length l) < 1023) ls -> 0 <= shift -> (List.length ls < fuel)%nat ->
  read_maps fuel shift pid exe (text_of ls) <> None.
Proof.
  intros ms ls shift pid exe fuel F V L Hs Hf. destruct (read_lines ms ls F V L shift pid exe fuel Hs Hf) as (vs & E & _). rewrite E. discriminate.
Qed.
Print Assumptions C140_buffers_partial.

(** * C141 *)
(** Looking up addresses in the map as read from the text. *)
Definition info_of (addrs : list Z) (vs : list mvma) (a : Z) : vinfo :=
  match find (fun x => fst x =? a) (combine addrs vs) with Some x => vinfo_of (snd x) | None => Vi 0 0 [] end.
Lemma info_nth addrs vs i d : NoDup addrs -> List.length addrs = List.length vs -> (i < List.length vs)%nat ->
  info_of addrs vs (nth i addrs 0) = vinfo_of (nth i vs d).
Proof.
  intros N. revert vs i. unfold info_of. induction N as [|a addrs Na N IH]; intros [|v vs] i L H; cbn [List.length] in *; try lia.
  cbn [combine find fst]. destruct i as [|i]; cbn [nth]; [rewrite Z.eqb_refl; reflexivity|].
  destruct (Z.eqb_spec a (nth i addrs 0)) as [->|]; [exfalso; apply Na, nth_In; lia|]. apply IH; lia.
Qed.

Theorem C141_lookup_from_text : forall ms ls shift pid exe s addrs fuel,
  Forall2 line_of ms ls -> Forall valid ms -> Forall (fun l => Z.of_nat (List.length l) < 1023) ls -> 0 <= shift -> (List.length ls < fuel)%nat ->
  (forall m, In m ms -> p_start m < p_end m) ->
  (forall i j, (i < j < List.length ms)%nat -> forall d, p_end (nth i ms d) <= p_start (nth j ms d)) ->
  rootp (v_rb s) = 0 -> NoDup addrs -> List.length addrs = List.length ms -> allocated s addrs ->
  exists vs s', read_maps fuel shift pid exe (text_of ls) = Some (true, vs) /\ read_task_vmas fuel (info_of addrs vs) false s addrs = Some s' /\
    forall x, (forall i d, (i < List.length ms)%nat -> p_start (nth i ms d) <= x < p_end (nth i ms d) ->
                 find_vma fuel (info_of addrs vs) s' x = Some (nth i addrs 0) /\ vm_end (info_of addrs vs (nth i addrs 0)) = p_end (nth i ms d)) /\
              ((forall m, In m ms -> ~ p_start m <= x < p_end m) -> find_vma fuel (info_of addrs vs) s' x = Some 0).
Proof.
  intros ms ls shift pid exe s addrs fuel F V L Hs Hf Ne Srt R Nd La Al.
  destruct (read_lines ms ls F V L shift pid exe fuel Hs Hf) as (vs & E & G).
  pose proof (F2_length _ _ _ G) as Lv. pose proof (F2_length _ _ _ F) as Lf.
  assert (I : forall i, (i < List.length ms)%nat -> forall d, vm_start (info_of addrs vs (nth i addrs 0)) = p_start (nth i ms d) /\
                vm_end (info_of addrs vs (nth i addrs 0)) = p_end (nth i ms d)).
  { intros i Hi d. rewrite (info_nth addrs vs i (Mv 0 0 [] 0 0 0 0 0 [] VMA_NONE)) by (auto; lia). unfold vinfo_of. cbn [vm_start vm_end].
    clear -G Hi. revert i Hi. induction G as [|m v ms vs ((A & B & _) & _) G IH]; intros i Hi; cbn [List.length] in Hi; [lia|].
    destruct i as [|i]; cbn [nth]; [auto|]. apply IH. lia. }
  assert (Vn : forall i d, (i < List.length ms)%nat -> valid (nth i ms d)) by (intros i d Hi; rewrite Forall_forall in V; apply V, nth_In; auto).
  assert (dm : mapping) by exact (Mp 0 0 false false false false 0 0 0 0 []).
  assert (MM : memory_map (info_of addrs vs) addrs).
  { split; [|split; [exact Nd|]].
    - apply Forall_forall. intros a Ia. apply In_nth with (d := 0) in Ia. destruct Ia as (i & Hi & <-).
      destruct (I i ltac:(lia) dm) as (E1 & E2). unfold proper. rewrite E1, E2.
      destruct (Vn i dm ltac:(lia)) as (V1 & V2 & _). specialize (Ne (nth i ms dm) ltac:(apply nth_In; lia)). lia.
    - intros a b Ia Ib N. apply In_nth with (d := 0) in Ia. apply In_nth with (d := 0) in Ib. destruct Ia as (i & Hi & <-). destruct Ib as (j & Hj & <-).
      unfold disjoint. destruct (I i ltac:(lia) dm) as (E1 & E2), (I j ltac:(lia) dm) as (E3 & E4). rewrite E1, E2, E3, E4.
      destruct (Nat.lt_trichotomy i j) as [H|[->|H]]; [left; apply Srt; lia|congruence|right; apply Srt; lia]. }
  destruct (C08_lookup_exact (info_of addrs vs) s addrs fuel R MM Al ltac:(lia)) as (s' & E' & LE).
  exists vs, s'. split; [exact E|]. split; [exact E'|]. intros x. specialize (LE x). destruct LE as (a & Fa & D). split.
  - intros i d Hi Hx. destruct (I i Hi d) as (E1 & E2). split; [|exact E2]. rewrite Fa. f_equal.
    destruct D as [(Ia & Ca)|(-> & Nc)].
    + destruct (Z.eq_dec a (nth i addrs 0)) as [|N]; [auto|]. exfalso. destruct MM as (_ & _ & Dj).
      specialize (Dj a (nth i addrs 0) Ia ltac:(apply nth_In; lia) N). unfold disjoint, covers in *. lia.
    + exfalso. apply (Nc (nth i addrs 0)); [apply nth_In; lia|]. unfold covers. lia.
  - intros H. rewrite Fa. f_equal. destruct D as [(Ia & Ca)|(-> & _)]; [|reflexivity]. exfalso.
    apply In_nth with (d := 0) in Ia. destruct Ia as (i & Hi & <-). destruct (I i ltac:(lia) dm) as (E1 & E2). unfold covers in Ca. rewrite E1, E2 in Ca.
    apply (H (nth i ms dm)); [apply nth_In; lia|]. exact Ca.
Qed.
Print Assumptions C141_lookup_from_text.

Definition ex_lines : list (list Z) := [ex_text (str "/bin/x"); ex_text2 (str "[heap]")].
Example C141_ex : Forall2 line_of [ex_map 173521 (str "/bin/x"); ex_map2 (str "[heap]")] ex_lines /\ Forall valid [ex_map 173521 (str "/bin/x"); ex_map2 (str "[heap]")] /\
  rootp (v_rb ex_root) = 0 /\ NoDup [16; 32] /\ allocated ex_root [16; 32] /\
  match read_maps 4 12 77 (str "/bin/x") (text_of ex_lines) with
  | Some (true, vs) => match read_task_vmas 4 (info_of [16; 32] vs) false ex_root [16; 32] with
      | Some s => find_vma 4 (info_of [16; 32] vs) s 4530175 = Some 16 /\ find_vma 4 (info_of [16; 32] vs) s 4530176 = Some 0 /\ find_vma 4 (info_of [16; 32] vs) s 5242880 = Some 32
      | None => False
      end
  | _ => False
  end.
Proof.
  split; [repeat constructor; [apply ex_line|apply ex_line2]|].
  split.
  { constructor; [|constructor; [|constructor]].
    - apply ex_valid; [lia|vm_compute; intuition discriminate|vm_compute; intuition discriminate|].
      intros c r E. injection E as <- _. vm_compute. intuition (discriminate || lia).
    - unfold valid, ex_map2. cbn [p_start p_end p_off p_major p_minor p_inode p_path]. repeat (split; [lia|]).
      split; [vm_compute; intuition discriminate|]. split; [vm_compute; intuition discriminate|].
      intros c r E. injection E as <- _. vm_compute. intuition (discriminate || lia). }
  split; [reflexivity|]. split; [repeat constructor; cbn; intuition discriminate|].
  split; [pose proof ex_alloc as A; inversion A as [|? ? A1 A2]; subst; inversion A2 as [|? ? A3 A4]; subst; repeat (constructor; [assumption|]); constructor|].
  vm_compute. auto.
Qed.

(** * C142 *)
Theorem C142_page_size : forall k, 0 < k < 31 -> forall g, g = Pg 0 0 \/ g = Pg (2 ^ k) 0 \/ g = Pg (2 ^ k) k ->
  fst (ulp_page_size (2 ^ k) g) = 2 ^ k /\ ulp_page_shift (2 ^ k) g = Some (k, Pg (2 ^ k) k).
Proof.
  intros k K g G.
  assert (P : 2 ^ k <> 0) by (apply Z.pow_nonzero; lia).
  assert (SL : forall n t, 0 <= t <= k -> (k - t < Z.of_nat n) -> shift_loop n t (2 ^ k) = Some k).
  { induction n as [|n IH]; intros t Ht Hn; [lia|]. cbn [shift_loop]. destruct (Z.eqb_spec (2 ^ t) (2 ^ k)) as [E|E].
    - f_equal. apply Z.pow_inj_r in E; lia.
    - apply IH; [|lia]. assert (t <> k) by congruence. lia. }
  assert (S64 : shift_loop 64 0 (2 ^ k) = Some k) by (apply SL; lia).
  destruct G as [->|[->| ->]]; unfold ulp_page_shift, ulp_page_size; cbn [g_size g_shift fst].
  - cbn [Z.eqb g_size g_shift fst]. rewrite S64. split; reflexivity.
  - destruct (Z.eqb_spec (2 ^ k) 0); [contradiction|]. cbn [g_size g_shift fst Z.eqb]. rewrite S64. split; reflexivity.
  - destruct (Z.eqb_spec (2 ^ k) 0); [contradiction|]. cbn [g_size g_shift fst]. destruct (Z.eqb_spec k 0); [lia|]. split; reflexivity.
Qed.
Print Assumptions C142_page_size.

Example C142_ex : ulp_page_shift 65536 (Pg 0 0) = Some (16, Pg 65536 16).
Proof. vm_compute. reflexivity. Qed.

(** * C143 *)
(** What can be listed: a permission word of four characters, a name without newline. *)
Definition listable (x : MpModel.shown) : Prop :=
  let v := s_vma x in
  0 <= m_start v < 2 ^ 64 /\ 0 <= m_end v < 2 ^ 64 /\ List.length (m_perms v) = 4%nat /\ ~ In 10 (m_perms v) /\ 0 <= s_voffset x < 2 ^ 64 /\ ~ In 10 (m_name v).
(** What a listing tells about a mapping. *)
Definition told (shift : Z) (x : MpModel.shown) :=
  let v := s_vma x in
  (m_type v, m_start v, m_end v, m_perms v, (s_elf x, s_lib x, s_phdr x, s_leader x), u64 (Z.shiftl (m_pgoff v) shift), s_voffset x, m_name v).

Definition line1 (x : MpModel.shown) : list Z :=
  let v := s_vma x in let role (b : bool) (c : string) := if b then str c else str "-" in
  pad 10 (vma_type_name (m_type v)) ++ str ": " ++ hex16 (m_start v) ++ str "-" ++ hex16 (m_end v) ++ [32] ++ pad 6 (m_perms v) ++ [32]
    ++ role (s_elf x) "E"%string ++ role (s_lib x) "S"%string ++ role (s_phdr x) "P"%string ++ role (s_leader x) "L"%string.
Definition line2 (shift : Z) (x : MpModel.shown) : list Z :=
  let v := s_vma x in pad 11 [] ++ [32] ++ hex16 (u64 (Z.shiftl (m_pgoff v) shift)) ++ [32] ++ hex16 (s_voffset x) ++ [32] ++ m_name v.
Lemma print_lines shift x : print_vma shift false x = line1 x ++ [10] ++ line2 shift x ++ [10].
Proof. unfold print_vma, line1, line2. do 30 (rewrite <- ?app_assoc; cbn [app]). reflexivity. Qed.

Lemma hex16_no_nl v : ~ In 10 (hex16 v).
Proof.
  intros I. unfold hex16 in I. apply in_map_iff in I. destruct I as (k & E & _). unfold TextModel.hex_digit in E.
  pose proof (Z.mod_pos_bound (v / 16 ^ k) 16 ltac:(lia)) as B. revert E B. generalize (v / 16 ^ k mod 16). intros d E B. destruct (d <? 10); lia.
Qed.
Lemma pad_no_nl n t : ~ In 10 t -> ~ In 10 (pad n t).
Proof. intros H I. unfold pad in I. apply in_app_iff in I. destruct I as [I|I]; [apply repeat_spec in I; discriminate|auto]. Qed.
Lemma line1_no_nl x : listable x -> ~ In 10 (line1 x).
Proof.
  intros (_ & _ & _ & N & _) I. unfold line1 in I. rewrite !in_app_iff in I.
  repeat match type of I with _ \/ _ => destruct I as [I|I] end; try (eapply hex16_no_nl; exact I); try (revert I; apply pad_no_nl; auto).
  - destruct (m_type (s_vma x)); vm_compute; intuition discriminate.
  - vm_compute in I. intuition discriminate.
  - vm_compute in I. intuition discriminate.
  - destruct I as [I|[]]; discriminate.
  - destruct I as [I|[]]; discriminate.
  - destruct (s_elf x); vm_compute in I; intuition discriminate.
  - destruct (s_lib x); vm_compute in I; intuition discriminate.
  - destruct (s_phdr x); vm_compute in I; intuition discriminate.
  - destruct (s_leader x); vm_compute in I; intuition discriminate.
Qed.
Lemma line2_no_nl shift x : listable x -> ~ In 10 (line2 shift x).
Proof.
  intros (_ & _ & _ & _ & _ & N) I. unfold line2 in I. rewrite !in_app_iff in I.
  repeat match type of I with _ \/ _ => destruct I as [I|I] end; try (eapply hex16_no_nl; exact I); try (revert I; apply pad_no_nl; auto); auto;
  destruct I as [I|[]]; discriminate.
Qed.
Lemma split_nl a b r s : ~ In 10 a -> ~ In 10 b -> a ++ 10 :: r = b ++ 10 :: s -> a = b /\ r = s.
Proof.
  revert b. induction a as [|x a IH]; intros [|y b] Na Nb E; cbn [app In] in *.
  - injection E as <-. auto.
  - injection E as <- _. exfalso. auto.
  - injection E as -> _. exfalso. auto.
  - injection E as <- E. destruct (IH b ltac:(auto) ltac:(auto) E) as (-> & ->). auto.
Qed.
Lemma app_len_inj {A} (a b c d : list A) : List.length a = List.length b -> a ++ c = b ++ d -> a = b /\ c = d.
Proof.
  revert b. induction a as [|x a IH]; intros [|y b] L E; cbn [List.length app] in *; try lia; [auto|].
  injection E as <- E. destruct (IH b ltac:(lia) E) as (-> & ->). auto.
Qed.
Lemma app_len_inj_r {A} (a b c d : list A) : List.length c = List.length d -> a ++ c = b ++ d -> a = b /\ c = d.
Proof.
  intros L E. apply app_len_inj; [|exact E]. apply (f_equal (@List.length _)) in E. rewrite !app_length in E. lia.
Qed.
Lemma told_lines shift x y : listable x -> listable y -> line1 x = line1 y -> line2 shift x = line2 shift y -> told shift x = told shift y.
Proof.
  intros (S1 & E1 & P1 & _ & V1 & _) (S2 & E2 & P2 & _ & V2 & _) A B. unfold line1 in A. unfold line2 in B.
  assert (U : forall z, 0 <= u64 z < 2 ^ 64) by (intros z; unfold u64, wrap; apply Z.mod_pos_bound; lia).
  apply app_len_inj_r in A.
  2: { rewrite !app_length, !hex16_len. unfold pad. rewrite !app_length, !repeat_length, P1, P2.
       destruct (s_elf x), (s_lib x), (s_phdr x), (s_leader x), (s_elf y), (s_lib y), (s_phdr y), (s_leader y); reflexivity. }
  destruct A as (T & A). apply app_len_inj in A; [|reflexivity]. destruct A as (_ & A).
  apply app_len_inj in A; [|reflexivity]. destruct A as (A1 & A). apply app_len_inj in A; [|reflexivity]. destruct A as (_ & A).
  apply app_len_inj in A; [|reflexivity]. destruct A as (A2 & A). apply app_len_inj in A; [|reflexivity]. destruct A as (_ & A).
  apply app_len_inj in A; [|unfold pad; rewrite !app_length, !repeat_length, P1, P2; reflexivity]. destruct A as (A3 & A).
  apply app_len_inj in A; [|reflexivity]. destruct A as (_ & A).
  apply app_len_inj in B; [|reflexivity]. destruct B as (_ & B). apply app_len_inj in B; [|reflexivity]. destruct B as (_ & B).
  apply app_len_inj in B; [|reflexivity]. destruct B as (B1 & B). apply app_len_inj in B; [|reflexivity]. destruct B as (_ & B).
  apply app_len_inj in B; [|reflexivity]. destruct B as (B2 & B). apply app_len_inj in B; [|reflexivity]. destruct B as (_ & B3).
  unfold told. apply hex16_inj in A1, A2, B1, B2; auto. unfold pad in A3. rewrite P1, P2 in A3. apply app_inv_head in A3.
  assert (T' : m_type (s_vma x) = m_type (s_vma y)).
  { clear -T. destruct (m_type (s_vma x)), (m_type (s_vma y)); try reflexivity; vm_compute in T; discriminate. }
  rewrite T', A1, A2, A3, B1, B2, B3.
  replace (s_elf x, s_lib x, s_phdr x, s_leader x) with (s_elf y, s_lib y, s_phdr y, s_leader y); [reflexivity|].
  destruct (s_elf x), (s_lib x), (s_phdr x), (s_leader x), (s_elf y), (s_lib y), (s_phdr y), (s_leader y); try reflexivity; vm_compute in A; discriminate.
Qed.

Theorem C143_listing_tells : forall shift xs ys, Forall listable xs -> Forall listable ys ->
  print_vma_root shift xs = print_vma_root shift ys -> map (told shift) xs = map (told shift) ys.
Proof.
  intros shift xs ys Fx Fy E. unfold print_vma_root in E.
  set (tail := [10] ++ str "(E)ELF, (S)SharedLib, (P)MatchPhdr, (L)Leader" ++ [10]) in E.
  assert (HD : exists h, (List.length h = Z.to_nat 109)%nat /\ forall x, print_vma shift true x = h ++ print_vma shift false x).
  { exists (pad 10 (str "TYPE") ++ str ": " ++ pad 16 (str "Start") ++ [32] ++ pad 16 (str "End") ++ [32] ++ pad 6 (str "Perm") ++ [32]
                 ++ pad 4 (str "Role") ++ [10] ++ pad 11 [] ++ [32] ++ pad 16 (str "off") ++ [32] ++ pad 16 (str "Voffset") ++ [32] ++ str "Name" ++ [10]).
    split; [vm_compute; reflexivity|]. intros x. reflexivity. }
  destruct HD as (h & Lh & HD).
  assert (N : forall ls, Forall listable ls -> forall z, flat_map (print_vma shift false) ls ++ tail <> [] /\ (forall x r, ls = x :: r -> flat_map (print_vma shift false) ls ++ z = line1 x ++ 10 :: line2 shift x ++ 10 :: flat_map (print_vma shift false) r ++ z)).
  { intros ls _ z. split; [intros X; apply app_eq_nil in X; destruct X as (_ & X); discriminate X|]. intros x r ->. cbn [flat_map]. rewrite print_lines.
    do 5 (rewrite <- ?app_assoc; cbn [app]). reflexivity. }
  assert (G : forall xs ys, Forall listable xs -> Forall listable ys -> flat_map (print_vma shift false) xs ++ tail = flat_map (print_vma shift false) ys ++ tail -> map (told shift) xs = map (told shift) ys).
  { clear xs ys Fx Fy E. intros xs ys Fx. revert ys. induction Fx as [|x xs Hx Fx IH]; intros [|y ys] Fy E.
    - reflexivity.
    - exfalso. inversion Fy as [|? ? Hy Fy']; subst. rewrite (proj2 (N (y :: ys) Fy tail) y ys eq_refl) in E. cbn [flat_map app] in E.
      unfold tail at 1 in E. change ([10] ++ ?z) with ([] ++ 10 :: z) in E. apply split_nl in E; [|intros []|apply line1_no_nl; auto].
      destruct E as (E & _). unfold line1 in E. destruct (m_type (s_vma y)); discriminate E.
    - exfalso. rewrite (proj2 (N (x :: xs) (Forall_cons _ Hx Fx) tail) x xs eq_refl) in E. cbn [flat_map app] in E.
      unfold tail at 2 in E. change ([10] ++ ?z) with ([] ++ 10 :: z) in E. apply split_nl in E; [|apply line1_no_nl; auto|intros []].
      destruct E as (E & _). unfold line1 in E. destruct (m_type (s_vma x)); discriminate E.
    - inversion Fy as [|? ? Hy Fy']; subst. rewrite (proj2 (N (x :: xs) (Forall_cons _ Hx Fx) tail) x xs eq_refl), (proj2 (N (y :: ys) Fy tail) y ys eq_refl) in E.
      apply split_nl in E; [|apply line1_no_nl; auto|apply line1_no_nl; auto]. destruct E as (L1 & E).
      apply split_nl in E; [|apply line2_no_nl; auto|apply line2_no_nl; auto]. destruct E as (L2 & E).
      cbn [map]. f_equal; [apply told_lines; auto|]. apply IH; auto. }
  destruct xs as [|x xs], ys as [|y ys].
  - reflexivity.
  - exfalso. apply (f_equal (@List.length _)) in E. rewrite HD, !app_length, Lh in E. cbn [List.length] in E. lia.
  - exfalso. apply (f_equal (@List.length _)) in E. rewrite HD, !app_length, Lh in E. cbn [List.length] in E. lia.
  - apply G; auto. rewrite !HD, <- !app_assoc in E. apply app_inv_head in E. cbn [flat_map]. rewrite <- !app_assoc. exact E.
Qed.
Print Assumptions C143_listing_tells.

(** The offset told is the one in the file if that is a multiple of the page size. *)
Theorem C143_offset : forall shift pid exe r, 0 <= shift -> 0 <= r_off r < 2 ^ 64 -> r_off r mod 2 ^ shift = 0 ->
  u64 (Z.shiftl (m_pgoff (make_vma shift pid exe r)) shift) = r_off r.
Proof.
  intros shift pid exe r S O M. unfold make_vma. cbn [m_pgoff]. rewrite Z.shiftr_div_pow2, Z.shiftl_mul_pow2 by lia.
  rewrite Z.mul_comm. pose proof (Z.div_mod (r_off r) (2 ^ shift) ltac:(apply Z.pow_nonzero; lia)) as D. rewrite M, Z.add_0_r in D. rewrite <- D.
  unfold u64. apply wrap_id. lia.
Qed.
Print Assumptions C143_offset.

Example C143_ex : exists vs, read_maps 9 12 77 (str "/bin/x") (text_of [ex_text (str "/bin/x"); str "7fff0-80000 rw-s 0 0:0 0 [stack]"]) = Some (true, vs) /\
  Forall listable (map (fun v => Sv v true false true false 4096) vs).
Proof.
  eexists. split; [vm_compute; reflexivity|]. repeat constructor; vm_compute; intuition discriminate.
Qed.
