(** The C library of a process is found: C190. *)
From Coq Require Import ZArith String List Bool Lia.
From Verif Require Import Word WordLemmas Str VmaModel PrSpec PrProofs MpModel MpSpec MpProofs MpProps LbModel LbSpec.
Import ListNotations.
Open Scope Z_scope.

Lemma no_slash_split (p : list Z) : ~ In 47 p \/ exists d b, p = d ++ 47 :: b /\ ~ In 47 b.
Proof.
  induction p as [|c p [N|(d & b & -> & N)]]; [left; intros []| |].
  - destruct (Z.eq_dec c 47) as [->|Nc]; [right; exists [], p; auto|left; intros [E|E]; auto].
  - right. exists (c :: d), b. auto.
Qed.

(** Paths as the kernel has them do not end with a slash. *)
Lemma base_last p : (forall d, p <> d ++ [47]) -> p <> [] -> last_component p (basename p).
Proof.
  intros H Hn. destruct (no_slash_split p) as [N|(d & b & -> & N)].
  - rewrite basename_noslash by auto. split; [auto|]. split; [auto|]. left. reflexivity.
  - assert (b <> []) by (intros ->; apply (H d); reflexivity). rewrite basename_app by auto.
    split; [auto|]. split; [auto|]. right. exists d. reflexivity.
Qed.
Lemma last_fun p b b' : last_component p b -> last_component p b' -> b = b'.
Proof.
  assert (X : forall q b, last_component q b -> basename q = b).
  { intros q c (A & B & [->|(d & ->)]); [apply basename_noslash|apply basename_app]; auto. }
  intros A B. rewrite <- (X _ _ A). apply X, B.
Qed.

Lemma libc_char pid exe p : (forall d, p <> d ++ [47]) ->
  is_libc (get_vma_type pid exe p) = true <-> p <> exe /\ exists b, last_component p b /\ libc_name b.
Proof.
  intros H. unfold get_vma_type. destruct (str_eqb p exe) eqn:E.
  { apply str_eqb_eq in E. split; [discriminate|intros [N _]; congruence]. }
  assert (Ne : p <> exe) by (intros ->; rewrite str_eqb_refl in E; discriminate).
  set (q := prefixb (str "libc.so") (basename p) || prefixb (str "libssp") (basename p) || prefixb (str "libc-") (basename p)).
  assert (Q : q = true <-> libc_name (basename p)).
  { unfold q. rewrite !orb_true_iff, !prefixb_iff. unfold libc_name. split.
    - intros [[(r & E1)|(r & E1)]|(r & E1)]; eexists _, r; (split; [|exact E1]); cbn [In]; auto.
    - intros (x & r & [<-|[<-|[<-|[]]]] & E1); eauto. }
  split.
  - intros K. split; auto. assert (Qt : q = true).
    { destruct q; auto. exfalso. revert K. repeat (match goal with |- context [if ?b then _ else _] => destruct b end; try discriminate). }
    exists (basename p). split; [|apply Q, Qt]. apply base_last; auto. intros ->. vm_compute in Qt. discriminate.
  - intros (_ & b & Lb & Nb). assert (Pn : p <> []). { intros ->. destruct Lb as (A & B & [C|(d & C)]); [congruence|destruct d; discriminate]. }
    rewrite (last_fun _ _ _ Lb (base_last p H Pn)) in Nb. apply Q in Nb. rewrite Nb. reflexivity.
Qed.

Lemma stack_char pid exe p : is_stack (get_vma_type pid exe p) = true <-> p <> exe /\ p = str "[stack]".
Proof.
  unfold get_vma_type. destruct (str_eqb p exe) eqn:E.
  { apply str_eqb_eq in E. split; [discriminate|intros [N _]; congruence]. }
  assert (Ne : p <> exe) by (intros ->; rewrite str_eqb_refl in E; discriminate).
  split.
  - intros K. split; auto. destruct (str_eqb p (str "[stack]")) eqn:S; [apply str_eqb_eq; exact S|]. exfalso. revert K.
    repeat (match goal with |- context [if ?b then _ else _] => destruct b end; try discriminate).
  - intros [_ ->]. reflexivity.
Qed.

Lemma exec_char m : negb (Z.land (prot_of m) PROT_EXEC =? 0) = p_x m.
Proof. unfold prot_of. destruct (p_r m), (p_w m), (p_x m); reflexivity. Qed.

(** The first mapping with a property, through [find]. *)
Lemma roots_find vs : find_roots vs = (find (fun v => is_libc (m_type v) && negb (Z.land (m_prot v) PROT_EXEC =? 0)) vs, find (fun v => is_stack (m_type v)) vs).
Proof.
  unfold find_roots.
  assert (G : forall l s, fold_left note_vma vs (l, s) =
    (match l with Some _ => l | None => find (fun v => is_libc (m_type v) && negb (Z.land (m_prot v) PROT_EXEC =? 0)) vs end,
     match s with Some _ => s | None => find (fun v => is_stack (m_type v)) vs end)).
  { induction vs as [|v vs IH]; intros l s; [destruct l, s; reflexivity|]. cbn [fold_left find]. unfold note_vma at 2. rewrite IH.
    destruct l, s, (is_libc (m_type v) && negb (Z.land (m_prot v) PROT_EXEC =? 0)), (is_stack (m_type v)); reflexivity. }
  apply G.
Qed.

Lemma find_first {A B} (R : A -> B -> Prop) (P : A -> Prop) (f : B -> bool) ms vs : Forall2 R ms vs ->
  (forall m v, In m ms -> R m v -> (f v = true <-> P m)) ->
  match find f vs with
  | Some v => exists m, first_with P ms m /\ R m v
  | None => forall m, In m ms -> ~ P m
  end.
Proof.
  induction 1 as [|m v ms vs H F IH]; intros E; [intros m []|]. cbn [find]. destruct (f v) eqn:Fv.
  - exists m. split; [|exact H]. exists [], ms. split; [reflexivity|]. split; [apply (E m v); auto; left; auto|intros y []].
  - assert (N : ~ P m) by (intros Q; apply (E m v) in Q; [congruence|left; auto|auto]).
    assert (E' : forall m v, In m ms -> R m v -> (f v = true <-> P m)) by (intros; apply E; auto; right; auto).
    specialize (IH E'). destruct (find f vs) as [u|].
    + destruct IH as (x & (L & T & -> & Px & Q) & Rx). exists x. split; [|exact Rx]. exists (m :: L), T. split; [reflexivity|]. split; auto.
      intros y [<-|Hy]; auto.
    + intros y [<-|Hy]; auto.
Qed.

(** * C190 *)

(** What the kernel shows and can be read as it is (C137); paths do not end with a slash. *)
Definition plain_map (ms : list mapping) (ls : list (list Z)) : Prop :=
  Forall2 line_of ms ls /\ Forall valid ms /\ Forall (fun l => Z.of_nat (List.length l) < 1023) ls /\
  Forall (fun m => Forall (fun c => ~ blank c) (p_path m) /\ Z.of_nat (List.length (p_path m)) <= 255 /\ forall d, p_path m <> d ++ [47]) ms.

Definition at_mapping (m : mapping) (v : mvma) : Prop := m_start v = p_start m /\ m_end v = p_end m /\ m_name v = p_path m.

(** The choice, exactly: the first executable mapping in the order of the map, other than of
    the executable, whose file has a name that starts with libc.so, libssp or libc-; and the
    first one called [stack].  If one of them is missing the process is refused. *)
Theorem C190_choice_partial : forall ms ls shift pid exe fuel, plain_map ms ls -> 0 <= shift -> (List.length ls < fuel)%nat ->
  exists r, open_roots fuel shift pid exe (text_of ls) = Some r /\
    match r with
    | Some (l, s) => exists ml mst, first_with (like_libc exe) ms ml /\ at_mapping ml l /\ first_with (stack_of exe) ms mst /\ at_mapping mst s
    | None => (forall m, In m ms -> ~ like_libc exe m) \/ (forall m, In m ms -> ~ stack_of exe m)
    end.
Proof.
  intros ms ls shift pid exe fuel (F & V & L & N) Hs Hf. destruct (read_lines ms ls F V L shift pid exe fuel Hs Hf) as (vs & E & G).
  unfold open_roots. rewrite E, roots_find.
  set (R := fun m v => shows_range shift m v /\ m_inode v = Z.min (2 ^ 63 - 1) (p_inode m) /\
                        (forall w, first_word (p_path m) w -> m_name v = firstn (Z.to_nat 255) w) /\ m_type v = get_vma_type pid exe (m_name v)) in G.
  assert (Nm : forall m v, In m ms -> R m v -> m_name v = p_path m).
  { intros m v Hm (_ & _ & C & _). rewrite Forall_forall in N. destruct (N m Hm) as (N1 & N2 & _).
    rewrite (C (p_path m)); [apply firstn_all2; lia|]. split; [auto|left; reflexivity]. }
  assert (At : forall m v, In m ms -> R m v -> at_mapping m v).
  { intros m v Hm Rm. split; [apply Rm|]. split; [apply Rm|]. apply Nm; auto. }
  assert (Inf : forall P m, first_with P ms m -> In m ms) by (intros P m (A & B & -> & _); apply in_elt).
  assert (X1 : forall m v, In m ms -> R m v -> (is_libc (m_type v) && negb (Z.land (m_prot v) PROT_EXEC =? 0) = true <-> like_libc exe m)).
  { intros m v Hm Rm. pose proof (Nm m v Hm Rm) as En. destruct Rm as ((_ & _ & _ & Ep & _) & _ & _ & Et). rewrite Et, En, Ep, exec_char, andb_true_iff.
    rewrite Forall_forall in N. rewrite libc_char by (apply (N m Hm)). unfold like_libc. tauto. }
  assert (X2 : forall m v, In m ms -> R m v -> (is_stack (m_type v) = true <-> stack_of exe m)).
  { intros m v Hm Rm. pose proof (Nm m v Hm Rm) as En. destruct Rm as (_ & _ & _ & Et). rewrite Et, En. apply stack_char. }
  pose proof (find_first R _ _ _ _ G X1) as Y1. pose proof (find_first R _ _ _ _ G X2) as Y2.
  destruct (find _ vs) as [l|]; [|eexists; split; [reflexivity|left; exact Y1]].
  destruct (find _ vs) as [s|]; [|eexists; split; [reflexivity|right; exact Y2]].
  eexists. split; [reflexivity|]. destruct Y1 as (ml & A1 & A2), Y2 as (mst & B1 & B2). exists ml, mst. eauto 8.
Qed.
Print Assumptions C190_choice_partial.

(** If the only files with such names are C libraries, one of them is found, and a process
    that has one and a stack is not refused.
    Missing: other files of such names (false), C libraries of other names. *)
Theorem C190_library_partial : forall ms ls shift pid exe fuel, plain_map ms ls -> 0 <= shift -> (List.length ls < fuel)%nat ->
  (exists m, In m ms /\ c_library m /\ p_path m <> exe) -> (exists m, In m ms /\ stack_of exe m) ->
  (forall m, In m ms -> like_libc exe m -> c_library m) ->
  exists l s, open_roots fuel shift pid exe (text_of ls) = Some (Some (l, s)) /\ exists m, In m ms /\ c_library m /\ at_mapping m l.
Proof.
  intros ms ls shift pid exe fuel P Hs Hf (c & C1 & C2 & C3) (k & K1 & K2) O.
  destruct (C190_choice_partial ms ls shift pid exe fuel P Hs Hf) as (r & E & D). destruct r as [[l s]|].
  - exists l, s. split; [exact E|]. destruct D as (ml & mst & (L & R & -> & Pm & _) & A & _). exists ml.
    split; [apply in_elt|]. split; [apply O; [apply in_elt|exact Pm]|exact A].
  - exfalso. destruct D as [D|D]; [|exact (D k K1 K2)]. apply (D c C1). destruct C2 as [X Lc]. split; [exact X|]. split; [exact C3|].
    exists (str "libc.so.6"). split; [exact Lc|]. exists (str "libc.so"), (str ".6"). split; [left|]; reflexivity.
Qed.
Print Assumptions C190_library_partial.

(** A map as the kernel shows it: a mail client with the library libc-client below the C library. *)
Definition ex_text3 (name : list Z) : list Z := str "00700000-00752000 r-xp 00001000 08:02 173522                             " ++ name.
Definition ex_map3 (name : list Z) : mapping := Mp 0x700000 0x752000 true false true false 4096 8 2 173522 name.
Lemma ex_line3 name : line_of (ex_map3 name) (ex_text3 name).
Proof.
  exists (str "00700000"), (str "00752000"), (str "00001000"), (str "08"), (str "02"), 28%nat.
  assert (F : forall t, forallb (fun c => (48 <=? c) && (c <=? 57)) t = true -> Forall hexchar t).
  { intros t H. rewrite forallb_forall in H. apply Forall_forall. intros c I. specialize (H c I). unfold hexchar. lia. }
  repeat (split; [split; [discriminate|split; [apply F; reflexivity|reflexivity]]|]).
  reflexivity.
Qed.

(** What [plain_map] asks of a path, computed. *)
Definition path_ok (p : list Z) : bool :=
  forallb (fun c => negb ((c =? 32) || ((9 <=? c) && (c <=? 13)))) p && (Z.of_nat (List.length p) <=? 255) &&
  match rev p with 47 :: _ => false | _ => true end && forallb (fun c => negb (c =? 0)) p.
Lemma path_ok_spec p : path_ok p = true -> Forall (fun c => ~ blank c) p /\ Z.of_nat (List.length p) <= 255 /\ (forall d, p <> d ++ [47]) /\
  ~ In 10 p /\ ~ In 0 p /\ (forall c r, p = c :: r -> ~ blank c).
Proof.
  unfold path_ok. rewrite !andb_true_iff. intros (((A & B) & C) & D). pose proof (no_blanks p A) as Fb. split; [exact Fb|]. split; [lia|]. split.
  { intros d ->. rewrite rev_app_distr in C. discriminate C. }
  split. { intros I. rewrite Forall_forall in Fb. apply (Fb 10 I). unfold blank. lia. }
  split. { intros I. rewrite forallb_forall in D. specialize (D 0 I). discriminate. }
  intros c r ->. inversion Fb; auto.
Qed.

Lemma map_ok m l : line_of m l -> path_ok (p_path m) = true -> Z.of_nat (List.length l) < 1023 ->
  0 <= p_start m < 2 ^ 64 /\ 0 <= p_end m < 2 ^ 64 /\ 0 <= p_off m < 2 ^ 64 /\ 0 <= p_major m < 2 ^ 32 /\ 0 <= p_minor m < 2 ^ 32 /\ 0 <= p_inode m < 2 ^ 64 ->
  forall ms ls, plain_map ms ls -> plain_map (m :: ms) (l :: ls).
Proof.
  intros H P Hl R ms ls (A & B & C & D). destruct (path_ok_spec _ P) as (P1 & P2 & P3 & P4 & P5 & P6).
  split; [constructor; auto|]. split; [constructor; auto; unfold valid; intuition auto|]. split; constructor; auto.
Qed.
Lemma no_map : plain_map [] []. Proof. repeat split; constructor. Qed.

Definition ex_ms (name : string) : list mapping := [ex_map 173521 (str name); ex_map3 (str "/usr/lib/libc.so.6"); ex_map2 (str "[stack]")].
Definition ex_ls (name : string) : list (list Z) := [ex_text (str name); ex_text3 (str "/usr/lib/libc.so.6"); ex_text2 (str "[stack]")].
Lemma ex_plain name : path_ok (str name) = true -> Z.of_nat (List.length (str name)) <= 255 -> plain_map (ex_ms name) (ex_ls name).
Proof.
  intros H L. apply map_ok; [apply ex_line|exact H| |cbn [ex_map p_start p_end p_off p_major p_minor p_inode]; lia|].
  { unfold ex_text. rewrite app_length. change (List.length (str "00400000-00452000 r-xp 00001000 08:02 173521                             ")) with 73%nat. lia. }
  apply map_ok; [apply ex_line3|reflexivity|vm_compute; reflexivity|cbn [ex_map3 p_start p_end p_off p_major p_minor p_inode]; lia|].
  apply map_ok; [apply ex_line2|reflexivity|vm_compute; reflexivity|cbn [ex_map2 p_start p_end p_off p_major p_minor p_inode]; lia|]. apply no_map.
Qed.
Lemma ex_c : c_library (ex_map3 (str "/usr/lib/libc.so.6")).
Proof. split; [reflexivity|]. split; [discriminate|]. split; [vm_compute; intuition discriminate|]. right. exists (str "/usr/lib"). reflexivity. Qed.

(** False: code of the mail library is taken to be the C library. *)
Theorem C190_library_refuted : exists ms ls shift pid exe fuel m l s, plain_map ms ls /\ In m ms /\ c_library m /\ p_path m <> exe /\
  open_roots fuel shift pid exe (text_of ls) = Some (Some (l, s)) /\ forall m', In m' ms -> at_mapping m' l -> ~ c_library m'.
Proof.
  exists (ex_ms "/usr/lib/libc-client.so.2007e"), (ex_ls "/usr/lib/libc-client.so.2007e"), 12, 77, (str "/bin/x"), 9%nat, (ex_map3 (str "/usr/lib/libc.so.6")). eexists _, _.
  split; [apply ex_plain; [reflexivity|vm_compute; discriminate]|]. split; [right; left; reflexivity|]. split; [exact ex_c|]. split; [discriminate|].
  split; [vm_compute; reflexivity|]. intros m' [<-|[<-|[<-|[]]]] (A & _ & B); try (vm_compute in A; discriminate A).
  intros (_ & Lc). assert (E : basename (str "/usr/lib/libc-client.so.2007e") = str "libc.so.6").
  { apply (last_fun (str "/usr/lib/libc-client.so.2007e")); [apply base_last; [|discriminate]|exact Lc]. apply path_ok_spec. reflexivity. }
  vm_compute in E. discriminate E.
Qed.
Print Assumptions C190_library_refuted.

Example C190_ex : plain_map (ex_ms "/usr/lib/libm.so.6") (ex_ls "/usr/lib/libm.so.6") /\ c_library (ex_map3 (str "/usr/lib/libc.so.6")) /\
  stack_of (str "/bin/x") (ex_map2 (str "[stack]")) /\ (forall m, In m (ex_ms "/usr/lib/libm.so.6") -> like_libc (str "/bin/x") m -> c_library m) /\
  (exists l s, open_roots 9 12 77 (str "/bin/x") (text_of (ex_ls "/usr/lib/libm.so.6")) = Some (Some (l, s)) /\ m_start l = 0x700000 /\ m_start s = 5242880) /\
  open_roots 9 12 77 (str "/bin/x") (text_of [ex_text (str "/bin/x"); ex_text2 (str "[stack]")]) = Some None.
Proof.
  split; [apply ex_plain; [reflexivity|vm_compute; discriminate]|]. split; [exact ex_c|]. split; [split; [discriminate|reflexivity]|]. split.
  - intros m [<-|[<-|[<-|[]]]] K; [|exact ex_c|destruct K as [K _]; discriminate K]. exfalso. destruct K as (_ & _ & b & Lb & p & r & Hp & E).
    assert (Eb : basename (str "/usr/lib/libm.so.6") = b).
    { apply (last_fun (str "/usr/lib/libm.so.6")); [apply base_last; [|discriminate]|exact Lb]. apply path_ok_spec. reflexivity. }
    change (basename (str "/usr/lib/libm.so.6")) with (str "libm.so.6") in Eb. rewrite E in Eb. destruct Hp as [<-|[<-|[<-|[]]]]; vm_compute in Eb; discriminate Eb.
  - split; [|vm_compute; reflexivity]. eexists _, _. split; [vm_compute; reflexivity|split; reflexivity].
Qed.

(** A line that does not begin with a number, as the rest of a line with a long path does
    not, and all before it is readable: the process is refused. *)
Lemma scan_junk c t : hexval c = None -> ~ blank c -> c <> 45 -> c <> 43 -> scan_line (c :: t) = Some (0, Mr 0 0 [] 0 0 0 0 []).
Proof.
  intros H B N1 N2. unfold scan_line, scan_lx.
  assert (S : PrModel.skip_space (c :: t) = c :: t).
  { unfold PrModel.skip_space. cbn [MiscModel.skip_space]. unfold MiscModel.is_space. unfold blank in B. destruct ((c =? 32) || ((9 <=? c) && (c <=? 13))) eqn:E; [lia|reflexivity]. }
  rewrite S. assert (N3 : c <> 48) by (intros ->; discriminate H).
  assert (E1 : forall (A : Type) (x y z : A), match c with 45 => x | 43 => y | _ => z end = z).
  { intros A x y z. destruct c as [|p|p]; auto. repeat (destruct p as [p|p|]; auto; try (exfalso; lia)). }
  assert (E2 : match c :: t with 45 :: r => (true, r) | 43 :: r => (false, r) | _ => (false, c :: t) end = (false, c :: t)).
  { apply (E1 (bool * list Z)%type (true, t) (false, t) (false, c :: t)). }
  rewrite E2.
  assert (E3 : match c :: t with 48 :: d :: r => if (d =? 120) || (d =? 88) then (true, r) else (false, c :: t) | _ => (false, c :: t) end = (false, c :: t)).
  { destruct c as [|p|p]; auto. repeat (destruct p as [p|p|]; auto; try (exfalso; lia)). }
  rewrite E3. cbn [hex_run]. rewrite H. reflexivity.
Qed.

Theorem C190_unreadable : forall ms ls shift pid exe fuel c rest, plain_map ms ls -> 0 <= shift -> (List.length ls < fuel)%nat ->
  hexval c = None -> ~ blank c -> c <> 45 -> c <> 43 ->
  open_roots fuel shift pid exe (text_of ls ++ c :: rest) = Some None.
Proof.
  intros ms ls shift pid exe fuel c rest (F & V & L & _) Hs Hf H B N1 N2.
  assert (R : exists vs, read_maps fuel shift pid exe (text_of ls ++ c :: rest) = Some (false, vs)).
  { revert V L fuel Hf. induction F as [|m l ms ls Hl F IH]; intros V L fuel Hf.
    - destruct fuel as [|fuel]; [cbn in Hf; lia|]. exists []. cbn [text_of flat_map app read_maps].
      replace (Z.to_nat 1023) with (S (Z.to_nat 1022)) by lia. cbn [ShModel.fgets].
      destruct (Z.eqb_spec c 10) as [->|N]; [exfalso; apply B; unfold blank; lia|].
      destruct (ShModel.fgets (Z.to_nat 1022) rest) as [t r]. rewrite scan_junk by auto. reflexivity.
    - destruct fuel as [|fuel]; [cbn in Hf; lia|]. inversion V as [|? ? Vm Vr]; subst. inversion L as [|? ? Lm Lr]; subst. cbn [List.length] in Hf.
      destruct (IH Vr Lr fuel ltac:(lia)) as (vs & E).
      destruct (first_word_exists (p_path m)) as (w & W). destruct (scan_line_text m l w Vm Hl W) as (r & Sc & R).
      eexists. unfold text_of. cbn [flat_map]. fold (text_of ls). rewrite <- !app_assoc. cbn [app].
      cbn [read_maps]. destruct (l ++ 10 :: text_of ls ++ c :: rest) eqn:E0; [destruct l; discriminate|]. rewrite <- E0. clear E0.
      rewrite fgets_line by (try (eapply line_no_nl; eassumption); lia). rewrite Sc. destruct (Z.leb_spec r 0); [lia|]. rewrite E. reflexivity. }
  destruct R as (vs & R). unfold open_roots. rewrite R. reflexivity.
Qed.
Print Assumptions C190_unreadable.

Example C190_unreadable_ex : plain_map (ex_ms "/usr/lib/libm.so.6") (ex_ls "/usr/lib/libm.so.6") /\ hexval 47 = None /\
  open_roots 9 12 77 (str "/bin/x") (text_of (ex_ls "/usr/lib/libm.so.6") ++ str "/rest/of/path") = Some None.
Proof. split; [apply ex_plain; [reflexivity|vm_compute; discriminate]|]. split; vm_compute; reflexivity. Qed.
