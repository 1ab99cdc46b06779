From Coq Require Import ZArith String List Bool Lia ZifyBool ZifyNat.
From Verif Require Import Word WordLemmas Str FsModel FsSpec FsProofs PrModel PrSpec PrProofs.
From Verif Require TextModel TextSpec TextProofs MiscModel ShModel.
Import ListNotations.
Open Scope Z_scope.

(** * C123 *)
Theorem C123_proc_paths : forall pid, 0 <= pid < 2 ^ 31 ->
  maps_path pid = str "/proc/" ++ dec pid ++ str "/maps" /\ mem_path pid = str "/proc/" ++ dec pid ++ str "/mem" /\
  MiscModel.atoi (dec pid) = pid.
Proof.
  intros pid H. pose proof (dec_len10 pid H) as L. split; [|split; [|apply atoi_dec; auto]].
  - unfold maps_path, snprintf. apply firstn_all2. rewrite !app_length. change (len (str "/proc/1234567890/maps")) with 21.
    change (List.length (str "/proc/")) with 6%nat. change (List.length (str "/maps")) with 5%nat. lia.
  - unfold mem_path, snprintf. apply firstn_all2. rewrite !app_length. change (len (str "/proc/1234567890/mem")) with 20.
    change (List.length (str "/proc/")) with 6%nat. change (List.length (str "/mem")) with 4%nat. lia.
Qed.
Print Assumptions C123_proc_paths.

Example C123_ex : maps_path 2147483647 = str "/proc/2147483647/maps" /\ mem_path 1 = str "/proc/1/mem".
Proof. split; vm_compute; reflexivity. Qed.

(** * C124 *)
(** /proc/PID/comm holds the name and a newline. *)
Theorem C124_process_name_refuted : exists name errno r, ~ In 0 name /\ ~ In 10 name /\ (List.length name < 16)%nat /\
  proc_pid_comm (Some (name ++ [10])) errno [] = Some r /\ snd (fst r) <> name.
Proof.
  exists (str "tmux: server"), 0. eexists. split; [vm_compute; intuition discriminate|]. split; [vm_compute; intuition discriminate|].
  split; [vm_compute; lia|]. split; [vm_compute; reflexivity|]. vm_compute. discriminate.
Qed.
Print Assumptions C124_process_name_refuted.

Lemma blank_space c : blank c <-> MiscModel.is_space c = true.
Proof. unfold blank, MiscModel.is_space. lia. Qed.
Lemma word_app l r : Forall (fun c => ~ blank c) l -> (r = [] \/ exists c x, r = c :: x /\ blank c) ->
  word (l ++ r) = l /\ after_word (l ++ r) = r.
Proof.
  intros F R. induction F as [|c l N F IH]; cbn [app].
  - destruct R as [->|(c & x & -> & B)]; [split; reflexivity|]. cbn [word after_word]. unfold is_space. rewrite (proj1 (blank_space c) B). split; reflexivity.
  - destruct IH as (E1 & E2). cbn [word after_word]. unfold is_space. destruct (MiscModel.is_space c) eqn:E; [exfalso; apply N; apply blank_space; auto|].
    rewrite E1, E2. split; reflexivity.
Qed.

(** A name without blanks is taken as it is. What is taken of any other is its first word.  Missing (false): names with blanks;
    those of blanks only are an error or leave the name empty. *)
Theorem C124_process_name_partial : forall name errno,
  (name <> [] -> Forall (fun c => ~ blank c) name -> (Z.of_nat (List.length name) < 128) ->
    proc_pid_comm (Some (name ++ [10])) errno [] = Some (0, name, false)) /\
  (forall pre w post, name = pre ++ w ++ post -> Forall blank pre -> w <> [] -> Forall (fun c => ~ blank c) w ->
    (post = [] \/ exists c x, post = c :: x /\ blank c) -> Z.of_nat (List.length w) < 128 ->
    proc_pid_comm (Some (name ++ [10])) errno [] = Some (0, w, false)) /\
  (Forall blank name -> proc_pid_comm (Some (name ++ [10])) errno [] = Some (- errno, [], true)).
Proof.
  assert (SK : forall pre t, Forall blank pre -> (forall c x, t = c :: x -> ~ blank c) -> MiscModel.skip_space (pre ++ t) = t).
  { intros pre t F N. induction F as [|c pre B F IH]; cbn [app].
    - destruct t as [|c t]; [reflexivity|]. cbn [MiscModel.skip_space]. destruct (MiscModel.is_space c) eqn:E; [|reflexivity].
      exfalso. apply (N c t eq_refl). apply blank_space. auto.
    - cbn [MiscModel.skip_space]. rewrite (proj1 (blank_space c) B). auto. }
  assert (G : forall name errno pre w post, name = pre ++ w ++ post -> Forall blank pre -> w <> [] -> Forall (fun c => ~ blank c) w ->
    (post = [] \/ exists c x, post = c :: x /\ blank c) -> Z.of_nat (List.length w) < 128 ->
    proc_pid_comm (Some (name ++ [10])) errno [] = Some (0, w, false)).
  { intros name errno pre w post -> P N F R L. unfold proc_pid_comm, scan_s, skip_space.
    replace ((pre ++ w ++ post) ++ [10]) with (pre ++ (w ++ (post ++ [10]))) by (rewrite <- !app_assoc; reflexivity).
    rewrite SK; [|auto|].
    2: { intros c x E. destruct w as [|y w]; [congruence|]. cbn [app] in E. injection E as <- _. inversion F; auto. }
    destruct (word_app w (post ++ [10]) F) as (E1 & E2).
    { right. destruct R as [->|(c & x & -> & B)]; [exists 10, []; split; [reflexivity|right; lia]|exists c, (x ++ [10]); auto]. }
    rewrite E1, E2. unfold TASK_COMM_LEN. unfold TextModel.len. destruct (Z.leb_spec 128 (Z.of_nat (List.length w))); [lia|].
    destruct w; [congruence|]. reflexivity. }
  intros name errno. split; [|split].
  - intros N F L. apply (G name errno [] name []); auto. rewrite app_nil_r. reflexivity.
  - intros pre w post E P N F R L. eapply G; eauto.
  - intros F. unfold proc_pid_comm, scan_s, skip_space.
    replace (MiscModel.skip_space (name ++ [10])) with (@nil Z); [reflexivity|].
    rewrite <- (app_nil_r (name ++ [10])), SK; [reflexivity| |intros; discriminate].
    apply Forall_app. split; [auto|]. constructor; [right; lia|constructor].
Qed.
Print Assumptions C124_process_name_partial.

Example C124_ex : proc_pid_comm (Some (str "nginx" ++ [10])) 0 [] = Some (0, str "nginx", false).
Proof. reflexivity. Qed.

(** * C125 *)
(** The link in a buffer of any size given by the caller. *)
Theorem C125_link_text_refuted : exists link exist b size b', (List.length link < 16)%nat /\ ~ In 0 link /\
  read_proc_pid_symlink (Some link) exist b size = Some (Some b') /\ ~ TextSpec.holds b' link.
Proof.
  exists (str "/bin/sh"), (fun _ => true), (fun _ => 65), 7. eexists. split; [vm_compute; lia|]. split; [vm_compute; intuition discriminate|].
  split; [reflexivity|]. intros (_ & _ & H). vm_compute in H. discriminate.
Qed.
Print Assumptions C125_link_text_refuted.

(** With room for the NUL the buffer holds the link, whatever was in it; nothing outside it is
    written; a link to nothing is refused.  The tool's own buffers have PATH_MAX bytes, so there this always
    applies. *)
Theorem C125_link_text_partial : forall link exist b size, Z.of_nat (List.length link) < PATH_MAX -> ~ In 0 link ->
  (exist link = false -> read_proc_pid_symlink (Some link) exist b size = Some None) /\
  read_proc_pid_symlink None exist b size = Some None /\
  (exist link = true -> exists b', read_proc_pid_symlink (Some link) exist b size = Some (Some b') /\
     TextSpec.only_within 0 size b b' /\ (Z.of_nat (List.length link) < size -> TextSpec.holds b' link)).
Proof.
  intros link exist b size L N. unfold read_proc_pid_symlink. unfold TextModel.len.
  destruct (Z.leb_spec PATH_MAX (Z.of_nat (List.length link))); [lia|]. split; [intros ->; reflexivity|]. split; [reflexivity|].
  intros ->. eexists. split; [reflexivity|]. split.
  - intros x D. unfold strncpy in D. destruct (Z.leb_spec 0 x), (Z.ltb_spec x size); cbn [andb] in D; try congruence. lia.
  - intros S. split; [auto|]. split.
    + intros i Hi. unfold strncpy. destruct (Z.leb_spec 0 (Z.of_nat i)), (Z.ltb_spec (Z.of_nat i) size); cbn [andb]; try lia.
      f_equal. lia.
    + unfold strncpy. destruct (Z.leb_spec 0 (Z.of_nat (List.length link))), (Z.ltb_spec (Z.of_nat (List.length link)) size); cbn [andb]; try lia.
      apply nth_overflow. lia.
Qed.
Print Assumptions C125_link_text_partial.

Example C125_ex : exists b', read_proc_pid_symlink (Some (str "/usr/bin/nginx")) (fun _ => true) (fun _ => 65) PATH_MAX = Some (Some b') /\
  b' 0 = 47 /\ b' 13 = 120 /\ b' 14 = 0.
Proof. eexists. split; [reflexivity|]. repeat split. Qed.

(** * C126 *)
Theorem C126_identifiers : forall A B C u g errno old fuel,
  Forall other_line A -> Forall other_line B -> Forall other_line C -> valid_ids u -> valid_ids g ->
  let file := text_of (A ++ [id_line "Uid:" u] ++ B ++ [id_line "Gid:" g] ++ C) in
  (List.length file < fuel)%nat ->
  exists r, proc_get_pid_status fuel (Some file) errno old = Some (0, r) /\
    (i_r (fst r), i_e (fst r), i_s (fst r), i_fs (fst r)) = u /\ (i_r (snd r), i_e (snd r), i_s (snd r), i_fs (snd r)) = g.
Proof.
  intros A B C u g errno old fuel FA FB FC Vu Vg file Hf.
  assert (TA : forall x y, text_of (x ++ y) = text_of x ++ text_of y).
  { intros x y. unfold text_of. apply flat_map_app. }
  assert (T1 : forall x y, text_of ([x] ++ y) = x ++ 10 :: text_of y).
  { intros x y. rewrite TA. cbn [text_of flat_map]. rewrite app_nil_r, <- app_assoc. reflexivity. }
  unfold proc_get_pid_status. subst file. rewrite TA, T1, TA, T1 in *.
  set (x3 := text_of C) in *. set (x2 := text_of B ++ id_line "Gid:" g ++ 10 :: x3) in *.
  destruct (status_others A fuel (id_line "Uid:" u ++ 10 :: x2) errno no_ids no_ids FA Hf) as (f1 & L1 & ->).
  destruct f1 as [|f1]; [lia|]. rewrite status_uid by auto.
  assert (L2 : (List.length x2 < f1)%nat) by (clear - L1; rewrite app_length in L1; cbn [List.length] in L1; lia).
  subst x2. destruct (status_others B f1 (id_line "Gid:" g ++ 10 :: x3) errno (ids_of u) no_ids FB L2) as (f2 & L3 & ->).
  destruct f2 as [|f2]; [lia|]. rewrite status_gid by auto.
  assert (L4 : (List.length (x3 ++ []) < f2)%nat) by (clear - L3; rewrite app_nil_r, app_length in *; cbn [List.length] in L3; lia).
  subst x3. rewrite <- (app_nil_r (text_of C)).
  destruct (status_others C f2 [] errno (ids_of u) (ids_of g) FC L4) as (f3 & L5 & ->).
  destruct f3 as [|f3]; [cbn [List.length] in L5; lia|]. cbn [status_loop]. rewrite !unset_valid by auto. cbn [orb].
  eexists. split; [reflexivity|]. cbn [fst snd]. destruct u as (((? & ?) & ?) & ?), g as (((? & ?) & ?) & ?). split; reflexivity.
Qed.
Print Assumptions C126_identifiers.

(** Without identifiers in the file the status is refused and nothing is stored. *)
Theorem C126_missing : forall A errno old fuel, Forall other_line A -> (List.length (text_of A) < fuel)%nat ->
  proc_get_pid_status fuel (Some (text_of A)) errno old = Some (- ENOENT, old).
Proof.
  intros A errno old fuel F H. unfold proc_get_pid_status. rewrite <- (app_nil_r (text_of A)).
  destruct (status_others A fuel [] errno no_ids no_ids F) as (f & L & ->); [rewrite app_nil_r; auto|].
  destruct f as [|f]; [cbn [List.length] in L; lia|]. reflexivity.
Qed.
Print Assumptions C126_missing.

(** One of the two lines is missing: refused as well. *)
Theorem C126_one_missing : forall A B i errno old fuel (uid : bool),
  Forall other_line A -> Forall other_line B -> valid_ids i ->
  let file := text_of (A ++ [id_line (if uid then "Uid:" else "Gid:") i] ++ B) in
  (List.length file < fuel)%nat ->
  proc_get_pid_status fuel (Some file) errno old = Some (- ENOENT, old).
Proof.
  intros A B i errno old fuel uid FA FB V file Hf.
  assert (TA : forall x y, text_of (x ++ y) = text_of x ++ text_of y).
  { intros x y. unfold text_of. apply flat_map_app. }
  assert (T1 : forall x y, text_of ([x] ++ y) = x ++ 10 :: text_of y).
  { intros x y. rewrite TA. cbn [text_of flat_map]. rewrite app_nil_r, <- app_assoc. reflexivity. }
  unfold proc_get_pid_status. subst file. rewrite TA, T1 in *.
  destruct (status_others A fuel (id_line (if uid then "Uid:" else "Gid:") i ++ 10 :: text_of B) errno no_ids no_ids FA Hf) as (f1 & L1 & ->).
  destruct f1 as [|f1]; [lia|].
  assert (L2 : (List.length (text_of B ++ []) < f1)%nat)
    by (clear - L1; rewrite app_nil_r, app_length in *; cbn [List.length] in L1; lia).
  rewrite <- (app_nil_r (text_of B)).
  destruct uid; [rewrite status_uid by auto; destruct (status_others B f1 [] errno (ids_of i) no_ids FB L2) as (f2 & L3 & ->)
                |rewrite status_gid by auto; destruct (status_others B f1 [] errno no_ids (ids_of i) FB L2) as (f2 & L3 & ->)];
    (destruct f2 as [|f2]; [cbn [List.length] in L3; lia|]); cbn [status_loop].
  - replace (unset no_ids) with true by reflexivity. rewrite orb_true_r. reflexivity.
  - replace (unset no_ids) with true by reflexivity. reflexivity.
Qed.
Print Assumptions C126_one_missing.

Example C126_ex : Forall other_line [str "Name:	Uid: 1"; str "Umask:	0022"; str "Groups:	4 24 27"] /\
  proc_get_pid_status 200 (Some (text_of ([str "Name:	Uid: 1"; str "Umask:	0022"] ++ [id_line "Uid:" (1000, 0, 4294967294, 1000)] ++ [] ++
    [id_line "Gid:" (100, 100, 100, 100)] ++ [str "Groups:	4 24 27"]))) 0 (Ids 0 0 0 0, Ids 0 0 0 0) =
  Some (0, (Ids 1000 0 4294967294 1000, Ids 100 100 100 100)).
Proof.
  split; [|vm_compute; reflexivity].
  repeat constructor; try (vm_compute; intuition discriminate); try (intros (r & E); vm_compute in E; discriminate);
  intros j Hj; rewrite nth_overflow; try discriminate; vm_compute; lia.
Qed.

Example C126_one_missing_ex : valid_ids (1000, 0, 4294967294, 1000) /\
  proc_get_pid_status 200 (Some (text_of ([str "Umask:	0022"] ++ [id_line "Gid:" (1000, 0, 4294967294, 1000)] ++ [str "Groups:	4 24 27"])))
    0 (Ids 1 2 3 4, Ids 5 6 7 8) = Some (- ENOENT, (Ids 1 2 3 4, Ids 5 6 7 8)).
Proof. split; [vm_compute; repeat split; discriminate|vm_compute; reflexivity]. Qed.


(** * C127 *)
Theorem C127_identifiers_shown_refuted : exists u g, valid_ids u /\ valid_ids g /\
  print_task_status (ids_of u, ids_of g) <> text_of [id_line "Uid:" u; id_line "Gid:" g].
Proof.
  exists (4294967294, 0, 0, 0), (0, 0, 0, 0). split; [unfold valid_ids, valid_id; lia|]. split; [unfold valid_ids, valid_id; lia|].
  vm_compute. discriminate.
Qed.
Print Assumptions C127_identifiers_shown_refuted.

(** Identifiers below 2^31 are shown as the kernel shows them. *)
Theorem C127_identifiers_shown_partial : forall u g,
  (let '(a, b, c, d) := u in 0 <= a < 2 ^ 31 /\ 0 <= b < 2 ^ 31 /\ 0 <= c < 2 ^ 31 /\ 0 <= d < 2 ^ 31) ->
  (let '(a, b, c, d) := g in 0 <= a < 2 ^ 31 /\ 0 <= b < 2 ^ 31 /\ 0 <= c < 2 ^ 31 /\ 0 <= d < 2 ^ 31) ->
  print_task_status (ids_of u, ids_of g) = text_of [id_line "Uid:" u; id_line "Gid:" g].
Proof.
  intros (((a & b) & c) & d) (((a' & b') & c') & d') H1 H2. unfold print_task_status, ids_line, text_of, id_line.
  cbn [fst snd ids_of i_r i_e i_s i_fs flat_map]. unfold s32. rewrite !sgn_id by lia. do 10 (rewrite <- ?app_assoc; cbn [app]). reflexivity.
Qed.
Print Assumptions C127_identifiers_shown_partial.

Example C127_ex : print_task_status (ids_of (1000, 0, 5, 6), ids_of (1, 2, 3, 4)) = str "Uid:	1000	0	5	6" ++ [10] ++ str "Gid:	1	2	3	4" ++ [10].
Proof. vm_compute. reflexivity. Qed.

(** * C128 *)
Lemma fold_threads l : forall acc, fold_left (fun l n => l ++ [MiscModel.atoi n]) l acc = acc ++ map MiscModel.atoi l.
Proof.
  induction l as [|n l IH]; intros acc; cbn [fold_left map]; [rewrite app_nil_r; reflexivity|]. rewrite IH, <- app_assoc. reflexivity.
Qed.
Lemma dec_not_dot n : 0 <= n -> str_eqb (dec n) (str ".") || str_eqb (dec n) (str "..") = false.
Proof.
  intros H. destruct (dec_cons n H) as (c & r & -> & D). unfold dchar in D.
  change (str ".") with [46]. change (str "..") with [46; 46]. cbn [str_eqb].
  destruct (Z.eqb_spec c 46); [lia|]. reflexivity.
Qed.
Lemma dir_numbers ts : Forall (fun t => 0 <= t < 2 ^ 31) ts -> forall pre, Forall (fun n => n = str "." \/ n = str "..") pre ->
  snd (ShModel.dir_iter (Some (pre ++ map dec ts))) = map dec ts.
Proof.
  intros F pre P. unfold ShModel.dir_iter. cbn [snd]. rewrite filter_app.
  replace (filter _ pre) with (@nil (list Z)).
  2: { induction P as [|n pre [->| ->] P IH]; [reflexivity|exact IH|exact IH]. }
  cbn [app]. induction F as [|t ts H F IH]; [reflexivity|]. cbn [map filter]. rewrite dec_not_dot by lia. cbn [negb]. f_equal. exact IH.
Qed.

Theorem C128_threads : forall ts pre pid, Forall (fun t => 0 <= t < 2 ^ 31) ts -> Forall (fun n => n = str "." \/ n = str "..") pre ->
  load_threads (Some (pre ++ map dec ts)) = ts /\
  dump_threads pid (load_threads (Some (pre ++ map dec ts))) = text_of (map (fun t => str "pid " ++ dec pid ++ str ", tid " ++ dec t) ts).
Proof.
  intros ts pre pid F P. assert (E : load_threads (Some (pre ++ map dec ts)) = ts).
  { unfold load_threads. rewrite dir_numbers, fold_threads by auto. cbn [app]. rewrite map_map.
    induction F as [|t ts H F IH]; [reflexivity|]. cbn [map]. rewrite atoi_dec by auto. f_equal. exact IH. }
  split; [exact E|]. rewrite E. unfold dump_threads, text_of. clear. induction ts as [|t ts IH]; [reflexivity|].
  cbn [flat_map map]. rewrite IH. rewrite <- !app_assoc. reflexivity.
Qed.
Print Assumptions C128_threads.

Example C128_ex : load_threads (Some [str "."; str ".."; str "4211"; str "4215"; str "4213"]) = [4211; 4215; 4213].
Proof. vm_compute. reflexivity. Qed.

(** * C129 *)
(** The target closes descriptor 5 after its directory was read. *)
Theorem C129_descriptors_refuted : exists entries readlink, load_fds (Some entries) readlink = None.
Proof. exists [str "."; str ".."; str "0"; str "5"], (fun fd => if fd =? 0 then Some (str "/dev/null") else None). reflexivity. Qed.
Print Assumptions C129_descriptors_refuted.

(** If every link can be read, the list is the directory, in order.  Missing (false): a descriptor closed in between
    makes the tool crash. *)
Theorem C129_descriptors_partial : forall fds pre readlink, Forall (fun t => 0 <= t < 2 ^ 31) fds ->
  Forall (fun n => n = str "." \/ n = str "..") pre ->
  (forall links, map readlink fds = map Some links ->
    load_fds (Some (pre ++ map dec fds)) readlink = Some (combine fds links) /\
    dump_fds (combine fds links) = text_of (map (fun x => str "fd " ++ dec (fst x) ++ str " -> " ++ snd x) (combine fds links))) /\
  ((exists fd, In fd fds /\ readlink fd = None) <-> load_fds (Some (pre ++ map dec fds)) readlink = None).
Proof.
  intros fds pre readlink F P. unfold load_fds. rewrite dir_numbers by auto.
  assert (G : forall acc links, map readlink fds = map Some links ->
    load_fds_loop (map dec fds) readlink acc = Some (acc ++ combine fds links)).
  { induction F as [|t ts H F IH]; intros acc [|l links] E; try discriminate; cbn [map load_fds_loop combine].
    - rewrite app_nil_r. reflexivity.
    - cbn [map] in E. injection E as E1 E2. rewrite atoi_dec by auto. rewrite E1, IH with (links := links) by auto. rewrite <- app_assoc. reflexivity. }
  split; [|split].
  - intros links E. split; [apply (G []); auto|]. unfold dump_fds, text_of. generalize (combine fds links). clear. intros l.
    induction l as [|[a b] l IH]; [reflexivity|]. cbn [flat_map map fst snd]. rewrite IH. rewrite <- !app_assoc. reflexivity.
  - intros (fd & I & N). clear G. generalize (@nil (Z * list Z)). induction F as [|t ts H F IH]; intros acc; [destruct I|].
    cbn [map load_fds_loop]. rewrite atoi_dec by auto. destruct I as [->|I]; [rewrite N; reflexivity|]. destruct (readlink t); auto.
  - intros N. clear G. revert N. generalize (@nil (Z * list Z)). induction F as [|t ts H F IH]; intros acc N; [discriminate|].
    cbn [map load_fds_loop] in N. rewrite atoi_dec in N by auto. destruct (readlink t) eqn:E; [|exists t; split; [left|]; auto].
    destruct (IH _ N) as (fd & I & R). exists fd. split; [right|]; auto.
Qed.
Print Assumptions C129_descriptors_partial.

Example C129_ex : load_fds (Some [str "."; str ".."; str "0"; str "3"]) (fun fd => if fd =? 0 then Some (str "/dev/pts/3") else Some (str "pipe:[77]")) =
  Some [(0, str "/dev/pts/3"); (3, str "pipe:[77]")].
Proof. vm_compute. reflexivity. Qed.

(** * C130 *)

(** How a caller may use the tool's state: it opens processes, the new task is at an address not in use, and
    closes tasks it has opened and not closed. *)
Inductive reach : tool -> Prop :=
| reach_start fds f : reach (Tool fds [] CNull f)
| reach_open fuel k pid flag s o s' : reach s -> (forall h, k_malloc k = Some h -> h <> 0 /\ ~ In h (o_live s)) ->
    open_task fuel k pid flag s = Some (o, s') -> reach s'
| reach_close t s : reach s -> In (t_h t) (o_live s) -> reach (close_task t s).

(** What open_task does with the allocated tasks and the current one. *)
Lemma open_cur fuel k pid flag s o s' : open_task fuel k pid flag s = Some (o, s') ->
  (s' = s /\ exists e, o = Failed e) \/
  (exists h, k_malloc k = Some h /\
     ((o_cur s' = CFallback /\ o_live s' = List.remove Z.eq_dec h (h :: o_live s) /\ exists e, o = Failed e) \/
      (o_cur s' = CTask h /\ o_live s' = h :: o_live s /\ exists t, o = Opened t /\ t_h t = h))).
Proof.
  unfold open_task. intros H. destruct (k_exist k); cbn [negb] in H; [|injection H as <- <-; left; eauto].
  destruct (k_malloc k) as [h|]; [|injection H as <- <-; left; eauto]. right. exists h. split; [reflexivity|].
  assert (FL : forall t e fds lv c f, t_h t = h -> lv = h :: o_live s -> fail t e (Tool fds lv c f) = Some (o, s') ->
     o_cur s' = CFallback /\ o_live s' = List.remove Z.eq_dec h (h :: o_live s) /\ exists e, o = Failed e).
  { intros t e fds lv c f E1 -> E2. unfold fail in E2. injection E2 as <- <-. unfold close_task. cbn [o_cur o_live]. rewrite E1. eauto. }
  match type of H with (if ?b then _ else _) = _ => destruct b; [left; eapply FL; [| |exact H]; reflexivity|] end.
  match type of H with match ?x with _ => _ end = _ => destruct x as [[err st]|]; [|discriminate] end.
  destruct (negb (err =? 0)); [left; eapply FL; [| |exact H]; reflexivity|].
  match type of H with match ?x with _ => _ end = _ => destruct x as [[[err2 cm] leak]|]; [|discriminate] end.
  set (s1 := if leak then _ else _) in H.
  assert (L1 : exists a b c, s1 = Tool a (h :: o_live s) b c) by (subst s1; destruct leak; unfold set_fds; cbn; eauto).
  clearbody s1. destruct L1 as (a1 & b1 & c1 & ->).
  destruct (negb (err2 =? 0)); [left; eapply FL; [| |exact H]; reflexivity|].
  match type of H with match ?x with _ => _ end = _ => destruct x as [[exe|]|]; [| |discriminate] end.
  2: { left; eapply FL; [| |exact H]; reflexivity. }
  set (s2 := if k_mem k <? 0 then _ else _) in H.
  assert (L2 : exists a b c, s2 = Tool a (h :: o_live s) b c) by (subst s2; destruct (k_mem k <? 0); unfold set_fds; cbn; eauto).
  clearbody s2. destruct L2 as (a2 & b2 & c2 & ->).
  match type of H with (if ?b then _ else _) = _ => destruct b; [left; eapply FL; [| |exact H]; reflexivity|] end.
  match type of H with (if ?b then _ else _) = _ => destruct b; [left; eapply FL; [| |exact H]; reflexivity|] end.
  unfold open_rest in H.
  match type of H with (if ?b then _ else _) = _ => destruct b; [left; eapply FL; [| |exact H]; reflexivity|] end.
  match type of H with match ?x with _ => _ end = _ => destruct x as [[[|] s3]|] eqn:PE; [| |discriminate] end.
  all: assert (L3 : exists a b c, s3 = Tool a (h :: o_live s) b c).
  1,3: repeat match type of PE with
       | (if ?b then _ else _) = _ => destruct b
       | match ?x with _ => _ end = _ => destruct x
       end; try discriminate; try (apply (f_equal (fun o => match o with Some x => snd x | None => s3 end)) in PE; cbn [snd] in PE; subst s3; unfold set_fs; cbn; eauto).
  all: destruct L3 as (a3 & b3 & c3 & ->).
  - match type of H with match ?x with _ => _ end = _ => destruct x; [|discriminate] end.
    injection H as <- <-. right. cbn [o_cur o_live]. split; [reflexivity|]. split; [reflexivity|]. eexists. split; reflexivity.
  - left; eapply FL; [| |exact H]; reflexivity.
Qed.

Theorem C130_current_never_dangling : forall s, reach s -> get_current_task s = 0 \/ In (get_current_task s) (o_live s).
Proof.
  intros s R. induction R as [fds f|fuel k pid flag s o s' R IH Fr H|t s R IH I].
  - left. reflexivity.
  - destruct (open_cur _ _ _ _ _ _ _ H) as [(-> & _)|(h & M & [(C & _)|(C & L & _)])]; [exact IH| |].
    + left. unfold get_current_task. rewrite C. reflexivity.
    + right. unfold get_current_task. rewrite C, L. left. reflexivity.
  - left. reflexivity.
Qed.
Print Assumptions C130_current_never_dangling.

(** A kernel that lets everything succeed. *)
Definition good (h : Z) : kernel :=
  Kn true (Some h) 0 (Some (text_of [id_line "Uid:" (0, 0, 0, 0); id_line "Gid:" (0, 0, 0, 0)])) (Some (str "srv" ++ [10])) 9 0
     (Some (str "/bin/srv")) (fun _ => true) 5 0 0 0 true true false false
     (Some [str "77"]) (Some [str "0"]) (fun _ => Some (str "/dev/null")).
Definition empty_tool := Tool [0; 1; 2] [] CNull [].

Example C130_ex : exists t s, open_task 99 (good 4096) 77 511 empty_tool = Some (Opened t, s) /\ reach s /\ get_current_task s = 4096 /\ o_live s = [4096] /\ t_threads t = [77] /\ get_current_task (close_task t s) = 0.
Proof.
  destruct (open_task 99 (good 4096) 77 511 empty_tool) as [[[t|e] s]|] eqn:E; vm_compute in E; try discriminate.
  injection E as <- <-. do 2 eexists. split; [reflexivity|]. split; [|repeat split].
  eapply (reach_open 99 (good 4096) 77 511 empty_tool); [apply reach_start| |vm_compute; reflexivity].
  cbn [good k_malloc]. intros h Hh. injection Hh as <-. split; [lia|intros []].
Qed.

(** * C131 *)
(** Two tasks; the second is closed; the first is still open but not current any more. *)
Theorem C131_current_is_last_open_refuted : exists s h, reach s /\ o_live s = [h] /\ get_current_task s <> h.
Proof.
  destruct (open_task 99 (good 4096) 77 511 empty_tool) as [[[t1|e] s1]|] eqn:E1; vm_compute in E1; try discriminate.
  destruct (open_task 99 (good 8192) 78 511 s1) as [[[t2|e] s2]|] eqn:E2.
  2: { exfalso. injection E1 as <- <-. vm_compute in E2. discriminate. }
  2: { exfalso. injection E1 as <- <-. vm_compute in E2. discriminate. }
  exists (close_task t2 s2), 4096.
  assert (R1 : reach s1).
  { eapply (reach_open 99 (good 4096) 77 511 empty_tool); [apply reach_start| |].
    - cbn [good k_malloc]. intros h Hh. injection Hh as <-. split; [lia|intros []].
    - vm_compute. rewrite <- E1. reflexivity. }
  assert (R2 : reach s2).
  { eapply (reach_open 99 (good 8192) 78 511 s1); [exact R1| |exact E2].
    cbn [good k_malloc]. intros h Hh. injection Hh as <-. split; [lia|]. injection E1 as _ <-. cbn. lia. }
  injection E1 as _ <-. vm_compute in E2. injection E2 as <- <-. split; [|split; [reflexivity|vm_compute; discriminate]].
  apply reach_close; [exact R2|]. left. reflexivity.
Qed.
Print Assumptions C131_current_is_last_open_refuted.

(** With one task at a time the current one is the open one, if there is one. *)
Inductive reach1 : tool -> Prop :=
| reach1_start fds f : reach1 (Tool fds [] CNull f)
| reach1_open fuel k pid flag s o s' : reach1 s -> o_live s = [] ->
    open_task fuel k pid flag s = Some (o, s') -> reach1 s'
| reach1_close t s : reach1 s -> In (t_h t) (o_live s) -> reach1 (close_task t s).
Theorem C131_current_is_last_open_partial :
  (forall s, reach1 s -> (o_live s = [] /\ get_current_task s = 0) \/ (exists h, o_live s = [h] /\ get_current_task s = h)) /\
  (forall fuel k pid flag s t s', open_task fuel k pid flag s = Some (Opened t, s') -> get_current_task s' = t_h t).
Proof.
  split.
  - intros s R. induction R as [fds f|fuel k pid flag s o s' R IH Z0 H|t s R IH I].
    + left. split; reflexivity.
    + destruct IH as [(_ & C0)|(h & E & _)]; [|congruence].
      destruct (open_cur _ _ _ _ _ _ _ H) as [(-> & _)|(h & M & [(C & L & _)|(C & L & _)])]; [left; auto| |].
      * left. rewrite Z0 in L. cbn [List.remove] in L. destruct (Z.eq_dec h h); [|congruence]. unfold get_current_task. rewrite C. split; [exact L|reflexivity].
      * right. exists h. rewrite L, Z0. unfold get_current_task. rewrite C. split; reflexivity.
    + destruct IH as [(E & _)|(h & E & _)]; rewrite E in I; [destruct I|]. destruct I as [I|[]].
      left. unfold close_task. cbn [o_live]. rewrite E. cbn [List.remove]. destruct (Z.eq_dec (t_h t) h); [|congruence]. split; reflexivity.
  - intros fuel k pid flag s t s' H.
    destruct (open_cur _ _ _ _ _ _ _ H) as [(_ & e & E)|(h & M & [(_ & _ & e & E)|(C & _ & t' & E & T)])]; try discriminate.
    injection E as ->. unfold get_current_task. rewrite C. auto.
Qed.
Print Assumptions C131_current_is_last_open_partial.

Example C131_ex : exists s, reach1 s /\ o_live s = [8192] /\ get_current_task s = 8192 /\ o_fds s = [5; 0; 1; 2].
Proof.
  destruct (open_task 99 (good 4096) 77 511 empty_tool) as [[[t1|e] s1]|] eqn:E1; [|vm_compute in E1; discriminate|vm_compute in E1; discriminate].
  assert (R1 : reach1 (close_task t1 s1)).
  { apply reach1_close; [eapply reach1_open; [apply (reach1_start [0; 1; 2] [])| |exact E1]; reflexivity|]. vm_compute in E1. injection E1 as <- <-. left. reflexivity. }
  vm_compute in E1. injection E1 as <- <-.
  eexists. split; [eapply (reach1_open 99 (good 8192) 78 511); [exact R1| |]|]; [vm_compute; reflexivity|vm_compute; reflexivity|].
  split; [|split]; vm_compute; reflexivity.
Qed.

(** * C132 *)
(** No permission to open the memory: NULL is returned and errno is 0. *)
Definition no_mem (h : Z) (e : Z) : kernel :=
  Kn true (Some h) 0 (k_status (good h)) (k_comm (good h)) 9 0 (k_exe (good h)) (fun _ => true) (-1) e 0 0 true true false false None None (fun _ => None).
Theorem C132_cause_refuted : exists fuel k pid flag s s', k_mem k = -1 /\ k_mem_errno k = EACCES /\
  open_task fuel k pid flag s = Some (Failed 0, s').
Proof. exists 99%nat, (no_mem 4096 EACCES), 77, 511, empty_tool. eexists. split; [reflexivity|]. split; [reflexivity|]. vm_compute. reflexivity. Qed.
Print Assumptions C132_cause_refuted.

(** A failure reported with an error number: the number is the one of the step that failed.  errno 0 is
    left only when memory is short, the executable cannot be found, the memory cannot be opened, libc or stack is missing, or
    the private directory cannot be made. *)
Theorem C132_cause_partial : forall fuel k pid flag s e s', open_task fuel k pid flag s = Some (Failed e, s') ->
  (e = ENOENT /\ k_exist k = false) \/
  (e <> 0 /\ k_auxv k <> 0 /\ e = - k_auxv k) \/
  (e <> 0 /\ exists err st, err <> 0 /\ e = - err /\ proc_get_pid_status fuel (k_status k) (k_errno k) (Ids 0 0 0 0, Ids 0 0 0 0) = Some (err, st)) \/
  (e <> 0 /\ e = k_errno k /\ exists c, proc_pid_comm (k_comm k) (k_errno k) [] = Some (- e, c, true)) \/
  (e <> 0 /\ k_vmas k <> 0 /\ e = - k_vmas k) \/
  (e = 0 /\ (k_malloc k = None \/ (k_exe k = None \/ exists l, k_exe k = Some l /\ k_exe_exists k l = false) \/
     k_mem k <= 0 \/ k_libc k = false \/ k_stack k = false \/ k_mkdir1 k = true \/ k_mkdir2 k = true)).
Proof.
  intros fuel k pid flag s e s' H. unfold open_task in H.
  destruct (k_exist k) eqn:EX; cbn [negb] in H; [|injection H as <- _; left; auto].
  destruct (k_malloc k) as [h|] eqn:EM; [|injection H as <- _; right; right; right; right; right; auto].
  assert (FL : forall t x s0, fail t x s0 = Some (Failed e, s') -> e = - x).
  { intros t x s0 E. unfold fail in E. injection E as E _. lia. }
  match type of H with (if negb (?x =? 0) then _ else _) = _ => set (err := x) in *; destruct (Z.eqb_spec err 0) as [E0|N0] end; cbn [negb] in H.
  2: { apply FL in H. subst err. destruct (has flag FTO_AUXV); [|lia]. right; left. lia. }
  match type of H with match ?x with _ => _ end = _ => destruct x as [[err1 st]|] eqn:ST; [|discriminate] end.
  destruct (Z.eqb_spec err1 0) as [->|N1]; cbn [negb] in H.
  2: { apply FL in H. destruct (has flag FTO_STATUS); [|injection ST as <- _; lia]. right; right; left. split; [lia|]. exists err1, st. auto. }
  cbn [t_comm set_status] in H. destruct (proc_pid_comm (k_comm k) (k_errno k) []) as [[[err2 cm] leak]|] eqn:CM; [|discriminate].
  destruct (Z.eqb_spec err2 0) as [->|N2]; cbn [negb] in H.
  2: { apply FL in H. right; right; right; left. split; [lia|]. unfold proc_pid_comm in CM. destruct (k_comm k); [|discriminate].
       destruct (scan_s TASK_COMM_LEN l) as [[[w r]|]|]; try discriminate; injection CM as <- <- <-; [lia|]. split; [lia|].
       exists []. do 3 f_equal. lia. }
  right; right; right; right.
  match type of H with match ?x with _ => _ end = _ => destruct x as [[exe|]|] eqn:XE; [| |discriminate] end.
  2: { apply FL in H. right. split; [lia|]. right; left. unfold read_proc_pid_symlink in XE. destruct (k_exe k) as [l|]; [|auto].
       right. exists l. split; [reflexivity|]. destruct (PATH_MAX <=? TextModel.len l); [discriminate|]. destruct (k_exe_exists k l); [discriminate|auto]. }
  cbn [t_mem_fd set_mem] in H.
  destruct (Z.leb_spec (if k_mem k <=? 0 then - k_mem_errno k else k_mem k) 0) as [LE|LE].
  { apply FL in H. right. split; [lia|]. right; right; left. destruct (Z.leb_spec (k_mem k) 0); lia. }
  destruct (Z.eqb_spec (k_vmas k) 0) as [V0|V0]; cbn [negb] in H; [|apply FL in H; left; lia].
  right. unfold open_rest in H.
  destruct (k_libc k) eqn:LC; cbn [negb orb] in H; [|apply FL in H; split; [lia|]; auto 10].
  destruct (k_stack k) eqn:SK; cbn [negb orb] in H; [|apply FL in H; split; [lia|]; auto 10].
  match type of H with match ?x with _ => _ end = _ => destruct x as [[[|] s3]|] eqn:PE; [| |discriminate] end.
  - match type of H with match ?x with _ => _ end = _ => destruct x; [|discriminate] end. discriminate.
  - apply FL in H. split; [lia|]. do 5 right. destruct (has _ FTO_PROC); [|discriminate].
    destruct (k_mkdir1 k); [auto|]. destruct (k_mkdir2 k); [auto|].
    match type of PE with match ?x with _ => _ end = _ => destruct x; discriminate end.
Qed.
Print Assumptions C132_cause_partial.

Example C132_ex : exists s', open_task 99 (Kn true (Some 4096) (- EACCES) None None 9 0 None (fun _ => true) (-1) 0 0 0 true true false false None None (fun _ => None))
  77 511 empty_tool = Some (Failed EACCES, s') /\ o_live s' = [].
Proof. eexists. split; vm_compute; reflexivity. Qed.

(** * C133 *)
(** The process ends after it was found: /proc/PID/comm cannot be opened. *)
Theorem C133_vanished_refuted : exists fuel k pid flag s, k_comm k = None /\ open_task fuel k pid flag s = None.
Proof.
  exists 99%nat, (Kn true (Some 4096) 0 None None 9 0 None (fun _ => true) (-1) 2 0 0 true true false false None None (fun _ => None)), 77, 0, empty_tool.
  split; reflexivity.
Qed.
Print Assumptions C133_vanished_refuted.

(** It does not crash as long as the name, the status (if asked for) and the links of the descriptors (if asked for) can be read
    and nobody has made a directory in place of the name file. *)
Theorem C133_vanished_partial : forall fuel k pid flag s name A B C u g,
  k_comm k = Some name -> (forall w, In w [word (MiscModel.skip_space name)] -> Z.of_nat (List.length w) < 128) ->
  k_status k = Some (text_of (A ++ [id_line "Uid:" u] ++ B ++ [id_line "Gid:" g] ++ C)) ->
  Forall other_line A -> Forall other_line B -> Forall other_line C -> valid_ids u -> valid_ids g ->
  (List.length (text_of (A ++ [id_line "Uid:" u] ++ B ++ [id_line "Gid:" g] ++ C)) < fuel)%nat ->
  (forall l, k_exe k = Some l -> Z.of_nat (List.length l) < PATH_MAX) ->
  lookup (o_fs s) (private_dir pid ++ [str "comm"]) <> Some Dir ->
  (has flag FTO_FD = true -> load_fds (k_fds k) (k_readlink k) <> None) ->
  exists r, open_task fuel k pid flag s = Some r.
Proof.
  intros fuel k pid flag s name A B C u g KC W KS FA FB FC Vu Vg Hf X D FD. unfold open_task.
  destruct (k_exist k); cbn [negb]; [|eauto]. destruct (k_malloc k) as [h|]; [|eauto].
  match goal with |- context [if negb (?x =? 0) then _ else _] => destruct (negb (x =? 0)); [unfold fail; eauto|] end.
  assert (ST : exists e st, (if has flag FTO_STATUS then proc_get_pid_status fuel (k_status k) (k_errno k) (Ids 0 0 0 0, Ids 0 0 0 0) else Some (0, (Ids 0 0 0 0, Ids 0 0 0 0))) = Some (e, st)).
  { destruct (has flag FTO_STATUS); [|eauto]. rewrite KS.
    destruct (C126_identifiers A B C u g (k_errno k) (Ids 0 0 0 0, Ids 0 0 0 0) fuel FA FB FC Vu Vg Hf) as (r & E & _). rewrite E. eauto. }
  cbn [t_status]. destruct ST as (e & st & ->). destruct (negb (e =? 0)); [unfold fail; eauto|].
  cbn [t_comm set_status]. rewrite KC.
  assert (CM : exists e c lk, proc_pid_comm (Some name) (k_errno k) [] = Some (e, c, lk)).
  { unfold proc_pid_comm, scan_s, skip_space. specialize (W _ (or_introl eq_refl)).
    destruct (MiscModel.skip_space name) as [|c r] eqn:SK; [eauto|]. unfold TASK_COMM_LEN. unfold TextModel.len.
    destruct (Z.leb_spec 128 (Z.of_nat (List.length (word (c :: r))))); [lia|eauto]. }
  destruct CM as (e2 & c2 & lk & ->). destruct (negb (e2 =? 0)); [unfold fail; eauto|].
  assert (LK : exists o, read_proc_pid_symlink (k_exe k) (k_exe_exists k) (fun _ => 0) PATH_MAX = Some o).
  { unfold read_proc_pid_symlink. destruct (k_exe k) as [l|]; [|eauto]. specialize (X l eq_refl). unfold TextModel.len.
    destruct (Z.leb_spec PATH_MAX (Z.of_nat (List.length l))); [lia|]. destruct (k_exe_exists k l); eauto. }
  cbn [t_exe set_comm set_status]. destruct LK as ([exe|] & ->); [|unfold fail; eauto].
  match goal with |- context [if ?b then fail _ _ _ else _] => destruct b; [unfold fail; eauto|] end.
  match goal with |- context [if ?b then fail _ _ _ else _] => destruct b; [unfold fail; eauto|] end.
  unfold open_rest.
  match goal with |- context [if ?b then fail _ _ _ else _] => destruct b; [unfold fail; eauto|] end.
  cbn [t_flag t_pid t_comm set_elf set_ulp set_mem set_exe set_comm set_status].
  assert (FS : forall b c d, o_fs (if k_mem k <? 0 then if lk then set_fds (Tool b c d (o_fs s)) (k_comm_fd k :: b) else Tool b c d (o_fs s)
     else set_fds (if lk then set_fds (Tool b c d (o_fs s)) (k_comm_fd k :: b) else Tool b c d (o_fs s))
            (k_mem k :: o_fds (if lk then set_fds (Tool b c d (o_fs s)) (k_comm_fd k :: b) else Tool b c d (o_fs s)))) = o_fs s).
  { intros b c d. destruct (k_mem k <? 0), lk; reflexivity. }
  cbn [o_fds]. rewrite FS.
  assert (NM : proc_dir pid <> proc_comm pid).
  { intros E. apply (f_equal (@List.length _)) in E. unfold proc_comm in E. rewrite app_length in E. cbn [List.length] in E. lia. }
  assert (MK : forall f p q, p <> q -> lookup (snd (mkdir f p)) q = lookup f q).
  { intros f p q N. unfold mkdir. destruct (lookup f p); cbn [snd]; [reflexivity|]. rewrite lookup_put.
    destruct (path_eqb p q) eqn:E; [apply path_eqb_eq in E; congruence|reflexivity]. }
  change (private_dir pid ++ [str "comm"]) with (proc_comm pid) in D.
  assert (TL : forall t s1, exists r, match (if has flag FTO_FD then load_fds (k_fds k) (k_readlink k) else Some []) with
       | Some fds => Some (Opened (set_lists t (if has flag FTO_THREADS then load_threads (k_threads k) else []) fds),
            Tool (o_fds s1) (o_live s1) (CTask (t_h (set_lists t (if has flag FTO_THREADS then load_threads (k_threads k) else []) fds))) (o_fs s1))
       | None => None end = Some r).
  { intros t s1. destruct (has flag FTO_FD); [|eauto]. destruct (load_fds (k_fds k) (k_readlink k)); [eauto|exfalso; apply FD; reflexivity]. }
  destruct (has flag FTO_PROC); [|apply TL].
  destruct (k_mkdir1 k); [unfold fail; eauto|]. destruct (k_mkdir2 k).
  - rewrite MK by auto. destruct (lookup (o_fs s) (proc_comm pid)) as [[]|]; unfold fail; eauto; congruence.
  - unfold open_proc. rewrite MK by auto. destruct (lookup (o_fs s) (proc_comm pid)) as [[]|]; try congruence; apply TL.
Qed.
Print Assumptions C133_vanished_partial.

(** A status file with lines of other kinds, the libraries missing: reported, not crashed. *)
Example C133_ex : let k := Kn true (Some 4096) 0 (Some (text_of [str "Name:	srv"; id_line "Uid:" (0, 0, 0, 0); id_line "Gid:" (5, 5, 5, 5)])) (Some (str "srv" ++ [10])) 9 0
     (Some (str "/bin/srv")) (fun _ => true) 5 0 0 0 false true false false None (Some [str "0"]) (fun _ => Some (str "/dev/null")) in
  other_line (str "Name:	srv") /\ valid_ids (5, 5, 5, 5) /\ exists s', open_task 99 k 77 511 empty_tool = Some (Failed 0, s') /\ o_live s' = [].
Proof.
  cbv zeta. split; [|split; [unfold valid_ids, valid_id; lia|]].
  - repeat constructor; try (vm_compute; intuition discriminate); try (intros (r & E); vm_compute in E; discriminate);
    intros j Hj; rewrite nth_overflow; try discriminate; vm_compute; lia.
  - eexists. split; vm_compute; reflexivity.
Qed.

(** * C134 *)

(** A patched process: its private directory holds the name and a file of the patch. *)
Definition patched_fs : fs :=
  [(private_dir 77, Dir); (private_dir 77 ++ [str "comm"], Reg (str "srv")); (private_dir 77 ++ [str "map_files"], Dir);
   (private_dir 77 ++ [str "map_files"; str "ulp-Ab3"], Reg [1; 2; 3])].
Theorem C134_failed_open_refuted : exists fuel k pid flag s e s',
  open_task fuel k pid flag s = Some (Failed e, s') /\ ~ same (o_fs s) (o_fs s').
Proof.
  exists 99%nat, (no_mem 4096 EACCES), 77, 511, (Tool [0; 1; 2] [] CNull patched_fs), 0. eexists. split; [vm_compute; reflexivity|].
  intros H. specialize (H (private_dir 77 ++ [str "comm"])). vm_compute in H. discriminate.
Qed.
Print Assumptions C134_failed_open_refuted.

(** Between two file systems: nothing but the three entries differs, and a directory of patch files with something in it stays. *)
Definition kept (pid : Z) (f g : fs) : Prop :=
  same_but (own pid) f g /\
  (forall q, below (private_dir pid ++ [str "map_files"]) q -> lookup f q <> None ->
     lookup f (private_dir pid ++ [str "map_files"]) = Some Dir -> lookup f (private_dir pid) = Some Dir ->
     lookup g (private_dir pid ++ [str "map_files"]) = Some Dir /\ lookup g (private_dir pid) = Some Dir).

Lemma maps_not_own pid q : below (private_dir pid ++ [str "map_files"]) q -> ~ In q (own pid).
Proof.
  intros (c & r & ->) [E|[E|[E|[]]]]; apply (f_equal (@List.length _)) in E; rewrite !app_length in E; cbn [List.length private_dir] in E; lia.
Qed.
Lemma kept_refl pid f : kept pid f f.
Proof. split; [intros q _; reflexivity|auto]. Qed.
Lemma kept_trans pid f g h : kept pid f g -> kept pid g h -> kept pid f h.
Proof.
  intros (A1 & A2) (B1 & B2). split; [intros q N; rewrite (B1 q N); apply A1; auto|].
  intros q Bq L D1 D2. destruct (A2 q Bq L D1 D2) as (E1 & E2). apply (B2 q Bq); auto.
  rewrite (A1 q); auto. apply maps_not_own; auto.
Qed.
Lemma kept_mkdir pid f p : In p (own pid) -> kept pid f (snd (mkdir f p)).
Proof.
  intros I. unfold mkdir. destruct (lookup f p) eqn:L; cbn [snd]; [apply kept_refl|]. split.
  - intros q N. rewrite lookup_put. destruct (path_eqb p q) eqn:E; [apply path_eqb_eq in E; congruence|reflexivity].
  - intros q _ _ D1 D2. rewrite !lookup_put. split; (destruct (path_eqb p _) eqn:E; [reflexivity|auto]).
Qed.
Lemma kept_put_comm pid f n : kept pid f (put f (proc_comm pid) n).
Proof.
  destruct (own_distinct pid) as (N1 & N2 & N3). split.
  - intros q N. rewrite lookup_put. destruct (path_eqb (proc_comm pid) q) eqn:E; [|reflexivity]. apply path_eqb_eq in E. exfalso. apply N. right. left. exact E.
  - intros q _ _ D1 D2. rewrite !lookup_put. split; (destruct (path_eqb (proc_comm pid) _) eqn:E; [apply path_eqb_eq in E|auto]); exfalso; 
    change (private_dir pid) with (proc_dir pid) in *; change (proc_dir pid ++ [str "map_files"]) with (proc_maps pid) in *; congruence.
Qed.
Lemma kept_clean pid f : kept pid f (clean_task_proc f pid).
Proof.
  split; [intros q N; apply clean_others; exact N|]. intros q Bq L D1 D2.
  destruct (own_distinct pid) as (N1 & N2 & N3).
  change (private_dir pid) with (proc_dir pid) in *. change (proc_dir pid ++ [str "map_files"]) with (proc_maps pid) in *.
  assert (U : forall g p, p = proc_comm pid -> forall x, x <> proc_comm pid -> lookup (snd (unlink g p)) x = lookup g x).
  { intros g p -> x N. unfold unlink. destruct (lookup g (proc_comm pid)) as [[]|]; cbn [snd]; auto; rewrite lookup_remove;
    (destruct (path_eqb (proc_comm pid) x) eqn:E; [apply path_eqb_eq in E; congruence|reflexivity]). }
  assert (Nq : q <> proc_comm pid).
  { intros ->. pose proof (maps_not_own pid (proc_comm pid) Bq) as X. apply X. right. left. reflexivity. }
  unfold clean_task_proc. set (f1 := if fexist f (proc_comm pid) then snd (unlink f (proc_comm pid)) else f).
  assert (F1 : forall x, x <> proc_comm pid -> lookup f1 x = lookup f x).
  { intros x N. subst f1. destruct (fexist f (proc_comm pid)); [apply U; auto|reflexivity]. }
  clearbody f1.
  assert (R : forall p, lookup f1 p = Some Dir -> below p q -> snd (rmdir f1 p) = f1).
  { intros p E B. unfold rmdir. rewrite E. replace (existsb (fun x => under p (fst x)) f1) with true; [reflexivity|].
    symmetry. apply occupied. exists q. split; auto. rewrite F1 by auto. auto. }
  assert (E1 : lookup f1 (proc_maps pid) = Some Dir) by (rewrite F1; auto).
  assert (E2 : lookup f1 (proc_dir pid) = Some Dir) by (rewrite F1; auto).
  assert (B2 : below (proc_dir pid) q) by (eapply below_trans; exact Bq).
  replace (if fexist f1 (proc_maps pid) then snd (rmdir f1 (proc_maps pid)) else f1) with f1 by (rewrite (R (proc_maps pid)) by auto; destruct (fexist _ _); reflexivity).
  replace (if fexist f1 (proc_dir pid) then snd (rmdir f1 (proc_dir pid)) else f1) with f1 by (rewrite (R (proc_dir pid)) by auto; destruct (fexist _ _); reflexivity).
  auto.
Qed.

Lemma kept_close t s : kept (t_pid t) (o_fs s) (o_fs (close_task t s)).
Proof.
  unfold close_task. cbn [o_fs]. destruct (has (t_flag t) FTO_PROC); [|apply kept_refl]. destruct (t_ulp t =? 0); [apply kept_clean|apply kept_refl].
Qed.

(** Opening, successful or not, and closing change nothing but the three entries of the private directory of the process; a
    directory of patch files that is not empty stays.  Missing (false): the entry with the name is removed by a failing open. *)
Theorem C134_failed_open_partial : forall fuel k pid flag s o s', open_task fuel k pid flag s = Some (o, s') ->
  kept pid (o_fs s) (o_fs s') /\
  (forall t, o = Opened t -> t_pid t = pid /\ kept pid (o_fs s) (o_fs (close_task t s'))).
Proof.
  intros fuel k pid flag s o s' H. unfold open_task in H.
  destruct (k_exist k); cbn [negb] in H; [|injection H as <- <-; split; [apply kept_refl|discriminate]].
  destruct (k_malloc k) as [h|]; [|injection H as <- <-; split; [apply kept_refl|discriminate]].
  assert (FL : forall t e s0, t_pid t = pid -> kept pid (o_fs s) (o_fs s0) -> fail t e s0 = Some (o, s') ->
    kept pid (o_fs s) (o_fs s') /\ (forall t, o = Opened t -> t_pid t = pid /\ kept pid (o_fs s) (o_fs (close_task t s')))).
  { intros t e s0 P K E. unfold fail in E. injection E as <- <-. split; [|discriminate]. eapply kept_trans; [exact K|]. rewrite <- P. apply kept_close. }
  match type of H with (if ?b then _ else _) = _ => destruct b; [eapply FL; [| |exact H]; [reflexivity|apply kept_refl]|] end.
  match type of H with match ?x with _ => _ end = _ => destruct x as [[err st]|]; [|discriminate] end.
  destruct (negb (err =? 0)); [eapply FL; [| |exact H]; [reflexivity|apply kept_refl]|].
  match type of H with match ?x with _ => _ end = _ => destruct x as [[[err2 cm] leak]|]; [|discriminate] end.
  set (s1 := if leak then _ else _) in H.
  assert (L1 : o_fs s1 = o_fs s) by (subst s1; destruct leak; reflexivity). clearbody s1.
  destruct (negb (err2 =? 0)); [eapply FL; [| |exact H]; [reflexivity|rewrite L1; apply kept_refl]|].
  match type of H with match ?x with _ => _ end = _ => destruct x as [[exe|]|]; [| |discriminate] end.
  2: { eapply FL; [| |exact H]; [reflexivity|rewrite L1; apply kept_refl]. }
  set (s2 := if k_mem k <? 0 then _ else _) in H.
  assert (L2 : o_fs s2 = o_fs s) by (subst s2; destruct (k_mem k <? 0); exact L1). clearbody s2.
  match type of H with (if ?b then _ else _) = _ => destruct b; [eapply FL; [| |exact H]; [reflexivity|rewrite L2; apply kept_refl]|] end.
  match type of H with (if ?b then _ else _) = _ => destruct b; [eapply FL; [| |exact H]; [reflexivity|rewrite L2; apply kept_refl]|] end.
  unfold open_rest in H.
  match type of H with (if ?b then _ else _) = _ => destruct b; [eapply FL; [| |exact H]; [reflexivity|rewrite L2; apply kept_refl]|] end.
  cbn [t_flag t_pid t_comm set_elf set_ulp set_mem set_exe set_comm set_status] in H.
  match type of H with match ?x with _ => _ end = _ => destruct x as [[b s3]|] eqn:PE; [|discriminate] end.
  assert (K3 : kept pid (o_fs s) (o_fs s3)).
  { rewrite <- L2. destruct (has flag FTO_PROC); [|injection PE as _ <-; apply kept_refl].
    assert (M1 : kept pid (o_fs s2) (snd (mkdir (o_fs s2) (proc_dir pid)))) by (apply kept_mkdir; left; reflexivity).
    destruct (k_mkdir1 k); [injection PE as _ <-; apply kept_refl|]. destruct (k_mkdir2 k).
    - match type of PE with match ?x with _ => _ end = _ => destruct x as [[]|] end; try discriminate; injection PE as _ <-;
      cbn [set_fs o_fs]; (eapply kept_trans; [exact M1|apply kept_put_comm]).
    - destruct (open_proc (o_fs s2) pid cm) as [f'|] eqn:OP; [|discriminate]. injection PE as _ <-. cbn [set_fs o_fs].
      unfold open_proc in OP.
      match type of OP with match ?x with _ => _ end = _ => destruct x as [[]|] end; try discriminate;
      (apply (f_equal (fun o => match o with Some x => x | None => f' end)) in OP; cbv beta iota in OP; rewrite <- OP;
       (eapply kept_trans; [exact M1|]); (eapply kept_trans; [apply kept_put_comm|]); apply kept_mkdir; right; right; left; reflexivity). }
  destruct b; [|eapply FL; [| |exact H]; [reflexivity|exact K3]].
  match type of H with match ?x with _ => _ end = _ => destruct x; [|discriminate] end.
  injection H as <- <-. cbn [o_fs]. split; [exact K3|]. intros t E. injection E as <-. split; [reflexivity|].
  eapply kept_trans; [exact K3|]. match goal with |- kept pid _ (o_fs (close_task ?t ?s)) => change pid with (t_pid t) at 1; apply (kept_close t s) end.
Qed.
Print Assumptions C134_failed_open_partial.

(** The file of the patch and both directories are still there after the open that fails. *)
Example C134_ex : exists s', open_task 99 (no_mem 4096 EACCES) 77 511 (Tool [0; 1; 2] [] CNull patched_fs) = Some (Failed 0, s') /\
  lookup (o_fs s') (private_dir 77) = Some Dir /\ lookup (o_fs s') (private_dir 77 ++ [str "map_files"]) = Some Dir /\
  lookup (o_fs s') (private_dir 77 ++ [str "map_files"; str "ulp-Ab3"]) = Some (Reg [1; 2; 3]) /\
  lookup (o_fs s') (private_dir 77 ++ [str "comm"]) = None.
Proof. eexists. split; [vm_compute; reflexivity|]. repeat split; vm_compute; reflexivity. Qed.

(** What a successful opening has done to the files, and what it remembers for the closing. *)
Lemma open_ok fuel k pid flag s t s' : open_task fuel k pid flag s = Some (Opened t, s') ->
  t_pid t = pid /\ t_flag t = flag /\ t_ulp t = k_ulp k /\
  (has flag FTO_PROC = false -> o_fs s' = o_fs s) /\ (has flag FTO_PROC = true -> open_proc (o_fs s) pid (t_comm t) = Some (o_fs s')).
Proof.
  intros H. unfold open_task in H.
  destruct (k_exist k); cbn [negb] in H; [|discriminate]. destruct (k_malloc k) as [h|]; [|discriminate].
  unfold fail in H.
  match type of H with (if ?b then _ else _) = _ => destruct b; [discriminate|] end.
  match type of H with match ?x with _ => _ end = _ => destruct x as [[err st]|]; [|discriminate] end.
  match type of H with (if ?b then _ else _) = _ => destruct b; [discriminate|] end.
  match type of H with match ?x with _ => _ end = _ => destruct x as [[[err2 cm] leak]|]; [|discriminate] end.
  match type of H with (if ?b then _ else _) = _ => destruct b; [discriminate|] end.
  match type of H with match ?x with _ => _ end = _ => destruct x as [[exe|]|]; [|discriminate|discriminate] end.
  match type of H with (if ?b then _ else _) = _ => destruct b; [discriminate|] end.
  match type of H with (if ?b then _ else _) = _ => destruct b; [discriminate|] end.
  unfold open_rest, fail in H.
  match type of H with (if ?b then _ else _) = _ => destruct b; [discriminate|] end.
  cbn [t_flag t_pid t_comm set_elf set_ulp set_mem set_exe set_comm set_status] in H.
  set (s2 := if k_mem k <? 0 then _ else _) in H.
  assert (L2 : o_fs s2 = o_fs s) by (subst s2; destruct (k_mem k <? 0), leak; reflexivity). clearbody s2.
  match type of H with match ?x with _ => _ end = _ => destruct x as [[[|] s3]|] eqn:PE; [|discriminate|discriminate] end.
  match type of H with match ?x with _ => _ end = _ => destruct x as [fds|] eqn:FD; [|discriminate] end.
  injection H as <- <-. cbn [t_pid t_flag t_ulp t_comm o_fs set_lists set_elf set_ulp set_mem set_exe set_comm set_status].
  split; [reflexivity|]. split; [reflexivity|]. split; [reflexivity|]. rewrite <- L2. split; intros E; rewrite E in PE.
  - injection PE as <-. reflexivity.
  - destruct (k_mkdir1 k); [discriminate|]. destruct (k_mkdir2 k).
    + match type of PE with match ?x with _ => _ end = _ => destruct x as [[]|]; discriminate end.
    + destruct (open_proc (o_fs s2) pid cm) as [f'|]; [|discriminate]. injection PE as <-. reflexivity.
Qed.

(** Closing a patched process leaves its directory with all it has; closing one without patches restores the files as they were
    if there was no directory before. *)
Theorem C134_close : forall fuel k pid flag s t s', open_task fuel k pid flag s = Some (Opened t, s') ->
  (Z.land flag FTO_PROC = 0 \/ k_ulp k <> 0 -> o_fs (close_task t s') = o_fs s') /\
  (Z.land flag FTO_PROC = 0 -> o_fs s' = o_fs s) /\
  (Z.land flag FTO_PROC <> 0 -> (forall q, In q (own pid) \/ below (private_dir pid) q -> lookup (o_fs s) q = None) ->
     lookup (o_fs s') (private_dir pid) = Some Dir /\ lookup (o_fs s') (private_dir pid ++ [str "comm"]) = Some (Reg (t_comm t)) /\
     lookup (o_fs s') (private_dir pid ++ [str "map_files"]) = Some Dir /\
     (k_ulp k = 0 -> same (o_fs s) (o_fs (close_task t s')))).
Proof.
  intros fuel k pid flag s t s' H. destruct (open_ok _ _ _ _ _ _ _ H) as (P & F & U & N & Y).
  assert (HB : has flag FTO_PROC = negb (Z.land flag FTO_PROC =? 0)) by reflexivity.
  split; [|split].
  - intros D. unfold close_task. cbn [o_fs]. rewrite F, U, HB. destruct (Z.eqb_spec (Z.land flag FTO_PROC) 0), (Z.eqb_spec (k_ulp k) 0); cbn [negb]; try reflexivity. lia.
  - intros E. apply N. rewrite HB, E. reflexivity.
  - intros E A. destruct (Z.eqb_spec (Z.land flag FTO_PROC) 0); [contradiction|]. cbn [negb] in HB. specialize (Y HB). clear N.
    destruct (own_distinct pid) as (N1 & N2 & N3).
    change (private_dir pid) with (proc_dir pid) in *. change (proc_dir pid ++ [str "comm"]) with (proc_comm pid) in *. change (proc_dir pid ++ [str "map_files"]) with (proc_maps pid) in *.
    assert (A1 : lookup (o_fs s) (proc_dir pid) = None) by (apply A; left; left; reflexivity).
    assert (A2 : lookup (o_fs s) (proc_comm pid) = None) by (apply A; left; right; left; reflexivity).
    assert (A3 : lookup (o_fs s) (proc_maps pid) = None) by (apply A; left; right; right; left; reflexivity).
    unfold open_proc in Y. unfold mkdir at 1 in Y. rewrite A1 in Y. cbn [snd] in Y. rewrite lookup_put, path_eqb_neq, A2 in Y by auto.
    assert (G : forall f', f' = snd (mkdir (put (snd (mkdir (o_fs s) (proc_dir pid))) (proc_comm pid) (Reg (t_comm t))) (proc_maps pid)) ->
      forall q, lookup f' q = if path_eqb (proc_maps pid) q then Some Dir else if path_eqb (proc_comm pid) q then Some (Reg (t_comm t)) else
        if path_eqb (proc_dir pid) q then Some Dir else lookup (o_fs s) q).
    { intros f' -> q. unfold mkdir at 2. rewrite A1. cbn [snd]. unfold mkdir.
      rewrite lookup_put, path_eqb_neq, lookup_put, path_eqb_neq, A3 by auto. cbn [snd]. rewrite !lookup_put. reflexivity. }
    specialize (G (o_fs s')). assert (Y' : o_fs s' = snd (mkdir (put (snd (mkdir (o_fs s) (proc_dir pid))) (proc_comm pid) (Reg (t_comm t))) (proc_maps pid)));
      [apply (f_equal (fun o => match o with Some x => x | None => o_fs s' end)) in Y; cbv beta iota in Y; symmetry; exact Y|].
    specialize (G Y').
    assert (G1 : lookup (o_fs s') (proc_dir pid) = Some Dir) by (rewrite G, !path_eqb_neq, path_eqb_refl by auto; reflexivity).
    assert (G2 : lookup (o_fs s') (proc_comm pid) = Some (Reg (t_comm t))) by (rewrite G, path_eqb_neq, path_eqb_refl by auto; reflexivity).
    assert (G3 : lookup (o_fs s') (proc_maps pid) = Some Dir) by (rewrite G, path_eqb_refl by auto; reflexivity).
    split; [exact G1|]. split; [exact G2|]. split; [exact G3|].
    intros U0 q. unfold close_task. cbn [o_fs]. rewrite F, HB, U, U0, P. cbn [Z.eqb].
    destruct (in_dec path_dec q (own pid)) as [I|I].
    + rewrite (A q) by auto. apply clean_all; [|exact I].
      split; [|split; [exact G1|split]].
      * intros x B L. rewrite G in L. destruct (path_eqb (proc_maps pid) x) eqn:E1; [apply path_eqb_eq in E1; right; right; left; exact E1|].
        destruct (path_eqb (proc_comm pid) x) eqn:E2; [apply path_eqb_eq in E2; right; left; exact E2|].
        destruct (path_eqb (proc_dir pid) x) eqn:E3; [apply path_eqb_eq in E3; left; exact E3|].
        exfalso. apply L. apply A. right. exact B.
      * change (lookup (o_fs s') (proc_comm pid) <> Some Dir). rewrite G2. discriminate.
      * right. exact G3.
    + rewrite clean_others by auto. rewrite G.
      rewrite !path_eqb_neq; [reflexivity| | |]; intros E1; apply I; [left|right; left|right; right; left]; exact E1.
Qed.
Print Assumptions C134_close.

Example C134_close_ex : exists t s', open_task 99 (good 4096) 77 511 empty_tool = Some (Opened t, s') /\
  (forall q, In q (own 77) \/ below (private_dir 77) q -> lookup (o_fs empty_tool) q = None) /\
  lookup (o_fs s') (private_dir 77 ++ [str "comm"]) = Some (Reg (str "srv")) /\ o_fs (close_task t s') = [].
Proof. do 2 eexists. split; [vm_compute; reflexivity|]. split; [reflexivity|]. split; vm_compute; reflexivity. Qed.

(** * C135 *)
(** A process whose name is blank: the stream of its name file is left open, and the process is opened all the same. *)
Definition blank_name (h : Z) : kernel :=
  Kn true (Some h) 0 (k_status (good h)) (Some (str " " ++ [10])) 9 0 (k_exe (good h)) (fun _ => true) 5 0 0 0 true true false false
     (Some [str "77"]) (Some [str "0"]) (fun _ => Some (str "/dev/null")).
(** The tool is started without standard output, so that the memory file becomes descriptor 1, which is never closed. *)
Definition low_fd (h : Z) : kernel :=
  Kn true (Some h) 0 (k_status (good h)) (k_comm (good h)) 9 0 (k_exe (good h)) (fun _ => true) 1 0 0 0 true true false false
     (Some [str "77"]) (Some [str "0"]) (fun _ => Some (str "/dev/null")).
Theorem C135_descriptors_returned_refuted :
  (exists k fuel pid flag s t s', open_task fuel k pid flag s = Some (Opened t, s') /\ 2 < k_mem k /\ ~ In (k_mem k) (o_fds s) /\
     o_fds (close_task t s') <> o_fds s) /\
  (exists k fuel pid flag s t s', open_task fuel k pid flag s = Some (Opened t, s') /\ ~ In (k_mem k) (o_fds s) /\ k_comm k = Some (str "srv" ++ [10]) /\
     o_fds (close_task t s') <> o_fds s).
Proof.
  split.
  - exists (blank_name 4096), 99%nat, 77, 511, empty_tool. do 2 eexists. split; [vm_compute; reflexivity|]. split; [vm_compute; reflexivity|].
    split; [vm_compute; intuition discriminate|]. vm_compute. discriminate.
  - exists (low_fd 4096), 99%nat, 77, 511, (Tool [0; 2] [] CNull []). do 2 eexists. split; [vm_compute; reflexivity|].
    split; [vm_compute; intuition discriminate|]. split; [reflexivity|]. vm_compute. discriminate.
Qed.
Print Assumptions C135_descriptors_returned_refuted.

(** For a process with a name, and the standard descriptors in use, every descriptor is given back: at once if opening fails,
    when the task is closed otherwise. *)
Theorem C135_descriptors_returned_partial : forall fuel k pid flag s o s' name,
  open_task fuel k pid flag s = Some (o, s') -> k_comm k = Some name -> MiscModel.skip_space name <> [] ->
  k_mem k < 0 \/ 2 < k_mem k /\ ~ In (k_mem k) (o_fds s) -> 0 < k_mem_errno k ->
  match o with Failed _ => o_fds s' = o_fds s | Opened t => o_fds s' = k_mem k :: o_fds s /\ o_fds (close_task t s') = o_fds s end.
Proof.
  intros fuel k pid flag s o s' name H KC SK KM KE. unfold open_task in H.
  destruct (k_exist k); cbn [negb] in H; [|injection H as <- <-; reflexivity].
  destruct (k_malloc k) as [h|]; [|injection H as <- <-; reflexivity].
  assert (FL : forall t e s0, t_mem_fd t <= 2 -> o_fds s0 = o_fds s -> fail t e s0 = Some (o, s') ->
    match o with Failed _ => o_fds s' = o_fds s | Opened t => o_fds s' = k_mem k :: o_fds s /\ o_fds (close_task t s') = o_fds s end).
  { intros t e s0 M K E. unfold fail in E. injection E as <- <-. unfold close_task. cbn [o_fds]. destruct (Z.ltb_spec 2 (t_mem_fd t)); [lia|exact K]. }
  assert (RM : forall l, ~ In (k_mem k) l -> List.remove Z.eq_dec (k_mem k) (k_mem k :: l) = l).
  { intros l N. cbn [List.remove]. destruct (Z.eq_dec (k_mem k) (k_mem k)); [|congruence]. apply notin_remove. exact N. }
  match type of H with (if ?b then _ else _) = _ => destruct b; [eapply FL; [| |exact H]; [cbn; lia|reflexivity]|] end.
  match type of H with match ?x with _ => _ end = _ => destruct x as [[err st]|]; [|discriminate] end.
  destruct (negb (err =? 0)); [eapply FL; [| |exact H]; [cbn; lia|reflexivity]|].
  rewrite KC in H. unfold proc_pid_comm, scan_s, skip_space in H. destruct (MiscModel.skip_space name) as [|c r]; [congruence|].
  destruct (TASK_COMM_LEN <=? TextModel.len (word (c :: r))); [discriminate|]. cbn [negb Z.eqb] in H.
  match type of H with match ?x with _ => _ end = _ => destruct x as [[exe|]|]; [| |discriminate] end.
  2: { eapply FL; [| |exact H]; [cbn; lia|reflexivity]. }
  cbn [t_mem_fd set_mem] in H.
  destruct KM as [KM|(KM & KN)].
  { destruct (Z.leb_spec (k_mem k) 0); [|lia]. destruct (Z.leb_spec (- k_mem_errno k) 0); [|lia].
    destruct (Z.ltb_spec (k_mem k) 0); [|lia]. eapply FL; [| |exact H]; [cbn [t_mem_fd set_mem]; lia|reflexivity]. }
  destruct (Z.leb_spec (k_mem k) 0); [lia|]. destruct (Z.leb_spec (k_mem k) 0); [lia|]. destruct (Z.ltb_spec (k_mem k) 0); [lia|].
  assert (FM : forall t e s0, t_mem_fd t = k_mem k -> o_fds s0 = k_mem k :: o_fds s -> fail t e s0 = Some (o, s') ->
    match o with Failed _ => o_fds s' = o_fds s | Opened t => o_fds s' = k_mem k :: o_fds s /\ o_fds (close_task t s') = o_fds s end).
  { intros t e s0 M K E. unfold fail in E. injection E as <- <-. unfold close_task. cbn [o_fds]. rewrite M, K.
    destruct (Z.ltb_spec 2 (k_mem k)); [|lia]. apply RM. exact KN. }
  match type of H with (if ?b then _ else _) = _ => destruct b; [eapply FM; [| |exact H]; reflexivity|] end.
  unfold open_rest in H.
  match type of H with (if ?b then _ else _) = _ => destruct b; [eapply FM; [| |exact H]; reflexivity|] end.
  match type of H with match ?x with _ => _ end = _ => destruct x as [[b s3]|] eqn:PE; [|discriminate] end.
  assert (K3 : o_fds s3 = k_mem k :: o_fds s).
  { repeat match type of PE with
       | (if ?b then _ else _) = _ => destruct b
       | match ?x with _ => _ end = _ => destruct x
       end; try discriminate; apply (f_equal (fun o => match o with Some x => snd x | None => s3 end)) in PE; cbn [snd] in PE; subst s3; reflexivity. }
  destruct b; [|eapply FM; [| |exact H]; [reflexivity|exact K3]].
  match type of H with match ?x with _ => _ end = _ => destruct x; [|discriminate] end.
  injection H as <- <-. cbn [o_fds]. split; [exact K3|]. unfold close_task. cbn [o_fds t_mem_fd set_lists set_elf set_ulp set_mem]. rewrite K3.
  destruct (Z.ltb_spec 2 (k_mem k)); [|lia]. apply RM. exact KN.
Qed.
Print Assumptions C135_descriptors_returned_partial.

Example C135_ex : exists t s', open_task 99 (good 4096) 77 511 empty_tool = Some (Opened t, s') /\ o_fds s' = [5; 0; 1; 2] /\ o_fds (close_task t s') = [0; 1; 2].
Proof. do 2 eexists. split; [vm_compute; reflexivity|]. split; vm_compute; reflexivity. Qed.

(** * C136 *)
(** The parts of a process that the flags name, flags.h: all bits of a part's constant must be set. *)
Definition asks (flag part : Z) : Prop := Z.land flag part = part.
Theorem C136_only_what_is_asked_refuted : exists fuel k pid flag s t s', open_task fuel k pid flag s = Some (Opened t, s') /\
  flag = FTO_VMA_ELF /\ ~ asks flag FTO_VMA_ELF_FILE /\ t_files t = true /\ ~ asks flag FTO_VMA_ELF_SYMBOLS /\ t_syms t = true.
Proof.
  exists 99%nat, (good 4096), 77, FTO_VMA_ELF, empty_tool. do 2 eexists. split; [vm_compute; reflexivity|].
  split; [reflexivity|]. split; [vm_compute; discriminate|]. split; [reflexivity|]. split; [vm_compute; discriminate|reflexivity].
Qed.
Print Assumptions C136_only_what_is_asked_refuted.

(** What is asked for is loaded; threads and descriptors only when asked for; ELF files and symbols only if at least the
    ELF headers are. *)
Theorem C136_only_what_is_asked_partial : forall fuel k pid flag s t s', open_task fuel k pid flag s = Some (Opened t, s') ->
  (asks flag FTO_VMA_ELF <-> t_hdrs t = true) /\ (asks flag FTO_VMA_ELF_FILE -> t_files t = true) /\ (asks flag FTO_VMA_ELF_SYMBOLS -> t_syms t = true) /\
  (~ asks flag FTO_VMA_ELF -> t_files t = false /\ t_syms t = false) /\
  t_pid t = pid /\ t_flag t = flag /\
  (asks flag FTO_THREADS -> t_threads t = load_threads (k_threads k)) /\ (~ asks flag FTO_THREADS -> t_threads t = []) /\
  (asks flag FTO_FD -> load_fds (k_fds k) (k_readlink k) = Some (t_fds t)) /\ (~ asks flag FTO_FD -> t_fds t = []) /\
  (~ asks flag FTO_PROC -> o_fs s' = o_fs s).
Proof.
  intros fuel k pid flag s t s' H. unfold open_task in H.
  destruct (k_exist k); cbn [negb] in H; [|discriminate]. destruct (k_malloc k) as [h|]; [|discriminate].
  unfold fail in H.
  match type of H with (if ?b then _ else _) = _ => destruct b; [discriminate|] end.
  match type of H with match ?x with _ => _ end = _ => destruct x as [[err st]|]; [|discriminate] end.
  match type of H with (if ?b then _ else _) = _ => destruct b; [discriminate|] end.
  match type of H with match ?x with _ => _ end = _ => destruct x as [[[err2 cm] leak]|]; [|discriminate] end.
  match type of H with (if ?b then _ else _) = _ => destruct b; [discriminate|] end.
  match type of H with match ?x with _ => _ end = _ => destruct x as [[exe|]|]; [|discriminate|discriminate] end.
  match type of H with (if ?b then _ else _) = _ => destruct b; [discriminate|] end.
  match type of H with (if ?b then _ else _) = _ => destruct b; [discriminate|] end.
  unfold open_rest, fail in H.
  match type of H with (if ?b then _ else _) = _ => destruct b; [discriminate|] end.
  cbn [t_flag set_ulp set_mem set_exe set_comm set_status] in H.
  assert (BIT : forall p n, p = 2 ^ n -> 0 <= n -> asks flag p <-> has flag p = true).
  { intros p n -> Hn. unfold asks, has. rewrite negb_true_iff, Z.eqb_neq. 
    assert (E : Z.land flag (2 ^ n) = if Z.testbit flag n then 2 ^ n else 0).
    { apply Z.bits_inj'. intros i Hi. rewrite Z.land_spec, Z.pow2_bits_eqb by lia. destruct (Z.eqb_spec n i) as [->|N].
      - destruct (Z.testbit flag i) eqn:B; [rewrite Z.pow2_bits_true by lia; reflexivity|rewrite Z.bits_0; reflexivity].
      - rewrite andb_false_r. destruct (Z.testbit flag n); [rewrite Z.pow2_bits_false by lia|rewrite Z.bits_0]; reflexivity. }
    rewrite E. destruct (Z.testbit flag n); pose proof (Z.pow_pos_nonneg 2 n ltac:(lia) ltac:(lia)); lia. }
  assert (NZ : forall p, p <> 0 -> asks flag p -> has flag p = true).
  { intros p N A. unfold has. rewrite A. destruct (Z.eqb_spec p 0); [lia|reflexivity]. }
  assert (SUB : forall p, Z.land p FTO_VMA_ELF = FTO_VMA_ELF -> asks flag p -> asks flag FTO_VMA_ELF).
  { intros p E A. unfold asks in *. rewrite <- E at 1. rewrite Z.land_assoc, A. exact E. }
  pose proof (BIT FTO_VMA_ELF 1 eq_refl ltac:(lia)) as B1. pose proof (BIT FTO_THREADS 4 eq_refl ltac:(lia)) as B4.
  pose proof (BIT FTO_FD 6 eq_refl ltac:(lia)) as B6. pose proof (BIT FTO_PROC 0 eq_refl ltac:(lia)) as B0.
  set (s2 := if k_mem k <? 0 then _ else _) in H.
  assert (L2 : o_fs s2 = o_fs s) by (subst s2; destruct (k_mem k <? 0), leak; reflexivity). clearbody s2.
  match type of H with match ?x with _ => _ end = _ => destruct x as [[[|] s3]|] eqn:PE; [|discriminate|discriminate] end.
  match type of H with match ?x with _ => _ end = _ => destruct x as [fds|] eqn:FD; [|discriminate] end.
  injection H as <- <-. cbn [t_hdrs t_files t_syms t_threads t_fds t_pid t_flag o_fs set_lists set_elf set_ulp set_mem set_exe set_comm set_status].
  split; [exact B1|].
  split. { intros A. rewrite (proj1 B1 (SUB FTO_VMA_ELF_FILE eq_refl A)), (NZ FTO_VMA_ELF_FILE) by (auto; discriminate). reflexivity. }
  split. { intros A. rewrite (proj1 B1 (SUB FTO_VMA_ELF_SYMBOLS eq_refl A)), (NZ FTO_VMA_ELF_SYMBOLS) by (auto; discriminate).
           replace (has flag FTO_VMA_ELF_FILE) with true; [reflexivity|]. symmetry. unfold has. apply negb_true_iff, Z.eqb_neq. intros E.
           assert (asks flag FTO_VMA_ELF_FILE); [|unfold asks in *; rewrite E in *; discriminate].
           unfold asks in *. change FTO_VMA_ELF_FILE with (Z.land FTO_VMA_ELF_SYMBOLS FTO_VMA_ELF_FILE) at 1. rewrite Z.land_assoc, A. reflexivity. }
  split. { intros A. destruct (has flag FTO_VMA_ELF) eqn:E; [exfalso; apply A, B1; reflexivity|]. rewrite andb_false_r. auto. }
  split; [reflexivity|]. split; [reflexivity|].
  split. { intros A. rewrite (proj1 B4 A). reflexivity. }
  split. { intros A. destruct (has flag FTO_THREADS) eqn:E; [exfalso; apply A, B4; reflexivity|reflexivity]. }
  split. { intros A. rewrite (proj1 B6 A) in FD. exact FD. }
  split. { intros A. destruct (has flag FTO_FD) eqn:E; [exfalso; apply A, B6; reflexivity|]. injection FD as <-. reflexivity. }
  intros A. destruct (has flag FTO_PROC) eqn:E; [exfalso; apply A, B0; reflexivity|]. injection PE as <-. exact L2.
Qed.
Print Assumptions C136_only_what_is_asked_partial.

Example C136_ex : exists t s', open_task 99 (good 4096) 77 (FTO_VMA_ELF_SYMBOLS + FTO_THREADS) empty_tool = Some (Opened t, s') /\
  asks (t_flag t) FTO_VMA_ELF_SYMBOLS /\ ~ asks (t_flag t) FTO_FD /\ t_syms t = true /\ t_threads t = [77] /\ t_fds t = [].
Proof. do 2 eexists. split; [vm_compute; reflexivity|]. split; [reflexivity|]. split; [vm_compute; discriminate|]. repeat split; vm_compute; reflexivity. Qed.
