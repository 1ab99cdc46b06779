(** C66, C67, C106-C108: files. *)
From Coq Require Import ZArith String List Bool Lia.
From Verif Require Import Word RbModel RbSpec Str VmaModel VmaSpec VmaProofs VmaProps FsModel FsSpec FsProofs.
Import ListNotations.
Open Scope Z_scope.

(** ** C66 *)

(** While a mapping of a patch is there, closing changes no file. *)
Theorem C66_kept_while_patched : forall info s vs fuel n pid exe f,
  rootp (v_rb s) = 0 -> memory_map info vs -> allocated s vs -> (List.length vs < fuel)%nat -> (List.length vs < n)%nat ->
  patched info vs pid exe ->
  exists s', read_task_vmas fuel info false s vs = Some s' /\
    check_and_free_task_proc n fuel info s' pid exe f = Some f.
Proof.
  intros info s vs fuel n pid exe f R M A F Hn (v & rnd & Iv & Nr & Nm & Ne).
  destruct (C74_walk_ascending info s vs fuel n R M A F Hn) as (s' & a & l & E & N & W & _ & _ & I).
  exists s'. split; [exact E|]. unfold check_and_free_task_proc. rewrite N.
  destruct (count_walk info s' pid exe fuel n a l W) as (c & C & P & Z0). rewrite C.
  destruct (Z.eqb_spec c 0) as [->|_]; [|reflexivity]. exfalso.
  apply (proj1 Z0 eq_refl v); [apply I; exact Iv|]. rewrite Nm in *. apply C11_patch_names_recognised; auto.
Qed.
Print Assumptions C66_kept_while_patched.

Definition ex_patched (v : Z) : vinfo :=
  if v =? 16 then {| vm_start := 4202496; vm_end := 4206592; vm_name := make_pid_ulpname 6 (str "abcdef") |} else ex_info v.

Example C66_kept_while_patched_ex : patched ex_patched [16; 32; 48] 6 (str "/bin/a") /\ memory_map ex_patched [16; 32; 48].
Proof.
  split.
  - exists 16, (str "abcdef"). split; [left; reflexivity|]. split; [vm_compute; intuition discriminate|]. split; [reflexivity|]. vm_compute. discriminate.
  - destruct ex_map as (P & Nd & D). split; [|split; [exact Nd|]].
    + repeat constructor; vm_compute; congruence.
    + intros a b Ha Hb N. cbn in Ha, Hb. unfold disjoint.
      destruct Ha as [<-|[<-|[<-|[]]]], Hb as [<-|[<-|[<-|[]]]]; try congruence; vm_compute; (left; congruence) || (right; congruence).
Qed.

(** Whatever the mappings: closing completes and no file but the three entries that opening
    makes is removed or changed. *)
Theorem C66_others_kept : forall info s vs fuel n pid exe f,
  rootp (v_rb s) = 0 -> memory_map info vs -> allocated s vs -> (List.length vs < fuel)%nat -> (List.length vs < n)%nat ->
  exists s' f', read_task_vmas fuel info false s vs = Some s' /\
    check_and_free_task_proc n fuel info s' pid exe f = Some f' /\ same_but (own pid) f f'.
Proof.
  intros info s vs fuel n pid exe f R M A F Hn.
  destruct (C74_walk_ascending info s vs fuel n R M A F Hn) as (s' & a & l & E & N & W & _ & _ & I).
  exists s'. destruct (count_walk info s' pid exe fuel n a l W) as (c & C & _).
  eexists. split; [exact E|]. split; [unfold check_and_free_task_proc; rewrite N, C; reflexivity|].
  intros q Hq. destruct (c =? 0); [apply clean_others; exact Hq|reflexivity].
Qed.
Print Assumptions C66_others_kept.

(** Without patches, the directory goes if there is nothing else in it. *)
Theorem C66_removed : forall info s vs fuel n pid exe f,
  rootp (v_rb s) = 0 -> memory_map info vs -> allocated s vs -> (List.length vs < fuel)%nat -> (List.length vs < n)%nat ->
  unpatched info vs -> nothing_else f pid ->
  exists s' f', read_task_vmas fuel info false s vs = Some s' /\
    check_and_free_task_proc n fuel info s' pid exe f = Some f' /\ same_but (own pid) f f' /\
    forall q, In q (own pid) -> lookup f' q = None.
Proof.
  intros info s vs fuel n pid exe f R M A F Hn U O.
  destruct (C74_walk_ascending info s vs fuel n R M A F Hn) as (s' & a & l & E & N & W & _ & _ & I).
  exists s', (clean_task_proc f pid). split; [exact E|].
  destruct (count_walk info s' pid exe fuel n a l W) as (c & C & P & Z0).
  split; [|split; [intros q Hq; apply clean_others; exact Hq|apply clean_all; exact O]].
  unfold check_and_free_task_proc. rewrite N, C. rewrite (proj2 Z0); [reflexivity|].
  intros w Hw T. unfold get_vma_type in T. rewrite (U w) in T by (apply I; exact Hw). cbn [andb] in T.
  repeat match type of T with (if ?b then _ else _) = _ => destruct b; try discriminate end.
Qed.
Print Assumptions C66_removed.

(** Opening and closing leaves no trace if there was nothing before. *)
Theorem C66_open_close : forall info s vs fuel n pid exe f comm,
  rootp (v_rb s) = 0 -> memory_map info vs -> allocated s vs -> (List.length vs < fuel)%nat -> (List.length vs < n)%nat ->
  unpatched info vs -> (forall q, In q (own pid) \/ below (private_dir pid) q -> lookup f q = None) ->
  exists s' f1 f2, read_task_vmas fuel info false s vs = Some s' /\ open_proc f pid comm = Some f1 /\
    lookup f1 (private_dir pid) = Some Dir /\ lookup f1 (private_dir pid ++ [str "comm"]) = Some (Reg comm) /\
    lookup f1 (private_dir pid ++ [str "map_files"]) = Some Dir /\ same_but (own pid) f f1 /\
    check_and_free_task_proc n fuel info s' pid exe f1 = Some f2 /\ same f f2.
Proof.
  intros info s vs fuel n pid exe f comm R M A F Hn U Em.
  assert (E1 : lookup f (proc_dir pid) = None) by (apply Em; left; left; reflexivity).
  assert (E2 : lookup f (proc_comm pid) = None) by (apply Em; left; right; left; reflexivity).
  assert (E3 : lookup f (proc_maps pid) = None) by (apply Em; left; right; right; left; reflexivity).
  destruct (own_distinct pid) as (N1 & N2 & N3).
  set (f1 := put (put (put f (proc_dir pid) Dir) (proc_comm pid) (Reg comm)) (proc_maps pid) Dir).
  assert (O1 : open_proc f pid comm = Some f1).
  { assert (X : mkdir f (proc_dir pid) = (true, put f (proc_dir pid) Dir)) by (unfold mkdir; rewrite E1; reflexivity).
    unfold open_proc. rewrite X. cbn [snd]. rewrite lookup_put, (path_eqb_neq _ _ N1), E2.
    unfold mkdir. rewrite !lookup_put, (path_eqb_neq _ _ N3), (path_eqb_neq _ _ N2), E3. reflexivity. }
  assert (L : forall q, lookup f1 q = if path_eqb (proc_maps pid) q then Some Dir else if path_eqb (proc_comm pid) q then Some (Reg comm)
    else if path_eqb (proc_dir pid) q then Some Dir else lookup f q) by (intros q; unfold f1; rewrite !lookup_put; reflexivity).
  assert (Ld : lookup f1 (proc_dir pid) = Some Dir).
  { rewrite L, path_eqb_refl, !path_eqb_neq by auto. reflexivity. }
  assert (Lc : lookup f1 (proc_comm pid) = Some (Reg comm)).
  { rewrite L, path_eqb_refl, !path_eqb_neq by auto. reflexivity. }
  assert (Lm : lookup f1 (proc_maps pid) = Some Dir) by (rewrite L, path_eqb_refl; reflexivity).
  assert (S1 : same_but (own pid) f f1).
  { intros q Hq. rewrite L, !path_eqb_neq; [reflexivity| | |]; intros <-; apply Hq; cbn; auto. }
  assert (O : nothing_else f1 pid).
  { split; [|split; [exact Ld|split; [|right; exact Lm]]].
    - intros q B Lq. destruct (in_dec path_dec q (own pid)) as [I|I]; auto. exfalso. apply Lq. rewrite (S1 q I). apply Em. right. exact B.
    - change (private_dir pid ++ [str "comm"]) with (proc_comm pid). rewrite Lc. discriminate. }
  destruct (C66_removed info s vs fuel n pid exe f1 R M A F Hn U O) as (s' & f2 & Es & Ec & S2 & G).
  exists s', f1, f2. repeat (split; [assumption|]). intros q. destruct (in_dec path_dec q (own pid)) as [I|I].
  - rewrite (G q I). symmetry. apply Em. left. exact I.
  - rewrite (S2 q I). apply S1. exact I.
Qed.
Print Assumptions C66_open_close.

Example C66_open_close_ex : unpatched ex_info [16; 32; 48] /\ memory_map ex_info [16; 32; 48] /\
  (forall q, In q (own 6) \/ below (private_dir 6) q -> lookup [([str "tmp"], Dir); ([str "tmp"; str "ulpatch"], Dir)] q = None).
Proof.
  split; [|split; [exact ex_map|]].
  - intros v H. cbn in H. destruct H as [<-|[<-|[<-|[]]]]; vm_compute; reflexivity.
  - intros q [I|(c & r & ->)]; [cbn in I; destruct I as [<-|[<-|[<-|[]]]]; vm_compute; reflexivity|].
    unfold private_dir, lookup. cbn [app find fst]. rewrite !path_eqb_neq by discriminate. reflexivity.
Qed.

Example C66_removed_ex : nothing_else [(proc_dir 6, Dir); (proc_comm 6, Reg (str "a")); (proc_maps 6, Dir)] 6.
Proof.
  split; [|split; [vm_compute; reflexivity|split; [vm_compute; discriminate|right; vm_compute; reflexivity]]].
  intros q _ H. destruct (lookup_some _ _ H) as [n I]. cbn [In] in I.
  destruct I as [I|[I|[I|[]]]]; injection I as <- _; cbn; auto.
Qed.

(** ** C67 *)

(** The device is full after one byte: the copy is short but reported as success. *)
Theorem C67_copy_exact_refuted : exists f src dst c rd wr f',
  lookup f src = Some (Reg c) /\ lookup f dst = None /\ fcopy f src dst 0 0 rd wr = (0, f') /\ lookup f' dst <> Some (Reg c).
Proof.
  exists [([str "a"], Reg [1; 2; 3])], [str "a"], [str "b"], [1; 2; 3], (fun _ => true), (fun i => Nat.eqb i 0).
  eexists. split; [reflexivity|]. split; [reflexivity|]. split; [vm_compute; reflexivity|]. vm_compute. discriminate.
Qed.
Print Assumptions C67_copy_exact_refuted.

(** A directory is copied to an empty file, with success. *)
Theorem C67_directory_refuted : exists f src dst f', lookup f src = Some Dir /\ lookup f dst = None /\
  fcopy f src dst 0 0 (fun _ => true) (fun _ => true) = (0, f') /\ lookup f' dst = Some (Reg []).
Proof.
  exists [([str "a"], Dir); ([str "a"; str "b"], Reg [1])], [str "a"], [str "c"]. eexists.
  split; [reflexivity|]. split; [reflexivity|]. split; [vm_compute; reflexivity|]. reflexivity.
Qed.
Print Assumptions C67_directory_refuted.

Lemma copy_all rd wr : (forall i, rd i = true) -> (forall i, wr i = true) -> forall c i n,
  0 <= n -> n + Z.of_nat (List.length c) < 2 ^ 31 -> copy_loop c rd wr i n = (c, n + Z.of_nat (List.length c)).
Proof.
  intros R Wr. induction c as [|b c IH]; intros i n H0 H; cbn [copy_loop List.length].
  - f_equal; lia.
  - rewrite R, Wr. cbn [negb]. cbn [List.length] in H.
    assert (E : s32 (n + 1) = n + 1).
    { unfold s32, sgn, wrap. rewrite Z.mod_small by lia. destruct (Z.ltb_spec (n + 1) (2 ^ (32 - 1))); lia. }
    rewrite E, IH by lia. f_equal. lia.
Qed.

Lemma copy_prefix rd wr : forall c i n o k, copy_loop c rd wr i n = (o, k) -> exists t, c = o ++ t.
Proof.
  induction c as [|b c IH]; intros i n o k H; cbn [copy_loop] in H.
  - injection H as <- <-. exists []. reflexivity.
  - destruct (rd i); cbn [negb] in H; [|injection H as <- _; exists (b :: c); reflexivity].
    destruct (wr i); cbn [negb] in H; [|injection H as <- _; exists (b :: c); reflexivity].
    destruct (copy_loop c rd wr (S i) (s32 (n + 1))) as [o' n'] eqn:E. injection H as <- <-.
    destruct (IH _ _ _ _ E) as [t ->]. exists t. reflexivity.
Qed.

(** What does hold: the copy changes nothing but the destination, refuses if the source is
    missing or the destination exists, what is written is a prefix of the source, and
    without errors of the device (and for files under 2 GiB) the copy is exact.  Missing
    (false): errors while copying are reported. *)
Theorem C67_copy_partial : forall f src dst ein eout rd wr r f', src <> dst -> 0 <= ein -> 0 <= eout ->
  fcopy f src dst ein eout rd wr = (r, f') ->
  same_but [dst] f f' /\
  (lookup f src = None \/ lookup f dst <> None -> r < 0 /\ f' = f) /\
  (forall c, lookup f src = Some (Reg c) -> lookup f dst = None ->
     (f' = f \/ exists o t, c = o ++ t /\ lookup f' dst = Some (Reg o)) /\
     (ein <> 0 \/ eout <> 0 -> r < 0 /\ f' = f) /\
     (ein = 0 -> eout = 0 -> Z.of_nat (List.length c) < 2 ^ 31 -> (forall i, rd i = true) -> (forall i, wr i = true) ->
        r = 0 /\ lookup f' dst = Some (Reg c))).
Proof.
  intros f src dst ein eout rd wr r f' N Hi Ho H. unfold fcopy in H.
  destruct (negb (fexist f src) || fexist f dst) eqn:G.
  - injection H as <- <-. split; [intros q _; reflexivity|]. split; [unfold EEXIST; split; [lia|reflexivity]|].
    intros c L1 L2. exfalso. unfold fexist in G. rewrite L1, L2 in G. discriminate.
  - apply orb_false_iff in G. destruct G as [G1 G2]. apply negb_false_iff in G1. apply fexist_lookup in G1.
    assert (G3 : lookup f dst = None) by (unfold fexist in G2; destruct (lookup f dst); [discriminate|reflexivity]).
    unfold file_copy in H. destruct (lookup f src) as [[c| | |]|] eqn:L; try congruence.
    + destruct (Z.eqb_spec ein 0) as [->|E1]; cbn [negb] in H.
      * destruct (Z.eqb_spec eout 0) as [->|E2]; cbn [negb] in H.
        -- destruct (copy_loop c rd wr 0 0) as [o k] eqn:K. injection H as <- <-.
           split; [intros q Hq; rewrite lookup_put, path_eqb_neq; [reflexivity|intros ->; apply Hq; left; reflexivity]|].
           split; [intros [X|X]; congruence|]. intros c' Ec _. injection Ec as <-.
           rewrite lookup_put, path_eqb_refl. split; [right; destruct (copy_prefix _ _ _ _ _ _ _ K) as [t ->]; eauto|].
           split; [intros [X|X]; congruence|]. intros _ _ Sz R Wr. rewrite (copy_all rd wr R Wr) in K by lia. injection K as <- <-.
           split; [|reflexivity]. match goal with |- (if ?b then _ else _) = 0 => destruct b eqn:X end; [apply Z.leb_le in X; lia|reflexivity].
        -- injection H as <- <-. assert (X : - eout <=? 0 = true) by (apply Z.leb_le; lia). rewrite X.
           split; [intros q _; reflexivity|]. split; [intros [Y|Y]; congruence|]. intros c' Ec _. split; [left; reflexivity|].
           split; [intros _; split; [lia|reflexivity]|]. intros _ Y. contradiction.
      * injection H as <- <-. assert (X : - ein <=? 0 = true) by (apply Z.leb_le; lia). rewrite X.
        split; [intros q _; reflexivity|]. split; [intros [Y|Y]; congruence|]. intros c' Ec _. split; [left; reflexivity|].
        split; [intros _; split; [lia|reflexivity]|]. intros Y. contradiction.
    + assert (S : same_but [dst] f f').
      { destruct (negb (ein =? 0)); [injection H as _ <-; intros q _; reflexivity|]. destruct (negb (eout =? 0)); [injection H as _ <-; intros q _; reflexivity|].
        injection H as _ <-. intros q Hq. rewrite lookup_put, path_eqb_neq; [reflexivity|intros ->; apply Hq; left; reflexivity]. }
      split; [exact S|]. split; [intros [Y|Y]; congruence|]. intros c' Ec. discriminate.
    + injection H as <- <-. split; [intros q _; reflexivity|]. split; [intros [Y|Y]; congruence|]. intros c' Ec. discriminate.
    + injection H as <- <-. split; [intros q _; reflexivity|]. split; [intros [Y|Y]; congruence|]. intros c' Ec. discriminate.
Qed.
Print Assumptions C67_copy_partial.

Example C67_copy_partial_ex : exists f', fcopy [([str "a"], Reg [1; 2; 3])] [str "a"] [str "b"] 0 0 (fun _ => true) (fun _ => true) = (0, f') /\
  lookup f' [str "b"] = Some (Reg [1; 2; 3]).
Proof. eexists. split; [vm_compute; reflexivity|]. reflexivity. Qed.

(** ** C106 *)

(** A symbolic link in the tree: the files of the directory it names are removed, and the
    tree is not. *)
Theorem C106_remove_tree_refuted : exists m n f p f' q,
  remove_recursive m n f p = Some f' /\ ~ (q = p \/ below p q) /\ lookup f q <> None /\ lookup f' q = None /\ lookup f' p <> None.
Proof.
  exists 9%nat, 9%nat, [([str "tmp"], Dir); ([str "tmp"; str "t"], Dir); ([str "tmp"; str "t"; str "l"], Lnk [str "home"]);
    ([str "home"], Dir); ([str "home"; str "a"], Reg [1])], [str "tmp"; str "t"]. eexists. exists [str "home"; str "a"].
  split; [vm_compute; reflexivity|]. split; [|split; [vm_compute; discriminate|split; [vm_compute; reflexivity|vm_compute; discriminate]]].
  intros [H|(c & r & H)]; [discriminate|]. cbn [app] in H. injection H as H. discriminate.
Qed.
Print Assumptions C106_remove_tree_refuted.

(** What does hold: in a file system of regular files and directories exactly the tree is
    removed.  Missing (false): symbolic links in the tree. *)
Theorem C106_remove_tree_partial : forall m n f p, wf f -> p <> [] ->
  (forall q, lookup f q <> None -> (List.length q < m)%nat /\ (List.length q < n)%nat) -> (0 < n)%nat ->
  exists f', remove_recursive m n f p = Some f' /\
    forall q, (q = p \/ below p q -> lookup f' q = None) /\ (~ (q = p \/ below p q) -> lookup f' q = lookup f q).
Proof.
  intros m n f p W N B Hn. destruct (remove_recursive_cut m n f p W N Hn) as (g & R & C).
  { intros q H. destruct (B q H). split; [assumption|lia]. }
  exists g. split; [exact R|]. intros q. rewrite C. split; intros H.
  - assert (X : withinb p q = true); [|rewrite X; reflexivity]. apply withinb_spec. destruct H as [->|(c & r & ->)]; [exists []; rewrite app_nil_r; reflexivity|eauto].
  - destruct (withinb p q) eqn:X; [|reflexivity]. exfalso. apply H. unfold withinb in X. apply orb_true_iff in X.
    destruct X as [X|X]; [left; symmetry; apply path_eqb_eq; exact X|right; apply under_below; exact X].
Qed.
Print Assumptions C106_remove_tree_partial.

Definition ex_tree : fs := [([str "tmp"], Dir); ([str "tmp"; str "t"], Dir); ([str "tmp"; str "t"; str "a"], Reg [1]); ([str "tmp"; str "u"], Reg [2])].
Lemma ex_tree_lookup q : lookup ex_tree q <> None ->
  q = [str "tmp"] \/ q = [str "tmp"; str "t"] \/ q = [str "tmp"; str "t"; str "a"] \/ q = [str "tmp"; str "u"].
Proof.
  intros H. destruct (lookup_some _ _ H) as [n I]. cbn [ex_tree In] in I. 
  destruct I as [I|[I|[I|[I|[]]]]]; injection I as <- _; auto.
Qed.

Example C106_remove_tree_partial_ex : wf ex_tree /\ (forall q, lookup ex_tree q <> None -> (List.length q < 4)%nat /\ (List.length q < 4)%nat) /\
  exists f', remove_recursive 4 4 ex_tree [str "tmp"; str "t"] = Some f' /\ lookup f' [str "tmp"; str "t"; str "a"] = None /\
    lookup f' [str "tmp"; str "u"] = Some (Reg [2]).
Proof.
  split; [split|split].
  - intros q. destruct (lookup ex_tree q) as [nd|] eqn:E; [|exact I].
    assert (H : lookup ex_tree q <> None) by congruence. apply ex_tree_lookup in H.
    destruct H as [->|[->|[->| ->]]]; vm_compute in E; injection E as <-; exact I.
  - intros q c N H. apply ex_tree_lookup in H.
    destruct H as [H|[H|[H|H]]]; destruct q as [|x [|y [|z [|]]]]; try contradiction; try discriminate; injection H; intros; subst; reflexivity.
  - intros q H. apply ex_tree_lookup in H. destruct H as [->|[->|[->| ->]]]; cbn; lia.
  - eexists. split; [vm_compute; reflexivity|]. split; reflexivity.
Qed.

(** ** C107 *)

(** A file of 2 GiB: its size is taken to be negative, and loading it into a buffer reads
    without bound. *)
Theorem C107_file_size_refuted : exists f p c, lookup f p = Some (Reg c) /\ fsize f p <> Z.of_nat (List.length c) /\
  fmemcpy f p 4096 true = None.
Proof.
  exists [([], Reg (repeat 0 (Z.to_nat 2147483648)))], [], (repeat 0 (Z.to_nat 2147483648)).
  assert (E : lookup [([], Reg (repeat 0 (Z.to_nat 2147483648)))] [] = Some (Reg (repeat 0 (Z.to_nat 2147483648)))) by reflexivity.
  assert (L : Z.of_nat (List.length (repeat 0 (Z.to_nat 2147483648))) = 2147483648) by (rewrite repeat_length, Z2Nat.id; lia).
  unfold fmemcpy, fsize. rewrite E, L. split; [reflexivity|]. split; [discriminate|]. reflexivity.
Qed.
Print Assumptions C107_file_size_refuted.

(** What does hold: under 2 GiB the size is right, and loading delivers the first bytes of
    the file, as many as the file and the buffer have, and never more. *)
Theorem C107_file_size_partial : forall f p c len ok, lookup f p = Some (Reg c) ->
  Z.of_nat (List.length c) < 2 ^ 31 -> 0 <= len ->
  fsize f p = Z.of_nat (List.length c) /\
  exists b n, fmemcpy f p len ok = Some (b, n) /\ Z.of_nat (List.length b) = n /\ n <= len /\ (exists t, c = b ++ t) /\
    (ok = true -> n = Z.min len (Z.of_nat (List.length c))).
Proof.
  intros f p c len ok L B Hl. assert (F : fsize f p = Z.of_nat (List.length c)).
  { unfold fsize. rewrite L. unfold s32, sgn, wrap. rewrite Z.mod_small by lia. destruct (Z.ltb_spec (Z.of_nat (List.length c)) (2 ^ (32 - 1))); lia. }
  split; [exact F|]. unfold fmemcpy. rewrite L, F.
  set (n := Z.min len (Z.of_nat (List.length c))). assert (Hn : 0 <= n /\ n <= len /\ n <= Z.of_nat (List.length c)) by lia.
  destruct (Z.ltb_spec n 0); [lia|]. destruct (Z.eqb_spec n 0) as [E|E]; cbn [orb].
  - exists [], 0. split; [reflexivity|]. split; [reflexivity|]. split; [lia|]. split; [exists c; reflexivity|]. intros _. symmetry. exact E.
  - destruct ok; cbn [negb].
    + exists (firstn (Z.to_nat n) c), n. split; [reflexivity|]. split; [rewrite firstn_length; lia|]. split; [lia|].
      split; [exists (skipn (Z.to_nat n) c); symmetry; apply firstn_skipn|]. reflexivity.
    + exists [], 0. split; [reflexivity|]. split; [reflexivity|]. split; [lia|]. split; [exists c; reflexivity|]. discriminate.
Qed.
Print Assumptions C107_file_size_partial.

Example C107_file_size_partial_ex : fmemcpy [([str "a"], Reg [1; 2; 3])] [str "a"] 2 true = Some ([1; 2], 2).
Proof. vm_compute. reflexivity. Qed.

(** ** C108 *)

(** The device is full: the new file is shorter but reported as made. *)
Theorem C108_touch_refuted : exists f p size wr f', lookup f p = None /\ ftouch f p size 0 wr = (0, f') /\
  lookup f' p <> Some (Reg (repeat 255 size)).
Proof.
  exists [], [str "a"], 2%nat, (fun i => Nat.eqb i 0). eexists. split; [reflexivity|]. split; [vm_compute; reflexivity|]. vm_compute. discriminate.
Qed.
Print Assumptions C108_touch_refuted.

(** What does hold: an existing file, whatever its kind, is left alone; a new one has the
    size asked for unless the device fails; nothing else changes. *)
Theorem C108_touch_partial : forall f p size err wr r f', 0 <= err -> ftouch f p size err wr = (r, f') ->
  same_but [p] f f' /\ 
  (lookup f p <> None -> f' = f /\ (r = 0 <-> exists c, lookup f p = Some (Reg c))) /\
  (lookup f p = None -> err <> 0 -> f' = f /\ r < 0) /\
  (lookup f p = None -> err = 0 -> r = 0 /\ ((forall i, wr i = true) -> lookup f' p = Some (Reg (repeat 255 size)))).
Proof.
  intros f p size err wr r f' He H. unfold ftouch in H. destruct (lookup f p) as [[c| | |]|] eqn:L.
  1-4: injection H as <- <-; split; [intros q _; reflexivity|]; split; [|split; discriminate]; intros _; split; [reflexivity|]; split;
    [first [intros _; eexists; reflexivity|discriminate]|first [reflexivity|intros (d & D); discriminate]].
  destruct (Z.eqb_spec err 0) as [->|E]; cbn [negb] in H; injection H as <- <-.
  - split; [intros q Hq; rewrite lookup_put, path_eqb_neq; [reflexivity|intros ->; apply Hq; left; reflexivity]|].
    split; [congruence|]. split; [congruence|]. intros _ _. split; [reflexivity|]. intros Wr. rewrite lookup_put, path_eqb_refl. do 2 f_equal.
    generalize 0%nat. induction size as [|n IH]; intros i; cbn [touch_loop repeat]; [reflexivity|]. rewrite Wr. cbn [app]. f_equal. apply IH.
  - split; [intros q _; reflexivity|]. split; [congruence|]. split; [intros; split; [reflexivity|lia]|]. intros _ X. contradiction.
Qed.
Print Assumptions C108_touch_partial.

Example C108_touch_partial_ex : ftouch [([str "a"], Reg [1])] [str "a"] 4 0 (fun _ => true) = (0, [([str "a"], Reg [1])]).
Proof. reflexivity. Qed.
