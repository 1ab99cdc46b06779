(** C109-C112: the tools. *)
From Coq Require Import ZArith String List Bool Lia ZifyBool ZifyNat Permutation Sorted.
From Verif Require Import Word WordLemmas Str ElfDefs TextModel LdModel LdSpec LdProofs LdSyms LdMore LdEx LdProps X86RelocModel ScModel ScSpec ScProofs ScProps PaModel PaSpec PaRead PaProofs PaMore PaKick PaLoad PaSess PaHist PaX86 PaEx PaFin PaThm PaCase PaProps.
From Verif Require Import FsModel FsSpec FsProofs ToolModel.
Import ListNotations.
Open Scope Z_scope.

(** ** C109: tracing leaves the process as it was *)

Definition no_object : alloc_env := AEnv None true true.

(** A process with one patch: its function starts with the jump to the patch.  The tracing
    object is missing; the tracing tool removes the patch and reports success. *)
Definition trace_miss := ulftrace true None no_object run2 (p_sess open2) (p_world open2).
Strategy expand [trace_miss].
Lemma trace_miss_is : match trace_miss with Some (r, w) => (r =? 0) &&
    list_eqb (bytes_at (t_mem (w_t w)) 0x402000 16) [0; 1; 2; 3; 4; 5; 6; 7; 8; 9; 10; 11; 12; 13; 14; 15] | None => false end = true.
Proof. vm_compute. reflexivity. Qed.
Lemma patched_before : list_eqb (bytes_at (t_mem (w_t (p_world open2))) 0x402000 8) [255; 37; 2; 0; 0; 0; 144; 144] = true.
Proof. vm_compute. reflexivity. Qed.
Lemma list_eqb_true a b : list_eqb a b = true -> a = b.
Proof. unfold list_eqb. destruct (list_eq_dec Z.eq_dec a b); [auto|discriminate]. Qed.

Theorem C109_others_stay_refuted : exists c w0 ps s w a default w',
  opened (c_e c) w0 ps s w /\ In a ps /\ p_fun a = 0x402000 /\
  bytes_at (t_mem (w_t w)) 0x402000 8 = [255; 37; 2; 0; 0; 0; 144; 144] /\
  ulftrace true None default c s w = Some (0, w') /\
  bytes_at (t_mem (w_t w')) 0x402000 16 = [0; 1; 2; 3; 4; 5; 6; 7; 8; 9; 10; 11; 12; 13; 14; 15].
Proof.
  pose proof trace_miss_is as G. destruct trace_miss as [[r w']|] eqn:E; [|discriminate].
  apply andb_true_iff in G. destruct G as [G1 G2]. apply Z.eqb_eq in G1. subst r.
  exists run2, (restart m1), [ap1], (p_sess open2), (p_world open2), ap1, no_object, w'.
  split; [exact opened2|]. split; [left; reflexivity|]. split; [reflexivity|].
  split; [apply list_eqb_true; exact patched_before|]. split; [|apply list_eqb_true; exact G2].
  unfold trace_miss in E. exact E.
Qed.
Print Assumptions C109_others_stay_refuted.

(** And always when the object was put in: it stays there, and the tool reports an error. *)
Theorem C109_never_removed : forall given default c w ps s w1 f len hdr stop s' w2 log,
  opened (c_e c) w ps s w1 -> run_ok (with_object c default) w1 ps f len hdr stop ->
  do_patch (with_object c default) s w1 = Some (0, s', Some hdr, w2, log) -> max_of ps 0 < 2 ^ 32 - 1 ->
  ulftrace true given default c s w1 = Some (- ENOENT, w2).
Proof.
  intros given default c w ps s w1 f len hdr stop s' w2 log O R H B. unfold ulftrace. cbn [negb]. rewrite H.
  assert (O' : opened (c_e (with_object c default)) w ps s w1) by exact O.
  rewrite (C34_removal_never (with_object c default) c w ps s w1 f len hdr stop s' w2 log O' R H B). reflexivity.
Qed.
Print Assumptions C109_never_removed.

Theorem C109_trace_removed_refuted : exists default c s w s' hdr w' log,
  do_patch (with_object c default) s w = Some (0, s', Some hdr, w', log) /\ ulftrace true None default c s w = Some (- ENOENT, w').
Proof.
  exists (c_ae run2), run2, (p_sess open2), (p_world open2), (o_sess out2), 0x7100000, (o_world out2), (o_log out2).
  assert (X : with_object run2 (c_ae run2) = run2) by reflexivity. split; [rewrite X; exact out2_is|].
  apply (C109_never_removed None (c_ae run2) run2 (restart m1) [ap1] (p_sess open2) (p_world open2) ex_img2 ex_len 0x7100000 0x7101000 (o_sess out2) (o_world out2) (o_log out2) opened2); [rewrite X; exact ok2|rewrite X; exact out2_is|reflexivity].
Qed.
Print Assumptions C109_trace_removed_refuted.

Example C109_never_removed_ex : opened (c_e run2) (restart m1) [ap1] (p_sess open2) (p_world open2) /\
  run_ok (with_object run2 (c_ae run2)) (p_world open2) [ap1] ex_img2 ex_len 0x7100000 0x7101000.
Proof. split; [exact opened2|]. exact ok2. Qed.

(** What does hold: a function without a symbol is refused without effect, and so is a
    failing attempt on a process without patches (as far as the attempt leaves it alone,
    C88).  Missing (false): the rest. *)
Theorem C109_tracing_partial : forall given default c s w,
  ulftrace false given default c s w = Some (1, w) /\
  forall err s' h w' log, s = Sess [] 0 -> do_patch (with_object c default) s w = Some (err, s', h, w', log) -> s_ulps s' = [] ->
    ulftrace true given default c s w = Some (- ENOENT, w').
Proof.
  intros given default c s w. split; [reflexivity|]. intros err s' h w' log -> H E. unfold ulftrace. cbn [negb]. rewrite H.
  unfold do_unpatch, delete_patch. rewrite E. reflexivity.
Qed.
Print Assumptions C109_tracing_partial.

Example C109_tracing_partial_ex : exists h w' log, do_patch (with_object run1 no_object) (Sess [] 0) pa_w = Some (- EEXIST, Sess [] 0, h, w', log).
Proof. eexists. eexists. eexists. vm_compute. reflexivity. Qed.

(** ** C110: the object file given is the one used *)

(** The object given with -j is sound, the default one is missing: nothing is put in. *)
Theorem C110_object_refuted : exists given default c s w s' hdr w1 log,
  do_patch (with_object c given) s w = Some (0, s', Some hdr, w1, log) /\
  ulftrace true (Some given) default c s w = Some (- ENOENT, w) /\ default <> given.
Proof.
  exists (c_ae run1), no_object, run1, (p_sess open1), (p_world open1), (o_sess out1), 0x7000000, (o_world out1), (o_log out1).
  assert (X : with_object run1 (c_ae run1) = run1) by reflexivity. split; [rewrite X; exact out1_is|].
  split; [|discriminate]. destruct (C109_tracing_partial (Some (c_ae run1)) no_object run1 (p_sess open1) (p_world open1)) as [_ P].
  apply (P (- EEXIST) (p_sess open1) None _ []); [vm_compute; reflexivity| |vm_compute; reflexivity]. reflexivity.
Qed.
Print Assumptions C110_object_refuted.

(** ** C111: a dry run changes nothing *)

Theorem C111_dry_run_refuted : exists c s w w' x, ulpatch true CmdPatch c s w = Some (0, w') /\ t_mem (w_t w') x <> t_mem (w_t w) x.
Proof.
  exists run1, (p_sess open1), (p_world open1), (o_world out1), 0x402000. split; [unfold ulpatch; rewrite out1_is; reflexivity|]. vm_compute. discriminate.
Qed.
Print Assumptions C111_dry_run_refuted.

(** Removal too. *)
Definition dry_un := ulpatch true CmdUnpatch run2 (p_sess open2) (p_world open2).
Lemma dry_un_is : match dry_un with Some (r, w) => (r =? 0) && negb (t_mem (w_t w) 0x402000 =? t_mem (w_t (p_world open2)) 0x402000) | None => false end = true.
Proof. vm_compute. reflexivity. Qed.
Theorem C111_dry_removal_refuted : exists c s w w' x, ulpatch true CmdUnpatch c s w = Some (0, w') /\ t_mem (w_t w') x <> t_mem (w_t w) x.
Proof.
  pose proof dry_un_is as G. destruct dry_un as [[r w']|] eqn:E; [|discriminate].
  apply andb_true_iff in G. destruct G as [G1 G2]. apply Z.eqb_eq in G1. subst r. apply negb_true_iff in G2. apply Z.eqb_neq in G2.
  exists run2, (p_sess open2), (p_world open2), w', 0x402000. split; [unfold dry_un in E; exact E|exact G2].
Qed.
Print Assumptions C111_dry_removal_refuted.

(** ** C112: looking at a patch file changes no file *)

Definition ex_fs : fs := [([str "p"], Reg ex_file)].

(** A scratch file is left behind by the check before patching. *)
Theorem C112_check_clean_refuted : exists f cwd obj f', check_patch_file f cwd obj true true = Some (0, f') /\
  lookup f (temp_ulp cwd) = None /\ lookup f' (temp_ulp cwd) <> None.
Proof.
  exists ex_fs, [], [str "p"]. eexists. split; [vm_compute; reflexivity|]. split; [reflexivity|]. vm_compute. discriminate.
Qed.
Print Assumptions C112_check_clean_refuted.

(** A user's file of that name is lost. *)
Theorem C112_show_clean_refuted : exists f cwd obj f', show_file_patch_info f cwd obj true true = Some (0, f') /\
  lookup f (temp_ulp cwd) = Some (Reg (str "my data")) /\ lookup f' (temp_ulp cwd) = None.
Proof.
  exists ((temp_ulp [], Reg (str "my data")) :: ex_fs), [], [str "p"]. eexists. split; [vm_compute; reflexivity|]. split; reflexivity.
Qed.
Print Assumptions C112_show_clean_refuted.

(** A sound patch file of that name is destroyed. *)
Theorem C112_patch_kept_refuted : exists f cwd f' f'' c c', lookup f (temp_ulp cwd) = Some (Reg c) /\
  check_patch_file [([str "p"], Reg c)] [] [str "p"] true true = Some (0, f'') /\
  show_file_patch_info f cwd (temp_ulp cwd) true true = Some (- ENOENT, f') /\
  lookup f' (temp_ulp cwd) = Some (Reg c') /\ c' <> c.
Proof.
  exists [(temp_ulp [], Reg ex_file)], []. eexists. eexists. exists ex_file. eexists. split; [reflexivity|]. split; [vm_compute; reflexivity|].
  split; [vm_compute; reflexivity|]. split; [vm_compute; reflexivity|]. vm_compute. discriminate.
Qed.
Print Assumptions C112_patch_kept_refuted.

Lemma setup_err_nz img len e : setup_load_info img len = Some (inl e) -> e <> 0.
Proof.
  unfold setup_load_info. intros H.
  repeat match type of H with
  | match ?x with _ => _ end = _ => destruct x; try discriminate
  | Some (inl _) = _ => injection H as <-; discriminate
  end.
Qed.

Lemma alloc_on_frame f obj tmp mm cp : same_but [tmp] f (snd (alloc_on f obj tmp mm cp)).
Proof.
  intros q Hq. assert (N : tmp <> q) by (intros ->; apply Hq; left; reflexivity). unfold alloc_on.
  destruct (lookup f obj) as [[c| | |]|]; try reflexivity. destruct (_ || _); [reflexivity|].
  destruct (lookup (put f tmp _) obj) as [[c1| | |]|]; cbn [snd];
    try (rewrite lookup_put, (path_eqb_neq _ _ N); reflexivity).
  destruct (mm && cp); rewrite ?lookup_put, ?(path_eqb_neq _ _ N); reflexivity.
Qed.

(** What does hold: no file but temp.ulp in the current directory is changed; if there was
    none, a successful display leaves no trace; the patch file, if it has another name, is
    read as it is. *)
Theorem C112_files_partial : forall f cwd obj mm cp,
  (forall r f', check_patch_file f cwd obj mm cp = Some (r, f') -> same_but [temp_ulp cwd] f f') /\
  (forall r f', show_file_patch_info f cwd obj mm cp = Some (r, f') -> same_but [temp_ulp cwd] f f' /\
     (r = 0 -> mm = true -> cp = true -> lookup f (temp_ulp cwd) = None -> same f f')).
Proof.
  intros f cwd obj mm cp. set (tmp := temp_ulp cwd). pose proof (alloc_on_frame f obj tmp mm cp) as F.
  assert (Rm : forall g, lookup g tmp <> Some Dir -> lookup (snd (fremove g tmp)) tmp = None).
  { intros g H. unfold fremove. destruct (lookup g tmp) as [[| | |]|] eqn:E; try congruence; cbn [snd]; try exact E;
      rewrite lookup_unlink, path_eqb_refl, E; reflexivity. }
  assert (Ro : forall g q, tmp <> q -> lookup (snd (fremove g tmp)) q = lookup g q).
  { intros g q N. unfold fremove. destruct (lookup g tmp) as [[| | |]|]; try reflexivity; try (apply unlink_other; exact N). apply rmdir_other. exact N. }
  split.
  - intros r f' H. unfold check_patch_file in H. destruct (fexist f obj); cbn [negb] in H; [|injection H as <- <-; intros q _; reflexivity].
    fold tmp in H. destruct (alloc_on f obj tmp mm cp) as [a f1] eqn:A. cbn [snd] in F.
    destruct a as [[err o]|]; [|discriminate]. destruct (negb (err =? 0)); [injection H as <- <-; exact F|].
    destruct o as [[img len]|]; [|discriminate]. destruct (setup_load_info img len) as [[e|li]|]; try discriminate; injection H as <- <-; exact F.
  - intros r f' H. unfold show_file_patch_info in H. destruct (fexist f obj) eqn:X; cbn [negb] in H.
    2:{ injection H as <- <-. split; [intros q _; reflexivity|]. intros; discriminate. }
    fold tmp in H. destruct (alloc_on f obj tmp mm cp) as [a f1] eqn:A. cbn [snd] in F.
    destruct a as [[err o]|]; [|discriminate]. destruct (Z.eqb_spec err 0) as [->|Ne]; cbn [negb] in H.
    2:{ injection H as <- <-. split; [exact F|]. intros E. contradiction. }
    destruct o as [[img len]|]; [|discriminate]. destruct (setup_load_info img len) as [[e|li]|] eqn:S; try discriminate.
    + injection H as <- <-. split; [exact F|]. intros ->. exfalso. exact (setup_err_nz img len 0 S eq_refl).
    + injection H as <- <-. split.
      * intros q Hq. rewrite Ro; [apply F; exact Hq|]. intros ->. apply Hq. left. reflexivity.
      * intros _ -> -> Nt q. destruct (path_dec tmp q) as [<-|N].
        -- rewrite Nt. apply Rm. apply (f_equal snd) in A. cbn [snd] in A. subst f1. unfold alloc_on. destruct (lookup f obj) as [[c| | |]|]; cbn [snd]; try congruence.
           destruct (_ || _); [cbn [snd]; congruence|].
           destruct (lookup (put f tmp _) obj) as [[c1| | |]|]; cbn [andb snd]; rewrite !lookup_put, path_eqb_refl; discriminate.
        -- rewrite (Ro f1 q N). apply F. intros [E|[]]. contradiction.
Qed.
Print Assumptions C112_files_partial.

Example C112_files_partial_ex : exists f', show_file_patch_info ex_fs [] [str "p"] true true = Some (0, f') /\ lookup f' (temp_ulp []) = None.
Proof. eexists. split; [vm_compute; reflexivity|]. reflexivity. Qed.
