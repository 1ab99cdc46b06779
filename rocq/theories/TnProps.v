(** Files of new patches: C212, C213. *)
From Coq Require Import ZArith String List Bool Lia.
From Verif Require LdEx.
From Verif Require Import Word WordLemmas Str VmaModel FsModel FsSpec FsProofs ToolModel ToolProps TnModel TnSpec.
Import ListNotations.
Open Scope Z_scope.

Lemma remove_none f p : lookup f p = None -> remove f p = f.
Proof.
  unfold lookup, remove. induction f as [|x f IH]; [reflexivity|]. cbn [find filter]. destruct (path_eqb (fst x) p); [discriminate|].
  intros H. cbn [negb]. rewrite IH by exact H. reflexivity.
Qed.
Lemma put_remove f p n : lookup f p = None -> remove (put f p n) p = f.
Proof.
  intros H. unfold put. rewrite (remove_none f p H). unfold remove. cbn [filter fst]. rewrite path_eqb_refl. cbn [negb]. apply (remove_none f p H).
Qed.

Lemma mkstemp_facts dir prefix ok : forall tries f last made name f', mkstemp f dir prefix ok last tries = (made, name, f') ->
  (made = true /\ lookup f (dir ++ [name]) = None /\ f' = put f (dir ++ [name]) (Reg []) /\ (exists r, In r tries /\ name = prefix ++ r)) \/
  (made = false /\ f' = f /\ (name = last \/ exists r, In r tries /\ name = prefix ++ r)).
Proof.
  induction tries as [|r rest IH]; intros f last made name f' H; cbn [mkstemp] in H.
  - injection H as <- <- <-. right. auto.
  - destruct ok; cbn [negb] in H.
    + destruct (fexist f (dir ++ [prefix ++ r])) eqn:E.
      * destruct (IH _ _ _ _ _ H) as [(A & B & C & s & D1 & D2)|(A & B & [->|(s & D1 & D2)])].
        -- left. split; [exact A|]. split; [exact B|]. split; [exact C|]. exists s. split; [right; exact D1|exact D2].
        -- right. split; [exact A|]. split; [exact B|]. right. exists r. split; [left; reflexivity|reflexivity].
        -- right. split; [exact A|]. split; [exact B|]. right. exists s. split; [right; exact D1|exact D2].
      * injection H as <- <- <-. left. split; [reflexivity|]. split.
        { destruct (lookup f (dir ++ [prefix ++ r])) eqn:L; [|reflexivity]. assert (fexist f (dir ++ [prefix ++ r]) = true); [|congruence]. apply fexist_lookup. congruence. }
        split; [reflexivity|]. exists r. split; [left; reflexivity|reflexivity].
    + injection H as <- <- <-. right. split; [reflexivity|]. split; [reflexivity|]. right. exists r. split; [left; reflexivity|reflexivity].
Qed.

(** ** C213 *)

(** The claim is what C213_clean_partial says, without the condition.  If standard input is
    closed, the file that was made to find a name stays in the working directory. *)
Theorem C213_left_refuted : exists f cwd pid tries tmp f' p,
  make_ulpname f cwd pid true true tries = (tmp, f') /\ lookup f p = None /\ lookup f' p <> None /\ p <> tmp.
Proof.
  exists [], [str "home"], 42, [str "abcdef"]. eexists _, _. exists [str "home"; str "ulp-abcdef"].
  split; [vm_compute; reflexivity|]. split; [reflexivity|]. split; vm_compute; discriminate.
Qed.
Print Assumptions C213_left_refuted.

(** Missing: a closed standard input. *)
Theorem C213_clean_partial : forall f dir prefix ok tries,
  (forall name f', fmktempname f dir prefix ok false tries = (name, f') ->
     f' = f /\ (name = prefix ++ str "XXXXXX" \/ exists r, In r tries /\ name = prefix ++ r)) /\
  (forall r name f', fmktempfile f dir prefix ok false tries = (r, name, f') ->
     (r = true -> lookup f (dir ++ [name]) = None /\ lookup f' (dir ++ [name]) = Some (Reg []) /\ same_but [dir ++ [name]] f f') /\
     (r = false -> f' = f)) /\
  (ok = true -> (exists r, In r tries /\ lookup f (dir ++ [prefix ++ r]) = None) -> fst (fst (fmktempfile f dir prefix ok false tries)) = true).
Proof.
  intros f dir prefix ok tries. split; [|split].
  - intros name f' H. unfold fmktempname, fmktempfile in H. destruct (mkstemp _ _ _ _ _ _) as [[made nm] g] eqn:M.
    destruct (mkstemp_facts _ _ _ _ _ _ _ _ _ M) as [(-> & L & -> & R)|(-> & -> & R)]; cbn [andb negb] in H; apply pair_equal_spec in H; destruct H as [<- <-].
    + split; [|right; exact R]. unfold unlink. rewrite lookup_put, path_eqb_refl. cbn [snd]. apply put_remove. exact L.
    + split; [reflexivity|exact R].
  - intros r name f' H. unfold fmktempfile in H. destruct (mkstemp _ _ _ _ _ _) as [[made nm] g] eqn:M.
    destruct (mkstemp_facts _ _ _ _ _ _ _ _ _ M) as [(-> & L & -> & R)|(-> & -> & R)]; cbn [andb negb] in H; apply pair_equal_spec in H; destruct H as [H <-]; apply pair_equal_spec in H; destruct H as [<- <-].
    + split; [intros _|discriminate]. split; [exact L|]. split; [rewrite lookup_put, path_eqb_refl; reflexivity|].
      intros q Hq. rewrite lookup_put, path_eqb_neq; [reflexivity|]. intros E. apply Hq. left. exact E.
    + split; [discriminate|reflexivity].
  - intros -> (r & Hr & L). unfold fmktempfile. destruct (mkstemp _ _ _ _ _ _) as [[made nm] g] eqn:M. cbn [fst]. rewrite andb_true_r.
    revert M. generalize (prefix ++ str "XXXXXX"). induction tries as [|s rest IH]; intros last M; [destruct Hr|]. cbn [mkstemp negb] in M.
    destruct (fexist f (dir ++ [prefix ++ s])) eqn:E; [|congruence].
    destruct Hr as [->|Hr]; [apply fexist_lookup in E; congruence|]. exact (IH Hr _ M).
Qed.
Print Assumptions C213_clean_partial.

Definition work : path := [str "home"].
Definition one_there : fs := [(work ++ [str "ulp-aaaaaa"], Reg (str "x"))].
Example C213_ex : fmktempname one_there work (str "ulp-") true false [str "aaaaaa"; str "bbbbbb"] = (str "ulp-bbbbbb", one_there) /\
  fst (fst (fmktempfile one_there work (str "ulp-") true false [str "aaaaaa"; str "bbbbbb"])) = true.
Proof. vm_compute. split; reflexivity. Qed.

(** ** C212 *)

(** The claim is what C212_own_file_partial says, without the condition that the name is
    free.  It is looked for in the working directory, and used in the directory of the
    process: the file of an applied patch of the same name, which is mapped into the
    process, is overwritten. *)
Definition applied : path := patch_dir 42 ++ [patch_name (str "aaaaaa")].
Definition two_files (obj : list Z) : fs := [(applied, Reg (str "code of the applied patch")); ([str "p"], Reg obj)].
Theorem C212_overwritten_refuted : exists f cwd pid tries obj p f' c c',
  lookup f p = Some (Reg c) /\ (exists r, In r tries /\ p = patch_dir pid ++ [patch_name r]) /\
  init_files f cwd pid true false tries obj true true true = Some (true, p, f') /\ lookup f' p = Some (Reg c') /\ c' <> c.
Proof.
  exists (two_files LdEx.ex_file), work, 42, [str "aaaaaa"; str "bbbbbb"], [str "p"], applied. eexists. exists (str "code of the applied patch"), LdEx.ex_file.
  split; [reflexivity|]. split; [exists (str "aaaaaa"); split; [left; reflexivity|reflexivity]|].
  split; [vm_compute; reflexivity|]. split; [vm_compute; reflexivity|]. vm_compute. discriminate.
Qed.
Print Assumptions C212_overwritten_refuted.

(** It is removed, if the new patch cannot be applied. *)
Theorem C212_removed_refuted : exists f cwd pid tries obj p f' c,
  lookup f p = Some (Reg c) /\ (exists r, In r tries /\ p = patch_dir pid ++ [patch_name r]) /\
  init_files f cwd pid true false tries obj true true true = Some (false, p, f') /\ lookup f' p = None.
Proof.
  exists (two_files [1; 2; 3]), work, 42, [str "aaaaaa"; str "bbbbbb"], [str "p"], applied. eexists. exists (str "code of the applied patch").
  split; [reflexivity|]. split; [exists (str "aaaaaa"); split; [left; reflexivity|reflexivity]|].
  split; [vm_compute; reflexivity|]. vm_compute. reflexivity.
Qed.
Print Assumptions C212_removed_refuted.

Lemma alloc_keeps f obj tmp mm cp n : lookup f tmp = None -> lookup (snd (alloc_on f obj tmp mm cp)) tmp = Some n -> exists c, n = Reg c.
Proof.
  intros N. unfold alloc_on. destruct (lookup f obj) as [[c| | |]|]; cbn [snd]; try congruence. destruct (_ || _); [cbn [snd]; congruence|].
  destruct (lookup (put f tmp _) obj) as [[c1| | |]|]; cbn [snd]; try destruct (mm && cp); rewrite ?lookup_put, ?path_eqb_refl; intros E; injection E as <-; eauto.
Qed.

(** A copy that succeeds is one of the whole file. *)
Lemma alloc_copies f obj tmp mm cp c a g : alloc_on f obj tmp mm cp = (Some a, g) -> fst a = 0 -> lookup f obj = Some (Reg c) -> obj <> tmp ->
  Z.of_nat (List.length c) < 2 ^ 31 -> lookup g tmp = Some (Reg c).
Proof.
  intros A Z0 L N Lc. unfold alloc_on in A. rewrite L in A.
  assert (E1 : s32 (Z.of_nat (List.length c)) = Z.of_nat (List.length c)) by (apply sgn_id; lia).
  assert (E2 : u64 (Z.of_nat (List.length c)) = Z.of_nat (List.length c)) by (apply wrap_id; lia).
  rewrite E1, E2 in A. destruct (_ || _) eqn:B.
  - apply pair_equal_spec in A. destruct A as [A _]. unfold LdModel.alloc_patch_file in A. cbv zeta in A. cbn [LdModel.ae_file LdModel.ae_mmap LdModel.ae_copy] in A. unfold TextModel.len in A. change LdModel.sizeof_ehdr with 64 in A. rewrite E1, E2 in A.
    destruct (Z.ltb_spec (Z.of_nat (List.length c)) 64); [|exfalso; lia]. injection A as <-. discriminate Z0.
  - rewrite lookup_put, (path_eqb_neq tmp obj) in A by congruence. rewrite L in A.
    destruct mm, cp; cbn [andb] in A; apply pair_equal_spec in A; destruct A as [A <-].
    1:{ rewrite lookup_put, path_eqb_refl. rewrite Nat2Z.id, firstn_all. reflexivity. }
    all: exfalso; unfold LdModel.alloc_patch_file in A; cbv zeta in A; cbn [LdModel.ae_file LdModel.ae_mmap LdModel.ae_copy] in A; unfold TextModel.len in A; change LdModel.sizeof_ehdr with 64 in A; rewrite E1, E2 in A;
      destruct (Z.ltb_spec (Z.of_nat (List.length c)) 64); try lia; replace (2 ^ 63 <=? Z.of_nat (List.length c)) with false in A by lia; cbn [negb orb] in A; injection A as <-; discriminate Z0.
Qed.

(** Missing: names that are in use, a closed standard input. *)
Theorem C212_own_file_partial : forall f cwd pid ok tries obj mm cp later r tmp f',
  init_files f cwd pid ok false tries obj mm cp later = Some (r, tmp, f') ->
  (exists s, (s = str "XXXXXX" \/ In s tries) /\ tmp = patch_dir pid ++ [patch_name s]) /\
  same_but [tmp] f f' /\
  (lookup f tmp = None -> kept f f' /\ (r = false -> same f f')) /\
  (r = true -> forall c, lookup f obj = Some (Reg c) -> obj <> tmp -> Z.of_nat (List.length c) < 2 ^ 31 -> lookup f' tmp = Some (Reg c)) /\
  (cwd = patch_dir pid -> ok = true -> (exists s, In s tries /\ lookup f (cwd ++ [patch_name s]) = None) -> lookup f tmp = None).
Proof.
  intros f cwd pid ok tries obj mm cp later r tmp f' H. unfold init_files, make_ulpname in H.
  destruct (fmktempname f cwd PATCH_VMA_TEMP_PREFIX ok false tries) as [name g] eqn:T.
  destruct (C213_clean_partial f cwd PATCH_VMA_TEMP_PREFIX ok tries) as (P1 & P2 & P3). destruct (P1 _ _ T) as [-> Nm].
  destruct (alloc_on f obj (proc_maps pid ++ [name]) mm cp) as [a g] eqn:A.
  destruct a as [a|]; [|discriminate].
  assert (Et : tmp = proc_maps pid ++ [name]) by (destruct ((fst a =? 0) && later); congruence).
  rewrite <- Et in *. pose proof (alloc_on_frame f obj tmp mm cp) as F. rewrite A in F. cbn [snd] in F.
  assert (Ro : forall h q, tmp <> q -> lookup (snd (fremove h tmp)) q = lookup h q).
  { intros h q N. unfold fremove. destruct (lookup h tmp) as [[| | |]|]; try reflexivity; try (apply unlink_other; exact N). apply rmdir_other. exact N. }
  assert (S : same_but [tmp] f f').
  { destruct ((fst a =? 0) && later); [injection H as <- <-; exact F|]. assert (E : f' = if fexist g tmp then snd (fremove g tmp) else g) by congruence. subst f'.
    destruct (fexist g tmp); [|exact F]. intros q Hq. rewrite Ro; [apply F; exact Hq|]. intros ->. apply Hq. left. reflexivity. }
  split.
  { destruct Nm as [->|(s & Hs & ->)]; [exists (str "XXXXXX")|exists s]; (split; [auto|]); rewrite Et; reflexivity. }
  split; [exact S|]. split; [|split].
  - intros N. split.
    + intros q n L. rewrite S; [exact L|]. intros [<-|[]]. congruence.
    + intros -> q. destruct (path_dec tmp q) as [<-|D]; [|apply S; intros [E|[]]; contradiction]. rewrite N.
      destruct ((fst a =? 0) && later); [congruence|]. assert (E : f' = if fexist g tmp then snd (fremove g tmp) else g) by congruence. subst f'.
      destruct (fexist g tmp) eqn:X.
      * destruct (lookup g tmp) as [n|] eqn:L; [|apply fexist_lookup in X; congruence].
        pose proof (alloc_keeps f obj tmp mm cp n N) as K. rewrite A in K. cbn [snd] in K. destruct (K L) as (c & ->).
        unfold fremove. rewrite L. cbn [snd]. rewrite lookup_unlink, path_eqb_refl, L. reflexivity.
      * destruct (lookup g tmp) eqn:L; [|reflexivity]. assert (fexist g tmp = true); [apply fexist_lookup; congruence|congruence].
  - intros -> c L N Lc. destruct (Z.eqb_spec (fst a) 0) as [Z0|]; [|discriminate]. destruct later; [|discriminate]. cbn [andb] in H.
    assert (f' = g) by congruence. subst f'. eapply alloc_copies; eauto.
  - intros -> -> Free. unfold fmktempname in T. destruct (fmktempfile f (patch_dir pid) PATCH_VMA_TEMP_PREFIX true false tries) as [[b nm] h] eqn:M.
    pose proof (P3 eq_refl Free) as Q. cbn [fst] in Q. subst b. destruct (P2 _ _ _ eq_refl) as [Q _]. destruct (Q eq_refl) as (Q1 & _).
    assert (nm = name) by congruence. subst nm. rewrite Et. exact Q1.
Qed.
Print Assumptions C212_own_file_partial.

Example C212_ex : exists f', init_files (two_files LdEx.ex_file) (patch_dir 42) 42 true false [str "aaaaaa"; str "bbbbbb"] [str "p"] true true true =
    Some (true, patch_dir 42 ++ [patch_name (str "bbbbbb")], f') /\ lookup f' applied = Some (Reg (str "code of the applied patch")) /\
  lookup (two_files LdEx.ex_file) (patch_dir 42 ++ [patch_name (str "bbbbbb")]) = None.
Proof. eexists. split; [vm_compute; reflexivity|]. split; vm_compute; reflexivity. Qed.
