(** Lemmas about the file model. *)
From Coq Require Import ZArith String List Bool Lia.
From Verif Require Import Word RbModel RbSpec Str VmaModel VmaSpec VmaProofs FsModel FsSpec.
Import ListNotations.
Open Scope Z_scope.

Lemma path_eqb_eq : forall a b, path_eqb a b = true <-> a = b.
Proof.
  induction a as [|x a IH]; intros [|y b]; cbn; try (split; (reflexivity || discriminate)).
  - rewrite andb_true_iff, str_eqb_eq, IH. split; [intros [-> ->]; reflexivity|intros H; injection H as -> ->; auto].
Qed.
Lemma path_eqb_refl a : path_eqb a a = true.
Proof. apply path_eqb_eq. reflexivity. Qed.
Lemma path_eqb_neq a b : a <> b -> path_eqb a b = false.
Proof. intros H. destruct (path_eqb a b) eqn:E; auto. apply path_eqb_eq in E. contradiction. Qed.
Lemma path_dec (a b : path) : {a = b} + {a <> b}.
Proof. destruct (path_eqb a b) eqn:E; [left; apply path_eqb_eq; auto|right; intros ->; rewrite path_eqb_refl in E; discriminate]. Qed.

Lemma under_below : forall p q, under p q = true <-> below p q.
Proof.
  induction p as [|x p IH]; intros [|y q]; cbn.
  - split; [discriminate|]. intros (c & r & H). discriminate.
  - split; auto. intros _. exists y, q. reflexivity.
  - split; [discriminate|]. intros (c & r & H). discriminate.
  - rewrite andb_true_iff, str_eqb_eq, IH. split.
    + intros [-> (c & r & ->)]. exists c, r. reflexivity.
    + intros (c & r & H). injection H as -> ->. split; auto. exists c, r. reflexivity.
Qed.

Lemma lookup_remove f p q : lookup (remove f p) q = if path_eqb p q then None else lookup f q.
Proof.
  unfold lookup, remove. induction f as [|[k n] f IH]; cbn [filter find fst].
  - destruct (path_eqb p q); reflexivity.
  - destruct (path_dec k p) as [->|N].
    + rewrite path_eqb_refl. cbn [negb]. destruct (path_eqb p q) eqn:E; exact IH.
    + rewrite (path_eqb_neq k p N). cbn [negb find fst]. destruct (path_eqb k q) eqn:E; [|exact IH].
      apply path_eqb_eq in E. subst k. rewrite (path_eqb_neq p q); auto.
Qed.

Lemma lookup_put f p n q : lookup (put f p n) q = if path_eqb p q then Some n else lookup f q.
Proof.
  unfold put. unfold lookup at 1. cbn [find fst snd]. destruct (path_eqb p q) eqn:E; auto.
  pose proof (lookup_remove f p q) as H. rewrite E in H. exact H.
Qed.

Lemma lookup_in f q n : In (q, n) f -> lookup f q <> None.
Proof.
  unfold lookup. induction f as [|[k n'] f IH]; intros H; [contradiction|]. cbn [find fst snd].
  destruct (path_eqb k q) eqn:E; [discriminate|]. destruct H as [H|H]; [|exact (IH H)].
  injection H as -> ->. rewrite path_eqb_refl in E. discriminate.
Qed.
Lemma lookup_some f q : lookup f q <> None -> exists n, In (q, n) f.
Proof.
  unfold lookup. induction f as [|[k n'] f IH]; cbn [find fst snd]; intros H; [congruence|].
  destruct (path_eqb k q) eqn:E.
  - apply path_eqb_eq in E. subst k. exists n'. left. reflexivity.
  - destruct (IH H) as [n I]. exists n. right. exact I.
Qed.

Lemma occupied f p : existsb (fun x => under p (fst x)) f = true <-> exists q, below p q /\ lookup f q <> None.
Proof.
  rewrite existsb_exists. split.
  - intros ([q n] & I & U). apply under_below in U. exists q. split; auto. eapply lookup_in; eauto.
  - intros (q & B & L). destruct (lookup_some _ _ L) as [n I]. exists (q, n). split; auto. apply under_below. exact B.
Qed.

Lemma lookup_unlink f p q : lookup (snd (unlink f p)) q =
  if path_eqb p q then match lookup f p with Some Dir => Some Dir | _ => None end else lookup f q.
Proof.
  unfold unlink. destruct (path_dec p q) as [->|N].
  - rewrite path_eqb_refl. destruct (lookup f q) as [[| | |]|] eqn:E; cbn [snd]; rewrite ?lookup_remove, ?path_eqb_refl, ?E; reflexivity.
  - rewrite (path_eqb_neq p q N). destruct (lookup f p) as [[| | |]|] eqn:E; cbn [snd]; rewrite ?lookup_remove, ?(path_eqb_neq p q N); reflexivity.
Qed.

Lemma rmdir_other f p q : p <> q -> lookup (snd (rmdir f p)) q = lookup f q.
Proof.
  intros N. unfold rmdir. destruct (lookup f p) as [[| | |]|]; auto.
  destruct (existsb _ f); auto. cbn [snd]. rewrite lookup_remove, (path_eqb_neq p q N). reflexivity.
Qed.
Lemma rmdir_empty f p : lookup f p = Some Dir -> (forall q, below p q -> lookup f q = None) ->
  lookup (snd (rmdir f p)) p = None.
Proof.
  intros D H. unfold rmdir. rewrite D. destruct (existsb _ f) eqn:E.
  - apply occupied in E. destruct E as (q & B & L). rewrite (H q B) in L. contradiction.
  - cbn [snd]. rewrite lookup_remove, path_eqb_refl. reflexivity.
Qed.

Lemma unlink_other f p q : p <> q -> lookup (snd (unlink f p)) q = lookup f q.
Proof. intros N. rewrite lookup_unlink, (path_eqb_neq p q N). reflexivity. Qed.
Lemma mkdir_other f p q : p <> q -> lookup (snd (mkdir f p)) q = lookup f q.
Proof. intros N. unfold mkdir. destruct (lookup f p); auto. cbn [snd]. rewrite lookup_put, (path_eqb_neq p q N). reflexivity. Qed.

Lemma own_distinct pid : proc_dir pid <> proc_comm pid /\ proc_dir pid <> proc_maps pid /\ proc_comm pid <> proc_maps pid.
Proof. unfold proc_comm, proc_maps, proc_dir. cbn [app]. repeat split; intros H; try discriminate. Qed.

Lemma clean_others f pid q : ~ In q (own pid) -> lookup (clean_task_proc f pid) q = lookup f q.
Proof.
  intros N. assert (N1 : proc_comm pid <> q) by (intros <-; apply N; right; left; reflexivity).
  assert (N2 : proc_maps pid <> q) by (intros <-; apply N; right; right; left; reflexivity).
  assert (N3 : proc_dir pid <> q) by (intros <-; apply N; left; reflexivity).
  unfold clean_task_proc.
  destruct (fexist f (proc_comm pid)).
  - destruct (fexist (snd (unlink f (proc_comm pid))) (proc_maps pid)).
    + destruct (fexist _ (proc_dir pid)); rewrite ?rmdir_other, ?unlink_other by assumption; reflexivity.
    + destruct (fexist _ (proc_dir pid)); rewrite ?rmdir_other, ?unlink_other by assumption; reflexivity.
  - destruct (fexist f (proc_maps pid)).
    + destruct (fexist _ (proc_dir pid)); rewrite ?rmdir_other by assumption; reflexivity.
    + destruct (fexist _ (proc_dir pid)); rewrite ?rmdir_other by assumption; reflexivity.
Qed.

Lemma fexist_lookup f p : fexist f p = true <-> lookup f p <> None.
Proof. unfold fexist. destruct (lookup f p); split; congruence. Qed.

Lemma below_trans p c q : below (p ++ [c]) q -> below p q.
Proof. intros (d & r & ->). exists c, (d :: r). rewrite <- app_assoc. reflexivity. Qed.

Lemma app_self (p r : path) : p = p ++ r -> r = [].
Proof. intros H. apply (app_inv_head p). rewrite app_nil_r. auto. Qed.
Lemma below_neq p q : below p q -> p <> q.
Proof. intros (c & r & ->) H. apply app_self in H. discriminate. Qed.
Lemma below_asym p q : below p q -> ~ below q p.
Proof.
  intros (c & r & ->) (d & t & H). rewrite <- app_assoc in H. apply app_self in H. destruct r; discriminate.
Qed.

Lemma clean_all f pid : nothing_else f pid -> forall q, In q (own pid) -> lookup (clean_task_proc f pid) q = None.
Proof.
  intros (O & D & C & M). fold (proc_dir pid) in D, O. change (private_dir pid) with (proc_dir pid) in *.
  change (proc_dir pid ++ [str "comm"]) with (proc_comm pid) in *. change (proc_dir pid ++ [str "map_files"]) with (proc_maps pid) in *.
  destruct (own_distinct pid) as (N1 & N2 & N3).
  assert (Bc : below (proc_dir pid) (proc_comm pid)) by (exists (str "comm"), []; reflexivity).
  assert (Bm : below (proc_dir pid) (proc_maps pid)) by (exists (str "map_files"), []; reflexivity).
  set (f1 := if fexist f (proc_comm pid) then snd (unlink f (proc_comm pid)) else f).
  assert (F1 : lookup f1 (proc_comm pid) = None /\ forall q, proc_comm pid <> q -> lookup f1 q = lookup f q).
  { unfold f1. destruct (fexist f (proc_comm pid)) eqn:E.
    - split; [|intros q Hq; apply unlink_other; auto]. rewrite lookup_unlink, path_eqb_refl.
      destruct (lookup f (proc_comm pid)) as [[| | |]|]; congruence.
    - unfold fexist in E. destruct (lookup f (proc_comm pid)); [discriminate|]. split; auto. }
  destruct F1 as [F1 F1o].
  set (f2 := if fexist f1 (proc_maps pid) then snd (rmdir f1 (proc_maps pid)) else f1).
  assert (F2 : lookup f2 (proc_maps pid) = None /\ forall q, proc_maps pid <> q -> lookup f2 q = lookup f1 q).
  { unfold f2. destruct (fexist f1 (proc_maps pid)) eqn:E.
    - split; [|intros q Hq; apply rmdir_other; auto]. apply rmdir_empty.
      + rewrite F1o by auto. destruct M as [M|M]; auto. exfalso. apply fexist_lookup in E. rewrite F1o in E by auto. congruence.
      + intros q B. destruct (lookup f1 q) eqn:L; auto. exfalso.
        assert (Hd : below (proc_dir pid) q) by (apply (below_trans _ (str "map_files")); exact B).
        destruct (path_dec (proc_comm pid) q) as [<-|Nq]; [congruence|]. rewrite F1o in L by auto.
        assert (I : In q (own pid)) by (apply O; [exact Hd|congruence]). cbn [own In] in I.
        destruct I as [<-|[I|[<-|[]]]]; [exact (below_neq _ _ Hd eq_refl)|exact (Nq I)|exact (below_neq _ _ B eq_refl)].
    - unfold fexist in E. destruct (lookup f1 (proc_maps pid)); [discriminate|]. split; auto. }
  destruct F2 as [F2 F2o].
  assert (E : clean_task_proc f pid = if fexist f2 (proc_dir pid) then snd (rmdir f2 (proc_dir pid)) else f2) by reflexivity.
  rewrite E. assert (Dd : lookup f2 (proc_dir pid) = Some Dir) by (rewrite F2o, F1o by auto; exact D).
  unfold fexist. rewrite Dd. intros q I. cbn [own In] in I. destruct I as [<-|[<-|[<-|[]]]].
  - apply rmdir_empty; [exact Dd|]. intros q B. destruct (path_dec (proc_maps pid) q) as [<-|Nm]; auto. rewrite F2o by auto.
    destruct (path_dec (proc_comm pid) q) as [<-|Nc]; auto. rewrite F1o by auto.
    destruct (lookup f q) eqn:L; auto. exfalso. assert (I : In q (own pid)) by (apply O; [exact B|congruence]).
    cbn [own In] in I. destruct I as [<-|[I|[I|[]]]]; [exact (below_neq _ _ B eq_refl)|exact (Nc I)|exact (Nm I)].
  - change (private_dir pid ++ [str "comm"]) with (proc_comm pid). rewrite rmdir_other by auto. rewrite F2o by auto. exact F1.
  - change (private_dir pid ++ [str "map_files"]) with (proc_maps pid). rewrite rmdir_other by auto. exact F2.
Qed.

(** ** Counting patches *)

Lemma count_walk info s pid exe fuel : forall n v l, walk (next_vma fuel s) n v = Some l ->
  exists c, count_ulp n fuel info s pid exe v = Some c /\ 0 <= c /\
    (c = 0 <-> forall w, In w l -> get_vma_type pid exe (vm_name (info w)) <> VMA_ULPATCH).
Proof.
  induction n as [|n IH]; intros v l H; [discriminate|]. cbn [walk count_ulp] in *.
  destruct (v =? 0).
  - injection H as <-. exists 0. split; auto. split; [lia|]. split; [intros _ w []|reflexivity].
  - destruct (next_vma fuel s v) as [b|]; [|discriminate].
    destruct (walk (next_vma fuel s) n b) as [l'|] eqn:W; [|discriminate]. injection H as <-.
    destruct (IH b l' W) as (c & E & P & I). rewrite E.
    set (d := match get_vma_type pid exe (vm_name (info v)) with VMA_ULPATCH => 1 | _ => 0 end).
    assert (D : (d = 0 /\ get_vma_type pid exe (vm_name (info v)) <> VMA_ULPATCH) \/
                (d = 1 /\ get_vma_type pid exe (vm_name (info v)) = VMA_ULPATCH)).
    { unfold d. destruct (get_vma_type pid exe (vm_name (info v))); auto; left; split; congruence. }
    exists (d + c). split; [reflexivity|]. split; [lia|]. split.
    + intros C w [<-|Hw]; [destruct D as [[_ D]|[D _]]; [exact D|lia]|apply I; [lia|exact Hw]].
    + intros A. destruct D as [[-> _]|[_ D]]; [|exfalso; apply (A v); [left; reflexivity|exact D]].
      rewrite (proj2 I); [reflexivity|]. intros w Hw. apply A. right. exact Hw.
Qed.

(** ** Recursive removal *)

Definition withinb (p q : path) : bool := path_eqb p q || under p q.

Lemma withinb_spec p q : withinb p q = true <-> exists r, q = p ++ r.
Proof.
  unfold withinb. rewrite orb_true_iff, path_eqb_eq, under_below. split.
  - intros [->|(c & r & ->)]; [exists []; rewrite app_nil_r; auto|eauto].
  - intros ([|c r] & ->); [left; rewrite app_nil_r; auto|right; exists c, r; auto].
Qed.

Lemma wf_prefix f : wf f -> forall r q, q <> [] -> lookup f (q ++ r) <> None -> lookup f q <> None.
Proof.
  intros [_ P]. induction r as [|c r IH] using rev_ind; intros q N H; [rewrite app_nil_r in H; auto|].
  apply IH; auto. rewrite app_assoc in H. rewrite (P (q ++ r) c ltac:(destruct q; [contradiction|cbn; discriminate]) H). discriminate.
Qed.

Lemma wf_dir f : wf f -> forall q r c, q <> [] -> lookup f (q ++ c :: r) <> None -> lookup f q = Some Dir.
Proof.
  intros W q r c N H. destruct W as [W1 W2]. apply (W2 q c N). apply (wf_prefix f (conj W1 W2) r); [destruct q; cbn; discriminate|].
  rewrite <- app_assoc. exact H.
Qed.

Lemma resolve_wf f : wf f -> forall rest m d, (List.length rest < m)%nat -> lookup f (d ++ rest) <> None \/ rest = [] ->
  resolve m f d rest = Some (d ++ rest).
Proof.
  intros W. induction rest as [|c r IH]; intros m d L H; destruct m; try (cbn in L; lia); cbn [resolve].
  - rewrite app_nil_r. reflexivity.
  - destruct H as [H|H]; [|discriminate].
    assert (A : d ++ c :: r = (d ++ [c]) ++ r) by (rewrite <- app_assoc; reflexivity). rewrite A in H.
    pose proof (wf_prefix f W r (d ++ [c]) ltac:(destruct d; cbn; discriminate) H) as Hc.
    pose proof (proj1 W (d ++ [c])) as Nl. destruct (lookup f (d ++ [c])) as [[| | |]|]; try contradiction; try congruence;
      rewrite A; (apply IH; [cbn in L; lia|left; exact H]).
Qed.

Lemma resolve_some f : wf f -> forall m rest d q, resolve m f d rest = Some q -> q = d ++ rest /\ (rest <> [] -> lookup f q <> None).
Proof.
  intros W. induction m as [|m IH]; intros rest d q H; [discriminate|]. cbn [resolve] in H. destruct rest as [|c r].
  - injection H as <-. rewrite app_nil_r. split; [reflexivity|intros X; contradiction].
  - pose proof (proj1 W (d ++ [c])) as Nl.
    assert (A : d ++ c :: r = (d ++ [c]) ++ r) by (rewrite <- app_assoc; reflexivity).
    destruct (lookup f (d ++ [c])) as [[| | |]|] eqn:E; try contradiction; try discriminate;
      destruct (IH _ _ _ H) as [-> L]; (split; [symmetry; exact A|]); intros _; 
      (destruct r; [rewrite app_nil_r; congruence|apply L; discriminate]).
Qed.

Lemma parent_wf f m p : wf f -> p <> [] -> lookup f p <> None -> (List.length p < m)%nat -> resolve_parent m f p = Some p.
Proof.
  intros W N H L. unfold resolve_parent. destruct (rev p) as [|c r] eqn:R.
  - apply (f_equal (@rev _)) in R. rewrite rev_involutive in R. contradiction.
  - apply (f_equal (@rev _)) in R. rewrite rev_involutive in R. cbn [rev] in R. subst p.
    rewrite app_length in L. cbn in L. rewrite (resolve_wf f W (rev r) m []); [reflexivity|lia|].
    destruct (rev r) as [|x y] eqn:X; [right; reflexivity|left]. cbn [app]. apply (wf_prefix f W [c]); [discriminate|]. exact H.
Qed.

(** The tree at [p] cut off. *)
Definition cut (f g : fs) (b : path -> bool) : Prop := forall q, lookup g q = if b q then None else lookup f q.

Lemma cut_wf f g b : wf f -> cut f g b -> (forall q c, b q = true -> b (q ++ [c]) = true) -> wf g.
Proof.
  intros [W1 W2] C B. split.
  - intros q. rewrite C. destruct (b q); auto. apply W1.
  - intros q c N. rewrite !C. destruct (b (q ++ [c])) eqn:E; [congruence|]. intros H.
    destruct (b q) eqn:E2; [rewrite (B _ c E2) in E; discriminate|]. eapply W2; eauto.
Qed.

Lemma withinb_app p q c : withinb p q = true -> withinb p (q ++ [c]) = true.
Proof. rewrite !withinb_spec. intros (r & ->). exists (r ++ [c]). rewrite app_assoc. reflexivity. Qed.

Lemma child_of_spec : forall p q c, child_of p q = Some c <-> q = p ++ [c].
Proof.
  induction p as [|x p IH]; intros q c; cbn [child_of app].
  - destruct q as [|y [|z q]]; split; intros H; try discriminate; injection H as ->; reflexivity.
  - destruct q as [|y q]; [split; discriminate|]. destruct (str_eqb x y) eqn:E.
    + apply str_eqb_eq in E. subst y. rewrite IH. split; [intros ->; reflexivity|intros H; injection H as ->; reflexivity].
    + split; [discriminate|]. intros H. injection H as -> _. rewrite str_eqb_refl in E. discriminate.
Qed.
Lemma children_spec f p c : In c (children f p) <-> lookup f (p ++ [c]) <> None.
Proof.
  assert (G : In c (children f p) <-> exists n, In (p ++ [c], n) f).
  { induction f as [|[q n] f IH]; cbn [children].
    - split; [intros []|intros (n & [])].
    - destruct (child_of p q) as [d|] eqn:E.
      + apply child_of_spec in E. subst q. cbn [In]. rewrite IH. split.
        * intros [->|(m & H)]; [exists n; left; reflexivity|exists m; right; exact H].
        * intros (m & [H|H]); [left; injection H as H _; apply app_inv_head in H; congruence|right; eauto].
      + rewrite IH. split; intros (m & H); exists m; [right; exact H|]. destruct H as [H|H]; auto. exfalso.
        injection H as H _. subst q. assert (X : child_of p (p ++ [c]) = Some c) by (apply child_of_spec; reflexivity). congruence. }
  rewrite G. split; [intros (n & H); eapply lookup_in; eauto|apply lookup_some].
Qed.

Definition go_of (m n : nat) (p : path) := fix go (l : list (list Z)) (f : fs) : option fs :=
  match l with
  | [] => Some f
  | c :: l' => f' <- remove_recursive m n f (p ++ [c]) ;; go l' f'
  end.

Lemma remove_recursive_eq m n f p : remove_recursive m (S n) f p =
  match resolve m f [] p with
  | None => Some f
  | Some q =>
      match lookup f q with
      | Some (Reg _) => match resolve_parent m f p with Some r => Some (remove f r) | None => Some f end
      | Some Dir => f' <- go_of m n p (children f q) f ;;
          match resolve_parent m f' p with Some r => Some (snd (rmdir f' r)) | None => Some f' end
      | _ => Some f
      end
  end.
Proof. reflexivity. Qed.

Lemma remove_recursive_cut m : forall n f p, wf f -> p <> [] -> (0 < n)%nat ->
  (forall q, lookup f q <> None -> (List.length q < m)%nat /\ (List.length q < n + List.length p)%nat) ->
  exists g, remove_recursive m n f p = Some g /\ cut f g (withinb p).
Proof.
  induction n as [|n IH]; intros f p W N Hn Hb; [lia|]. rewrite remove_recursive_eq.
  destruct (lookup f p) as [nd|] eqn:E.
  - assert (Lp : lookup f p <> None) by congruence. destruct (Hb p Lp) as [Hm _].
    rewrite (resolve_wf f W p m [] Hm) by (left; exact Lp). cbn [app]. rewrite E.
    pose proof (proj1 W p) as Np. rewrite E in Np. destruct nd as [c| |t|]; try contradiction.
    + rewrite (parent_wf f m p W N Lp Hm). eexists. split; [reflexivity|]. intros q. rewrite lookup_remove. unfold withinb.
      destruct (path_eqb p q) eqn:Q; [reflexivity|]. cbn [orb]. destruct (under p q) eqn:U; auto.
      apply under_below in U. destruct U as (x & r & ->). destruct (lookup f (p ++ x :: r)) eqn:L; auto. exfalso.
      assert (lookup f p = Some Dir) by (apply (wf_dir f W p r x N); congruence). congruence.
    + assert (G : forall l f0, wf f0 -> (forall q, lookup f0 q <> None -> lookup f q <> None) -> (0 < n \/ l = [])%nat ->
        exists g, go_of m n p l f0 = Some g /\ cut f0 g (fun q => existsb (fun c => withinb (p ++ [c]) q) l)).
      { induction l as [|c l IHl]; intros f0 W0 S0 Nn; cbn [go_of].
        - exists f0. split; auto. intros q. reflexivity.
        - destruct Nn as [Nn|Nn]; [|discriminate].
          destruct (IH f0 (p ++ [c]) W0 ltac:(destruct p; cbn; discriminate) Nn) as (g1 & R1 & C1).
          { intros q L. destruct (Hb q (S0 q L)) as [B1 B2]. split; auto. rewrite app_length. cbn. lia. }
          rewrite R1. destruct (IHl g1) as (g & R & C).
          { eapply cut_wf; [exact W0|exact C1|]. intros q d. apply withinb_app. }
          { intros q L. apply S0. rewrite C1 in L. destruct (withinb (p ++ [c]) q); congruence. }
          { left. exact Nn. }
          exists g. split; [exact R|]. intros q. rewrite C, C1. cbn [existsb]. destruct (withinb (p ++ [c]) q); cbn [orb]; auto.
          destruct (existsb _ l); reflexivity. }
      destruct (G (children f p) f W (fun q H => H)) as (g & R & C).
      { destruct (children f p) as [|c l] eqn:Ch; [right; reflexivity|left].
        assert (L : lookup f (p ++ [c]) <> None) by (apply children_spec; rewrite Ch; left; reflexivity).
        destruct (Hb _ L) as [_ B]. rewrite app_length in B. cbn in B. lia. }
      rewrite R.
      assert (Bp : existsb (fun c => withinb (p ++ [c]) p) (children f p) = false).
      { destruct (existsb _ (children f p)) eqn:X; auto. apply existsb_exists in X. destruct X as (c & _ & X). apply withinb_spec in X.
        destruct X as (r & X). rewrite <- app_assoc in X. apply app_self in X. discriminate. }
      assert (Wg : wf g).
      { eapply cut_wf; [exact W|exact C|]. intros q c X. apply existsb_exists in X. destruct X as (d & I & X).
        apply existsb_exists. exists d. split; auto. apply withinb_app. exact X. }
      assert (Eg : lookup g p = Some Dir) by (rewrite C, Bp; exact E).
      rewrite (parent_wf g m p Wg N) by (try congruence; exact Hm).
      eexists. split; [reflexivity|]. 
      assert (Gb : forall q, below p q -> lookup g q = None).
      { intros q (c & r & ->). rewrite C. match goal with |- context [existsb ?h ?l] => destruct (existsb h l) eqn:X end; auto.
        destruct (lookup f (p ++ c :: r)) eqn:L; auto. exfalso.
        assert (Lc : lookup f (p ++ [c]) <> None).
        { apply (wf_prefix f W r); [destruct p; cbn; discriminate|]. rewrite <- app_assoc. cbn [app]. rewrite L. discriminate. }
        apply children_spec in Lc. assert (Y : existsb (fun c0 => withinb (p ++ [c0]) (p ++ c :: r)) (children f p) = true).
        { apply existsb_exists. exists c. split; auto. apply withinb_spec. exists r. rewrite <- app_assoc. reflexivity. }
        congruence. }
      intros q. destruct (path_dec p q) as [<-|Nq].
      * rewrite (rmdir_empty g p Eg Gb). unfold withinb. rewrite path_eqb_refl. reflexivity.
      * rewrite rmdir_other by exact Nq. unfold withinb. rewrite (path_eqb_neq p q Nq). cbn [orb].
        destruct (under p q) eqn:U; [apply Gb; apply under_below; exact U|]. rewrite C.
        match goal with |- context [existsb ?h ?l] => destruct (existsb h l) eqn:X end; auto. exfalso. apply existsb_exists in X. destruct X as (c & _ & X).
        apply withinb_spec in X. destruct X as (r & ->).
        assert (under p ((p ++ [c]) ++ r) = true) by (apply under_below; exists c, r; rewrite <- app_assoc; reflexivity). congruence.
  - exists f. split.
    + destruct (resolve m f [] p) as [q|] eqn:R; auto. destruct (resolve_some f W _ _ _ _ R) as [-> L]. cbn [app] in *.
      exfalso. apply (L N). exact E.
    + intros q. destruct (withinb p q) eqn:X; auto. apply withinb_spec in X. destruct X as (r & ->).
      destruct (lookup f (p ++ r)) eqn:L; auto. exfalso. apply (wf_prefix f W r p N); congruence.
Qed.
