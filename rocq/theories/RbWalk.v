(** Walking a tree, replacing a node, destroying a tree. *)
From Coq Require Import ZArith List Bool Lia.
From Coq Require Import ZifyBool ZifyNat.
From Verif Require Import RbModel RbSpec RbSep RbInsert RbPure RbTop RbErase.
Import ListNotations.
Open Scope Z_scope.

Lemma walk_ok next l : Forall (fun a => a <> 0) l ->
  (forall L a R, l = L ++ a :: R -> next a = Some (hd 0 R)) ->
  forall n, (length l < n)%nat -> walk next n (hd 0 l) = Some l.
Proof.
  induction l as [|a l IH]; intros Hz Hn n Hl; (destruct n as [|n]; [lia|]).
  - reflexivity.
  - cbn [walk hd]. inversion Hz; subst. destruct (Z.eqb_spec a 0); [contradiction|].
    rewrite (Hn [] a l eq_refl). rewrite IH; auto.
    + intros L b R E. apply (Hn (a :: L)). rewrite E. reflexivity.
    + cbn in Hl. lia.
Qed.

Lemma nodup_split (l : list Z) L1 R1 L2 R2 a : NoDup l -> l = L1 ++ a :: R1 -> l = L2 ++ a :: R2 ->
  L1 = L2 /\ R1 = R2.
Proof.
  revert l L2. induction L1 as [|b L1 IH]; intros l L2 Hn E1 E2; rewrite E1 in E2.
  - destruct L2 as [|b L2]; cbn in E2; [split; congruence|]. injection E2 as -> ->.
    rewrite E1 in Hn. inversion Hn as [|? ? Hi _]. exfalso. apply Hi. rewrite in_app_iff. right. left. auto.
  - destruct L2 as [|b2 L2]; cbn in E2.
    + injection E2 as -> <-. rewrite E1 in Hn. inversion Hn as [|? ? Hi _]. exfalso. apply Hi.
      rewrite in_app_iff. right. left. auto.
    + injection E2 as -> E2. rewrite E1 in Hn. inversion Hn as [|? ? _ Hn'].
      destruct (IH (L1 ++ a :: R1) L2 Hn' eq_refl E2) as [-> ->]. auto.
Qed.

Section Walk.
Variables (s : rbs).

Lemma go_left_ok t : forall p fuel, rep (hp s) p t -> Forall node_addr (inorder t) -> t <> E ->
  (height t <= fuel)%nat -> go_left fuel s (raddr t) = Some (hd 0 (inorder t)).
Proof.
  induction t as [|c l IHl a r _]; intros p fuel H Hf Ht Hh; [congruence|].
  cbn [height] in Hh. destruct fuel as [|fuel]; [lia|]. cbn [go_left raddr].
  pose proof (rep_node _ _ _ s eq_refl Hf H) as N. cbn iota in N. unfold get_lf. rewrite N. cbn [lf].
  apply fa_T in Hf. destruct Hf as (F1 & F2 & F3). destruct H as (_ & H2 & _).
  destruct l as [|cl ll la lr]; [reflexivity|].
  assert (Hla : raddr (T cl ll la lr) <> 0).
  { apply fa_T in F1. destruct F1 as (_ & [G _] & _). cbn. lia. }
  rewrite (eqb_neq _ _ Hla). rewrite (IHl a fuel); auto; [|discriminate|lia].
  cbn [inorder]. destruct (inorder ll); reflexivity.
Qed.

Lemma last_app (l1 l2 : list Z) : l2 <> [] -> last (l1 ++ l2) 0 = last l2 0.
Proof.
  intros H. induction l1 as [|a l1 IH]; auto. cbn [app]. destruct (l1 ++ l2) eqn:E.
  - apply app_eq_nil in E. destruct E; contradiction.
  - rewrite <- IH. reflexivity.
Qed.

Lemma go_right_ok t : forall p fuel, rep (hp s) p t -> Forall node_addr (inorder t) -> t <> E ->
  (height t <= fuel)%nat -> go_right fuel s (raddr t) = Some (last (inorder t) 0).
Proof.
  induction t as [|c l _ a r IHr]; intros p fuel H Hf Ht Hh; [congruence|].
  cbn [height] in Hh. destruct fuel as [|fuel]; [lia|]. cbn [go_right raddr].
  pose proof (rep_node _ _ _ s eq_refl Hf H) as N. cbn iota in N. unfold get_rt. rewrite N. cbn [rt].
  apply fa_T in Hf. destruct Hf as (F1 & F2 & F3). destruct H as (_ & _ & H3).
  cbn [inorder]. rewrite last_app by discriminate.
  destruct r as [|cr rl ra rr]; [reflexivity|].
  assert (Hra : raddr (T cr rl ra rr) <> 0).
  { apply fa_T in F3. destruct F3 as (_ & [G _] & _). cbn. lia. }
  rewrite (eqb_neq _ _ Hra). rewrite (IHr a fuel); auto; [|discriminate|lia].
  change (a :: inorder (T cr rl ra rr)) with ([a] ++ inorder (T cr rl ra rr)).
  rewrite last_app; auto. cbn [inorder]. intros E. apply app_eq_nil in E. destruct E; discriminate.
Qed.

Lemma root_parent k x : sat s s [CTree (top k) x; CCtx k (raddr x)] -> x <> E ->
  rb_parent s (raddr x) = Some (top k).
Proof.
  intros H Hx. destruct x as [|c l a r]; [congruence|]. cbn [raddr] in *.
  assert (P : ptr_ok (top k)) by ptr H.
  apply (sat_unfold_tree _ _ _ 0) with (2 := eq_refl) in H. norm H.
  exact (exec_parent _ _ _ 0 _ _ _ _ _ H eq_refl P).
Qed.

Lemma up_frame d c a t k x : sat s s [CTree a x; CCtx (Fr d c a t :: k) (raddr x)] -> x <> E ->
  node_at s a = Some (mknode d (top k + color_bit c) (raddr x) (raddr t)) /\ a <> 0 /\
  raddr x <> raddr t /\ raddr x <> 0 /\
  sat s s [CTree (top k) (mk d c x a t); CCtx k (raddr (mk d c x a t))].
Proof.
  intros H Hx. pose proof (sat_unfold_ctx _ _ _ 1 _ _ _ _ _ _ H eq_refl) as H1. norm H1.
  pose proof (node_at_cell _ _ _ 1 _ _ H1 eq_refl) as N.
  assert (Na : a <> 0) by (pose proof (cell_addr _ _ _ 1 _ _ H1 eq_refl) as [? _]; lia).
  assert (Q : raddr t <> raddr x)
    by exact (trees_neq s s _ 2 0 _ _ _ _ H1 eq_refl eq_refl ltac:(discriminate) Hx).
  assert (Z0 : raddr x <> 0) by (intros Hz; exact (Hx (raddr_0 _ _ _ 0 _ _ H1 eq_refl Hz))).
  split; auto. split; auto. split; auto. split; auto.
  replace (raddr (mk d c x a t)) with a by (destruct d; reflexivity).
  destruct d; cbn [mknode] in H1; refold H1.
Qed.

Lemma climb_right_ok k : forall x fuel, sat s s [CTree (top k) x; CCtx k (raddr x)] -> x <> E ->
  (length k < fuel)%nat -> climb_right fuel s (raddr x) = Some (hd 0 (kpost k)).
Proof.
  induction k as [|[d c a t] k IH]; intros x fuel H Hx Hf; (destruct fuel as [|fuel]; [cbn in Hf; lia|]);
    cbn [climb_right]; rewrite (root_parent _ _ H Hx); cbn [top].
  - reflexivity.
  - cbn [top] in H. destruct (up_frame _ _ _ _ _ _ H Hx) as (N & Na & Q & _ & H').
    rewrite (eqb_neq _ _ Na). unfold get_rt. rewrite N. destruct d; cbn [mknode rt kpost hd].
    + rewrite (eqb_neq _ _ Q). reflexivity.
    + rewrite Z.eqb_refl. change a with (raddr (mk DR c x a t)) at 1. apply IH; auto.
      * discriminate.
      * cbn in Hf. lia.
Qed.

Lemma climb_left_ok k : forall x fuel, sat s s [CTree (top k) x; CCtx k (raddr x)] -> x <> E ->
  (length k < fuel)%nat -> climb_left fuel s (raddr x) = Some (last (kpre k) 0).
Proof.
  induction k as [|[d c a t] k IH]; intros x fuel H Hx Hf; (destruct fuel as [|fuel]; [cbn in Hf; lia|]);
    cbn [climb_left]; rewrite (root_parent _ _ H Hx); cbn [top].
  - reflexivity.
  - cbn [top] in H. destruct (up_frame _ _ _ _ _ _ H Hx) as (N & Na & Q & _ & H').
    rewrite (eqb_neq _ _ Na). unfold get_lf. rewrite N. destruct d; cbn [mknode lf kpre].
    + rewrite Z.eqb_refl. change a with (raddr (mk DL c x a t)) at 1. apply IH; auto.
      * discriminate.
      * cbn in Hf. lia.
    + rewrite (eqb_neq _ _ Q). rewrite app_assoc, last_app by discriminate. reflexivity.
Qed.

Lemma not_empty_node k c l a r : sat s s [CTree (top k) (T c l a r); CCtx k a] ->
  (top k + color_bit c =? a) = false.
Proof.
  intros H. pose proof (sat_unfold_tree _ _ _ 0 _ _ _ _ _ H eq_refl) as H1. norm H1.
  apply eqb_neq. intros E. pose proof (cell_addr _ _ _ 0 _ _ H1 eq_refl) as [A1 A2].
  assert (P : ptr_ok (top k)) by ptr H1. destruct P as [P1 P2].
  assert (Ea : a = top k).
  { destruct c; cbn [color_bit] in E; [lia|].
    exfalso. pose proof (Z.div_mod a 4 ltac:(lia)). pose proof (Z.div_mod (top k) 4 ltac:(lia)). lia. }
  assert (top k <> 0) by lia.
  pose proof (top_cntk k ltac:(auto)) as Ct.
  pose proof (cell_cntk _ _ _ 0 3 _ _ _ _ H1 eq_refl eq_refl ltac:(discriminate)) as Cz.
  rewrite <- Ea in Ct. lia.
Qed.

Lemma rb_next_ok t L a R fuel : holds s t -> inorder t = L ++ a :: R -> (height t <= fuel)%nat ->
  rb_next fuel s a = Some (hd 0 R).
Proof.
  intros H Ei Hf.
  assert (Hin : In a (inorder t)) by (rewrite Ei, in_app_iff; right; left; auto).
  destruct (in_zip _ _ Hin) as (k & c & l & r & Et). subst t.
  pose proof (length_height k (T c l a r)) as Lh. cbn [height] in Lh.
  assert (Eo : inorder (plug k (T c l a r)) = (kpre k ++ inorder l) ++ a :: (inorder r ++ kpost k)).
  { rewrite inorder_plug. cbn [inorder]. rewrite <- !app_assoc. reflexivity. }
  assert (Nd : NoDup (inorder (plug k (T c l a r)))) by apply H.
  destruct (nodup_split _ _ _ _ _ _ Nd Ei Eo) as [-> ->].
  pose proof (holds_sat _ _ H) as S0. apply sat_unplug in S0. cbn [raddr] in S0.
  pose proof (sat_unfold_tree _ _ _ 0 _ _ _ _ _ S0 eq_refl) as S1. norm S1.
  unfold rb_next. rewrite (exec_get_pc _ _ _ 0 _ _ S1 eq_refl). cbn [pc].
  rewrite (not_empty_node _ _ _ _ _ S0). rewrite (exec_get_rt _ _ _ 0 _ _ S1 eq_refl). cbn [rt].
  destruct r as [|cr rl ra rr].
  - cbn [raddr inorder app]. cbn [Z.eqb negb].
    change a with (raddr (T c l a E)). apply climb_right_ok; [exact S0|discriminate|lia].
  - remember (T cr rl ra rr) as r. assert (Hr : r <> E) by (subst; discriminate).
    assert (Zr : raddr r <> 0) by (intros Hz; exact (Hr (raddr_0 _ _ _ 2 _ _ S1 eq_refl Hz))).
    rewrite (eqb_neq _ _ Zr). cbn [negb].
    destruct (sat_tree_in _ _ _ _ _ S1 ltac:(right; right; left; reflexivity)) as [Q1 Q2].
    rewrite (go_left_ok r a); auto; [|lia]. f_equal. subst r. cbn [inorder].
    destruct (inorder rl); reflexivity.
Qed.

Lemma rb_prev_ok t L a R fuel : holds s t -> inorder t = L ++ a :: R -> (height t <= fuel)%nat ->
  rb_prev fuel s a = Some (last L 0).
Proof.
  intros H Ei Hf.
  assert (Hin : In a (inorder t)) by (rewrite Ei, in_app_iff; right; left; auto).
  destruct (in_zip _ _ Hin) as (k & c & l & r & Et). subst t.
  pose proof (length_height k (T c l a r)) as Lh. cbn [height] in Lh.
  assert (Eo : inorder (plug k (T c l a r)) = (kpre k ++ inorder l) ++ a :: (inorder r ++ kpost k)).
  { rewrite inorder_plug. cbn [inorder]. rewrite <- !app_assoc. reflexivity. }
  assert (Nd : NoDup (inorder (plug k (T c l a r)))) by apply H.
  destruct (nodup_split _ _ _ _ _ _ Nd Ei Eo) as [-> ->].
  pose proof (holds_sat _ _ H) as S0. apply sat_unplug in S0. cbn [raddr] in S0.
  pose proof (sat_unfold_tree _ _ _ 0 _ _ _ _ _ S0 eq_refl) as S1. norm S1.
  unfold rb_prev. rewrite (exec_get_pc _ _ _ 0 _ _ S1 eq_refl). cbn [pc].
  rewrite (not_empty_node _ _ _ _ _ S0). rewrite (exec_get_lf _ _ _ 0 _ _ S1 eq_refl). cbn [lf].
  destruct l as [|cl ll la lr].
  - cbn [raddr inorder]. rewrite app_nil_r. cbn [Z.eqb negb].
    change a with (raddr (T c E a r)). apply climb_left_ok; [exact S0|discriminate|lia].
  - remember (T cl ll la lr) as l. assert (Hl : l <> E) by (subst; discriminate).
    assert (Zr : raddr l <> 0) by (intros Hz; exact (Hl (raddr_0 _ _ _ 1 _ _ S1 eq_refl Hz))).
    rewrite (eqb_neq _ _ Zr). cbn [negb].
    destruct (sat_tree_in _ _ _ _ _ S1 ltac:(right; left; reflexivity)) as [Q1 Q2].
    rewrite (go_right_ok l a); auto; [|lia]. rewrite last_app; auto. subst l. cbn [inorder].
    intros E. apply app_eq_nil in E. destruct E; discriminate.
Qed.

Lemma rb_first_ok t fuel : holds s t -> (height t <= fuel)%nat -> rb_first fuel s = Some (hd 0 (inorder t)).
Proof.
  intros (A & B & C & D) Hf. unfold rb_first. rewrite A. destruct t as [|c l a r]; [reflexivity|].
  assert (Ha : raddr (T c l a r) <> 0).
  { pose proof (fa_T _ _ _ _ D) as (_ & [G _] & _). cbn. lia. }
  rewrite (eqb_neq _ _ Ha). apply (go_left_ok _ 0); auto. discriminate.
Qed.

Lemma rb_last_ok t fuel : holds s t -> (height t <= fuel)%nat -> rb_last fuel s = Some (last (inorder t) 0).
Proof.
  intros (A & B & C & D) Hf. unfold rb_last. rewrite A. destruct t as [|c l a r]; [reflexivity|].
  assert (Ha : raddr (T c l a r) <> 0).
  { pose proof (fa_T _ _ _ _ D) as (_ & [G _] & _). cbn. lia. }
  rewrite (eqb_neq _ _ Ha). apply (go_right_ok _ 0); auto. discriminate.
Qed.

(** ** Postorder *)

Fixpoint kpo1 (k : ctx) : list Z :=
  match k with
  | [] => []
  | Fr DL _ _ _ :: k' => kpo1 k'
  | Fr DR _ _ t :: k' => kpo1 k' ++ postorder t
  end.
Fixpoint kpo2 (k : ctx) : list Z :=
  match k with
  | [] => []
  | Fr DL _ a t :: k' => postorder t ++ a :: kpo2 k'
  | Fr DR _ a _ :: k' => a :: kpo2 k'
  end.

Lemma postorder_plug k x : postorder (plug k x) = kpo1 k ++ postorder x ++ kpo2 k.
Proof.
  revert x. induction k as [|[d c a t] k IH]; intros x; cbn [plug kpo1 kpo2].
  - rewrite app_nil_r. reflexivity.
  - rewrite IH. destruct d; cbn [mk postorder]; rewrite <- ?app_assoc; cbn [app]; rewrite <- ?app_assoc; reflexivity.
Qed.

Lemma postorder_perm t : forall x, In x (postorder t) <-> In x (inorder t).
Proof.
  induction t as [|c l IHl a r IHr]; intros x; cbn [postorder inorder]; [tauto|].
  rewrite !in_app_iff. cbn [In]. rewrite IHl, IHr. tauto.
Qed.

Lemma count_postorder t x : count_occ Z.eq_dec (postorder t) x = count_occ Z.eq_dec (inorder t) x.
Proof.
  induction t as [|c l IHl a r IHr]; cbn [postorder inorder]; auto.
  rewrite !count_occ_app. cbn [count_occ]. destruct (Z.eq_dec a x); lia.
Qed.

Lemma postorder_nodup t : NoDup (inorder t) -> NoDup (postorder t).
Proof.
  rewrite !(NoDup_count_occ Z.eq_dec). intros H x. rewrite count_postorder. apply H.
Qed.

Lemma left_deepest_ok t : forall p fuel, rep (hp s) p t -> Forall node_addr (inorder t) -> t <> E ->
  (height t <= fuel)%nat -> left_deepest fuel s (raddr t) = Some (hd 0 (postorder t)).
Proof.
  induction t as [|c l IHl a r IHr]; intros p fuel H Hf Ht Hh; [congruence|].
  cbn [height] in Hh. destruct fuel as [|fuel]; [lia|]. cbn [left_deepest raddr].
  pose proof (rep_node _ _ _ s eq_refl Hf H) as N. cbn iota in N. unfold get_lf, get_rt. rewrite N. cbn [lf rt].
  apply fa_T in Hf. destruct Hf as (F1 & F2 & F3). destruct H as (_ & H2 & H3).
  assert (Pn : forall c l a r, postorder (T c l a r) <> []).
  { intros. cbn [postorder]. intros E. apply app_eq_nil in E. destruct E as [_ E]. apply app_eq_nil in E.
    destruct E; discriminate. }
  assert (Hh2 : forall l1 l2 : list Z, l1 <> [] -> hd 0 (l1 ++ l2) = hd 0 l1).
  { intros [|x l1] l2 Hn; [congruence|reflexivity]. }
  cbn [postorder].
  destruct l as [|cl ll la lr].
  - cbn [raddr]. cbn [Z.eqb negb]. destruct r as [|cr rl ra rr]; [reflexivity|].
    assert (Hra : raddr (T cr rl ra rr) <> 0).
    { apply fa_T in F3. destruct F3 as (_ & [G _] & _). cbn. lia. }
    rewrite (eqb_neq _ _ Hra). cbn [negb]. rewrite (IHr a fuel); auto; [|discriminate|lia].
    change (postorder E ++ postorder (T cr rl ra rr) ++ [a]) with (postorder (T cr rl ra rr) ++ [a]).
    rewrite Hh2; auto.
  - assert (Hla : raddr (T cl ll la lr) <> 0).
    { apply fa_T in F1. destruct F1 as (_ & [G _] & _). cbn. lia. }
    rewrite (eqb_neq _ _ Hla). cbn [negb]. rewrite (IHl a fuel); auto; [|discriminate|lia].
    rewrite Hh2; auto.
Qed.

Lemma rb_next_postorder_ok t L a R fuel : holds s t -> postorder t = L ++ a :: R -> (height t <= fuel)%nat ->
  rb_next_postorder fuel s a = Some (hd 0 R).
Proof.
  intros H Ei Hf.
  assert (Hin : In a (inorder t)).
  { apply postorder_perm. rewrite Ei, in_app_iff. right. left. auto. }
  destruct (in_zip _ _ Hin) as (k & c & l & r & Et). subst t.
  pose proof (length_height k (T c l a r)) as Lh. cbn [height] in Lh.
  assert (Eo : postorder (plug k (T c l a r)) = (kpo1 k ++ postorder l ++ postorder r) ++ a :: kpo2 k).
  { rewrite postorder_plug. cbn [postorder]. rewrite <- !app_assoc. reflexivity. }
  assert (Nd : NoDup (postorder (plug k (T c l a r)))) by (apply postorder_nodup, H).
  destruct (nodup_split _ _ _ _ _ _ Nd Ei Eo) as [-> ->].
  pose proof (holds_sat _ _ H) as S0. apply sat_unplug in S0. cbn [raddr] in S0.
  pose proof (root_parent k (T c l a r) S0 ltac:(discriminate)) as Rp. cbn [raddr] in Rp.
  unfold rb_next_postorder. rewrite Rp.
  assert (Na : a <> 0).
  { destruct (sat_tree_in _ _ _ _ _ S0 ltac:(left; reflexivity)) as [_ G].
    apply fa_T in G. destruct G as (_ & [G _] & _). lia. }
  rewrite (eqb_neq _ _ Na).
  destruct k as [|[d ck p t] k]; cbn [top kpo2]; [reflexivity|].
  destruct (up_frame _ _ _ _ _ (T c l a r) S0 ltac:(discriminate)) as (N & Np & Q & _ & _).
  cbn [raddr top] in *. rewrite (eqb_neq _ _ Np). unfold get_lf, get_rt. rewrite N.
  pose proof (sat_unfold_ctx _ _ _ 1 _ _ _ _ _ _ S0 eq_refl) as S1. norm S1.
  pose proof (length_height k (mk d ck (T c l a r) p t)) as Lk. rewrite height_mk in Lk. cbn [plug] in Hf.
  destruct d; cbn [mknode lf rt].
  - rewrite Z.eqb_refl. destruct t as [|ct tl ta tr]; [reflexivity|].
    remember (T ct tl ta tr) as t. assert (Ht : t <> E) by (subst; discriminate).
    assert (Zt : raddr t <> 0) by (intros Hz; exact (Ht (raddr_0 _ _ _ 2 _ _ S1 eq_refl Hz))).
    rewrite (eqb_neq _ _ Zt). cbn [negb andb].
    destruct (sat_tree_in _ _ _ _ _ S1 ltac:(right; right; left; reflexivity)) as [Q1 Q2].
    rewrite (left_deepest_ok t p); auto; [|lia]. subst t. cbn [postorder].
    destruct (postorder tl); [destruct (postorder tr)|]; reflexivity.
  - rewrite (eqb_neq _ _ Q). reflexivity.
Qed.

Lemma rb_first_postorder_ok t fuel : holds s t -> (height t <= fuel)%nat ->
  rb_first_postorder fuel s = Some (hd 0 (postorder t)).
Proof.
  intros (A & B & C & D) Hf. unfold rb_first_postorder. rewrite A. destruct t as [|c l a r]; [reflexivity|].
  assert (Ha : raddr (T c l a r) <> 0).
  { pose proof (fa_T _ _ _ _ D) as (_ & [G _] & _). cbn. lia. }
  rewrite (eqb_neq _ _ Ha). apply (left_deepest_ok _ 0); auto. discriminate.
Qed.
End Walk.

Lemma holds_nonzero s t : holds s t -> Forall (fun a => a <> 0) (inorder t).
Proof. intros (_ & _ & _ & D). eapply Forall_impl; [|exact D]. cbn. intros a [G _]. lia. Qed.

Lemma walk_next s t fuel n : holds s t -> (height t <= fuel)%nat -> (size t < n)%nat ->
  exists a, rb_first fuel s = Some a /\ walk (rb_next fuel s) n a = Some (inorder t).
Proof.
  intros H Hf Hn. exists (hd 0 (inorder t)). split; [apply rb_first_ok; auto|].
  apply walk_ok; auto.
  - apply (holds_nonzero s); auto.
  - intros L a R E. eapply rb_next_ok; eauto.
Qed.

Lemma hd_rev (l : list Z) : hd 0 (rev l) = last l 0.
Proof.
  destruct l as [|a l] using rev_ind; [reflexivity|]. rewrite rev_app_distr. cbn. rewrite last_app by discriminate.
  reflexivity.
Qed.

Lemma walk_prev s t fuel n : holds s t -> (height t <= fuel)%nat -> (size t < n)%nat ->
  exists a, rb_last fuel s = Some a /\ walk (rb_prev fuel s) n a = Some (rev (inorder t)).
Proof.
  intros H Hf Hn. exists (last (inorder t) 0). split; [apply rb_last_ok; auto|].
  rewrite <- hd_rev. apply walk_ok.
  - apply Forall_rev. apply (holds_nonzero s); auto.
  - intros L a R E. rewrite <- (rev_involutive R), hd_rev. apply (rb_prev_ok s t _ _ (rev L)); auto.
    rewrite <- (rev_involutive (inorder t)), E, rev_app_distr. cbn. rewrite <- app_assoc. reflexivity.
  - rewrite rev_length. exact Hn.
Qed.

Lemma walk_postorder s t fuel n : holds s t -> (height t <= fuel)%nat -> (size t < n)%nat ->
  exists a, rb_first_postorder fuel s = Some a /\ walk (rb_next_postorder fuel s) n a = Some (postorder t).
Proof.
  intros H Hf Hn. exists (hd 0 (postorder t)). split; [apply rb_first_postorder_ok; auto|].
  apply walk_ok; auto.
  - rewrite Forall_forall. intros x Hx. apply postorder_perm in Hx.
    pose proof (holds_nonzero s t H) as G. rewrite Forall_forall in G. auto.
  - intros L a R E. eapply rb_next_postorder_ok; eauto.
  - assert (G : length (postorder t) = size t).
    { unfold size. clear. induction t as [|c l IHl a r IHr]; cbn [postorder inorder]; auto.
      rewrite !app_length. cbn [length]. lia. }
    lia.
Qed.

(** ** Replacing a node in place *)

Lemma replace_step s k c l v r new n : 
  sat s s [CTree (top k) (T c l v r); CCtx k v; CCell new n] ->
  exists s', rb_replace_node s v new = Some s' /\
    sat s s' [CTree (top k) (T c l new r); CCtx k new; CCell v (Rbn (top k + color_bit c) (raddr r) (raddr l))].
Proof.
  intros H. apply (sat_unfold_tree _ _ _ 0) with (2 := eq_refl) in H. norm H.
  assert (Pk : ptr_ok (top k)) by ptr H. assert (Pv : ptr_ok v) by ptr H. assert (Pn : ptr_ok new) by ptr H.
  assert (Nv : v <> 0) by (pose proof (cell_addr _ _ _ 0 _ _ H eq_refl) as [? _]; lia).
  assert (Ck : cntk v k = 0%nat) by exact (cell_cntk _ _ _ 0 3 _ _ _ _ H eq_refl eq_refl ltac:(discriminate)).
  unfold rb_replace_node. rewrite (exec_parent _ _ _ 0 _ _ _ _ _ H eq_refl Pk).
  rewrite (node_at_cell _ _ _ 0 _ _ H eq_refl), (node_at_cell _ _ _ 4 _ _ H eq_refl). cbv zeta.
  pose proof (sat_put _ _ _ 4 _ _ (Rbn (top k + color_bit c) (raddr r) (raddr l)) H eq_refl) as H1. norm H1.
  rewrite (exec_get_lf _ _ _ 0 _ _ H1 eq_refl). cbn [lf].
  destruct (exec_set_parent_if _ _ _ 1 _ new l H1 eq_refl Pv Pn) as (s2 & E2 & H2). rewrite E2. norm H2.
  rewrite (exec_get_rt _ _ _ 0 _ _ H2 eq_refl). cbn [rt].
  destruct (exec_set_parent_if _ _ _ 2 _ new r H2 eq_refl Pv Pn) as (s3 & E3 & H3). rewrite E3. norm H3.
  destruct (exec_change_child _ _ _ 3 _ _ new H3 eq_refl eq_refl Nv Ck) as (s4 & E4 & H4). rewrite E4. norm H4.
  exists s4. split; [reflexivity|]. refold H4.
Qed.

Lemma rename_absent a b t : ~ In a (inorder t) -> rename a b t = t.
Proof.
  induction t as [|c l IHl x r IHr]; cbn [rename inorder]; intros H; auto.
  rewrite in_app_iff in H. cbn [In] in H. rewrite IHl, IHr by tauto.
  destruct (Z.eqb_spec x a); [tauto|reflexivity].
Qed.

Lemma rename_plug a b k : forall t, ~ In a (kpre k) -> ~ In a (kpost k) ->
  rename a b (plug k t) = plug k (rename a b t).
Proof.
  induction k as [|[d c x u] k IH]; intros t H1 H2; cbn [plug]; auto.
  destruct d; cbn [kpre kpost mk] in *.
  - rewrite IH; cbn [rename In] in *; auto.
    + rewrite (rename_absent a b u); [|rewrite in_app_iff in H2; tauto].
      destruct (Z.eqb_spec x a); [tauto|reflexivity].
    + rewrite in_app_iff in H2. tauto.
  - rewrite !in_app_iff in H1. cbn [In] in H1. rewrite IH; cbn [rename]; auto.
    rewrite (rename_absent a b u) by tauto. destruct (Z.eqb_spec x a); [tauto|reflexivity].
Qed.

Lemma rb_replace_ok s t v new n : holds s t -> In v (inorder t) ->
  node_addr new -> hp s new = Some n -> ~ In new (inorder t) ->
  exists s', rb_replace_node s v new = Some s' /\ holds s' (rename v new t) /\
    same_elsewhere s s' (new :: inorder t).
Proof.
  intros H Hin Hna Hn Hni. pose proof (holds_sat_plus _ _ _ _ H Hna Hn Hni) as S0.
  destruct (in_zip _ _ Hin) as (k & c & l & r & Et). subst t.
  assert (S1 : sat s s [CTree (top k) (T c l v r); CCtx k v; CCell new n]).
  { pose proof (sat_unplug_top s s [CCell new n] [] k (T c l v r)) as G. rewrite app_nil_r in G. apply G. exact S0. }
  destruct (replace_step _ _ _ _ _ _ _ _ S1) as (s' & X & S2). exists s'. split; auto.
  assert (Nd : NoDup (inorder (plug k (T c l v r)))) by apply H.
  assert (Er : rename v new (plug k (T c l v r)) = plug k (T c l new r)).
  { rewrite inorder_plug in Nd. cbn [inorder] in Nd.
    assert (Q : ~ In v (kpre k) /\ ~ In v (kpost k) /\ ~ In v (inorder l) /\ ~ In v (inorder r)).
    { rewrite (NoDup_count_occ Z.eq_dec) in Nd. specialize (Nd v).
      rewrite !count_occ_app in Nd. cbn [count_occ] in Nd. destruct (Z.eq_dec v v); [|congruence].
      rewrite !(count_occ_not_In Z.eq_dec). lia. }
    destruct Q as (Q1 & Q2 & Q3 & Q4). rewrite rename_plug by auto. cbn [rename]. rewrite Z.eqb_refl.
    rewrite !rename_absent by auto. reflexivity. }
  rewrite Er.
  assert (S3 : sat s' s' [CTree (top k) (T c l new r); CCtx k (raddr (T c l new r))]).
  { destruct S2 as (A & B & _). split; [|split; auto].
    - cbn [choldall raddr] in *. tauto.
    - intros x. specialize (B x). cbn [feet raddr] in *. lia. }
  apply sat_plug in S3. apply sat_holds in S3. split; [apply S3|].
  intros x Hx. destruct S2 as (_ & _ & Cx). apply Cx. cbn [feet foot cnt].
  cbn [In] in Hx. assert (Hx' : ~ In x (inorder (plug k (T c l v r)))) by tauto.
  rewrite <- cnt_in in Hx'.
  assert (Gc : forall k y, cnt x (plug k y) = (cnt x y + cntk x k)%nat).
  { clear. induction k as [|[d c a u] k IH]; intros y; cbn [plug cntk]; [lia|]. rewrite IH.
    destruct d; cbn [mk cnt]; lia. }
  rewrite Gc in Hx'. cbn [cnt] in Hx'. rewrite (eq1_neq x new) by (intros ->; tauto). lia.
Qed.

Lemma rename_shape a b t : rcolor (rename a b t) = rcolor t.
Proof. destruct t; reflexivity. Qed.

Lemma rename_rbt a b t : forall n, rbt (rename a b t) n <-> rbt t n.
Proof.
  induction t as [|c l IHl x r IHr]; intros n; cbn [rename rbt]; [tauto|].
  destruct c; [|destruct n; [tauto|]]; rewrite ?IHl, ?IHr, ?rename_shape; tauto.
Qed.

Lemma rename_red_black a b t : red_black t -> red_black (rename a b t).
Proof.
  rewrite !red_black_rbt. intros (n & A & B). exists n. rewrite rename_rbt, rename_shape. auto.
Qed.

Lemma rename_inorder a b t : inorder (rename a b t) = map (fun x => if x =? a then b else x) (inorder t).
Proof.
  induction t as [|c l IHl x r IHr]; cbn [rename inorder]; auto.
  rewrite map_app. cbn [map]. rewrite IHl, IHr. reflexivity.
Qed.

(** ** Destroying a tree *)

(** What is left: the nodes still to be visited whose left part is gone, from
    the current node up, each with its right subtree. *)
Definition spine := list (Z * color * tree).
Definition topz (sp : spine) : Z := match sp with [] => 0 | (a, _, _) :: _ => a end.
Fixpoint todo (sp : spine) : list Z :=
  match sp with [] => [] | (a, _, r) :: sp' => a :: inorder r ++ todo sp' end.
Fixpoint reps (h : Z -> option rbn) (sp : spine) : Prop :=
  match sp with
  | [] => True
  | (a, c, r) :: sp' => (exists j, h a = Some (Rbn (topz sp' + color_bit c) (raddr r) j)) /\
                        rep h a r /\ reps h sp'
  end.

Lemma topz_todo sp : topz sp = hd 0 (todo sp).
Proof. destruct sp as [|[[a c] r] sp]; reflexivity. Qed.

Lemma reps_ext h h' sp : (forall x, In x (todo sp) -> h' x = h x) -> reps h sp -> reps h' sp.
Proof.
  induction sp as [|[[a c] r] sp IH]; cbn [reps todo]; auto. intros He ((j & A) & B & C).
  split; [|split].
  - exists j. rewrite He; auto. left; auto.
  - eapply rep_ext; [|exact B]. intros x Hx. apply He. right. apply in_app_iff. left. apply cnt_in. auto.
  - apply IH; auto. intros x Hx. apply He. right. apply in_app_iff. auto.
Qed.

Fixpoint lsp (t : tree) (sp : spine) : spine :=
  match t with E => sp | T c l a r => lsp l ((a, c, r) :: sp) end.

Lemma lsp_ok h t : forall sp, rep h (topz sp) t -> reps h sp ->
  reps h (lsp t sp) /\ todo (lsp t sp) = inorder t ++ todo sp.
Proof.
  induction t as [|c l IHl a r _]; intros sp H R; cbn [lsp]; [auto|].
  destruct H as (H1 & H2 & H3). destruct (IHl ((a, c, r) :: sp)) as [Q1 Q2].
  - cbn [topz]. exact H2.
  - cbn [reps]. eauto.
  - split; auto. rewrite Q2. cbn [todo inorder]. rewrite <- app_assoc. reflexivity.
Qed.

Lemma topz_ok sp : Forall node_addr (todo sp) -> ptr_ok (topz sp).
Proof.
  destruct sp as [|[[a c] r] sp]; cbn [todo topz]; intros H.
  - split; [lia|reflexivity].
  - inversion H; subst. apply node_ptr. auto.
Qed.

Lemma destroy_loop_ok fuel : forall sp s, reps (hp s) sp -> NoDup (todo sp) -> Forall node_addr (todo sp) ->
  (length (todo sp) < fuel)%nat ->
  exists s', destroy_loop fuel s (topz sp) = Some (todo sp, s') /\
    (forall x, In x (todo sp) -> hp s' x = None) /\
    (forall x, ~ In x (todo sp) -> hp s' x = hp s x) /\ rootp s' = rootp s.
Proof.
  induction fuel as [|fuel IH]; intros sp s R Nd Na Hf; [lia|]. cbn [destroy_loop].
  destruct sp as [|[[a c] r] sp].
  - cbn [topz todo]. cbn [Z.eqb]. exists s. split; auto. split; [intros x []|]. auto.
  - cbn [topz todo reps] in *. destruct R as ((j & Ra) & Rr & Rs).
    inversion Na as [|? ? [A1 A2] Na']; subst. apply Forall_app in Na'. destruct Na' as [Nr Nsp].
    inversion Nd as [|? ? Ni Nd']; subst.
    assert (Hn : node_at s a = Some (Rbn (topz sp + color_bit c) (raddr r) j)).
    { unfold node_at. destruct (Z.eqb_spec a 0); [lia|auto]. }
    rewrite (eqb_neq a 0) by lia. unfold get_rt at 1. rewrite Hn. cbn [rt].
    unfold rb_parent at 1, get_pc at 1. rewrite Hn. cbn [pc].
    rewrite pc_parent_pack by (apply topz_ok; auto).
    unfold free_node. rewrite Hn. set (s1 := Rbs (upd (hp s) a None) (rootp s)).
    assert (E1 : forall x, x <> a -> hp s1 x = hp s x) by (intros x Hx; cbn; apply upd_other; auto).
    assert (Rr1 : rep (hp s1) a r).
    { eapply rep_ext; [|exact Rr]. intros x Hx. apply E1. intros ->. apply Ni. apply in_app_iff. left. apply cnt_in. auto. }
    assert (Rs1 : reps (hp s1) sp).
    { eapply reps_ext; [|exact Rs]. intros x Hx. apply E1. intros ->. apply Ni. apply in_app_iff. auto. }
    (* the rest of the run *)
    assert (Go : forall sp' s2, todo sp' = inorder r ++ todo sp -> reps (hp s2) sp' ->
      (forall x, ~ In x (inorder r ++ todo sp) -> hp s2 x = hp s1 x) -> rootp s2 = rootp s1 ->
      exists s', (r0 <- destroy_loop fuel s2 (topz sp');; let '(l0, s') := r0 in Some (a :: l0, s')) =
                 Some (a :: inorder r ++ todo sp, s') /\
        (forall x, a = x \/ In x (inorder r ++ todo sp) -> hp s' x = None) /\
        (forall x, ~ (a = x \/ In x (inorder r ++ todo sp)) -> hp s' x = hp s x) /\ rootp s' = rootp s).
    { intros sp' s2 Et R2 F2 P2.
      destruct (IH sp' s2 R2) as (s' & X1 & X2 & X3 & X4).
      - rewrite Et. exact Nd'.
      - rewrite Et. apply Forall_app. auto.
      - rewrite Et. cbn in Hf. lia.
      - rewrite X1, Et. exists s'. rewrite Et in X2, X3. split; auto. split; [|split].
        + intros x [<-|Hx]; [|auto]. rewrite X3, F2 by auto. cbn. apply upd_same.
        + intros x Hx. rewrite X3, F2 by tauto. apply E1. intros ->. tauto.
        + rewrite X4, P2. reflexivity. }
    destruct r as [|cr rl ra rr].
    + cbn [raddr]. cbn [Z.eqb negb inorder app] in *.
      assert (Cl : destroy_climb fuel s1 a (topz sp) = Some (topz sp)).
      { destruct fuel as [|fuel]; [cbn [length] in Hf; lia|]. cbn [destroy_climb].
        destruct sp as [|[[b cb] rb] sp]; cbn [topz]; [reflexivity|].
        cbn [todo] in *. inversion Nsp as [|? ? [B1 B2] _]; subst.
        rewrite (eqb_neq b 0) by lia. cbn [reps] in Rs1. destruct Rs1 as ((jb & Rb) & Rrb & _).
        unfold get_rt, node_at. rewrite (eqb_neq b 0) by lia. rewrite Rb. cbn [rt].
        rewrite eqb_neq; [reflexivity|]. intros ->.
        destruct rb as [|crb lrb arb rrb]; cbn [raddr] in *; [lia|].
        apply Ni. right. cbn [inorder]. rewrite !in_app_iff. cbn [In]. auto. }
      rewrite Cl. apply Go; auto.
    + remember (T cr rl ra rr) as r. assert (Hr : r <> E) by (subst; discriminate).
      assert (Zr : raddr r <> 0).
      { subst r. apply fa_T in Nr. destruct Nr as (_ & [G _] & _). cbn. lia. }
      rewrite (eqb_neq _ _ Zr). cbn [negb].
      assert (S1 : sat s1 s1 [CTree a r]).
      { split; [|split; auto].
        - cbn. auto.
        - intros x. cbn. rewrite Nat.add_0_r.
          rewrite (NoDup_count_occ Z.eq_dec) in Nd'. specialize (Nd' x). rewrite count_occ_app in Nd'.
          rewrite cnt_count. lia. }
      destruct (set_root_pc _ _ _ 0 _ (topz sp) Red r (topz sp) S1 eq_refl Hr) as (s2 & E2 & S2).
      { cbn. lia. }
      rewrite E2. cbn [repl] in S2.
      assert (P2 : rootp s2 = rootp s1).
      { clear -E2. unfold set_pc in E2. destruct (node_at s1 (raddr r)); [|discriminate]. injection E2 as <-. reflexivity. }
      pose proof S2 as ((( Q1 & Q2) & _) & _ & Q3). rewrite inorder_recolor in Q2.
      assert (F2 : forall x, ~ In x (inorder r) -> hp s2 x = hp s1 x).
      { intros x Hx. apply Q3. cbn. rewrite cnt_recolor. rewrite <- cnt_in in Hx. lia. }
      assert (Rs2 : reps (hp s2) sp).
      { eapply reps_ext; [|exact Rs1]. intros x Hx. apply F2. intros Hi.
        clear -Nd' Hx Hi. induction (inorder r) as [|b l IH]; [destruct Hi|].
        cbn in Nd'. inversion Nd'; subst. destruct Hi as [->|Hi]; [|auto].
        apply H1. apply in_app_iff. auto. }
      destruct (lsp_ok _ (recolor Red r) sp Q1 Rs2) as [L1 L2]. rewrite inorder_recolor in L2.
      assert (Gl : go_left fuel s2 (raddr r) = Some (topz (lsp (recolor Red r) sp))).
      { rewrite <- (raddr_recolor Red). rewrite (go_left_ok s2 (recolor Red r) (topz sp)); auto.
        - rewrite topz_todo, L2, inorder_recolor. destruct (inorder r) eqn:Ei; [|reflexivity].
          subst r. cbn [inorder] in Ei. apply app_eq_nil in Ei. destruct Ei; discriminate.
        - rewrite inorder_recolor. auto.
        - subst r. discriminate.
        - pose proof (height_size (recolor Red r)) as Hs. unfold size in Hs. rewrite inorder_recolor in Hs.
          cbn [length] in Hf. rewrite app_length in Hf. lia. }
      rewrite Gl. apply Go; auto.
      intros x Hx. apply F2. rewrite in_app_iff in Hx. tauto.
Qed.

Lemma rb_destroy_ok s t fuel : holds s t -> (size t < fuel)%nat ->
  exists s', rb_destroy fuel s = Some (inorder t, s') /\
    (forall x, In x (inorder t) -> hp s' x = None) /\ same_elsewhere s s' (inorder t) /\ rootp s' = rootp s.
Proof.
  intros H Hf. unfold rb_destroy. pose proof (height_size t) as Hs.
  rewrite (rb_first_ok s t fuel H ltac:(lia)).
  destruct H as (A & B & C & D).
  destruct (lsp_ok (hp s) t [] B I) as [L1 L2]. cbn [todo] in L2. rewrite app_nil_r in L2.
  rewrite <- L2, <- topz_todo.
  apply destroy_loop_ok; auto; rewrite L2; auto.
Qed.
