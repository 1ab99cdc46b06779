(** Search and insertion as a whole. *)
From Coq Require Import ZArith List Bool Lia.
From Coq Require Import ZifyBool ZifyNat.
From Verif Require Import RbModel RbSpec RbSep RbInsert RbPure.
Import ListNotations.
Open Scope Z_scope.

(** ** Between [holds] and [sat] *)

Lemma holds_sat s t : holds s t -> sat s s [CTree 0 t; CCtx [] (raddr t)].
Proof.
  intros (A & B & C & D). split; [|split].
  - cbn. auto.
  - intros x. cbn. rewrite <- cnt_nodup in C. specialize (C x). lia.
  - auto.
Qed.

Lemma sat_holds s0 s t : sat s0 s [CTree 0 t; CCtx [] (raddr t)] ->
  holds s t /\ same_elsewhere s0 s (inorder t).
Proof.
  intros (A & B & C). cbn in A. destruct A as ((A1 & A2) & A3 & _). split.
  - split; [auto|split; [auto|split; [|auto]]]. apply cnt_nodup. intros x. specialize (B x). cbn in B. lia.
  - intros x Hx. apply C. cbn. rewrite <- cnt_in in Hx. lia.
Qed.

Lemma holds_sat_plus s t a n : holds s t -> node_addr a -> hp s a = Some n -> ~ In a (inorder t) ->
  sat s s [CTree 0 t; CCtx [] (raddr t); CCell a n].
Proof.
  intros (A & B & C & D) Ha Hn Hi. split; [|split].
  - cbn. auto 10.
  - intros x. cbn. rewrite <- cnt_nodup in C. specialize (C x). unfold eq1.
    destruct (Z.eqb_spec x a); [|lia]. subst x. rewrite <- cnt_in in Hi. lia.
  - auto.
Qed.

(** ** Search *)

Lemma rep_node h p t : forall s, hp s = h -> Forall node_addr (inorder t) -> rep h p t ->
  match t with E => True | T c l a r => node_at s a = Some (Rbn (p + color_bit c) (raddr r) (raddr l)) end.
Proof.
  intros s Hs Hf H. destruct t as [|c l a r]; auto. cbn [inorder] in Hf. apply Forall_app in Hf.
  destruct Hf as [_ Hf]. inversion Hf; subst. destruct H as [H _]. unfold node_at.
  destruct (Z.eqb_spec a 0); [destruct H2; lia|]. auto.
Qed.

Lemma fa_T c l a r : Forall node_addr (inorder (T c l a r)) ->
  Forall node_addr (inorder l) /\ node_addr a /\ Forall node_addr (inorder r).
Proof. cbn [inorder]. rewrite fa_app, fa_cons. tauto. Qed.

Lemma mono_split cmp l l1 a l2 : monotone cmp l -> l = l1 ++ a :: l2 ->
  (cmp a < 0 -> Forall (fun n => cmp n < 0) l2) /\ (0 < cmp a -> Forall (fun n => 0 < cmp n) l1).
Proof.
  intros (L & M & R & E & HL & HM & HR) El. rewrite El in E. clear El.
  assert (G : forall (P : Z -> Prop) X Y l1, ~ P a -> l1 ++ a :: l2 = X ++ Y -> Forall P X ->
          exists Z', l1 = X ++ Z' /\ Z' ++ a :: l2 = Y).
  { intros P. induction X as [|x X IH]; intros Y k1 Hn E1 HX.
    - exists k1. auto.
    - inversion HX as [|? ? Px HX']; subst. destruct k1 as [|y k1]; cbn in E1; injection E1 as Ex E2.
      + subst x. contradiction.
      + subst y. destruct (IH _ _ Hn E2 HX') as (Z' & -> & E3). exists Z'. auto. }
  split; intros Ha.
  - destruct (G (fun n => 0 < cmp n) _ _ _ ltac:(cbv beta; lia) E HL) as (Z1 & _ & E1).
    destruct (G (fun n => cmp n = 0) _ _ _ ltac:(cbv beta; lia) E1 HM) as (Z2 & _ & E2).
    subst R. apply Forall_app in HR. destruct HR as [_ HR]. inversion HR; auto.
  - clear G.
    assert (G : forall (P : Z -> Prop) k2 X Y l1, ~ P a -> l1 ++ a :: k2 = Y ++ X -> Forall P X ->
          exists Z', l1 ++ a :: Z' = Y).
    { clear. intros P k2 X Y. revert X. induction Y as [|y Y IH]; intros X k1 Hn E1 HX.
      - cbn in E1. subst X. apply Forall_app in HX. destruct HX as [_ HX]. inversion HX; contradiction.
      - destruct k1 as [|z k1]; cbn in E1; injection E1 as Ez E2.
        + subst. exists Y. reflexivity.
        + subst z. destruct (IH _ _ Hn E2 HX) as (Z' & <-). exists Z'. reflexivity. }
    rewrite app_assoc in E.
    destruct (G (fun n => cmp n < 0) _ _ _ _ ltac:(cbv beta; lia) E HR) as (Z1 & E1).
    destruct (G (fun n => cmp n = 0) _ _ _ _ ltac:(cbv beta; lia) E1 HM) as (Z2 & E2).
    rewrite <- E2 in HL. apply Forall_app in HL. tauto.
Qed.

(** Search in a subtree: everything before it is smaller, everything after it larger. *)
Lemma search_loop_ok s cmp l0 : monotone cmp l0 -> forall t p pre post fuel calls,
  l0 = pre ++ inorder t ++ post -> Forall node_addr (inorder t) -> rep (hp s) p t ->
  Forall (fun n => 0 < cmp n) pre -> Forall (fun n => cmp n < 0) post -> (height t < fuel)%nat ->
  exists a c, search_loop fuel s cmp (raddr t) calls = Some (a, c) /\ (c <= calls + height t)%nat /\
    ((a = 0 /\ Forall (fun n => cmp n <> 0) l0) \/ (In a l0 /\ cmp a = 0)).
Proof.
  intros Hm. induction t as [|c l IHl a r IHr]; intros p pre post fuel calls El Hf H Hpre Hpost Hfu.
  - destruct fuel as [|fuel]; [lia|]. cbn. exists 0, calls. split; auto. split; [lia|]. left. split; auto.
    subst l0. cbn. apply Forall_app. split; eapply Forall_impl; eauto; cbn; lia.
  - destruct fuel as [|fuel]; [lia|]. cbn [search_loop raddr height] in *.
    pose proof (rep_node _ _ _ s eq_refl Hf H) as N. cbn iota in N.
    apply fa_T in Hf. destruct Hf as (F1 & [F2 F2'] & F3). destruct H as (H1 & H2 & H3).
    destruct (Z.eqb_spec a 0); [lia|]. unfold get_lf, get_rt. rewrite N. cbn [lf rt].
    cbn [inorder] in El.
    assert (El' : l0 = (pre ++ inorder l) ++ a :: (inorder r ++ post)).
    { rewrite El. rewrite <- !app_assoc. cbn. rewrite <- ?app_assoc. reflexivity. }
    destruct (mono_split _ _ _ _ _ Hm El') as [M1 M2].
    destruct (Z.ltb_spec (cmp a) 0) as [C|C]; [|destruct (Z.ltb_spec 0 (cmp a)) as [C'|C']].
    + destruct (IHl a pre (a :: inorder r ++ post) fuel (S calls)) as (x & n0 & E1 & E2 & E3); auto.
      * rewrite El'. rewrite <- app_assoc. reflexivity.
      * lia.
      * exists x, n0. split; auto. split; [lia|auto].
    + destruct (IHr a (pre ++ inorder l ++ [a]) post fuel (S calls)) as (x & n0 & E1 & E2 & E3); auto.
      * rewrite El. rewrite <- !app_assoc. reflexivity.
      * rewrite app_assoc. apply Forall_app. split; auto.
      * lia.
      * exists x, n0. split; auto. split; [lia|auto].
    + exists a, (S calls). split; auto. split; [lia|]. right. split; [|lia].
      rewrite El'. rewrite !in_app_iff. right. left. auto.
Qed.

Lemma rb_search_ok s t cmp fuel : holds s t -> monotone cmp (inorder t) -> (height t < fuel)%nat ->
  exists a c, rb_search_node fuel s cmp = Some (a, c) /\ (c <= height t)%nat /\
    ((a = 0 /\ Forall (fun n => cmp n <> 0) (inorder t)) \/ (In a (inorder t) /\ cmp a = 0)).
Proof.
  intros (A & B & C & D) Hm Hf. unfold rb_search_node. rewrite A.
  destruct (search_loop_ok s cmp (inorder t) Hm t 0 [] [] fuel 0%nat) as (a & c & E1 & E2 & E3); auto.
  - rewrite app_nil_r. reflexivity.
  - exists a, c. auto.
Qed.

(** ** The place for a new node *)

Definition lk (k : ctx) : link :=
  match k with [] => LRoot | Fr DL _ a _ :: _ => LLeft a | Fr DR _ a _ :: _ => LRight a end.

Lemma link_get_ok s k x : repk s k x -> link_get s (lk k) = Some x.
Proof.
  destruct k as [|[d c a t] k]; cbn [repk lk]; [intros <-; reflexivity|].
  intros ([A A'] & B & _). destruct d; cbn [link_get]; unfold get_lf, get_rt, node_at;
    (destruct (Z.eqb_spec a 0); [lia|]); rewrite B; reflexivity.
Qed.

Lemma descend_ok s s0 cmp l0 : monotone cmp l0 -> forall x k fuel,
  sat s0 s [CTree (top k) x; CCtx k (raddr x)] -> l0 = inorder (plug k x) ->
  Forall (fun n => 0 < cmp n) (kpre k) -> Forall (fun n => cmp n < 0) (kpost k) -> (height x < fuel)%nat ->
  (exists a, insert_descend fuel s cmp (top k) (lk k) = Some (Found a) /\ In a l0 /\ cmp a = 0) \/
  (exists k', insert_descend fuel s cmp (top k) (lk k) = Some (Slot (top k') (lk k')) /\
     plug k' E = plug k x /\ Forall (fun n => 0 < cmp n) (kpre k') /\ Forall (fun n => cmp n < 0) (kpost k')).
Proof.
  intros Hm. induction x as [|c l IHl a r IHr]; intros k fuel H El Hpre Hpost Hf;
    (destruct fuel as [|fuel]; [lia|]); cbn [insert_descend];
    rewrite (link_get_ok s k _ (sat_ctx_in _ _ _ _ _ H ltac:(right; left; reflexivity))).
  - cbn [raddr]. rewrite Z.eqb_refl. right. exists k. auto.
  - cbn [raddr height] in *.
    assert (Ha : a <> 0).
    { destruct (sat_tree_in _ _ _ _ _ H ltac:(left; reflexivity)) as [_ G].
      apply fa_T in G. destruct G as (_ & [G _] & _). lia. }
    destruct (Z.eqb_spec a 0); [contradiction|].
    rewrite inorder_plug in El. cbn [inorder] in El.
    assert (El' : l0 = (kpre k ++ inorder l) ++ a :: (inorder r ++ kpost k)).
    { rewrite El. rewrite <- !app_assoc. cbn. rewrite <- ?app_assoc. reflexivity. }
    destruct (mono_split _ _ _ _ _ Hm El') as [M1 M2].
    apply (sat_unfold_tree _ _ _ 0) with (2 := eq_refl) in H. norm H.
    destruct (Z.ltb_spec (cmp a) 0) as [C|C]; [|destruct (Z.ltb_spec 0 (cmp a)) as [C'|C']].
    + destruct (IHl (Fr DL c a r :: k) fuel) as [G|(k' & G1 & G2 & G3 & G4)].
      * cbn [top]. refold H.
      * rewrite El, inorder_plug. cbn [kpre kpost]. rewrite <- ?app_assoc. cbn [app]. reflexivity.
      * exact Hpre.
      * cbn [kpost]. constructor; auto.
      * lia.
      * left. exact G.
      * right. exists k'. auto.
    + destruct (IHr (Fr DR c a l :: k) fuel) as [G|(k' & G1 & G2 & G3 & G4)].
      * cbn [top]. refold H.
      * rewrite El, inorder_plug. cbn [kpre kpost]. rewrite <- ?app_assoc. cbn [app]. reflexivity.
      * cbn [kpre]. rewrite app_assoc. apply Forall_app. split; auto.
      * exact Hpost.
      * lia.
      * left. exact G.
      * right. exists k'. auto.
    + left. exists a. split; auto. split; [|lia].
      rewrite El'. rewrite !in_app_iff. right. left. auto.
Qed.

(** Setting the hole of a context. *)
Lemma link_set_ok s0 s l i k x y : sat s0 s l -> nth_error l i = Some (CCtx k x) ->
  no_ctx (drop l i) = true ->
  exists s', link_set s (lk k) y = Some s' /\ sat s0 s' (repl l i (CCtx k y)).
Proof.
  intros H E N. pose proof H as (A & B & C). pose proof (choldall_nth _ _ _ _ A E) as K.
  cbn [chold] in K. destruct k as [|[d c a t] k]; cbn [lk link_set repk] in *.
  - eexists. split; [reflexivity|]. split; [|split].
    + clear -A E N. revert i E N A. induction l as [|b l IH]; intros [|i] E N A; try discriminate; cbn in *.
      * split; [reflexivity|]. apply (choldall_no_ctx s); [exact N|reflexivity|tauto].
      * apply andb_true_iff in N. destruct N as [N1 N2]. split.
        -- destruct A as [A _]. destruct b; try discriminate; try exact A.
           cbn [chold] in *. eapply repseg_ext; [|exact A]. reflexivity.
        -- apply IH; auto. tauto.
    + intros z. rewrite (feet_repl z l i (CCtx [] x) (CCtx [] y)); auto.
    + intros z. rewrite (feet_repl z l i (CCtx [] x) (CCtx [] y)) by auto. exact (C z).
  - destruct K as ([K0 K1] & K2 & K3 & K4 & K5).
    assert (Hk : forall w, w = mknode d (top k + color_bit c) y (raddr t) ->
      sat s0 (put s a w) (repl l i (CCtx (Fr d c a t :: k) y))).
    { intros w ->. assert (Ba : (cnt a t + cntk a k = 0)%nat).
      { pose proof (feet_nth a _ _ _ E) as G. cbn [foot cntk] in G. rewrite eq1_refl in G.
        specialize (B a). lia. }
      eapply sat_change; eauto.
      - intros z Hz. cbn [foot cntk] in Hz. cbn. apply upd_other, eq1_0. lia.
      - cbn [chold repk put hp]. split; [split; auto|]. split; [apply upd_same|].
        split; [|split; [auto|]].
        + eapply rep_ext; [|exact K3]. intros z Hz. apply upd_other. intros ->. lia.
        + eapply repk_ext; [| |exact K5]; [|reflexivity]. intros z Hz. cbn. apply upd_other. intros ->. lia. }
    destruct d; cbn [link_set]; unfold set_lf, set_rt, node_at;
      (destruct (Z.eqb_spec a 0); [lia|]); rewrite K2; cbn [mknode lf rt pc];
      (eexists; split; [reflexivity|]; apply Hk; reflexivity).
Qed.

(** ** Insertion *)

Lemma insert_slot_ok s t cmp new n fuel k :
  holds s t -> red_black t -> (height t < fuel)%nat ->
  node_addr new -> hp s new = Some n -> ~ In new (inorder t) ->
  insert_descend fuel s cmp 0 LRoot = Some (Slot (top k) (lk k)) -> plug k E = t ->
  exists s' t', rb_insert_node fuel s new cmp = Some (0, s') /\
     inorder t = kpre k ++ kpost k /\
     holds s' t' /\ red_black t' /\ inorder t' = kpre k ++ new :: kpost k /\
     same_elsewhere s s' (inorder t').
Proof.
  intros H Hrb Hf Hna Hnew Hni E1 E2. unfold rb_insert_node.
  pose proof (holds_sat _ _ H) as S1. rewrite E1.
  pose proof (holds_sat_plus _ _ _ _ H Hna Hnew Hni) as S2.
  assert (S3 : sat s s [CTree (top k) E; CCtx k 0; CCell new n]).
  { rewrite <- E2 in S1. apply sat_unplug in S1. cbn [raddr] in S1.
    destruct S2 as (A & B & C). split; [|split].
    - cbn [choldall] in *. split; [|split; [|tauto]]; [split; [exact I|constructor]|].
      destruct S1 as (A1 & _). cbn [choldall] in A1. tauto.
    - intros x. specialize (B x). cbn [feet foot cnt cntk] in *.
      assert (Ec : cnt x t = cntk x k).
      { rewrite <- E2. clear. assert (G : forall y, cnt x (plug k y) = (cnt x y + cntk x k)%nat).
        { induction k as [|[d c a u] k IH]; intros y; cbn [plug cntk]; [lia|]. rewrite IH.
          destruct d; cbn [mk cnt]; lia. }
        rewrite G. cbn. lia. }
      lia.
    - auto. }
  unfold rb_link_node.
  assert (P : ptr_ok (top k)) by exact (sat_top_ok _ _ _ 1 _ _ S3 eq_refl).
  destruct n as [w1 w2 w3].
  destruct (exec_set_pc _ _ _ 2 _ _ (top k) S3 eq_refl) as (s1 & X1 & S4). rewrite X1. norm S4.
  destruct (exec_set_rt _ _ _ 2 _ _ 0 S4 eq_refl) as (s2 & X2 & S5). rewrite X2. norm S5.
  destruct (exec_set_lf _ _ _ 2 _ _ 0 S5 eq_refl) as (s3 & X3 & S6). rewrite X3. norm S6.
  destruct (link_set_ok _ _ _ 1 _ _ new S6 eq_refl eq_refl) as (s4 & X4 & S7). rewrite X4. norm S7.
  assert (S8 : sat s s4 [CTree (top k) (T Red E new E); CCtx k new]).
  { replace (top k) with (top k + color_bit Red) in S7 by (cbn; lia). refold S7. }
  apply red_black_rbt in Hrb. destruct Hrb as (m & M1 & M2).
  rewrite <- E2 in M1, M2. destruct (unplug_rb _ _ _ M1 M2) as (b & B1 & B2 & _).
  cbn in B1. subst b.
  destruct (fix_ins_ok (length k) k (T Red E new E) 0%nat) as (t' & F1 & F2 & m' & F3 & F4);
    [lia|reflexivity|cbn; auto|exact B2|].
  pose proof (length_height k E) as Lh. rewrite E2 in Lh. cbn [height] in Lh.
  destruct (insert_loop_ref s (length k) k (T Red E new E) s4 t' fuel) as (s5 & X5 & D);
    [lia|lia|discriminate|exact S8|exact F1|].
  unfold rb_insert_color, rb_red_parent.
  assert (Gp : get_pc s4 new = Some (top k)).
  { pose proof (sat_tree_in _ _ _ _ _ S8 ltac:(left; reflexivity)) as [R1 R2].
    unfold get_pc. pose proof (rep_node _ _ _ s4 eq_refl R2 R1) as N. cbn iota in N. rewrite N.
    cbn [pc]. f_equal. cbn. lia. }
  rewrite Gp. cbn [raddr] in X5. rewrite X5.
  apply sat_holds in D. destruct D as [D1 D2].
  exists s5, t'.
  assert (Io : inorder t = kpre k ++ kpost k) by (rewrite <- E2, inorder_plug; reflexivity).
  split; [reflexivity|]. split; [exact Io|]. split; [auto|].
  split; [apply red_black_rbt; eauto|]. split; [|exact D2].
  rewrite F2, inorder_plug. reflexivity.
Qed.

Lemma rb_insert_ok s t cmp new n fuel :
  holds s t -> red_black t -> monotone cmp (inorder t) -> (height t < fuel)%nat ->
  node_addr new -> hp s new = Some n -> ~ In new (inorder t) ->
  (exists a, rb_insert_node fuel s new cmp = Some (a, s) /\ In a (inorder t) /\ cmp a = 0) \/
  (exists s' t' L R, rb_insert_node fuel s new cmp = Some (0, s') /\
     Forall (fun n => cmp n <> 0) (inorder t) /\
     inorder t = L ++ R /\ Forall (fun n => 0 < cmp n) L /\ Forall (fun n => cmp n < 0) R /\
     holds s' t' /\ red_black t' /\ inorder t' = L ++ new :: R /\
     same_elsewhere s s' (inorder t')).
Proof.
  intros H Hrb Hm Hf Hna Hnew Hni.
  pose proof (holds_sat _ _ H) as S1.
  destruct (descend_ok s s cmp (inorder t) Hm t [] fuel S1 eq_refl (Forall_nil _) (Forall_nil _) Hf)
    as [(a & E1 & E2 & E3)|(k & E1 & E2 & E3 & E4)]; cbn [top lk] in E1.
  - left. exists a. unfold rb_insert_node. rewrite E1. auto.
  - right. cbn [plug] in E2.
    destruct (insert_slot_ok s t cmp new n fuel k H Hrb Hf Hna Hnew Hni E1 E2) as (s' & t' & X1 & X2 & X3 & X4 & X5 & X6).
    exists s', t', (kpre k), (kpost k). split; auto. split.
    { rewrite X2. apply Forall_app. split; eapply Forall_impl; eauto; cbn; lia. }
    auto 10.
Qed.

(** Insertion with a comparison that is no order at all: the tree stays a balanced
    tree, and the new node is somewhere in it unless an equal node was met. *)
Lemma descend_any s s0 cmp l0 : forall x k fuel,
  sat s0 s [CTree (top k) x; CCtx k (raddr x)] -> l0 = inorder (plug k x) -> (height x < fuel)%nat ->
  (exists a, insert_descend fuel s cmp (top k) (lk k) = Some (Found a) /\ In a l0 /\ cmp a = 0) \/
  (exists k', insert_descend fuel s cmp (top k) (lk k) = Some (Slot (top k') (lk k')) /\ plug k' E = plug k x).
Proof.
  induction x as [|c l IHl a r IHr]; intros k fuel H El Hf;
    (destruct fuel as [|fuel]; [lia|]); cbn [insert_descend];
    rewrite (link_get_ok s k _ (sat_ctx_in _ _ _ _ _ H ltac:(right; left; reflexivity))).
  - cbn [raddr]. rewrite Z.eqb_refl. right. exists k. auto.
  - cbn [raddr height] in *.
    assert (Ha : a <> 0).
    { destruct (sat_tree_in _ _ _ _ _ H ltac:(left; reflexivity)) as [_ G].
      apply fa_T in G. destruct G as (_ & [G _] & _). lia. }
    destruct (Z.eqb_spec a 0); [contradiction|].
    assert (Hin : In a l0).
    { rewrite El, inorder_plug. cbn [inorder]. rewrite !in_app_iff. cbn [In]. auto. }
    apply (sat_unfold_tree _ _ _ 0) with (2 := eq_refl) in H. norm H.
    destruct (Z.ltb_spec (cmp a) 0) as [C|C]; [|destruct (Z.ltb_spec 0 (cmp a)) as [C'|C']].
    + destruct (IHl (Fr DL c a r :: k) fuel) as [G|(k' & G1 & G2)].
      * cbn [top]. refold H.
      * exact El.
      * lia.
      * left. exact G.
      * right. exists k'. auto.
    + destruct (IHr (Fr DR c a l :: k) fuel) as [G|(k' & G1 & G2)].
      * cbn [top]. refold H.
      * exact El.
      * lia.
      * left. exact G.
      * right. exists k'. auto.
    + left. exists a. split; auto. split; [auto|lia].
Qed.

Lemma rb_insert_any_ok s t cmp new n fuel :
  holds s t -> red_black t -> (height t < fuel)%nat ->
  node_addr new -> hp s new = Some n -> ~ In new (inorder t) ->
  (exists a, rb_insert_node fuel s new cmp = Some (a, s) /\ In a (inorder t) /\ cmp a = 0) \/
  (exists s' t' L R, rb_insert_node fuel s new cmp = Some (0, s') /\
     inorder t = L ++ R /\ holds s' t' /\ red_black t' /\ inorder t' = L ++ new :: R /\
     same_elsewhere s s' (inorder t')).
Proof.
  intros H Hrb Hf Hna Hnew Hni.
  pose proof (holds_sat _ _ H) as S1.
  destruct (descend_any s s cmp (inorder t) t [] fuel S1 eq_refl Hf)
    as [(a & E1 & E2 & E3)|(k & E1 & E2)]; cbn [top lk] in E1.
  - left. exists a. unfold rb_insert_node. rewrite E1. auto.
  - right. cbn [plug] in E2.
    destruct (insert_slot_ok s t cmp new n fuel k H Hrb Hf Hna Hnew Hni E1 E2) as (s' & t' & X1 & X2 & X3 & X4 & X5 & X6).
    exists s', t', (kpre k), (kpost k). auto 10.
Qed.
