(** Sequences of insertions and removals. *)
From Coq Require Import ZArith List Bool Lia Sorted.
From Coq Require Import ZifyBool ZifyNat.
From Verif Require Import RbModel RbSpec RbSep RbInsert RbPure RbTop RbErase RbWalk.
Import ListNotations.
Open Scope Z_scope.

(** The index after a sequence of operations. *)
Fixpoint run_ops (fuel : nat) (s : rbs) (c : Z -> Z -> Z) (os : list op) : option rbs :=
  match os with
  | [] => Some s
  | Ins n :: r => x <- rb_insert_node fuel s n (fun m => c m n) ;; run_ops fuel (snd x) c r
  | Del n :: r => s <- rb_erase fuel s n ;; run_ops fuel s c r
  end.

Section Seq.
Variable c : Z -> Z -> Z.
Hypothesis Hc : consistent c.

Definition lt a b := 0 < c a b.

Lemma sorted_monotone l n : StronglySorted lt l -> monotone (fun m => c m n) l.
Proof.
  destruct Hc as [C1 C2]. intros S. induction l as [|a l IH].
  - exists [], [], []. auto.
  - inversion S as [|? ? S' F]; subst. destruct (IH S') as (L & M & R & E & HL & HM & HR).
    destruct (Z.lt_trichotomy (c a n) 0) as [Q|[Q|Q]].
    + exists [], [], (a :: l). split; auto. split; auto. split; auto. constructor; auto.
      eapply Forall_impl; [|exact F]. cbv beta. unfold lt. intros b Hb.
      destruct (Z_lt_ge_dec (c b n) 0); auto. exfalso.
      (* n >= b > a > n *)
      assert (c n b <= 0). { destruct (Z_le_gt_dec (c n b) 0); auto. pose proof (proj2 (C1 b n)). lia. }
      pose proof (proj2 (C1 b a)) as X. 
      pose proof (C2 n b a ltac:(auto) ltac:(lia)).
      pose proof (proj1 (C1 a n) Q). lia.
    + exists [], [a], l. split; auto. split; auto. split; auto.
      eapply Forall_impl; [|exact F]. cbv beta. unfold lt. intros b Hb.
      destruct (Z_lt_ge_dec (c b n) 0); auto. exfalso.
      assert (c n b <= 0). { destruct (Z_le_gt_dec (c n b) 0); auto. pose proof (proj2 (C1 b n)). lia. }
      pose proof (C2 a n b ltac:(lia) ltac:(auto)). lia.
    + exists (a :: L), M, R. rewrite E. split; auto.
Qed.

Lemma place_app L R n : Forall (fun m => 0 < c m n) L -> Forall (fun m => c m n < 0) R ->
  place c n (L ++ R) = L ++ n :: R.
Proof.
  induction L as [|a L IH]; intros HL HR; cbn [app place].
  - destruct R as [|a R]; auto. cbn [place]. inversion HR; subst.
    destruct (Z.ltb_spec 0 (c a n)); [lia|]. destruct (Z.ltb_spec (c a n) 0); [auto|lia].
  - inversion HL; subst. destruct (Z.ltb_spec 0 (c a n)); [|lia]. rewrite IH; auto.
Qed.

Lemma place_present l n a : StronglySorted lt l -> In a l -> c a n = 0 -> place c n l = l.
Proof.
  destruct Hc as [C1 C2]. induction l as [|b l IH]; intros S Hi H0; [destruct Hi|].
  inversion S as [|? ? S' F]; subst. cbn [place]. destruct Hi as [->|Hi].
  - rewrite H0. reflexivity.
  - rewrite Forall_forall in F. specialize (F a Hi). unfold lt in F.
    destruct (Z.ltb_spec 0 (c b n)); [rewrite IH; auto|].
    exfalso. assert (c n a <= 0).
    { destruct (Z_le_gt_dec (c n a) 0); auto. pose proof (proj2 (C1 a n)). lia. }
    pose proof (C2 b n a ltac:(lia) ltac:(auto)). lia.
Qed.

Lemma place_incl l n x : In x (place c n l) -> In x l \/ x = n.
Proof.
  induction l as [|b l IH]; cbn [place].
  - intros [<-|[]]. auto.
  - destruct (0 <? c b n); [|destruct (c b n <? 0)]; cbn [In].
    + intros [<-|Hx]; [auto|]. destruct (IH Hx); auto.
    + intros [<-|Hx]; auto.
    + auto.
Qed.

Lemma sorted_place l n : StronglySorted lt l -> StronglySorted lt (place c n l).
Proof.
  destruct Hc as [C1 C2]. induction l as [|a l IH]; intros S; cbn [place].
  - constructor; constructor.
  - inversion S as [|? ? S' F]; subst. destruct (Z.ltb_spec 0 (c a n)).
    + constructor; auto. rewrite Forall_forall in *. intros x Hx.
      pose proof (place_incl _ _ _ Hx) as G.
      destruct G as [G| ->]; [auto|exact H].
    + destruct (Z.ltb_spec (c a n) 0); [|auto]. constructor; auto. constructor.
      * apply C1. auto.
      * eapply Forall_impl; [|exact F]. unfold lt. intros b Hb.
        destruct (Z_lt_ge_dec 0 (c n b)); auto. exfalso. pose proof (C2 a n b ltac:(lia) ltac:(lia)). lia.
Qed.

Lemma sorted_remove l n : StronglySorted lt l -> StronglySorted lt (remove Z.eq_dec n l).
Proof.
  induction l as [|a l IH]; intros S; cbn [remove]; auto. inversion S as [|? ? S' F]; subst.
  destruct (Z.eq_dec n a); auto. constructor; auto.
  rewrite Forall_forall in *. intros x Hx. apply in_remove in Hx. apply F. tauto.
Qed.

Lemma remove_mid L R n : ~ In n L -> ~ In n R -> remove Z.eq_dec n (L ++ n :: R) = L ++ R.
Proof.
  intros A B. rewrite remove_app. cbn [remove]. destruct (Z.eq_dec n n); [|congruence].
  rewrite !notin_remove by auto. reflexivity.
Qed.

Lemma place_length l n : (length (place c n l) <= S (length l))%nat.
Proof.
  induction l as [|b l IH]; cbn [place length]; auto.
  destruct (0 <? c b n); [|destruct (c b n <? 0)]; cbn [length]; lia.
Qed.

Lemma remove_length l n : (length (remove Z.eq_dec n l) <= length l)%nat.
Proof. apply remove_length_le. Qed.

Lemma rep_live h t n : forall p, rep h p t -> In n (inorder t) -> h n <> None.
Proof.
  induction t as [|cc l IHl a r IHr]; intros p R' I; [destruct I|].
  destruct R' as (A & B & C). cbn [inorder] in I. apply in_app_iff in I. destruct I as [I|[<-|I]]; eauto.
  rewrite A. discriminate.
Qed.

Lemma step_ok s t o (pool : Z -> Prop) fuel : holds s t -> red_black t -> StronglySorted lt (inorder t) ->
  (forall n, pool n -> node_addr n /\ hp s n <> None) ->
  (forall n, In n (inorder t) -> pool n) ->
  match o with Ins n => pool n /\ ~ In n (inorder t) | Del n => In n (inorder t) end ->
  (size t < fuel)%nat ->
  exists s' t', match o with
    | Ins n => match rb_insert_node fuel s n (fun m => c m n) with Some x => Some (snd x) | None => None end
    | Del n => rb_erase fuel s n
    end = Some s' /\
    holds s' t' /\ red_black t' /\ inorder t' = op_spec c (inorder t) o /\
    (forall n, pool n -> hp s' n <> None) /\ (forall x, ~ pool x -> hp s' x = hp s x).
Proof.
  intros H Hrb Hs Hp Hin Ho Hf. pose proof (height_size t) as Hh.
  assert (Live : forall s' t', holds s' t' -> same_elsewhere s s' (inorder t') ->
    forall n, pool n -> hp s' n <> None).
  { intros s' t' (_ & R' & _) Se n Hn. destruct (in_dec Z.eq_dec n (inorder t')) as [I|I].
    - eapply rep_live; eauto.
    - rewrite Se by auto. apply Hp. auto. }
  destruct o as [n|n]; cbn [op_spec].
  - destruct Ho as [Hn Hni]. destruct (Hp n Hn) as [Ha Hm]. destruct (hp s n) as [nd|] eqn:En; [|congruence].
    destruct (rb_insert_ok s t (fun m => c m n) n nd fuel H Hrb (sorted_monotone _ _ Hs) ltac:(lia) Ha En Hni)
      as [(a & E1 & E2 & E3)|(s' & t' & L & R & E1 & E2 & E3 & E4 & E5 & E6 & E7 & E8 & E9)].
    + rewrite E1. exists s, t. cbn [snd]. split; auto. split; auto. split; auto. split.
      * symmetry. eapply place_present; eauto.
      * split; auto. intros m Hm'. apply Hp. auto.
    + rewrite E1. exists s', t'. cbn [snd]. split; auto. split; auto. split; auto. split; [|split].
      * rewrite E8, E3. symmetry. apply place_app; auto.
      * apply (Live s' t'); auto.
      * intros x Hx. apply E9. rewrite E8. rewrite in_app_iff. cbn [In]. intros [I|[<-|I]]; try tauto;
          apply Hx, Hin; rewrite E3, in_app_iff; auto.
  - destruct (rb_erase_ok s t n fuel H Hrb Ho ltac:(lia)) as (s' & t' & L & R & E1 & E2 & E3 & E4 & E5 & E6 & E7).
    exists s', t'. split; auto. split; auto. split; auto.
    assert (Nd : NoDup (inorder t)) by apply H.
    split; [|split].
    + rewrite E5, E4. symmetry. rewrite E4 in Nd. apply NoDup_remove_2 in Nd. rewrite in_app_iff in Nd.
      apply remove_mid; tauto.
    + intros m Hm. destruct (in_dec Z.eq_dec m (inorder t)) as [I|I].
      * destruct (Z.eq_dec m n) as [->|Nm]; [auto|].
        assert (I' : In m (inorder t')).
        { rewrite E5. rewrite E4 in I. rewrite in_app_iff in *. cbn [In] in I. destruct I as [I|[I|I]]; auto. congruence. }
        destruct E2 as (_ & R' & _). eapply rep_live; eauto.
      * rewrite E6 by auto. apply Hp. auto.
    + intros x Hx. apply E6. intros I. auto.
Qed.

Lemma run_ops_ok (pool : Z -> Prop) fuel os : forall s t, holds s t -> red_black t -> StronglySorted lt (inorder t) ->
  (forall n, pool n -> node_addr n /\ hp s n <> None) ->
  (forall n, In n (inorder t) -> pool n) ->
  valid c pool (inorder t) os -> (size t + length os < fuel)%nat ->
  exists s' t', run_ops fuel s c os = Some s' /\ holds s' t' /\ red_black t' /\
    inorder t' = fold_left (op_spec c) os (inorder t) /\ StronglySorted lt (inorder t') /\
    (forall x, ~ pool x -> hp s' x = hp s x).
Proof.
  induction os as [|o os IH]; intros s t H Hrb Hs Hp Hin Hv Hf.
  - exists s, t. cbn. auto 10.
  - cbn [valid] in Hv. destruct Hv as [Ho Hv]. cbn [length] in Hf.
    destruct (step_ok s t o pool fuel H Hrb Hs Hp Hin Ho ltac:(lia)) as (s1 & t1 & X1 & X2 & X3 & X4 & X5 & X6).
    destruct (IH s1 t1) as (s' & t' & Y1 & Y2 & Y3 & Y4 & Y5 & Y6); auto.
    + rewrite X4. destruct o; cbn [op_spec]; [apply sorted_place|apply sorted_remove]; auto.
    + intros n Hn. split; [apply Hp|]; auto.
    + intros n Hn. rewrite X4 in Hn. destruct o as [m|m]; cbn [op_spec] in Hn.
      * apply place_incl in Hn. destruct Hn as [Hn| ->]; [auto|tauto].
      * apply in_remove in Hn. apply Hin. tauto.
    + rewrite X4. exact Hv.
    + unfold size in *. rewrite X4. destruct o as [m|m]; cbn [op_spec].
      * pose proof (place_length (inorder t) m). lia.
      * pose proof (remove_length (inorder t) m). lia.
    + exists s', t'. split.
      * destruct o as [m|m]; cbn [run_ops].
        -- destruct (rb_insert_node fuel s m (fun m0 => c m0 m)) as [x|]; [|discriminate]. injection X1 as ->. exact Y1.
        -- rewrite X1. exact Y1.
      * split; auto. split; auto. split; [cbn [fold_left]; rewrite <- X4; auto|]. split; auto.
        intros x Hx. rewrite Y6, X6; auto.
Qed.

(** Insertions alone keep the first element of each group. *)
Lemma place_in l n x : StronglySorted lt l ->
  (In x (place c n l) <-> In x l \/ (x = n /\ forall y, In y l -> c y n <> 0)).
Proof.
  intros S. split.
  - intros H. destruct (place_incl _ _ _ H) as [G|G]; auto. subst x.
    destruct (in_dec Z.eq_dec n l) as [I|I]; auto. right. split; auto.
    intros y Hy H0. rewrite (place_present l n y) in H by auto. auto.
  - intros [H|[-> H]].
    + clear S. induction l as [|b l IH]; [destruct H|]. cbn [place].
      destruct (0 <? c b n); [|destruct (c b n <? 0)]; cbn [In] in *; tauto.
    + induction l as [|b l IH]; cbn [place]; [left; auto|].
      inversion S; subst. pose proof (H b (or_introl eq_refl)).
      destruct (Z.ltb_spec 0 (c b n)).
      * right. apply IH; auto. intros y Hy. apply H. right; auto.
      * destruct (Z.ltb_spec (c b n) 0); [left; auto|lia].
Qed.

Lemma first_of_snoc ns n x : first_of_group c (ns ++ [n]) x <->
  first_of_group c ns x \/ (x = n /\ forall y, In y ns -> c y n <> 0).
Proof.
  split.
  - intros (L & R & E & H). destruct R as [|r R] using rev_ind.
    + apply app_inj_tail in E. destruct E as [-> ->]. auto.
    + clear IHR. rewrite app_comm_cons, app_assoc in E. apply app_inj_tail in E. destruct E as [-> ->].
      left. exists L, R. auto.
  - intros [(L & R & -> & H)|[-> H]].
    + exists L, (R ++ [n]). rewrite <- app_assoc. auto.
    + exists ns, []. auto.
Qed.

Lemma eq_trans a b d : c a b = 0 -> c b d = 0 -> c a d = 0.
Proof.
  destruct Hc as [C1 C2]. intros H1 H2.
  pose proof (C2 a b d ltac:(lia) ltac:(lia)).
  assert (c b a <= 0). { destruct (Z_le_gt_dec (c b a) 0); auto. pose proof (proj2 (C1 a b)). lia. }
  assert (c d b <= 0). { destruct (Z_le_gt_dec (c d b) 0); auto. pose proof (proj2 (C1 b d)). lia. }
  pose proof (C2 d b a ltac:(lia) ltac:(lia)).
  pose proof (proj1 (C1 a d)). lia.
Qed.

Lemma group_repr ns : forall y, In y ns -> exists x, first_of_group c ns x /\ c x y = 0.
Proof.
  induction ns as [|m ns IH] using rev_ind; intros y H; [destruct H|].
  apply in_app_iff in H. destruct H as [H|[<-|[]]].
  - destruct (IH y H) as (x & G1 & G2). exists x. split; auto. apply first_of_snoc. auto.
  - destruct (Exists_dec (fun z => c z m = 0) ns) as [Ex|Ex].
    { intros z. apply Z.eq_dec. }
    + apply Exists_exists in Ex. destruct Ex as (z & Z1 & Z2). destruct (IH z Z1) as (x & G1 & G2).
      exists x. split; [apply first_of_snoc; auto|]. eapply eq_trans; eauto.
    + exists m. split.
      * apply first_of_snoc. right. split; auto. intros y Hy H0. apply Ex. apply Exists_exists. eauto.
      * destruct Hc as [C1 _]. pose proof (C1 m m). lia.
Qed.

Lemma inserted_ok ns : StronglySorted lt (fold_left (op_spec c) (map Ins ns) []) /\
  forall x, In x (fold_left (op_spec c) (map Ins ns) []) <-> first_of_group c ns x.
Proof.
  induction ns as [|n ns [S IH]] using rev_ind.
  - cbn. split; [constructor|]. intros x. split; [tauto|]. intros (L & R & E & _).
    destruct L; discriminate.
  - rewrite map_app, fold_left_app. cbn [map fold_left op_spec]. split; [apply sorted_place; auto|].
    intros x. rewrite place_in by auto. rewrite first_of_snoc, IH.
    split; (intros [H|[-> H]]; [left; auto|right; split; auto]); intros y Hy H0.
    + destruct (group_repr _ _ Hy) as (z & Z1 & Z2). apply IH in Z1. apply (H z Z1). eapply eq_trans; eauto.
    + apply IH in Hy. destruct Hy as (L & R & -> & _). apply (H y); auto. rewrite in_app_iff. right. left. auto.
Qed.

Lemma valid_ins (pool : Z -> Prop) ns : forall l, (forall n, In n ns -> pool n /\ ~ In n l) -> NoDup ns ->
  valid c pool l (map Ins ns).
Proof.
  induction ns as [|n ns IH]; intros l H Nd; cbn [map valid]; [auto|]. inversion Nd; subst.
  split; [apply H; left; auto|]. cbn [op_spec]. apply IH; auto. intros m Hm.
  destruct (H m (or_intror Hm)) as [A B]. split; auto. intros G. apply place_incl in G.
  destruct G as [G| ->]; auto.
Qed.

Lemma empty_holds s : rootp s = 0 -> holds s E /\ red_black E.
Proof.
  intros H. split.
  - split; [auto|]. split; [exact I|]. split; constructor.
  - apply red_black_rbt. exists O. split; reflexivity.
Qed.
End Seq.
