(** Proofs about the memory map. *)
From Coq Require Import ZArith String List Bool Lia Sorted.
From Verif Require Import Word WordLemmas RbModel RbSpec RbPure RbSep RbInsert RbErase RbTop RbWalk RbSeq Str VmaModel VmaSpec.
Import ListNotations.
Open Scope Z_scope.

Section Map.
Variable info : Z -> vinfo.

Definition before (a b : Z) : Prop := vm_end (info a) <= vm_start (info b).

(** The index of [s] is exactly the ascending sequence [l]. *)
Definition index (s : vroot) (l : list Z) : Prop :=
  exists t, holds (v_rb s) t /\ red_black t /\ inorder t = l /\ StronglySorted before l /\ Forall (proper info) l.

Lemma sgn_monotone (cmp : Z -> Z) l :
  StronglySorted (fun a b => (0 < cmp b -> 0 < cmp a) /\ (cmp b = 0 -> 0 <= cmp a)) l -> monotone cmp l.
Proof.
  induction 1 as [|a l H IH F].
  - exists [], [], []. repeat split; constructor.
  - destruct IH as (L & M & R & -> & HL & HM & HR).
    destruct (Ztrichotomy (cmp a) 0) as [Ha|[Ha|Ha]].
    + assert (L = []).
      { destruct L as [|x L]; auto. exfalso. apply Forall_inv in HL. cbn [app] in F. apply Forall_inv in F. lia. }
      assert (M = []).
      { subst L. cbn [app] in *. destruct M as [|x M]; auto. exfalso. apply Forall_inv in HM. apply Forall_inv in F. lia. }
      subst. exists [], [], (a :: R). cbn in *. repeat split; auto.
    + assert (L = []).
      { destruct L as [|x L]; auto. exfalso. apply Forall_inv in HL. cbn [app] in F. apply Forall_inv in F. lia. }
      subst. exists [], (a :: M), R. cbn in *. repeat split; auto.
    + exists (a :: L), M, R. cbn. repeat split; auto. constructor; auto. lia.
Qed.

Lemma sorted_impl (P Q : Z -> Z -> Prop) (D : Z -> Prop) l :
  (forall a b, D a -> D b -> P a b -> Q a b) -> Forall D l -> StronglySorted P l -> StronglySorted Q l.
Proof.
  intros H HD S. induction S as [|a l S IH F]; constructor; inversion HD; subst; auto.
  rewrite Forall_forall in *. intros b Hb. apply H; auto.
Qed.

Lemma cmp_insert_monotone v l : proper info v -> Forall (proper info) l -> StronglySorted before l ->
  monotone (vma_rb_cmp info v) l.
Proof.
  intros Pv Pl S. apply sgn_monotone. revert S. apply sorted_impl with (D := proper info); auto.
  unfold before, proper, vma_rb_cmp in *. intros a b Pa Pb H.
  repeat match goal with |- context [?x <=? ?y] => destruct (Z.leb_spec x y) | |- context [?x <? ?y] => destruct (Z.ltb_spec x y) end;
    cbn [andb]; lia.
Qed.

Lemma cmp_find_monotone x l : Forall (proper info) l -> StronglySorted before l ->
  monotone (find_vma_cmp info x) l.
Proof.
  intros Pl S. apply sgn_monotone. revert S. apply sorted_impl with (D := proper info); auto.
  unfold before, proper, find_vma_cmp in *. intros a b Pa Pb H.
  repeat match goal with |- context [?x <=? ?y] => destruct (Z.leb_spec x y) | |- context [?x <? ?y] => destruct (Z.ltb_spec x y) end;
    cbn [andb]; lia.
Qed.

Lemma cmp_0 v a : proper info v -> proper info a -> (vma_rb_cmp info v a = 0 <-> ~ disjoint info a v).
Proof.
  unfold proper, vma_rb_cmp, disjoint.
  repeat match goal with |- context [?x <=? ?y] => destruct (Z.leb_spec x y) | |- context [?x <? ?y] => destruct (Z.ltb_spec x y) end;
    cbn [andb]; lia.
Qed.

Lemma cmp_pos v a : proper info v -> proper info a -> 0 < vma_rb_cmp info v a -> before a v.
Proof.
  unfold proper, vma_rb_cmp, before.
  repeat match goal with |- context [?x <=? ?y] => destruct (Z.leb_spec x y) | |- context [?x <? ?y] => destruct (Z.ltb_spec x y) end;
    cbn [andb]; lia.
Qed.

Lemma cmp_neg v a : proper info v -> proper info a -> vma_rb_cmp info v a < 0 -> before v a.
Proof.
  unfold proper, vma_rb_cmp, before.
  repeat match goal with |- context [?x <=? ?y] => destruct (Z.leb_spec x y) | |- context [?x <? ?y] => destruct (Z.ltb_spec x y) end;
    cbn [andb]; lia.
Qed.

Lemma sorted_split L R v : StronglySorted before (L ++ R) -> Forall (fun a => before a v) L ->
  Forall (fun a => before v a) R -> StronglySorted before (L ++ v :: R).
Proof.
  induction L as [|a L IH]; cbn [app]; intros S F1 F2.
  - constructor; auto.
  - inversion S; subst. inversion F1; subst. constructor; auto.
    rewrite Forall_app in *. destruct H2. split; auto.
Qed.

Lemma sorted_del L R v : StronglySorted before (L ++ v :: R) -> StronglySorted before (L ++ R).
Proof.
  induction L as [|a L IH]; cbn [app]; intros S; inversion S; subst; auto.
  constructor; auto. rewrite Forall_app in *. destruct H2 as [A B]. split; auto. inversion B; auto.
Qed.

Lemma rep_live h p t : rep h p t -> forall x, In x (inorder t) -> h x <> None.
Proof.
  revert p. induction t as [|c l IHl a r IHr]; intros p H x Hx; [destruct Hx|].
  cbn [rep inorder] in *. destruct H as (A & B & C).
  apply in_app_iff in Hx. destruct Hx as [Hx|[<-|Hx]].
  - eapply IHl; eauto.
  - congruence.
  - eapply IHr; eauto.
Qed.

Lemma holds_live s t : holds s t -> forall x, In x (inorder t) -> hp s x <> None.
Proof. intros (A & B & C & D). eapply rep_live; eauto. Qed.


Lemma insert_step s l v prev fuel :
  index s l -> proper info v -> ~ In v l -> node_addr v -> hp (v_rb s) v <> None -> (List.length l < fuel)%nat ->
  exists s', insert_vma fuel info s v prev = Some s' /\ v_list s' = v_list s ++ [v] /\
    (forall x, hp (v_rb s) x <> None -> hp (v_rb s') x <> None) /\
    ((exists a, In a l /\ ~ disjoint info a v /\ v_rb s' = v_rb s) \/
     (Forall (fun a => disjoint info a v) l /\ exists L R, l = L ++ R /\ index s' (L ++ v :: R))).
Proof.
  intros (t & H & Hrb & Hio & Hs & Hp) Pv Hni Hna Hlv Hf.
  destruct (hp (v_rb s) v) as [n|] eqn:En; [clear Hlv|contradiction].
  pose proof (height_size t) as Hh. unfold size in Hh. rewrite Hio in Hh.
  assert (Hm : monotone (vma_rb_cmp info v) (inorder t)) by (rewrite Hio; apply cmp_insert_monotone; auto).
  unfold insert_vma.
  destruct (rb_insert_ok (v_rb s) t (vma_rb_cmp info v) v n fuel H Hrb Hm ltac:(lia) Hna En ltac:(rewrite Hio; auto))
    as [(a & E1 & E2 & E3)|(s' & t' & L & R & E1 & E2 & E3 & E4 & E5 & E6 & E7 & E8 & E9)]; rewrite E1.
  - eexists. split; [reflexivity|]. cbn [v_list v_rb snd]. split; auto. split; auto. left.
    rewrite Hio in E2. exists a. split; auto. split; auto. apply cmp_0; auto. rewrite Forall_forall in Hp. auto.
  - eexists. split; [reflexivity|]. cbn [v_list v_rb snd]. split; auto. split.
    { intros x Hx. destruct (in_dec Z.eq_dec x (inorder t')) as [I|I].
      - eapply holds_live; eauto.
      - rewrite E9; auto. }
    right. rewrite Hio in *. rewrite Forall_forall in Hp. split.
    { apply Forall_forall. intros a Ha. rewrite Forall_forall in E2.
      destruct (Z_le_gt_dec (vm_end (info a)) (vm_start (info v))); [left; auto|].
      destruct (Z_le_gt_dec (vm_end (info v)) (vm_start (info a))); [right; auto|].
      exfalso. apply (E2 a Ha). apply cmp_0; auto. unfold disjoint. lia. }
    exists L, R. split; auto. exists t'. cbn [v_rb]. split; auto. split; auto. split; auto. clear Hio Hm. subst l. split.
    + rewrite Forall_forall in E4, E5; apply sorted_split; auto; apply Forall_forall; intros a Ha.
      * apply cmp_pos; auto. apply Hp. apply in_app_iff. auto.
      * apply cmp_neg; auto. apply Hp. apply in_app_iff. auto.
    + apply Forall_forall. intros x Hx. apply in_app_iff in Hx. destruct Hx as [Hx|[<-|Hx]]; auto; apply Hp; apply in_app_iff; auto.
Qed.

Lemma find_index s l fuel x : index s l -> (List.length l < fuel)%nat ->
  exists a, find_vma fuel info s x = Some a /\
    ((In a l /\ covers info a x) \/ (a = 0 /\ forall v, In v l -> ~ covers info v x)).
Proof.
  intros (t & H & Hrb & Hio & Hs & Hp) Hf.
  pose proof (height_size t) as Hh. unfold size in Hh. rewrite Hio in Hh.
  assert (Hm : monotone (find_vma_cmp info x) (inorder t)) by (rewrite Hio; apply cmp_find_monotone; auto).
  destruct (rb_search_ok (v_rb s) t (find_vma_cmp info x) fuel H Hm ltac:(lia)) as (a & k & E1 & _ & E2).
  unfold find_vma. rewrite E1. cbn [fst]. exists a. split; auto. rewrite Hio in E2. rewrite Forall_forall in Hp.
  assert (C : forall v, In v l -> (find_vma_cmp info x v = 0 <-> covers info v x)).
  { intros v Hv. specialize (Hp v Hv). unfold proper, find_vma_cmp, covers in *.
    repeat match goal with |- context [?x <=? ?y] => destruct (Z.leb_spec x y) | |- context [?x <? ?y] => destruct (Z.ltb_spec x y) end;
      cbn [andb]; lia. }
  destruct E2 as [[-> E2]|[E2 E3]].
  - right. split; auto. intros v Hv Cv. rewrite Forall_forall in E2. apply (E2 v Hv). apply C; auto.
  - left. split; auto. apply C; auto.
Qed.

(** Which mappings are indexed after reading [vs] into an index that holds [l]:
    those disjoint from everything indexed before them. *)
Fixpoint indexed_after (l vs : list Z) : list Z :=
  match vs with
  | [] => l
  | v :: vs' =>
      if forallb (fun a => (vm_end (info a) <=? vm_start (info v)) || (vm_end (info v) <=? vm_start (info a))) l
      then indexed_after (v :: l) vs' else indexed_after l vs'
  end.

Definition same_set (l l' : list Z) : Prop := forall x : Z, In x l <-> In x l'.

Lemma disjointb a v : (vm_end (info a) <=? vm_start (info v)) || (vm_end (info v) <=? vm_start (info a)) = true
  <-> disjoint info a v.
Proof. unfold disjoint. rewrite orb_true_iff, !Z.leb_le. tauto. Qed.

Lemma alldisj l v : forallb (fun a => (vm_end (info a) <=? vm_start (info v)) || (vm_end (info v) <=? vm_start (info a))) l = true
  <-> Forall (fun a => disjoint info a v) l.
Proof.
  rewrite forallb_forall, Forall_forall. split; intros H a Ha; apply disjointb; auto.
Qed.

Lemma indexed_after_same vs : forall l l', same_set l l' -> same_set (indexed_after l vs) (indexed_after l' vs).
Proof.
  induction vs as [|v vs IH]; intros l l' H; cbn [indexed_after]; auto.
  assert (E : forallb (fun a => (vm_end (info a) <=? vm_start (info v)) || (vm_end (info v) <=? vm_start (info a))) l =
              forallb (fun a => (vm_end (info a) <=? vm_start (info v)) || (vm_end (info v) <=? vm_start (info a))) l').
  { apply eq_true_iff_eq. rewrite !alldisj, !Forall_forall. split; intros G a Ha; apply G; apply H; auto. }
  rewrite E. destruct (forallb _ l'); apply IH; auto. intros x. cbn [In]. rewrite (H x). tauto.
Qed.

Lemma read_fresh vs : forall s prev l fuel,
  index s l -> Forall (proper info) vs -> NoDup vs -> (forall v, In v vs -> ~ In v l) -> allocated s vs ->
  (List.length l + List.length vs < fuel)%nat ->
  exists s' l', read_loop fuel info false s prev vs = Some s' /\ index s' l' /\ same_set l' (indexed_after l vs) /\
    v_list s' = v_list s ++ vs /\ (List.length l' <= List.length l + List.length vs)%nat /\
    (forall x, hp (v_rb s) x <> None -> hp (v_rb s') x <> None).
Proof.
  induction vs as [|v vs IH]; intros s prev l fuel Hi Hp Nd Hn Ha Hf.
  - exists s, l. cbn. rewrite app_nil_r. repeat split; auto; lia.
  - cbn [read_loop]. unfold read_one. inversion Hp; subst. apply NoDup_cons_iff in Nd. destruct Nd as [Nv Nd].
    inversion Ha; subst. cbn [List.length] in Hf. destruct H3 as [Na Lv].
    set (s0 := Vr (v_rb s) (v_list s) (fun x => if x =? v then v else v_leader s x)).
    assert (Hi0 : index s0 l) by exact Hi.
    destruct (insert_step s0 l v prev fuel Hi0 H1 (Hn v (or_introl eq_refl)) Na Lv ltac:(lia))
      as (s' & E1 & E2 & E3 & E4).
    rewrite E1. cbn [fst snd]. cbn [s0 v_list v_rb] in *.
    assert (Al : allocated s' vs).
    { unfold allocated in *. rewrite Forall_forall in *. intros x Hx. destruct (H4 x Hx). split; auto. }
    destruct E4 as [(a & A1 & A2 & A3)|(A1 & L & R & -> & A2)].
    + assert (Hi' : index s' l) by (unfold index in *; rewrite A3; exact Hi).
      destruct (IH s' v l fuel Hi' H2 Nd ltac:(intros; apply Hn; right; auto) Al ltac:(lia)) as (s2 & l2 & B1 & B2 & B3 & B4 & B5 & B6).
      exists s2, l2. split; auto. split; auto. split.
      * cbn [indexed_after]. destruct (forallb _ l) eqn:F; [|auto]. exfalso.
        apply alldisj in F. rewrite Forall_forall in F. apply A2, F, A1.
      * rewrite B4, E2, <- app_assoc. split; auto. cbn [List.length]. split; [lia|auto].
    + destruct (IH s' v (L ++ v :: R) fuel A2 H2 Nd) as (s2 & l2 & B1 & B2 & B3 & B4 & B5 & B6); auto.
      * intros x Hx G. apply in_app_iff in G. destruct G as [G|[->|G]]; auto.
        -- apply (Hn x (or_intror Hx)). apply in_app_iff. auto.
        -- apply (Hn x (or_intror Hx)). apply in_app_iff. auto.
      * rewrite app_length in *. cbn [List.length]. lia.
      * exists s2, l2. split; auto. split; auto. split.
        -- cbn [indexed_after]. rewrite (proj2 (alldisj _ _) A1). intros x. rewrite (B3 x).
           apply indexed_after_same. intros y. rewrite !in_app_iff. cbn [In]. rewrite in_app_iff. tauto.
        -- rewrite B4, E2, <- app_assoc. split; auto. rewrite app_length in *. cbn [List.length] in *. split; [lia|auto].
Qed.

Lemma indexed_after_all vs : forall l,
  (forall a b, In a (l ++ vs) -> In b (l ++ vs) -> a <> b -> disjoint info a b) -> NoDup (l ++ vs) ->
  same_set (indexed_after l vs) (l ++ vs).
Proof.
  induction vs as [|v vs IH]; intros l H Nd; cbn [indexed_after].
  - rewrite app_nil_r. intros x. tauto.
  - pose proof (NoDup_remove _ _ _ Nd) as [N1 N2].
    assert (F : Forall (fun a => disjoint info a v) l).
    { apply Forall_forall. intros a Ha. apply H; try (apply in_app_iff; cbn; auto; fail).
      intros ->. apply N2. apply in_app_iff. auto. }
    rewrite (proj2 (alldisj _ _) F). intros x. eapply iff_trans; [apply IH|].
    3: { cbn [app In]. rewrite !in_app_iff. cbn [In]. tauto. }
    + intros a b Ha Hb. apply H; rewrite in_app_iff; cbn [In app] in *; rewrite in_app_iff in *; tauto.
    + cbn [app]. constructor; auto.
Qed.

Lemma empty_index s : rootp (v_rb s) = 0 -> index s [].
Proof.
  intros H. destruct (empty_holds (v_rb s) H) as [A B]. exists E. split; [exact A|]. split; [exact B|]. split; [reflexivity|]. split; constructor.
Qed.

Lemma read_map s vs fuel :
  rootp (v_rb s) = 0 -> memory_map info vs -> allocated s vs -> (List.length vs < fuel)%nat ->
  exists s' l, read_task_vmas fuel info false s vs = Some s' /\ index s' l /\ same_set l vs /\
    v_list s' = v_list s ++ vs /\ (List.length l <= List.length vs)%nat /\
    (forall x, hp (v_rb s) x <> None -> hp (v_rb s') x <> None).
Proof.
  intros H (M1 & M2 & M3) Ha Hf. unfold read_task_vmas.
  destruct (read_fresh vs s 0 [] fuel (empty_index s H) M1 M2 ltac:(auto) Ha ltac:(cbn; lia)) as (s' & l & A & B & C & D & G & K).
  exists s', l. split; auto. split; auto. split; auto.
  intros x. rewrite (C x). apply (indexed_after_all vs []); auto.
Qed.

Lemma exact_same fuel s l vs : index s l -> (List.length l < fuel)%nat -> same_set l vs -> lookup_exact fuel info s vs.
Proof.
  intros H Hf Hs x. destruct (find_index s l fuel x H Hf) as (a & A & [[B C]|[B C]]).
  - exists a. split; auto. left. split; auto. apply Hs; auto.
  - exists a. split; auto. right. split; auto. intros v Hv. apply C. apply Hs. auto.
Qed.

(** ** Removing a mapping *)
Lemma unlink_step s l v fuel : index s l -> In v l -> (List.length l < fuel)%nat ->
  exists s' L R, unlink_vma fuel s v = Some s' /\ l = L ++ v :: R /\ index s' (L ++ R) /\
    v_list s' = remove Z.eq_dec v (v_list s).
Proof.
  intros (t & H & Hrb & Hio & Hs & Hp) Hv Hf.
  pose proof (height_size t) as Hh. unfold size in Hh. rewrite Hio in Hh. rewrite <- Hio in Hv.
  destruct (rb_erase_ok (v_rb s) t v fuel H Hrb Hv ltac:(lia)) as (s' & t' & L & R & E1 & E2 & E3 & E4 & E5 & E6 & E7).
  unfold unlink_vma. rewrite E1. eexists. exists L, R. split; [reflexivity|]. rewrite Hio in E4. split; auto. split; auto.
  exists t'. cbn [v_rb]. subst l. split; auto. split; auto. split; auto. rewrite E4 in Hs, Hp. split.
  - eapply sorted_del; eauto.
  - rewrite Forall_app in *. destruct Hp as [A B]. inversion B; auto.
Qed.

(** ** The hole *)
Lemma sorted_app_inv L a R : StronglySorted before (L ++ a :: R) -> Forall (fun x => before x a) L /\ Forall (before a) R.
Proof.
  induction L as [|b L IH]; cbn [app]; intros S; inversion S; subst.
  - split; auto.
  - destruct (IH H1). split; auto. constructor; auto. rewrite Forall_app in H2. destruct H2 as [_ G]. inversion G; auto.
Qed.

Lemma span_ok s l t size : forall n fuel R L a,
  holds (v_rb s) t -> inorder t = l -> StronglySorted before l -> Forall (proper info) l ->
  0 <= size -> (height t <= fuel)%nat -> l = L ++ a :: R -> (List.length R < n)%nat ->
  exists r, span_loop n fuel info s size a = Some r /\
    ((r = 0 /\ forall L' x y R', a :: R = L' ++ x :: y :: R' -> vm_start (info y) - vm_end (info x) < size) \/
     (0 < r /\ r + size < 2 ^ 64 /\ forall v, In v l -> vm_end (info v) <= r \/ r + size <= vm_start (info v))).
Proof.
  induction n as [|n IH]; intros fuel R L a H Hio Hs Hp Hz Hf El Hn; [lia|].
  cbn [span_loop].
  assert (Za : a <> 0).
  { destruct H as (_ & _ & _ & F). rewrite Hio, El in F. rewrite Forall_forall in F.
    specialize (F a ltac:(apply in_app_iff; right; left; auto)). destruct F. lia. }
  destruct (Z.eqb_spec a 0) as [|_]; [contradiction|].
  rewrite (rb_next_ok (v_rb s) t L a R fuel H ltac:(congruence) Hf).
  destruct R as [|b R]; cbn [hd].
  - exists 0. split; [reflexivity|]. left. split; auto. intros L' x y R' E.
    destruct L' as [|c [|d L']]; cbn [app] in E; congruence.
  - assert (Zb : b <> 0).
    { destruct H as (_ & _ & _ & F). rewrite Hio, El in F. rewrite Forall_forall in F.
      specialize (F b ltac:(apply in_app_iff; right; right; left; auto)). destruct F. lia. }
    destruct (Z.eqb_spec b 0) as [|_]; [contradiction|].
    assert (Pa : proper info a).
    { rewrite Forall_forall in Hp. apply Hp. rewrite El. apply in_app_iff. right; left; auto. }
    assert (Pb : proper info b).
    { rewrite Forall_forall in Hp. apply Hp. rewrite El. apply in_app_iff. right; right; left; auto. }
    pose proof Hs as Hs'. rewrite El in Hs'.
    destruct (sorted_app_inv _ _ _ Hs') as [Fl Fr].
    assert (Bab : before a b) by (inversion Fr; auto).
    assert (Eu : u64 (vm_start (info b) - vm_end (info a)) = vm_start (info b) - vm_end (info a)).
    { unfold u64, wrap. apply Z.mod_small. unfold proper, before in *. lia. }
    rewrite Eu. destruct (Z.leb_spec size (vm_start (info b) - vm_end (info a))) as [Hle|Hlt].
    + exists (vm_end (info a)). split; auto. right. unfold proper in *. split; [lia|]. split; [lia|].
      intros v Hv. rewrite El in Hv. apply in_app_iff in Hv. destruct Hv as [Hv|[<-|[<-|Hv]]].
      * left. rewrite Forall_forall in Fl. specialize (Fl v Hv). unfold before in Fl. lia.
      * left. lia.
      * right. lia.
      * right. pose proof Hs' as S2. change (L ++ a :: b :: R) with (L ++ [a] ++ b :: R) in S2. rewrite app_assoc in S2.
        destruct (sorted_app_inv _ _ _ S2) as [_ G]. rewrite Forall_forall in G. specialize (G v Hv). unfold before in G.
        lia.
    + destruct (IH fuel R (L ++ [a]) b H Hio Hs Hp Hz Hf) as (r & E1 & E2).
      { rewrite <- app_assoc. exact El. }
      { cbn [List.length] in Hn. lia. }
      exists r. split; auto. destruct E2 as [[-> E2]|E2]; [left|right; auto]. split; auto.
      intros L' x y R' E. destruct L' as [|c L']; cbn [app] in E.
      * injection E as -> -> ->. lia.
      * injection E as -> E. eauto.
Qed.

(** ** Leaders *)
Lemma insert_leader fuel s v prev s' : insert_vma fuel info s v prev = Some s' ->
  forall x, v_leader s' x =
    if (x =? v) && (negb (prev =? 0) && str_eqb (vm_name (info prev)) (vm_name (info v)))
    then v_leader s prev else v_leader s x.
Proof.
  unfold insert_vma. destruct (rb_insert_node _ _ _ _) as [r|]; [|discriminate]. intros E. injection E as <-. intros x.
  cbn [v_leader]. destruct (negb (prev =? 0) && _); destruct (x =? v); reflexivity.
Qed.

(** [f prev vs] are the leaders given to [vs] when the mapping before has name and leader [prev]. *)
Lemma read_leader vs : forall fuel s prev s',
  read_loop fuel info false s prev vs = Some s' -> NoDup vs -> ~ In 0 vs ->
  (forall x, ~ In x vs -> v_leader s' x = v_leader s x) /\
  (forall L w M R, vs = L ++ w :: M ++ R ->
     (forall x, In x M -> vm_name (info x) = vm_name (info w)) ->
     match rev L with [] => prev = 0 \/ vm_name (info prev) <> vm_name (info w) \/ In prev vs
                    | p :: _ => vm_name (info p) <> vm_name (info w) end ->
     ~ In prev vs ->
     forall x, In x (w :: M) -> v_leader s' x = w) /\
  (forall M R, vs = M ++ R -> prev <> 0 -> ~ In prev vs ->
     (forall x, In x M -> vm_name (info x) = vm_name (info prev)) ->
     forall x, In x M -> v_leader s' x = v_leader s prev).
Proof.
  induction vs as [|v vs IH]; intros fuel s prev s' E Nd Z0.
  - cbn [read_loop] in E. injection E as <-. split; [auto|]. split.
    + intros L w M R G. destruct L; discriminate.
    + intros M R G. symmetry in G. apply app_eq_nil in G. destruct G as [-> ->]. intros _ _ _ x [].
  - cbn [read_loop] in E. unfold read_one in E.
    set (s0 := Vr (v_rb s) (v_list s) (fun x => if x =? v then v else v_leader s x)) in *.
    destruct (insert_vma fuel info s0 v prev) as [s1|] eqn:Ei; [|discriminate]. cbn [fst snd] in E.
    pose proof (insert_leader _ _ _ _ _ Ei) as Hl. cbn [s0 v_leader] in Hl.
    apply NoDup_cons_iff in Nd. destruct Nd as [Nv Nd].
    assert (Zv : v <> 0) by (intros ->; apply Z0; left; auto).
    destruct (IH fuel s1 v s' E Nd ltac:(intros G; apply Z0; right; auto)) as (I1 & I2 & I3).
    assert (Lv : v_leader s' v = if negb (prev =? 0) && str_eqb (vm_name (info prev)) (vm_name (info v))
                                 then (if prev =? v then v else v_leader s prev) else v).
    { rewrite I1 by auto. rewrite Hl, Z.eqb_refl. cbn [andb]. reflexivity. }
    split; [|split].
    + intros x Hx. rewrite I1 by (intros G; apply Hx; right; auto). rewrite Hl.
      destruct (Z.eqb_spec x v) as [->|_]; [exfalso; apply Hx; left; auto|]. cbn [andb]. reflexivity.
    + intros L w M R G Hm Hpre Hnp x Hx. destruct L as [|b L].
      * cbn [app] in G. injection G as <- ->. cbn [rev] in Hpre.
        assert (Lw : v_leader s1 v = v).
        { rewrite Hl, Z.eqb_refl. cbn [andb].
          destruct (Z.eqb_spec prev 0) as [P0|P0]; cbn [negb andb]; auto.
          destruct Hpre as [?|[Hpre|?]]; [contradiction| |contradiction].
          rewrite str_eqb_neq by auto. reflexivity. }
        destruct Hx as [<-|Hx]; [rewrite I1 by auto; exact Lw|].
        rewrite (I3 M R eq_refl Zv Nv Hm x Hx). exact Lw.
      * cbn [app] in G. injection G as <- ->.
        apply (I2 L w M R eq_refl Hm); auto.
        destruct (rev L) as [|p q] eqn:ER; cbn [rev] in Hpre; rewrite ER in Hpre; cbn [app] in Hpre; auto.
    + intros M R G P0 Np Hm x Hx. destruct M as [|b M]; [destruct Hx|]. cbn [app] in G. injection G as <- ->.
      assert (Nb : vm_name (info prev) = vm_name (info v)) by (symmetry; apply Hm; left; auto).
      assert (Lv1 : v_leader s1 v = v_leader s prev).
      { rewrite Hl, Z.eqb_refl, Nb, str_eqb_refl. destruct (Z.eqb_spec prev 0); [contradiction|]. cbn [negb andb].
        destruct (Z.eqb_spec prev v) as [->|_]; [exfalso; apply Np; left; auto|]. reflexivity. }
      destruct Hx as [<-|Hx]; [rewrite I1 by auto; exact Lv1|].
      rewrite (I3 M R eq_refl Zv Nv). { exact Lv1. } { intros y Hy. rewrite (Hm y (or_intror Hy)). auto. } auto.
Qed.


(** ** Refreshing *)
Lemma refresh all vs : forall s prev l fuel,
  (forall a b, In a all -> In b all -> a <> b -> disjoint info a b) ->
  (forall v, In v vs -> In v all) ->
  index s l -> Forall (proper info) vs -> (forall v, In v vs -> vm_start (info v) + 2 <= vm_end (info v)) ->
  NoDup vs -> (forall v, In v vs -> ~ In v l) -> allocated s vs -> (forall a, In a l -> a <> 0) ->
  (forall o, In o l -> exists v, In v all /\ same_range info o v) ->
  (List.length l + List.length vs < fuel)%nat ->
  exists s' l', read_loop fuel info true s prev vs = Some s' /\ index s' l' /\
    (forall o, In o l' -> exists v, In v all /\ same_range info o v) /\
    (forall o, In o l -> In o l') /\
    (forall v, In v vs -> exists o, In o l' /\ same_range info o v) /\
    (forall a, In a l' -> a <> 0) /\
    (List.length l' <= List.length l + List.length vs)%nat.
Proof.
  induction vs as [|v vs IH]; intros s prev l fuel Hd Hin Hi Hp H2 Nd Hn Ha Hz Ho Hf.
  - exists s, l. cbn. split; auto. split; auto. split; auto. split; auto. split; [intros v []|]. split; auto. lia.
  - cbn [read_loop]. unfold read_one. apply Forall_cons_iff in Hp. destruct Hp as [Pv Hp].
    apply NoDup_cons_iff in Nd. destruct Nd as [Nv Nd]. apply Forall_cons_iff in Ha. destruct Ha as [[Na Lv] Ha].
    cbn [List.length] in Hf. specialize (H2 v (or_introl eq_refl)) as Hv2.
    assert (Eu : u64 (vm_start (info v) + 1) = vm_start (info v) + 1).
    { unfold u64, wrap. apply Z.mod_small. unfold proper in Pv. lia. }
    rewrite Eu. destruct (find_index s l fuel (vm_start (info v) + 1) Hi ltac:(lia)) as (a & E1 & E2). rewrite E1.
    assert (Hsame : forall o, In o l -> covers info o (vm_start (info v) + 1) -> same_range info o v).
    { intros o Hol Hc. destruct (Ho o Hol) as (w & W1 & W2 & W3).
      destruct (Z.eq_dec w v) as [->|N]; [split; auto|].
      exfalso. specialize (Hd w v W1 (Hin v (or_introl eq_refl)) N). unfold covers, disjoint in *. lia. }
    destruct E2 as [[A1 A2]|[-> A2]].
    + destruct (Hsame a A1 A2) as [S1 S2]. rewrite S1, S2, !Z.eqb_refl.
      destruct (Z.eqb_spec a 0) as [->|_]; [exfalso; apply (Hz 0); auto|]. cbn [negb andb fst snd].
      destruct (IH s prev l fuel Hd ltac:(intros; apply Hin; right; auto) Hi Hp ltac:(intros; apply H2; right; auto) Nd
                  ltac:(intros; apply Hn; right; auto) Ha Hz Ho ltac:(lia)) as (s' & l' & B1 & B2 & B3 & B4 & B5 & B6 & B7).
      exists s', l'. split; auto. split; auto. split; auto. split; auto. split.
      * intros w [<-|Hw]; auto. exists a. split; auto.
      * split; auto. cbn [List.length]. lia.
    + cbn [Z.eqb negb andb].
      set (s0 := Vr (v_rb s) (v_list s) (fun x => if x =? v then v else v_leader s x)).
      assert (Hi0 : index s0 l) by exact Hi.
      destruct (insert_step s0 l v prev fuel Hi0 Pv (Hn v (or_introl eq_refl)) Na Lv ltac:(lia))
        as (s1 & E3 & E4 & E5 & E6).
      rewrite E3. cbn [fst snd]. cbn [s0 v_list v_rb] in *.
      assert (Al : allocated s1 vs).
      { unfold allocated in *. rewrite Forall_forall in *. intros x Hx. destruct (Ha x Hx). split; auto. }
      destruct E6 as [(b & B1 & B2 & B3)|(_ & L & R & -> & Hi1)].
      { exfalso. destruct (Ho b B1) as (w & W1 & W2 & W3). destruct (Z.eq_dec w v) as [->|N].
        - apply (A2 b B1). unfold covers. unfold proper in Pv. lia.
        - specialize (Hd w v W1 (Hin v (or_introl eq_refl)) N). unfold disjoint in *. lia. }
      destruct (IH s1 v (L ++ v :: R) fuel Hd ltac:(intros; apply Hin; right; auto) Hi1 Hp ltac:(intros; apply H2; right; auto) Nd)
        as (s' & l' & C1 & C2 & C3 & C4 & C5 & C6 & C7); auto.
      * intros x Hx G. apply in_app_iff in G. destruct G as [G|[->|G]]; auto;
          apply (Hn x (or_intror Hx)); apply in_app_iff; auto.
      * intros x G. apply in_app_iff in G. destruct G as [G|[<-|G]];
          [apply Hz; apply in_app_iff; auto|destruct Na; lia|apply Hz; apply in_app_iff; auto].
      * intros x G. apply in_app_iff in G. destruct G as [G|[<-|G]];
          [apply Ho; apply in_app_iff; auto| |apply Ho; apply in_app_iff; auto].
        exists v. split; [apply Hin; left; auto|split; auto].
      * rewrite app_length in *. cbn [List.length]. lia.
      * exists s', l'. split; auto. split; auto. split; auto. split.
        { intros o G. apply C4. apply in_app_iff in G. apply in_app_iff. destruct G; auto. right. right. auto. }
        split.
        { intros w [<-|Hw]; auto. exists v. split; [|split; auto]. apply C4. apply in_app_iff. right. left. auto. }
        split; auto. rewrite app_length in *. cbn [List.length] in *. lia.
Qed.

Lemma index_nonzero s l : index s l -> forall a, In a l -> a <> 0.
Proof.
  intros (t & (_ & _ & _ & F) & _ & <- & _) a Ha. rewrite Forall_forall in F. destruct (F a Ha). lia.
Qed.

Lemma index_nodup s l : index s l -> NoDup l.
Proof. intros (t & (_ & _ & N & F) & _ & <- & _). auto. Qed.

Lemma sorted_ascending l : StronglySorted before l -> ascending info l.
Proof.
  intros S L a R b Q ->. destruct (sorted_app_inv _ _ _ S) as [_ F]. rewrite Forall_forall in F.
  apply F. apply in_app_iff. right. left. auto.
Qed.

Lemma walk_next_vma s l fuel n : index s l -> (List.length l < fuel)%nat -> (List.length l < n)%nat ->
  exists a, next_vma fuel s 0 = Some a /\ walk (next_vma fuel s) n a = Some l.
Proof.
  intros (t & H & Hrb & Hio & Hs & Hp) Hf Hn. pose proof (height_size t) as Hh. unfold size in Hh. rewrite Hio in Hh.
  destruct (walk_next (v_rb s) t fuel n H ltac:(lia)) as (a & A & B).
  { unfold size. rewrite Hio. lia. }
  exists a. split; [exact A|]. rewrite Hio in B. revert a l B A Hn Hf Hio Hs Hp Hh. clear.
  assert (W : forall n a r, walk (rb_next fuel (v_rb s)) n a = Some r -> walk (next_vma fuel s) n a = Some r).
  { intros m. induction m as [|m IH]; intros a r E1; cbn [walk] in *; [discriminate|].
    destruct (Z.eqb_spec a 0) as [->|N]; auto. unfold next_vma at 1. destruct (Z.eqb_spec a 0); [contradiction|].
    destruct (rb_next fuel (v_rb s) a) as [b|]; [|discriminate].
    destruct (walk (rb_next fuel (v_rb s)) m b) as [l|] eqn:E'; [|discriminate]. rewrite (IH _ _ E'). exact E1. }
  intros. apply W. exact B.
Qed.
End Map.

(** ** Names *)
Lemma digits_range f base n : 1 < base -> 0 <= n -> Forall (fun d => 0 <= d < base) (digits f base n).
Proof.
  intros Hb. revert n. induction f as [|f IH]; intros n Hn; cbn [digits]; [constructor|].
  destruct (Z.ltb_spec n base).
  - constructor; [lia|constructor].
  - apply Forall_app. split.
    + apply IH. apply Z.div_pos; lia.
    + constructor; [|constructor]. apply Z.mod_pos_bound. lia.
Qed.

Lemma dec_no_slash n : ~ In 47 (dec n).
Proof.
  assert (G : forall m, 0 <= m -> ~ In 47 (dec_nat m)).
  { intros m Hm Hi. unfold dec_nat in Hi. apply in_map_iff in Hi. destruct Hi as (d & E & Hd).
    pose proof (digits_range (S (Z.to_nat (Z.log2 m))) 10 m ltac:(lia) Hm) as F. rewrite Forall_forall in F.
    specialize (F d Hd). lia. }
  unfold dec. destruct (Z.ltb_spec n 0).
  - intros [E|Hi]; [lia|]. apply (G (- n)); auto. lia.
  - apply G. lia.
Qed.

Lemma ulpname_base pid rnd : ~ In 47 rnd -> basename (make_pid_ulpname pid rnd) = PATCH_VMA_TEMP_PREFIX ++ rnd.
Proof.
  intros H. unfold make_pid_ulpname.
  replace (ULP_PROC_ROOT_DIR ++ str "/" ++ dec pid ++ str "/" ++ TASK_PROC_MAP_FILES ++ str "/" ++ PATCH_VMA_TEMP_PREFIX ++ rnd)
    with ((ULP_PROC_ROOT_DIR ++ str "/" ++ dec pid ++ str "/" ++ TASK_PROC_MAP_FILES) ++ 47 :: PATCH_VMA_TEMP_PREFIX ++ rnd).
  2: { rewrite <- !app_assoc. reflexivity. }
  apply basename_app.
  - discriminate.
  - intros G. apply in_app_iff in G. destruct G as [G|G]; [|auto].
    vm_compute in G. repeat (destruct G as [G|G]; [discriminate|]). destruct G.
Qed.

Lemma ulpname_type pid exe rnd : ~ In 47 rnd -> make_pid_ulpname pid rnd <> exe ->
  get_vma_type pid exe (make_pid_ulpname pid rnd) = VMA_ULPATCH.
Proof.
  intros H Hx. unfold get_vma_type. rewrite str_eqb_neq by auto. rewrite (ulpname_base pid rnd H).
  assert (P1 : strstrb (make_pid_ulpname pid rnd) PATCH_VMA_TEMP_PREFIX = true).
  { apply strstrb_iff. unfold make_pid_ulpname.
    exists (ULP_PROC_ROOT_DIR ++ str "/" ++ dec pid ++ str "/" ++ TASK_PROC_MAP_FILES ++ str "/"), rnd.
    rewrite <- !app_assoc. reflexivity. }
  assert (P2 : strstrb (make_pid_ulpname pid rnd) (dec pid) = true).
  { apply strstrb_iff. unfold make_pid_ulpname.
    exists (ULP_PROC_ROOT_DIR ++ str "/"), (str "/" ++ TASK_PROC_MAP_FILES ++ str "/" ++ PATCH_VMA_TEMP_PREFIX ++ rnd).
    rewrite <- !app_assoc. reflexivity. }
  rewrite P1, P2. reflexivity.
Qed.

Lemma special_type pid exe name : In name special_names -> get_vma_type pid exe name <> VMA_ULPATCH.
Proof.
  intros H. unfold get_vma_type. destruct (str_eqb name exe); [discriminate|].
  cbn in H. repeat (destruct H as [<-|H]; [vm_compute; discriminate|]). destruct H.
Qed.

Lemma libc_type pid exe name :
  (exists p, In p [str "libc.so"; str "libssp"; str "libc-"] /\ exists r, basename name = p ++ r) ->
  get_vma_type pid exe name = VMA_SELF \/ get_vma_type pid exe name = VMA_LIBC.
Proof.
  intros (p & Hp & r & Hr). unfold get_vma_type. destruct (str_eqb name exe); auto. right.
  assert (B : prefixb p (basename name) = true) by (apply prefixb_iff; exists r; auto).
  destruct Hp as [<-|[<-|[<-|[]]]]; rewrite B, ?orb_true_r; reflexivity.
Qed.

(** ** Permission bits *)
Lemma small_bits c i : 0 <= c < 8 -> i <> 0 -> i <> 1 -> i <> 2 -> Z.testbit c i = false.
Proof.
  intros Hc H0 H1 H2. destruct (Z_lt_dec i 0); [apply Z.testbit_neg_r; auto|].
  destruct (Z.eq_dec c 0) as [->|N]; [apply Z.bits_0|]. apply Z.bits_above_log2; [lia|].
  pose proof (Z.log2_lt_pow2 c 3 ltac:(lia)). change (2 ^ 3) with 8 in H. lia.
Qed.

Lemma prot_bits p0 p1 p2 i : Z.testbit (vma_perms2prot p0 p1 p2) i =
  ((i =? 0) && (p0 =? 114)) || ((i =? 1) && (p1 =? 119)) || ((i =? 2) && (p2 =? 120)).
Proof.
  unfold vma_perms2prot, PROT_READ, PROT_WRITE, PROT_EXEC.
  destruct (p0 =? 114), (p1 =? 119), (p2 =? 120);
    destruct (Z.eqb_spec i 0) as [->|]; try reflexivity;
    destruct (Z.eqb_spec i 1) as [->|]; try reflexivity;
    destruct (Z.eqb_spec i 2) as [->|]; try reflexivity;
    match goal with |- Z.testbit ?c i = _ => let v := eval vm_compute in c in change c with v end;
    rewrite small_bits by lia; reflexivity.
Qed.

Lemma land_pow2 x k : 0 <= k -> (Z.land x (2 ^ k) =? 0) = negb (Z.testbit x k).
Proof.
  intros Hk. destruct (Z.testbit x k) eqn:Ex; cbn [negb].
  - apply Z.eqb_neq. intros G. pose proof (Z.land_spec x (2 ^ k) k) as L. rewrite G, Z.bits_0, Ex, Z.pow2_bits_true in L by lia.
    discriminate.
  - apply Z.eqb_eq. apply Z.bits_inj'. intros n Hn. rewrite Z.land_spec, Z.bits_0.
    destruct (Z.eq_dec n k) as [->|N]; [rewrite Ex; reflexivity|]. rewrite Z.pow2_bits_false by lia. apply andb_false_r.
Qed.

Lemma flag_bits prot i : Z.testbit (vma_prot2flags prot) i =
  ((i =? 2) && Z.testbit prot 0) || ((i =? 1) && Z.testbit prot 1) || ((i =? 0) && Z.testbit prot 2).
Proof.
  unfold vma_prot2flags, PROT_READ, PROT_WRITE, PROT_EXEC, PF_R, PF_W, PF_X.
  change (Z.land prot 1) with (Z.land prot (2 ^ 0)). change (Z.land prot 2) with (Z.land prot (2 ^ 1)).
  change (Z.land prot 4) with (Z.land prot (2 ^ 2)). rewrite !land_pow2 by lia.
  destruct (Z.testbit prot 0), (Z.testbit prot 1), (Z.testbit prot 2); cbn [negb];
    destruct (Z.eqb_spec i 0) as [->|]; try reflexivity;
    destruct (Z.eqb_spec i 1) as [->|]; try reflexivity;
    destruct (Z.eqb_spec i 2) as [->|]; try reflexivity;
    match goal with |- Z.testbit ?c i = _ => let v := eval vm_compute in c in change c with v end;
    rewrite small_bits by lia; reflexivity.
Qed.
