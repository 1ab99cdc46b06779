(** Refreshing a memory map is reading the mappings that are new (vma.c 321-405). *)
From Coq Require Import ZArith String List Bool Lia Sorted.
From Verif Require Import Word RbModel RbSpec RbPure RbWalk Str VmaModel VmaSpec VmaProofs VrSpec.
Import ListNotations.
Open Scope Z_scope.

Lemma nodup_app (a b : list Z) : NoDup a -> NoDup b -> (forall x, In x a -> ~ In x b) -> NoDup (a ++ b).
Proof.
  induction 1 as [|x a N1 N2 IH]; intros Nb D; cbn [app]; auto. constructor.
  - intros G. apply in_app_iff in G. destruct G as [G|G]; auto. apply (D x); auto. left; auto.
  - apply IH; auto. intros y Hy. apply D. right; auto.
Qed.

Section Map.
Variable info : Z -> vinfo.

Definition isnew (os : list Z) (v : Z) : bool :=
  negb (existsb (fun o => (vm_start (info o) =? vm_start (info v)) && (vm_end (info o) =? vm_end (info v))) os).

Lemma isnew_false os v : isnew os v = false <-> kept info os v.
Proof.
  unfold isnew, kept, same_range. rewrite negb_false_iff, existsb_exists.
  split; intros (o & A & B); exists o; (split; [auto|]); rewrite andb_true_iff, !Z.eqb_eq in *; auto.
Qed.

Lemma isnew_true os v : isnew os v = true <-> ~ kept info os v.
Proof. rewrite <- isnew_false. destruct (isnew os v); intuition congruence. Qed.

Lemma refresh_as_read all os vs : forall s prev l fuel,
  (forall a b, In a all -> In b all -> a <> b -> disjoint info a b) ->
  (forall v, In v vs -> In v all) ->
  index info s l -> Forall (proper info) vs -> (forall v, In v vs -> vm_start (info v) + 2 <= vm_end (info v)) ->
  NoDup vs -> (forall v, In v vs -> ~ In v l) -> allocated s vs -> (forall a, In a l -> a <> 0) ->
  (forall o, In o os -> exists v, In v all /\ same_range info o v) ->
  (forall o, In o os -> In o l) -> (forall o, In o l -> In o os \/ (In o all /\ ~ In o vs)) ->
  (List.length l + List.length vs < fuel)%nat ->
  read_loop fuel info true s prev vs = read_loop fuel info false s prev (filter (isnew os) vs).
Proof.
  induction vs as [|v vs IH]; intros s prev l fuel Hd Hin Hi Hp H2 Nd Hn Ha Hz Ho Hol Hlo Hf; [reflexivity|].
  cbn [read_loop filter]. unfold read_one at 1. apply Forall_cons_iff in Hp. destruct Hp as [Pv Hp].
  apply NoDup_cons_iff in Nd. destruct Nd as [Nv Nd]. apply Forall_cons_iff in Ha. destruct Ha as [[Na Lv] Ha].
  cbn [List.length] in Hf. specialize (H2 v (or_introl eq_refl)) as Hv2.
  assert (Eu : u64 (vm_start (info v) + 1) = vm_start (info v) + 1).
  { unfold u64, wrap. apply Z.mod_small. unfold proper in Pv. lia. }
  rewrite Eu. destruct (find_index info s l fuel (vm_start (info v) + 1) Hi ltac:(lia)) as (a & E1 & E2). rewrite E1.
  assert (Hsame : forall o, In o l -> covers info o (vm_start (info v) + 1) -> In o os /\ same_range info o v).
  { intros o Hoo Hc. destruct (Hlo o Hoo) as [K|[K1 K2]].
    - split; auto. destruct (Ho o K) as (w & W1 & W2 & W3).
      destruct (Z.eq_dec w v) as [->|N]; [split; auto|].
      exfalso. specialize (Hd w v W1 (Hin v (or_introl eq_refl)) N). unfold covers, disjoint in *. lia.
    - exfalso. assert (N : o <> v) by (intros ->; apply K2; left; auto).
      specialize (Hd o v K1 (Hin v (or_introl eq_refl)) N). unfold covers, disjoint in *. lia. }
  destruct E2 as [[A1 A2]|[-> A2]].
  - destruct (Hsame a A1 A2) as [A3 [S1 S2]].
    assert (K : isnew os v = false) by (apply isnew_false; exists a; split; [auto|split; auto]).
    rewrite K. rewrite S1, S2, !Z.eqb_refl.
    destruct (Z.eqb_spec a 0) as [->|_]; [exfalso; apply (Hz 0); auto|]. cbn [negb andb fst snd].
    apply (IH s prev l fuel); auto; try (intros; apply Hin; right; auto); try (intros; apply H2; right; auto);
      try (intros; apply Hn; right; auto); try lia.
    intros o Hoo. destruct (Hlo o Hoo) as [G|[G1 G2]]; auto. right. split; auto. intros G. apply G2. right. auto.
  - assert (K : isnew os v = true).
    { apply isnew_true. intros (o & O1 & O2 & O3). apply (A2 o (Hol o O1)). unfold covers. lia. }
    rewrite K. cbn [Z.eqb negb andb read_loop]. unfold read_one at 1.
    set (s0 := Vr (v_rb s) (v_list s) (fun x => if x =? v then v else v_leader s x)).
    assert (Hi0 : index info s0 l) by exact Hi.
    destruct (insert_step info s0 l v prev fuel Hi0 Pv (Hn v (or_introl eq_refl)) Na Lv ltac:(lia))
      as (s1 & E3 & E4 & E5 & E6).
    rewrite E3. cbn [fst snd]. cbn [s0 v_list v_rb] in *.
    assert (Al : allocated s1 vs).
    { unfold allocated in *. rewrite Forall_forall in *. intros x Hx. destruct (Ha x Hx). split; auto. }
    destruct E6 as [(b & B1 & B2 & B3)|(_ & L & R & -> & Hi1)].
    { exfalso. apply B2. destruct (Hlo b B1) as [G|[G1 G2]].
      - destruct (Ho b G) as (w & W1 & W2 & W3). destruct (Z.eq_dec w v) as [->|N].
        + exfalso. apply (A2 b B1). unfold covers. unfold proper in Pv. lia.
        + specialize (Hd w v W1 (Hin v (or_introl eq_refl)) N). unfold disjoint in *. lia.
      - apply Hd; auto. apply Hin; left; auto. intros ->. apply G2. left; auto. }
    apply (IH s1 v (L ++ v :: R) fuel); auto.
    + intros; apply Hin; right; auto.
    + intros; apply H2; right; auto.
    + intros x Hx G. apply in_app_iff in G. destruct G as [G|[->|G]]; auto;
        apply (Hn x (or_intror Hx)); apply in_app_iff; auto.
    + intros x G. apply in_app_iff in G. destruct G as [G|[<-|G]];
        [apply Hz; apply in_app_iff; auto|destruct Na; lia|apply Hz; apply in_app_iff; auto].
    + intros o O1. specialize (Hol o O1). apply in_app_iff in Hol. apply in_app_iff. destruct Hol; auto. right. right. auto.
    + intros o G. assert (G' : o = v \/ In o (L ++ R)).
      { apply in_app_iff in G. rewrite in_app_iff. destruct G as [G|[G|G]]; auto. }
      destruct G' as [->|G'].
      * right. split; [apply Hin; left; auto|auto].
      * destruct (Hlo o G') as [Q|[Q1 Q2]]; auto. right. split; auto. intros Q. apply Q2. right; auto.
    + rewrite app_length in *. cbn [List.length]. lia.
Qed.

(** All that is known after a first reading and a refresh. *)
Lemma refreshed s vs ws fuel :
  rootp (v_rb s) = 0 -> memory_map info vs -> allocated s vs ->
  (List.length vs + List.length ws < fuel)%nat ->
  memory_map info ws -> allocated s ws -> (forall v, In v ws -> ~ In v vs) ->
  (forall v, In v ws -> vm_start (info v) + 2 <= vm_end (info v)) ->
  (forall o, In o vs -> exists v, In v ws /\ same_range info o v) ->
  exists s1 s2, read_task_vmas fuel info false s vs = Some s1 /\
    read_task_vmas fuel info true s1 ws = Some s2 /\
    read_loop fuel info false s1 0 (filter (isnew vs) ws) = Some s2 /\
    (forall v, In v ws -> isnew vs v = true -> find_vma fuel info s2 (vm_start (info v)) = Some v) /\
    (forall o, In o vs -> find_vma fuel info s2 (vm_start (info o)) = Some o).
Proof.
  intros H M A F Mw Aw Hd H2 Ho.
  destruct (read_map info s vs fuel H M A ltac:(lia)) as (s1 & l & E & I & S & _ & G & K).
  destruct M as (M1 & M2 & M3). destruct Mw as (W1 & W2 & W3).
  assert (Nz : forall a, In a l -> a <> 0).
  { intros a Ha. apply S in Ha. unfold allocated in A. rewrite Forall_forall in A. destruct (A a Ha) as [[? ?] _]. lia. }
  assert (Aw1 : allocated s1 ws).
  { unfold allocated in *. rewrite Forall_forall in *. intros v Hv. destruct (Aw v Hv). split; auto. }
  assert (Er : read_loop fuel info true s1 0 ws = read_loop fuel info false s1 0 (filter (isnew vs) ws)).
  { apply (refresh_as_read ws vs ws s1 0 l fuel); auto.
    - intros v Hv Hl. apply (Hd v Hv). apply S. auto.
    - intros o O1. apply S. auto.
    - intros o O1. left. apply S. auto.
    - lia. }
  assert (Fi : forall v, In v (filter (isnew vs) ws) -> In v ws /\ isnew vs v = true).
  { intros v Hv. apply filter_In in Hv. auto. }
  assert (Lf : (List.length (filter (isnew vs) ws) <= List.length ws)%nat).
  { clear. induction ws as [|w ws IH]; cbn [filter]; [lia|]. destruct (isnew vs w); cbn [List.length]; lia. }
  destruct (read_fresh info (filter (isnew vs) ws) s1 0 l fuel I) as (s2 & l2 & B1 & B2 & B3 & _ & B5 & _).
  - apply Forall_forall. intros v Hv. rewrite Forall_forall in W1. apply W1. apply Fi. auto.
  - apply NoDup_filter. auto.
  - intros v Hv Hl. apply (Hd v); [apply Fi; auto|apply S; auto].
  - unfold allocated in *. rewrite Forall_forall in *. intros v Hv. apply Aw1. apply Fi. auto.
  - lia.
  - exists s1, s2. split; auto. unfold read_task_vmas. rewrite Er. split; auto. split; auto.
    assert (Pd : forall a b, In a (l ++ filter (isnew vs) ws) -> In b (l ++ filter (isnew vs) ws) -> a <> b -> disjoint info a b).
    { assert (X : forall a b, In a vs -> In b ws -> isnew vs b = true -> disjoint info a b).
      { intros a b Ha Hb Nb. destruct (Ho a Ha) as (v & V1 & V2 & V3).
        destruct (Z.eq_dec v b) as [->|N].
        - exfalso. apply isnew_true in Nb. apply Nb. exists a. split; [auto|split; auto].
        - specialize (W3 v b V1 Hb N). unfold disjoint in *. lia. }
      intros a b Ha Hb N. apply in_app_iff in Ha, Hb. destruct Ha as [Ha|Ha], Hb as [Hb|Hb].
      - apply M3; auto; apply S; auto.
      - apply Fi in Hb. destruct Hb. apply X; auto. apply S; auto.
      - apply Fi in Ha. destruct Ha. destruct (X b a ltac:(apply S; auto)); auto; [right|left]; auto.
      - apply W3; auto; apply Fi; auto. }
    assert (Nd : NoDup (l ++ filter (isnew vs) ws)).
    { assert (Nl : NoDup l) by (eapply index_nodup; eauto). clear - Nl W2 Hd S Fi.
      assert (Dj : forall x, In x l -> ~ In x (filter (isnew vs) ws)).
      { intros x Hx G. apply (Hd x); [apply Fi; auto|apply S; auto]. }
      pose proof (NoDup_filter (isnew vs) W2) as Nf. apply nodup_app; auto. }
    pose proof (indexed_after_all info _ _ Pd Nd) as Q.
    assert (Mem : forall x, In x l2 <-> In x l \/ In x (filter (isnew vs) ws)).
    { intros x. rewrite (B3 x), (Q x), in_app_iff. tauto. }
    assert (Fd : forall x, In x (l ++ filter (isnew vs) ws) -> proper info x -> find_vma fuel info s2 (vm_start (info x)) = Some x).
    { intros x Hx Px. destruct (find_index info s2 l2 fuel (vm_start (info x)) B2 ltac:(lia)) as (a & A1 & [[A2 A3]|[-> A3]]).
      - destruct (Z.eq_dec a x) as [->|N]; auto. exfalso.
        apply Mem in A2. assert (Ha : In a (l ++ filter (isnew vs) ws)) by (apply in_app_iff; auto).
        specialize (Pd a x Ha Hx N). unfold disjoint, covers, proper in *. lia.
      - exfalso. apply (A3 x); [apply Mem; apply in_app_iff; auto|]. unfold covers, proper in *. lia. }
    split.
    + intros v Hv Nv. apply Fd; [apply in_app_iff; right; apply filter_In; auto|]. rewrite Forall_forall in W1. auto.
    + intros o O1. apply Fd; [apply in_app_iff; left; apply S; auto|]. rewrite Forall_forall in M1. auto.
Qed.

(** The lines of a grown map. *)
Lemma grown_app all L : forall os R, grown info all os (L ++ R) ->
  exists oL oR, os = oL ++ oR /\ grown info all oL L /\ grown info all oR R.
Proof.
  induction L as [|v L IH]; intros os R H; cbn [app] in *.
  - exists [], os. split; [reflexivity|]. split; [constructor|auto].
  - inversion H; subst.
    + destruct (IH _ _ H6) as (oL & oR & -> & A & B). exists (o :: oL), oR. split; [reflexivity|]. split; auto. constructor; auto.
    + destruct (IH _ _ H4) as (oL & oR & -> & A & B). exists oL, oR. split; [reflexivity|]. split; auto. constructor; auto.
Qed.

Lemma grown_all_kept all M : forall os, grown info all os M -> (forall x, In x M -> kept info all x) ->
  Forall2 (fun o v => same_range info o v /\ vm_name (info o) = vm_name (info v)) os M.
Proof.
  induction M as [|v M IH]; intros os H K.
  - inversion H; subst. constructor.
  - inversion H; subst.
    + constructor; [auto|]. apply IH; auto. intros x Hx. apply K. right. auto.
    + exfalso. match goal with N : ~ kept _ _ v |- _ => apply N end. apply K. left. auto.
Qed.

(** The line matching the last old mapping is followed by new lines only. *)
Lemma grown_none all L : forall os, grown info all os L -> os = [] -> forall x, In x L -> ~ kept info all x.
Proof. induction 1; intros E x Hx; [destruct Hx|discriminate|]. destruct Hx as [<-|Hx]; auto. Qed.

Lemma grown_last all os' L : grown info all os' L -> forall os o, os' = os ++ [o] ->
  exists L1 p Q, L = L1 ++ p :: Q /\ vm_name (info o) = vm_name (info p) /\ (forall x, In x Q -> ~ kept info all x).
Proof.
  induction 1 as [|o' os' v vs Hi Hr Hn Hg IH|os' v vs Hk Hg IH]; intros os o E.
  - destruct os; discriminate.
  - destruct os as [|o1 os]; cbn [app] in E.
    + assert (o' = o) by congruence. assert (os' = []) by congruence. subst. exists [], v, vs. split; [reflexivity|]. split; auto.
      eapply grown_none; eauto.
    + assert (os' = os ++ [o]) by congruence. destruct (IH os o H) as (L1 & p & Q & -> & A & B). exists (v :: L1), p, Q. auto.
  - destruct (IH os o E) as (L1 & p & Q & -> & A & B). exists (v :: L1), p, Q. auto.
Qed.

Lemma kept_dec os v : kept info os v \/ ~ kept info os v.
Proof. destruct (isnew os v) eqn:E; [right; apply isnew_true; auto|left; apply isnew_false; auto]. Qed.

Lemma forall2_in {A B} (P : A -> B -> Prop) l m : Forall2 P l m -> forall x, In x m -> exists o, In o l /\ P o x.
Proof. induction 1; intros z []; subst; eauto. - exists x. split; [left|]; auto. - destruct (IHForall2 _ H1) as (o & ? & ?). exists o. split; [right|]; auto. Qed.

End Map.
