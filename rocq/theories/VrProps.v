(** What a refreshed memory map says of names and groups: C203, C204 (vma.c 321-405). *)
From Coq Require Import ZArith String List Bool Lia Sorted.
From Verif Require Import Word RbModel RbSpec RbPure RbWalk Str VmaModel VmaSpec VmaProofs VmaProps VrSpec VrProofs.
Import ListNotations.
Open Scope Z_scope.

(** ** C203 *)

(** A library (node 16) of which a second part (node 48, next to it) is mapped while the
    tool is at work: the second part is a group of its own. *)
Definition two_parts (v : Z) : vinfo :=
  if v =? 16 then Vi 4194304 4198400 (str "/lib/a")
  else if v =? 32 then Vi 4194304 4198400 (str "/lib/a")
  else if v =? 48 then Vi 4198400 4202496 (str "/lib/a")
  else Vi 0 0 [].

Theorem C203_leaders_refuted : exists info s vs ws fuel s1 s2,
  rootp (v_rb s) = 0 /\ memory_map info vs /\ allocated s vs /\ memory_map info ws /\ allocated s ws /\
  grown info vs vs ws /\
  read_task_vmas fuel info false s vs = Some s1 /\ read_task_vmas fuel info true s1 ws = Some s2 /\
  ~ leaders_current fuel info s2 ws.
Proof.
  exists two_parts, ex_root, [16], [32; 48], 4%nat.
  set (s1 := match read_task_vmas 4 two_parts false ex_root [16] with Some s => s | None => ex_root end).
  set (s2 := match read_task_vmas 4 two_parts true s1 [32; 48] with Some s => s | None => ex_root end).
  exists s1, s2. split; [reflexivity|]. split.
  { split; [repeat constructor; vm_compute; congruence|]. split; [repeat constructor; cbn; intuition lia|].
    intros a b [<-|[]] [<-|[]]; congruence. }
  split; [repeat constructor; cbn; discriminate|]. split.
  { split; [repeat constructor; vm_compute; congruence|]. split; [repeat constructor; cbn; intuition lia|].
    intros a b [<-|[<-|[]]] [<-|[<-|[]]] N; try congruence; ((left; vm_compute; congruence) || (right; vm_compute; congruence)). }
  split; [repeat constructor; cbn; discriminate|]. split.
  { constructor; [left; reflexivity|split; reflexivity|reflexivity|]. constructor; [|constructor].
    intros (o & [<-|[]] & A & _). vm_compute in A. discriminate. }
  split; [reflexivity|]. split; [reflexivity|].
  intros H. destruct (H [] 32 [48] [] ltac:(split; [reflexivity|split; [intros x [<-|[]]; reflexivity|intros L' p E; destruct L'; discriminate]])
                        48 ltac:(right; left; reflexivity)) as (a & A & _ & [B _]).
  assert (a = 48) by (vm_compute in A; congruence). subst a. vm_compute in B. discriminate.
Qed.
Print Assumptions C203_leaders_refuted.

(** When the map only grew, the new mappings have names of their own and none comes between
    two mappings of one object, the groups after a refresh are those of the current map. *)
Theorem C203_leaders_partial : forall info s vs ws fuel,
  rootp (v_rb s) = 0 -> memory_map info vs -> allocated s vs ->
  (List.length vs + List.length ws < fuel)%nat ->
  memory_map info ws -> allocated s ws -> (forall v, In v ws -> ~ In v vs) ->
  (forall v, In v ws -> vm_start (info v) + 2 <= vm_end (info v)) ->
  grown info vs vs ws -> own_names info vs ws -> no_split info vs ws ->
  exists s1 s2, read_task_vmas fuel info false s vs = Some s1 /\
    read_task_vmas fuel info true s1 ws = Some s2 /\ leaders_current fuel info s2 ws.
Proof.
  intros info s vs ws fuel H M A F Mw Aw Hd H2 G On Ns.
  assert (Ho : forall o, In o vs -> exists v, In v ws /\ same_range info o v).
  { intros o Hoo. assert (X : forall all os l, grown info all os l -> In o os -> exists v, In v l /\ same_range info o v).
    { clear. intros all os l G. induction G as [|o' os v l Hi Hr Hn Hg IH|os v l Hk Hg IH]; intros Hin; [destruct Hin| |].
      - destruct Hin as [->|Hin]; [exists v; split; [left|]; auto|]. destruct (IH Hin) as (x & ? & ?). exists x. split; [right|]; auto.
      - destruct (IH Hin) as (x & ? & ?). exists x. split; [right|]; auto. }
    eauto. }
  destruct (refreshed info s vs ws fuel H M A F Mw Aw Hd H2 Ho) as (s1 & s2 & E1 & E2 & E3 & E4 & E5).
  exists s1, s2. split; auto. split; auto.
  assert (Z0 : forall l, allocated s l -> ~ In 0 l).
  { intros l Al G0. unfold allocated in Al. rewrite Forall_forall in Al. destruct (Al 0 G0) as [[? ?] _]. lia. }
  assert (Nd : NoDup (filter (isnew info vs) ws)) by (apply NoDup_filter; apply Mw).
  assert (Zf : ~ In 0 (filter (isnew info vs) ws)) by (intros G0; apply filter_In in G0; apply (Z0 ws Aw); apply G0).
  destruct (read_leader info _ fuel s1 0 s2 E3 Nd Zf) as (R1 & R2 & _).
  intros L w M0 R Ru x Hx. pose proof Ru as (U1 & U2 & U3).
  assert (Hin : forall y, In y (w :: M0) -> In y ws).
  { intros y Hy. rewrite U1. apply in_app_iff. right. destruct Hy as [<-|Hy]; [left; auto|right; apply in_app_iff; auto]. }
  destruct (kept_dec info vs w) as [Kw|Kw].
  - (* a run that was there *)
    assert (Km : forall y, In y (w :: M0) -> kept info vs y).
    { intros y Hy. destruct (kept_dec info vs y) as [K|K]; auto. exfalso.
      destruct Hy as [<-|Hy]; [contradiction|].
      apply (On y w (Hin y ltac:(right; auto)) (Hin w ltac:(left; auto))); [|auto|symmetry; auto].
      intros ->. contradiction. }
    assert (G' := G). rewrite U1 in G'. change (L ++ w :: M0 ++ R) with (L ++ (w :: M0) ++ R) in G'.
    destruct (grown_app info vs _ _ _ G') as (oL & oT & V1 & GL & GT).
    destruct (grown_app info vs _ _ _ GT) as (oM & oR & -> & GM & GR).
    pose proof (grown_all_kept info vs _ _ GM Km) as F2.
    inversion F2 as [|o1 ? oM' ? [S1 S2] F3]; subst oM y l'.
    assert (Ro : run_at info vs oL o1 oM' oR).
    { split; [exact V1|]. split.
      - intros y Hy. rewrite S2.
        assert (X : exists m, In m M0 /\ vm_name (info y) = vm_name (info m)).
        { clear - F3 Hy. induction F3 as [|a b la lb [Q1 Q2] Q3 IH]; [destruct Hy|].
          destruct Hy as [->|Hy]; [exists b; split; [left|]; auto|]. destruct (IH Hy) as (m & ? & ?). exists m. split; [right|]; auto. }
        destruct X as (m & X1 & X2). rewrite X2. apply U2; auto.
      - intros L' p EL. destruct (grown_last info vs oL L GL L' p EL) as (L1 & q & Q & EQ & N1 & N2).
        rewrite N1, S2. destruct Q as [|q1 Q].
        + apply (U3 L1 q). exact EQ.
        + apply (Ns L1 q (q1 :: Q) w (M0 ++ R)); [|discriminate|auto].
          rewrite U1, EQ, <- app_assoc. reflexivity. }
    destruct (forall2_in _ _ _ F2 x Hx) as (o & O1 & O2 & O3).
    assert (Ov : In o vs).
    { rewrite V1. apply in_app_iff. right. apply in_app_iff. left. exact O1. }
    exists o. split; [destruct O2 as [O2 _]; rewrite <- O2; auto|]. split; auto.
    assert (Lo : v_leader s2 o = o1).
    { rewrite R1.
      - apply (C73_leaders info s vs fuel s1 E1 (proj1 (proj2 M)) (Z0 vs A) _ _ _ _ Ro o O1).
      - intros G0. apply filter_In in G0. apply (Hd o); [apply G0|auto]. }
    rewrite Lo. exact S1.
  - (* a new mapping *)
    assert (M0 = []).
    { destruct M0 as [|m M0]; auto. exfalso. apply (On w m); auto.
      - apply Hin. left; auto.
      - apply Hin. right. left. auto.
      - intros ->. destruct Mw as (_ & Nw & _). rewrite U1 in Nw. apply NoDup_remove_2 in Nw. apply Nw.
        apply in_app_iff. right. left. auto.
      - apply U2. left; auto. }
    subst M0. destruct Hx as [<-|[]]. pose proof (Hin w ltac:(left; auto)) as Hw.
    assert (Nw : isnew info vs w = true) by (apply isnew_true; auto).
    exists w. split; [auto|]. split; [split; auto|].
    assert (Lw : v_leader s2 w = w); [|rewrite Lw; split; auto].
    assert (Hf : In w (filter (isnew info vs) ws)) by (apply filter_In; auto).
    destruct (in_split _ _ Hf) as (fL & fR & Ef).
    apply (R2 fL w [] fR Ef); [intros y []| |auto|left; auto].
    destruct (rev fL) as [|p q] eqn:Er; [auto|].
    assert (Hp : In p (filter (isnew info vs) ws)).
    { rewrite Ef. apply in_app_iff. left. apply in_rev. rewrite Er. left; auto. }
    apply filter_In in Hp. destruct Hp as [Hp _]. apply (On w p); auto.
    intros ->. rewrite Ef in Nd. apply NoDup_remove_2 in Nd. apply Nd. apply in_app_iff. left. apply in_rev. rewrite Er. left; auto.
Qed.
Print Assumptions C203_leaders_partial.

(** A program of two mappings and a stack, to which a patch was mapped. *)
Definition grown_info (v : Z) : vinfo :=
  if (v =? 16) || (v =? 128) then Vi 4194304 4202496 (str "/bin/a")
  else if (v =? 32) || (v =? 144) then Vi 4202496 4206592 (str "/bin/a")
  else if (v =? 48) || (v =? 160) then Vi 140000000000000 140000000004096 (str "[stack]")
  else if v =? 176 then Vi 8388608 8392704 (str "/tmp/ulpatch/1/map_files/ulp-abc")
  else Vi 0 0 [].

Lemma grown_now : grown grown_info [16; 32; 48] [16; 32; 48] [128; 144; 176; 160].
Proof.
  constructor; [cbn; auto|split; reflexivity|reflexivity|]. constructor; [cbn; auto|split; reflexivity|reflexivity|].
  constructor; [|constructor; [cbn; auto|split; reflexivity|reflexivity|constructor]].
  intros (o & [<-|[<-|[<-|[]]]] & A & _); vm_compute in A; discriminate.
Qed.

Lemma grown_kept_now v : In v [128; 144; 176; 160] -> ~ kept grown_info [16; 32; 48] v -> v = 176.
Proof.
  intros [<-|[<-|[<-|[<-|[]]]]] K; auto; exfalso; apply K;
    [exists 16|exists 32|exists 48]; (split; [cbn; auto|split; reflexivity]).
Qed.

Example C203_leaders_partial_ex :
  memory_map grown_info [16; 32; 48] /\ allocated ex_root [16; 32; 48] /\
  memory_map grown_info [128; 144; 176; 160] /\ allocated ex_root [128; 144; 176; 160] /\
  grown grown_info [16; 32; 48] [16; 32; 48] [128; 144; 176; 160] /\
  own_names grown_info [16; 32; 48] [128; 144; 176; 160] /\ no_split grown_info [16; 32; 48] [128; 144; 176; 160] /\
  match read_task_vmas 9 grown_info false ex_root [16; 32; 48] with
  | Some s => match read_task_vmas 9 grown_info true s [128; 144; 176; 160] with
              | Some s' => v_leader s' 32 = 16 /\ v_leader s' 176 = 176 /\ v_leader s' 48 = 48
              | None => False
              end
  | None => False
  end.
Proof.
  split.
  { split; [repeat constructor; vm_compute; congruence|]. split; [repeat constructor; cbn; intuition lia|].
    intros a b [<-|[<-|[<-|[]]]] [<-|[<-|[<-|[]]]] N; try congruence; ((left; vm_compute; congruence) || (right; vm_compute; congruence)). }
  split; [repeat constructor; cbn; discriminate|]. split.
  { split; [repeat constructor; vm_compute; congruence|]. split; [repeat constructor; cbn; intuition lia|].
    intros a b [<-|[<-|[<-|[<-|[]]]]] [<-|[<-|[<-|[<-|[]]]]] N; try congruence; ((left; vm_compute; congruence) || (right; vm_compute; congruence)). }
  split; [repeat constructor; cbn; discriminate|]. split; [exact grown_now|]. split.
  { intros v u Hv Hu N K. rewrite (grown_kept_now v Hv K) in *.
    destruct Hu as [<-|[<-|[<-|[<-|[]]]]]; try congruence; vm_compute; discriminate. }
  split; [|vm_compute; auto].
  intros L p Q q R E Nq K.
  assert (Q = [176]).
  { assert (Sub : forall x, In x Q -> x = 176).
    { intros x Hx. apply grown_kept_now; [|auto]. rewrite E. apply in_app_iff. right. right. apply in_app_iff. auto. }
    assert (Nn : NoDup (L ++ p :: Q ++ q :: R)) by (rewrite <- E; repeat constructor; cbn; intuition lia).
    destruct Q as [|x [|y Q]]; [congruence|f_equal; apply Sub; left; auto|].
    exfalso. assert (x = 176) by (apply Sub; left; auto). assert (y = 176) by (apply Sub; right; left; auto). subst.
    apply NoDup_remove_1 in Nn. cbn [app] in Nn. apply NoDup_remove_2 in Nn. apply Nn. apply in_app_iff. right. left. auto. }
  subst Q. cbn [app] in E. destruct L as [|a [|b [|c [|d L]]]]; cbn [app] in E; try congruence.
  - injection E as <- <- <- <-. vm_compute. discriminate.
  - exfalso. assert (Z := f_equal (@List.length Z) E). cbn in Z. rewrite app_length in Z. cbn in Z. lia.
Qed.

(** ** C204 *)

(** A file mapped in place of another. *)
Definition replaced (v : Z) : vinfo :=
  if v =? 16 then Vi 4194304 4198400 (str "/lib/a")
  else if v =? 32 then Vi 4194304 4198400 (str "/lib/b")
  else Vi 0 0 [].

Theorem C204_names_refuted : exists info s vs ws fuel s1 s2,
  rootp (v_rb s) = 0 /\ memory_map info vs /\ allocated s vs /\ memory_map info ws /\ allocated s ws /\
  (forall o, In o vs -> exists v, In v ws /\ same_range info o v) /\
  read_task_vmas fuel info false s vs = Some s1 /\ read_task_vmas fuel info true s1 ws = Some s2 /\
  ~ names_current fuel info s2 ws.
Proof.
  exists replaced, ex_root, [16], [32], 4%nat.
  set (s1 := match read_task_vmas 4 replaced false ex_root [16] with Some s => s | None => ex_root end).
  exists s1, s1. split; [reflexivity|]. split.
  { split; [repeat constructor; vm_compute; congruence|]. split; [repeat constructor; cbn; intuition lia|].
    intros a b [<-|[]] [<-|[]]; congruence. }
  split; [repeat constructor; cbn; discriminate|]. split.
  { split; [repeat constructor; vm_compute; congruence|]. split; [repeat constructor; cbn; intuition lia|].
    intros a b [<-|[]] [<-|[]]; congruence. }
  split; [repeat constructor; cbn; discriminate|]. split.
  { intros o [<-|[]]. exists 32. split; [left; auto|split; reflexivity]. }
  split; [reflexivity|]. split; [reflexivity|].
  intros H. destruct (H 32 ltac:(left; reflexivity)) as (a & A & _ & B).
  assert (a = 16) by (vm_compute in A; congruence). subst a. vm_compute in B. discriminate.
Qed.
Print Assumptions C204_names_refuted.

(** When the map only grew, every mapping of the current map is recorded under its name. *)
Theorem C204_names_partial : forall info s vs ws fuel,
  rootp (v_rb s) = 0 -> memory_map info vs -> allocated s vs ->
  (List.length vs + List.length ws < fuel)%nat ->
  memory_map info ws -> allocated s ws -> (forall v, In v ws -> ~ In v vs) ->
  (forall v, In v ws -> vm_start (info v) + 2 <= vm_end (info v)) ->
  grown info vs vs ws ->
  exists s1 s2, read_task_vmas fuel info false s vs = Some s1 /\
    read_task_vmas fuel info true s1 ws = Some s2 /\ names_current fuel info s2 ws.
Proof.
  intros info s vs ws fuel H M A F Mw Aw Hd H2 G.
  assert (X : forall all os l, grown info all os l ->
    (forall o, In o os -> In o all /\ exists v, In v l /\ same_range info o v) /\
    (forall v, In v l -> (exists o, In o os /\ same_range info o v /\ vm_name (info o) = vm_name (info v)) \/ ~ kept info all v)).
  { clear. intros all os l G. induction G as [|o' os v l Hi Hr Hn Hg [IH1 IH2]|os v l Hk Hg [IH1 IH2]].
    - split; intros ? [].
    - split.
      + intros o [<-|Ho]; [split; auto; exists v; split; [left|]; auto|]. destruct (IH1 o Ho) as (? & x & ? & ?).
        split; auto. exists x. split; [right|]; auto.
      + intros x [<-|Hx]; [left; exists o'; split; [left|]; auto|]. destruct (IH2 x Hx) as [(o & ? & ?)|?]; auto.
        left. exists o. split; [right|]; auto.
    - split.
      + intros o Ho. destruct (IH1 o Ho) as (? & x & ? & ?). split; auto. exists x. split; [right|]; auto.
      + intros x [<-|Hx]; auto. }
  destruct (X vs vs ws G) as [X1 X2].
  destruct (refreshed info s vs ws fuel H M A F Mw Aw Hd H2 ltac:(intros o Ho; apply X1; auto)) as (s1 & s2 & E1 & E2 & E3 & E4 & E5).
  exists s1, s2. split; auto. split; auto.
  intros v Hv. destruct (X2 v Hv) as [(o & O1 & O2 & O3)|K].
  - exists o. split; [|auto]. destruct O2 as [O2 _]. rewrite <- O2. auto.
  - exists v. split; [apply E4; auto; apply isnew_true; auto|]. split; [split|]; auto.
Qed.
Print Assumptions C204_names_partial.

Example C204_names_partial_ex :
  grown grown_info [16; 32; 48] [16; 32; 48] [128; 144; 176; 160] /\
  match read_task_vmas 9 grown_info false ex_root [16; 32; 48] with
  | Some s => match read_task_vmas 9 grown_info true s [128; 144; 176; 160] with
              | Some s' => find_vma 9 grown_info s' 8388608 = Some 176 /\ find_vma 9 grown_info s' 4202496 = Some 32
              | None => False
              end
  | None => False
  end.
Proof. split; [exact grown_now|]. vm_compute. auto. Qed.
