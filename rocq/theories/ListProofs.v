From Coq Require Import ZArith List Bool Lia Permutation.
From Verif Require Import ListModel ListSpec.
Import ListNotations.
Open Scope Z_scope.

(** Last element of a non-empty sequence. *)
Fixpoint lst (a : Z) (xs : list Z) : Z := match xs with [] => a | x :: xs => lst x xs end.

Lemma lst_in a xs : In (lst a xs) (a :: xs).
Proof.
  revert a. induction xs as [|x xs IH]; intros a; cbn [lst]; [cbn; auto|]. right. apply IH.
Qed.
Lemma lst_app a xs y ys : lst a (xs ++ y :: ys) = lst y ys.
Proof. revert a. induction xs; intros; cbn; auto. Qed.
Lemma hd_in (b : Z) ys : In (hd b ys) (ys ++ [b]).
Proof. destruct ys; cbn; auto. Qed.

Lemma path_split h a xs ys b :
  path h a (xs ++ ys) b <-> path h a xs (hd b ys) /\ path h (lst a xs) ys b.
Proof.
  revert a. induction xs as [|x xs IH]; intros a; cbn [app path lst].
  - destruct ys; cbn [path hd]; tauto.
  - rewrite IH. tauto.
Qed.
Lemma path_app h a xs y ys b : path h a (xs ++ y :: ys) b <-> path h a xs y /\ path h y ys b.
Proof.
  revert a. induction xs as [|x xs IH]; intros a; cbn [app path].
  - tauto.
  - rewrite IH. tauto.
Qed.

Lemma path_ext h h' a xs b :
  (forall z, In z (a :: xs) -> nx h' z = nx h z) -> (forall z, In z (xs ++ [b]) -> pv h' z = pv h z) ->
  path h a xs b -> path h' a xs b.
Proof.
  revert a. induction xs as [|x xs IH]; intros a N P H; cbn [path] in *.
  - rewrite N, P by (cbn; auto). exact H.
  - destruct H as (A & B & C). rewrite N, P by (cbn; auto). split; auto. split; auto.
    apply IH; auto; intros; [apply N|apply P]; cbn; auto.
Qed.

(** A path whose last link is redirected. *)
Lemma path_retail h h' a xs b b' :
  path h a xs b -> NoDup (a :: xs) ->
  (forall z, In z (a :: xs) -> z <> lst a xs -> nx h' z = nx h z) ->
  (forall z, In z xs -> pv h' z = pv h z) ->
  nx h' (lst a xs) = b' -> pv h' b' = lst a xs -> path h' a xs b'.
Proof.
  revert a. induction xs as [|x xs IH]; intros a H D N P E1 E2; cbn [path lst] in *; [auto|].
  destruct H as (A & B & C). apply NoDup_cons_iff in D; destruct D as [D1 D2].
  rewrite N, P; [|cbn; auto|cbn; auto|].
  - split; auto. split; auto. apply IH; auto; intros; [apply N; cbn; auto|apply P; cbn; auto].
  - intros E. apply D1. rewrite E. apply lst_in.
Qed.

(** A path whose first link is redirected. *)
Lemma path_rehead h h' a a' ys b :
  path h a ys b -> NoDup (ys ++ [b]) ->
  (forall z, In z ys -> nx h' z = nx h z) ->
  (forall z, In z (ys ++ [b]) -> z <> hd b ys -> pv h' z = pv h z) ->
  nx h' a' = hd b ys -> pv h' (hd b ys) = a' -> path h' a' ys b.
Proof.
  destruct ys as [|y ys]; intros H D N P E1 E2; cbn [path hd] in *; [auto|].
  destruct H as (A & B & C). split; auto. split; auto. apply NoDup_cons_iff in D; destruct D as [D1 D2].
  apply (path_ext h); auto. intros z Hz. apply P; cbn; auto. intros ->. apply D1. exact Hz.
Qed.

Lemma nodup_app {A} (xs ys : list A) :
  NoDup (xs ++ ys) <-> NoDup xs /\ NoDup ys /\ (forall x, In x xs -> In x ys -> False).
Proof.
  induction xs as [|x xs IH]; cbn [app].
  - split; [intros; split; [constructor|split; auto; intros ? []]|tauto].
  - rewrite !NoDup_cons_iff, IH, in_app_iff. cbn. split.
    + intros (H1 & H2 & H3 & H4). repeat split; auto. intros y [->|Hy] H5; eauto.
    + intros ((H1 & H2) & H3 & H4). repeat split; auto; try (intros y ? ?; eapply H4; eauto).
      intros [?|?]; eauto.
Qed.
Lemma nodup_rot (x : Z) ys : NoDup (x :: ys) -> NoDup (ys ++ [x]).
Proof.
  intros H. inversion H; subst. apply nodup_app. split; auto. split; [constructor; [intros []|constructor]|].
  intros y Hy [<-|[]]. auto.
Qed.

Lemma path_first h a xs b : path h a xs b -> nx h a = hd b xs.
Proof. destruct xs; cbn; tauto. Qed.
Lemma path_last h a xs b : path h a xs b -> pv h b = lst a xs.
Proof.
  revert a. induction xs as [|x xs IH]; intros a H; cbn [path lst] in *; [tauto|]. apply IH. tauto.
Qed.

(** ** Executing straight-line code on live entries *)

Lemma get_next_live h a : live h a = true -> get_next h a = Some (nx h a).
Proof. unfold get_next. intros ->. reflexivity. Qed.
Lemma get_prev_live h a : live h a = true -> get_prev h a = Some (pv h a).
Proof. unfold get_prev. intros ->. reflexivity. Qed.
Lemma set_next_live h a v : live h a = true -> set_next h a v = Some (Lh (live h) (set (nx h) a v) (pv h)).
Proof. unfold set_next. intros ->. reflexivity. Qed.
Lemma set_prev_live h a v : live h a = true -> set_prev h a v = Some (Lh (live h) (nx h) (set (pv h) a v)).
Proof. unfold set_prev. intros ->. reflexivity. Qed.

Ltac lv := cbn [live nx pv]; try assumption; auto.
Ltac run :=
  repeat first
    [ rewrite get_next_live by lv | rewrite get_prev_live by lv
    | rewrite set_next_live by lv | rewrite set_prev_live by lv ];
  cbn [live nx pv].

Lemma set_same f a v : set f a v a = v.
Proof. unfold set. rewrite Z.eqb_refl. reflexivity. Qed.
Lemma set_other f a v x : x <> a -> set f a v x = f x.
Proof. unfold set. intros H. destruct (Z.eqb_spec x a); congruence. Qed.

Definition ok_entry (h : lheap) (x : Z) : Prop := live h x = true /\ x <> 0.

Lemma ring_in h head l x : ring h head l -> In x (head :: l) -> live h x = true /\ x <> 0.
Proof. intros (_ & _ & F) H. rewrite Forall_forall in F. auto. Qed.

Lemma in_mid {A} (x y : A) xs ys : In x (xs ++ y :: ys) <-> x = y \/ In x (xs ++ ys).
Proof. rewrite !in_app_iff. cbn. intuition congruence. Qed.
Lemma nodup_mid {A} (y : A) xs ys : NoDup (xs ++ y :: ys) <-> ~ In y (xs ++ ys) /\ NoDup (xs ++ ys).
Proof.
  split.
  - intros H. split; [eapply NoDup_remove_2; eauto|eapply NoDup_remove_1; eauto].
  - intros [H1 H2]. apply nodup_app in H2. destruct H2 as (A1 & A2 & A3). apply nodup_app.
    rewrite in_app_iff in H1. rewrite NoDup_cons_iff. repeat split; auto.
    cbn. intros x Hx [<-|Hy]; eauto.
Qed.

(** Distinctness facts. *)
Ltac mem := exfalso; cbn [In app] in *; repeat rewrite in_app_iff in *; cbn [In] in *;
  intuition (subst; eauto; congruence).

(** Insertion between two neighbours. *)
Lemma insert_between h head xs ys new :
  ring h head (xs ++ ys) -> fresh h new (head :: xs ++ ys) ->
  exists h', __list_add h new (lst head xs) (hd head ys) = Some h' /\
    ring h' head (xs ++ new :: ys) /\ only_changes h h' [new; lst head xs; hd head ys].
Proof.
  intros R (L & NZ & Fr). pose proof R as (P & N & F).
  apply path_split in P. destruct P as [P1 P2].
  assert (Ip : In (lst head xs) (head :: xs)) by apply lst_in.
  assert (In_ : In (hd head ys) (ys ++ [head])) by apply hd_in.
  assert (Lp : live h (lst head xs) = true).
  { apply (ring_in h head (xs ++ ys)); auto. destruct Ip as [<-|Ip]; cbn; auto. right. apply in_app_iff; auto. }
  assert (Ln : live h (hd head ys) = true).
  { apply (ring_in h head (xs ++ ys)); auto. apply in_app_iff in In_. cbn in In_. cbn. rewrite in_app_iff. tauto. }
  assert (Fp : lst head xs <> new) by (intros E; apply Fr; rewrite <- E; destruct Ip as [<-|Ip]; cbn; auto; rewrite in_app_iff; auto).
  assert (Fn : hd head ys <> new).
  { intros E; apply Fr; rewrite <- E. apply in_app_iff in In_. cbn in In_. cbn. rewrite in_app_iff. tauto. }
  unfold __list_add. run. eexists. split; [reflexivity|]. split; [split; [|split]|].
  - apply path_app. apply NoDup_cons_iff in N; destruct N as [N1 N2]. apply nodup_app in N2. destruct N2 as (N2 & N3 & N4).
    rewrite in_app_iff in N1. split.
    + apply (path_retail h _ _ _ (hd head ys)); auto; cbn [nx pv].
      * constructor; auto.
      * intros z Hz Hd. rewrite set_other by auto. rewrite set_other; auto.
        intros ->. apply Fr. destruct Hz as [<-|Hz]; cbn; auto. rewrite in_app_iff; auto.
      * intros z Hz. rewrite !set_other; auto.
        -- intros E. apply in_app_iff in In_. rewrite <- E in In_. cbn in In_. destruct In_ as [H|[H|[]]]; [exact (N4 _ Hz H)|apply N1; left; rewrite H; exact Hz].
        -- intros ->. apply Fr. cbn. rewrite in_app_iff; auto.
      * apply set_same.
      * apply set_same.
    + apply (path_rehead h _ (lst head xs)); auto; cbn [nx pv].
      * apply nodup_rot. constructor; auto.
      * intros z Hz. rewrite !set_other; auto.
        -- intros ->. apply Fr. cbn. rewrite in_app_iff; auto.
        -- intros E. rewrite <- E in Ip. destruct Ip as [H|H]; [apply N1; right; rewrite H; exact Hz|exact (N4 _ H Hz)].
      * intros z Hz Hd. rewrite !set_other; auto. intros ->. apply Fr. apply in_app_iff in Hz. cbn in Hz. cbn.
        rewrite in_app_iff. tauto.
      * rewrite set_other by auto. apply set_same.
      * rewrite set_other by auto. apply set_same.
  - apply (nodup_mid new (head :: xs) ys). split; auto.
  - cbn [live]. rewrite Forall_forall in *. intros z Hz. apply (in_mid z new (head :: xs) ys) in Hz.
    destruct Hz as [->|Hz]; auto.
  - split; cbn [live nx pv]; auto. cbn. intros x Hx. rewrite !set_other by (intros ->; apply Hx; auto). auto.
Qed.

Lemma list_add_ok h head l new : ring h head l -> fresh h new (head :: l) ->
  exists h', list_add h new head = Some h' /\ ring h' head (l ++ [new]) /\
    only_changes h h' (new :: head :: l).
Proof.
  intros R Fr. assert (R2 : ring h head (l ++ [])) by (rewrite app_nil_r; auto).
  assert (Fr2 : fresh h new (head :: l ++ [])) by (rewrite app_nil_r; auto).
  destruct (insert_between h head l [] new R2 Fr2) as (h' & A & B & C).
  exists h'. unfold list_add. pose proof R as (P & N & F). rewrite get_prev_live.
  2:{ apply (ring_in h head l); cbn; auto. }
  rewrite (path_last _ _ _ _ P). split; [exact A|]. split; [exact B|].
  destruct C as [C1 C2]. split; auto. intros x Hx. apply C2. intros [E|[E|[E|[]]]]; apply Hx.
  - left; auto.
  - right. rewrite <- E. apply lst_in.
  - right. left. exact E.
Qed.

Lemma list_add_head_ok h head l new : ring h head l -> fresh h new (head :: l) ->
  exists h', list_add_head h new head = Some h' /\ ring h' head (new :: l) /\
    only_changes h h' (new :: head :: l).
Proof.
  intros R Fr. destruct (insert_between h head [] l new R Fr) as (h' & A & B & C).
  exists h'. unfold list_add_head. pose proof R as (P & N & F). rewrite get_next_live.
  2:{ apply (ring_in h head l); cbn; auto. }
  rewrite (path_first _ _ _ _ P). split; [exact A|]. split; [exact B|].
  destruct C as [C1 C2]. split; auto. intros x Hx. apply C2. intros [E|[E|[E|[]]]]; apply Hx.
  - left; auto.
  - right. left. exact E.
  - right. rewrite <- E. pose proof (hd_in head l) as H. apply in_app_iff in H. cbn in *. tauto.
Qed.

(** Removal. *)
Lemma list_del_ok h head xs a ys : ring h head (xs ++ a :: ys) ->
  exists h', list_del h a = Some h' /\ ring h' head (xs ++ ys) /\
    only_changes h h' (head :: xs ++ ys).
Proof.
  intros R. pose proof R as (P & N & F). apply path_app in P. destruct P as [P1 P2].
  apply (nodup_mid a (head :: xs) ys) in N. destruct N as [Na N]. cbn [app] in Na, N.
  assert (La : live h a = true).
  { apply (ring_in h head (xs ++ a :: ys)); auto. cbn. rewrite in_mid. auto. }
  unfold list_del. rewrite get_prev_live, get_next_live by auto.
  rewrite (path_last _ _ _ _ P1), (path_first _ _ _ _ P2).
  assert (Ip : In (lst head xs) (head :: xs)) by apply lst_in.
  assert (In_ : In (hd head ys) (ys ++ [head])) by apply hd_in.
  assert (Ip' : In (lst head xs) (head :: xs ++ ys)).
  { destruct Ip as [<-|Ip]; cbn; auto. right. apply in_app_iff; auto. }
  assert (In' : In (hd head ys) (head :: xs ++ ys)).
  { apply in_app_iff in In_. cbn in In_. cbn. rewrite in_app_iff. tauto. }
  assert (Lv : forall z, In z (head :: xs ++ ys) -> live h z = true /\ z <> 0).
  { intros z Hz. apply (ring_in h head (xs ++ a :: ys)); auto. apply (in_mid z a (head :: xs) ys). auto. }
  pose proof (proj1 (Lv _ Ip')) as Lp. pose proof (proj1 (Lv _ In')) as Ln.
  unfold __list_del. run. eexists. split; [reflexivity|]. split; [split; [|split]|].
  - apply path_split. apply NoDup_cons_iff in N; destruct N as [N1 N2]. apply nodup_app in N2. destruct N2 as (N2 & N3 & N4).
    rewrite in_app_iff in N1. split.
    + apply (path_retail h _ _ _ a); auto; cbn [nx pv].
      * constructor; auto.
      * intros z Hz Hd. rewrite set_other by auto. auto.
      * intros z Hz. rewrite !set_other; auto.
        intros E. apply in_app_iff in In_. rewrite <- E in In_. cbn in In_. destruct In_ as [H|[H|[]]]; [exact (N4 _ Hz H)|apply N1; left; rewrite H; exact Hz].
      * apply set_same.
      * apply set_same.
    + apply (path_rehead h _ a); auto; cbn [nx pv].
      * apply nodup_rot. constructor; auto.
      * intros z Hz. rewrite !set_other; auto. intros E. rewrite <- E in Ip. destruct Ip as [H|H]; [apply N1; right; rewrite H; exact Hz|exact (N4 _ H Hz)].
      * intros z Hz Hd. rewrite !set_other; auto.
      * apply set_same.
      * apply set_same.
  - exact N.
  - cbn [live]. apply Forall_forall. exact Lv.
  - split; cbn [live nx pv]; auto. intros x Hx. rewrite !set_other by (intros ->; apply Hx; auto). auto.
Qed.

Lemma ring_frame h h' head l zs : ring h head l -> only_changes h h' zs -> disjoint (head :: l) zs -> ring h' head l.
Proof.
  intros (P & N & F) (C1 & C2) D. split; [|split]; auto.
  - apply (path_ext h); auto; intros z Hz; apply C2; intros Hz'; apply (D z); auto.
    apply in_app_iff in Hz. cbn in *. tauto.
  - eapply Forall_impl; [|exact F]. cbn. intros x. rewrite C1. auto.
Qed.

Lemma list_init_ok h a : live h a = true -> a <> 0 ->
  exists h', list_init h a = Some h' /\ ring h' a [] /\ only_changes h h' [a].
Proof.
  intros L Z. unfold list_init. run. eexists. split; [reflexivity|]. split; [split; [|split]|].
  - cbn. rewrite !set_same. auto.
  - constructor; [intros []|constructor].
  - constructor; auto.
  - split; cbn [live nx pv]; auto. cbn. intros x H. rewrite !set_other by (intros ->; auto). auto.
Qed.

Lemma ring_split h head xs ys : ring h head (xs ++ ys) ->
  path h head xs (hd head ys) /\ path h (lst head xs) ys head /\
  In (lst head xs) (head :: xs) /\ In (hd head ys) (ys ++ [head]) /\
  live h (lst head xs) = true /\ live h (hd head ys) = true /\
  NoDup xs /\ NoDup ys /\ ~ In head xs /\ ~ In head ys /\ (forall x, In x xs -> In x ys -> False).
Proof.
  intros R. pose proof R as (P & N & F). apply path_split in P. destruct P as [P1 P2].
  pose proof (lst_in head xs) as Ip. pose proof (hd_in head ys) as In_.
  apply NoDup_cons_iff in N. destruct N as [N1 N2]. apply nodup_app in N2. destruct N2 as (N2 & N3 & N4).
  rewrite in_app_iff in N1.
  repeat split; auto.
  - apply (ring_in h head (xs ++ ys)); auto. destruct Ip as [<-|Ip]; cbn; auto. right. apply in_app_iff; auto.
  - apply (ring_in h head (xs ++ ys)); auto. apply in_app_iff in In_. cbn in In_. cbn. rewrite in_app_iff. tauto.
Qed.

Lemma list_replace_ok h head xs old ys new : ring h head (xs ++ old :: ys) ->
  fresh h new (head :: xs ++ old :: ys) ->
  exists h', list_replace h old new = Some h' /\ ring h' head (xs ++ new :: ys) /\
    only_changes h h' (new :: head :: xs ++ ys).
Proof.
  intros R (Lw & Zw & Fr). pose proof R as (P & N & F). apply path_app in P. destruct P as [P1 P2].
  apply (nodup_mid old (head :: xs) ys) in N. destruct N as [Na N]. cbn [app] in Na, N.
  assert (Lo : live h old = true).
  { apply (ring_in h head (xs ++ old :: ys)); auto. cbn. rewrite in_mid. auto. }
  assert (Ip : In (lst head xs) (head :: xs)) by apply lst_in.
  assert (In_ : In (hd head ys) (ys ++ [head])) by apply hd_in.
  assert (Ip' : In (lst head xs) (head :: xs ++ ys)).
  { destruct Ip as [<-|Ip]; cbn; auto. right. apply in_app_iff; auto. }
  assert (In' : In (hd head ys) (head :: xs ++ ys)).
  { apply in_app_iff in In_. cbn in In_. cbn. rewrite in_app_iff. tauto. }
  assert (Lv : forall z, In z (head :: xs ++ ys) -> live h z = true /\ z <> 0).
  { intros z Hz. apply (ring_in h head (xs ++ old :: ys)); auto. apply (in_mid z old (head :: xs) ys). auto. }
  pose proof (proj1 (Lv _ Ip')) as Lp. pose proof (proj1 (Lv _ In')) as Ln.
  assert (Fz : forall z, In z (head :: xs ++ ys) -> z <> new).
  { intros z Hz ->. apply Fr. apply (in_mid new old (head :: xs) ys). auto. }
  assert (Fo : old <> new) by (intros ->; apply Fr; apply (in_mid new new (head :: xs) ys); auto).
  assert (Zo : forall z, In z (head :: xs ++ ys) -> z <> old) by (intros z Hz ->; auto).
  unfold list_replace. rewrite get_next_live by auto. rewrite set_next_live by auto. run.
  rewrite set_same, (path_first _ _ _ _ P2). rewrite set_prev_live by auto. run.
  rewrite (set_other _ (hd head ys)) by (intros E; apply (Zo _ In'); auto).
  rewrite (path_last _ _ _ _ P1), set_same. rewrite set_next_live by auto. cbn [live nx pv].
  eexists. split; [reflexivity|]. split; [split; [|split]|].
  - apply path_app. pose proof N as N0. apply NoDup_cons_iff in N0; destruct N0 as [N1 N2]. apply nodup_app in N2.
    destruct N2 as (N2 & N3 & N4). rewrite in_app_iff in N1.
    assert (Ixs : forall z, In z xs -> In z (head :: xs ++ ys)) by (intros; right; apply in_app_iff; auto).
    assert (Iys : forall z, In z ys -> In z (head :: xs ++ ys)) by (intros; right; apply in_app_iff; auto).
    assert (Ih : In head (head :: xs ++ ys)) by (left; auto).
    split.
    + apply (path_retail h _ _ _ old); auto; cbn [nx pv].
      * constructor; auto.
      * intros z Hz Hd. rewrite !set_other; auto. apply Fz. destruct Hz as [<-|Hz]; auto.
      * intros z Hz. rewrite !set_other; auto.
        intros E. apply in_app_iff in In_. rewrite <- E in In_. cbn in In_.
        destruct In_ as [H|[H|[]]]; [exact (N4 _ Hz H)|apply N1; left; rewrite H; exact Hz].
      * apply set_same.
      * apply set_same.
    + apply (path_rehead h _ old); auto; cbn [nx pv].
      * apply nodup_rot. constructor; auto.
      * intros z Hz. rewrite !set_other; auto.
        intros E. rewrite <- E in Ip. destruct Ip as [H|H]; [apply N1; right; rewrite H; exact Hz|exact (N4 _ H Hz)].
      * intros z Hz Hd. rewrite !set_other; auto. apply Fz. apply in_app_iff in Hz. cbn in Hz.
        destruct Hz as [Hz|[<-|[]]]; auto.
      * rewrite set_other by (intros E; apply (Fz _ Ip'); auto). apply set_same.
      * rewrite set_other by (apply Fz; auto). apply set_same.
  - apply (nodup_mid new (head :: xs) ys). split; auto. intros H. apply (Fz new); auto.
  - cbn [live]. apply Forall_forall. intros z Hz. apply (in_mid z new (head :: xs) ys) in Hz.
    destruct Hz as [->|Hz]; auto.
  - split; cbn [live nx pv]; auto. intros x Hx.
    assert (x <> new) by (intros ->; apply Hx; cbn; auto).
    assert (x <> lst head xs) by (intros ->; apply Hx; right; auto).
    assert (x <> hd head ys) by (intros ->; apply Hx; right; auto).
    rewrite !set_other; auto.
Qed.

Lemma only_trans h h' h'' zs zs' ws : only_changes h h' zs -> only_changes h' h'' zs' ->
  (forall x, In x zs -> In x ws) -> (forall x, In x zs' -> In x ws) -> only_changes h h'' ws.
Proof.
  intros [A1 A2] [B1 B2] I1 I2. split.
  - intros x. rewrite B1. apply A1.
  - intros x Hx. destruct (A2 x) as [E1 E2]; [auto|]. destruct (B2 x) as [E3 E4]; [auto|].
    rewrite E3, E4. auto.
Qed.
Lemma only_weaken h h' zs ws : only_changes h h' zs -> (forall x, In x zs -> In x ws) -> only_changes h h' ws.
Proof. intros [A1 A2] I. split; auto. Qed.

(** Moving within one list. *)
Lemma list_move_same_ok h head xs a ys : ring h head (xs ++ a :: ys) ->
  exists h', list_move h a head = Some h' /\ ring h' head (xs ++ ys ++ [a]) /\
    only_changes h h' (head :: xs ++ a :: ys).
Proof.
  intros R. destruct (list_del_ok h head xs a ys R) as (h1 & A & B & C).
  unfold list_move. rewrite A.
  assert (Fr : fresh h1 a (head :: xs ++ ys)).
  { pose proof R as (_ & N & F). apply (nodup_mid a (head :: xs) ys) in N. destruct N as [N _].
    destruct (ring_in h head _ a R) as [L Z]; [apply (in_mid a a (head :: xs) ys); auto|].
    split; [rewrite (proj1 C); auto|]. split; auto. }
  destruct (list_add_ok h1 head (xs ++ ys) a B Fr) as (h2 & D & E & G).
  exists h2. split; auto. rewrite <- app_assoc in E. split; auto.
  eapply only_trans; [exact C|exact G| |]; intros x Hx; apply (in_mid x a (head :: xs) ys); cbn in *; intuition auto.
Qed.

(** Moving to another list. *)
Lemma list_move_other_ok h head xs a ys head2 l2 : ring h head (xs ++ a :: ys) -> ring h head2 l2 ->
  disjoint (head :: xs ++ a :: ys) (head2 :: l2) ->
  exists h', list_move h a head2 = Some h' /\ ring h' head (xs ++ ys) /\ ring h' head2 (l2 ++ [a]) /\
    only_changes h h' (head :: (xs ++ a :: ys) ++ head2 :: l2).
Proof.
  intros R R2 D. destruct (list_del_ok h head xs a ys R) as (h1 & A & B & C).
  unfold list_move. rewrite A.
  assert (S : forall x, In x (head :: xs ++ ys) -> In x (head :: xs ++ a :: ys)).
  { intros x Hx. apply (in_mid x a (head :: xs) ys). auto. }
  assert (Ia : In a (head :: xs ++ a :: ys)) by (apply (in_mid a a (head :: xs) ys); auto).
  assert (R2' : ring h1 head2 l2).
  { eapply ring_frame; [exact R2|exact C|]. intros x H1 H2. apply (D x); auto. }
  assert (Fr : fresh h1 a (head2 :: l2)).
  { destruct (ring_in h head _ a R Ia) as [L Z].
    split; [rewrite (proj1 C); auto|]. split; auto. intros H. apply (D a); auto. }
  destruct (list_add_ok h1 head2 l2 a R2' Fr) as (h2 & E & G & I).
  exists h2. split; auto. split; [|split; auto].
  - eapply ring_frame; [exact B|exact I|]. intros x H1 [<-|H2].
    + pose proof R as (_ & N & _). apply (nodup_mid a (head :: xs) ys) in N. destruct N as [N _]. auto.
    + apply (D x); auto.
  - eapply only_trans; [exact C|exact I| |]; intros x Hx.
    + apply S in Hx. cbn in *. rewrite in_app_iff. tauto.
    + cbn in *. rewrite !in_app_iff. cbn. tauto.
Qed.

Lemma list_rotate_ok h head l : ring h head l ->
  exists h', list_rotate_left h head = Some h' /\
    ring h' head (match l with [] => [] | x :: xs => xs ++ [x] end) /\ only_changes h h' (head :: l).
Proof.
  intros R. pose proof R as (P & N & F). unfold list_rotate_left, list_empty.
  destruct (ring_in h head l head R) as [L Z]; [cbn; auto|]. rewrite get_next_live by auto.
  rewrite (path_first _ _ _ _ P). destruct l as [|x xs]; cbn [hd].
  - rewrite Z.eqb_refl. exists h. split; auto. split; auto. split; auto.
  - destruct (Z.eqb_spec x head) as [->|_].
    { exfalso. apply NoDup_cons_iff in N. apply (proj1 N). left; auto. }
    apply (list_move_same_ok h head [] x xs R).
Qed.

Lemma list_empty_ok h head l : ring h head l -> list_empty h head = Some (match l with [] => true | _ => false end).
Proof.
  intros R. pose proof R as (P & N & F). unfold list_empty.
  destruct (ring_in h head l head R) as [L Z]; [cbn; auto|]. rewrite get_next_live by auto.
  rewrite (path_first _ _ _ _ P). destruct l as [|x xs]; cbn [hd]; [rewrite Z.eqb_refl; auto|].
  destruct (Z.eqb_spec x head) as [->|_]; auto.
  exfalso. apply NoDup_cons_iff in N. apply (proj1 N). left; auto.
Qed.

Lemma list_empty_careful_ok h head l : ring h head l ->
  list_empty_careful h head = Some (match l with [] => true | _ => false end).
Proof.
  intros R. pose proof (list_empty_ok h head l R) as E. pose proof R as (P & N & F).
  unfold list_empty, list_empty_careful in *.
  destruct (ring_in h head l head R) as [L Z]; [cbn; auto|]. rewrite get_next_live, get_prev_live in * by auto.
  rewrite (path_first _ _ _ _ P), (path_last _ _ _ _ P) in *.
  injection E as E. rewrite E. destruct l; cbn [hd lst andb]; [rewrite Z.eqb_refl; auto|auto].
Qed.

Lemma list_singular_ok h head l : ring h head l ->
  list_is_singular h head = Some (match l with [_] => true | _ => false end).
Proof.
  intros R. unfold list_is_singular. rewrite (list_empty_ok h head l R). pose proof R as (P & N & F).
  destruct (ring_in h head l head R) as [L Z]; [cbn; auto|]. rewrite get_next_live, get_prev_live by auto.
  rewrite (path_first _ _ _ _ P), (path_last _ _ _ _ P).
  destruct l as [|x [|y l]]; cbn [hd lst negb andb]; auto; [rewrite Z.eqb_refl; auto|].
  destruct (Z.eqb_spec x (lst y l)) as [E|_]; auto. exfalso.
  apply NoDup_cons_iff in N. destruct N as [_ N]. apply NoDup_cons_iff in N. apply (proj1 N). rewrite E. apply lst_in.
Qed.

Lemma list_is_last_ok h head xs a ys : ring h head (xs ++ a :: ys) ->
  list_is_last h a head = Some (match ys with [] => true | _ => false end).
Proof.
  intros R. unfold list_is_last. pose proof R as (P & N & F). apply path_app in P. destruct P as [P1 P2].
  destruct (ring_in h head _ a R) as [L Z]; [apply (in_mid a a (head :: xs) ys); auto|].
  rewrite get_next_live by auto. rewrite (path_first _ _ _ _ P2). destruct ys as [|y ys]; cbn [hd].
  - rewrite Z.eqb_refl. auto.
  - destruct (Z.eqb_spec y head) as [->|_]; auto. exfalso.
    apply NoDup_cons_iff in N. apply (proj1 N). rewrite in_app_iff. cbn. auto.
Qed.

(** Cutting the front part, up to and including [e], off a list. *)
Lemma list_cut_ok h head xs e ys l : ring h head (xs ++ e :: ys) -> fresh h l (head :: xs ++ e :: ys) ->
  exists h', __list_cut_position h l head e = Some h' /\ ring h' l (xs ++ [e]) /\ ring h' head ys /\
    only_changes h h' (l :: head :: xs ++ e :: ys).
Proof.
  intros R (Ll & Zl & Fr). pose proof R as (P & N & F).
  destruct (ring_in h head _ e R) as [Le Ze]; [apply (in_mid e e (head :: xs) ys); auto|].
  destruct (ring_in h head _ head R) as [Lh Zh]; [cbn; auto|].
  pose proof (path_first _ _ _ _ P) as Fi. apply path_app in P. destruct P as [P1 P2].
  assert (Ifirst : In (hd head (xs ++ e :: ys)) (xs ++ [e])) by (destruct xs; cbn; auto).
  assert (Inew : In (hd head ys) (ys ++ [head])) by apply hd_in.
  set (fst_ := hd head (xs ++ e :: ys)) in *. set (nf := hd head ys) in *.
  apply NoDup_cons_iff in N; destruct N as [N1 N2]. pose proof N2 as N2'. apply nodup_app in N2'. destruct N2' as (Nx & Ny & Nxy).
  apply NoDup_cons_iff in Ny. destruct Ny as [Ney Ny]. rewrite in_app_iff in N1. cbn in N1.
  assert (Lv : forall z, In z (head :: xs ++ e :: ys) -> live h z = true /\ z <> 0) by (intros; eapply ring_in; eauto).
  assert (Sf : forall z, In z (xs ++ [e]) -> In z (head :: xs ++ e :: ys)).
  { intros z. cbn. rewrite !in_app_iff. cbn. tauto. }
  assert (Sn : forall z, In z (ys ++ [head]) -> In z (head :: xs ++ e :: ys)).
  { intros z. cbn. rewrite !in_app_iff. cbn. tauto. }
  pose proof (proj1 (Lv _ (Sf _ Ifirst))) as Lf. pose proof (proj1 (Lv _ (Sn _ Inew))) as Ln.
  assert (Nl : forall z, In z (head :: xs ++ e :: ys) -> z <> l) by (intros z Hz ->; auto).
  assert (Dh : forall z w, In z (xs ++ [e]) -> In w (ys ++ [head]) -> z <> w).
  { intros z w Hz Hw ->. rewrite in_app_iff in *. cbn in *.
    destruct Hz as [Hz|[Hz|[]]], Hw as [Hw|[Hw|[]]]; subst; try tauto; eauto. }
  assert (Ih : In head (head :: xs ++ e :: ys)) by (cbn; auto).
  assert (Ie : In e (head :: xs ++ e :: ys)) by (apply Sf, in_app_iff; cbn; auto).
  assert (Hhe : head <> e) by (intros <-; apply N1; auto).
  unfold __list_cut_position. rewrite get_next_live by auto. rewrite get_next_live by auto.
  rewrite Fi, (path_first _ _ _ _ P2). fold fst_ nf.
  rewrite set_next_live by auto. rewrite get_next_live by (cbn; auto). cbn [live nx pv]. rewrite set_same.
  run. eexists. split; [reflexivity|]. split; [split; [|split]|split; [split; [|split]|]].
  - apply path_app. split.
    + apply (path_rehead h _ head); auto; cbn [nx pv].
      * apply nodup_app. split; auto. split; [constructor; [intros []|constructor]|]. intros x Hx [<-|[]].
        apply (Nxy e); cbn; auto.
      * intros z Hz. rewrite !set_other; auto.
        -- apply Nl. apply Sf. apply in_app_iff; auto.
        -- intros ->. apply (Nxy e); cbn; auto.
        -- intros ->. tauto.
      * intros z Hz Hd. rewrite !set_other; auto.
        -- intros ->. apply Hd. unfold fst_. destruct xs; auto.
      * rewrite (set_other _ head) by (intros E; apply (Nl head Ih); auto). rewrite (set_other _ e) by (intros E; apply (Nl e Ie); auto).
        rewrite set_same. subst fst_. destruct xs; auto.
      * replace (hd e xs) with fst_ by (subst fst_; destruct xs; auto).
        rewrite set_other by (apply Dh; auto). rewrite set_other by (apply Nl; auto). apply set_same.
    + cbn [path nx pv]. rewrite (set_other _ head) by auto. rewrite set_same.
      rewrite set_other by (intros E; apply (Nl nf); auto). rewrite set_same. auto.
  - apply NoDup_cons_iff. split; [intros H; apply (Nl l); auto|].
    apply nodup_app. split; auto. split; [constructor; [intros []|constructor]|].
    intros x Hx [<-|[]]. apply (Nxy e); cbn; auto.
  - constructor; auto. apply Forall_forall. cbn [live]. auto.
  - apply (path_rehead h _ e); auto; cbn [nx pv].
    + apply nodup_rot. apply NoDup_cons_iff. split; auto.
    + intros z Hz. rewrite !set_other; auto.
      * apply Nl, Sn, in_app_iff; auto.
      * intros ->; auto.
      * intros ->; tauto.
    + intros z Hz Hd. rewrite !set_other; auto. intros ->. apply (Dh fst_ fst_); auto.
    + apply set_same.
    + apply set_same.
  - apply NoDup_cons_iff. split; auto.
  - apply Forall_forall. cbn [live]. intros z [<-|Hz]; auto. apply Lv, Sn, in_app_iff; auto.
  - split; cbn [live nx pv]; auto. intros x Hx.
    assert (x <> l) by (intros ->; apply Hx; cbn; auto).
    assert (x <> head) by (intros ->; apply Hx; cbn; auto).
    assert (x <> e) by (intros ->; apply Hx; right; auto).
    assert (x <> fst_) by (intros ->; apply Hx; right; auto).
    assert (x <> nf) by (intros ->; apply Hx; right; auto).
    rewrite !set_other; auto.
Qed.

(** Splicing the entries of one list between two neighbours of another. *)
Lemma splice_between h head ys1 ys2 l x xs : ring h head (ys1 ++ ys2) -> ring h l (x :: xs) ->
  disjoint (head :: ys1 ++ ys2) (l :: x :: xs) ->
  exists h', __list_splice h l (lst head ys1) (hd head ys2) = Some h' /\
    ring h' head (ys1 ++ (x :: xs) ++ ys2) /\
    only_changes h h' ((head :: ys1 ++ ys2) ++ x :: xs).
Proof.
  intros R R2 D. destruct (ring_split _ _ _ _ R) as (P1 & P2 & Ip & In_ & Lp & Ln & N1 & N2 & N3 & N4 & N5).
  pose proof R2 as (Q & M & G). apply NoDup_cons_iff in M. destruct M as [M1 M2].
  pose proof (path_last _ _ _ _ Q) as Ql. cbn [path lst] in Q, Ql. destruct Q as (Q1 & Q2 & Q3).
  destruct (ring_in h l _ l R2) as [Ll Zl]; [cbn; auto|].
  destruct (ring_in h l _ x R2) as [Lx Zx]; [cbn; auto|].
  assert (Il : In (lst x xs) (x :: xs)) by apply lst_in.
  destruct (ring_in h l _ (lst x xs) R2) as [Lt Zt]; [right; auto|].
  assert (Sp : forall z, In z (head :: ys1) -> In z (head :: ys1 ++ ys2)) by (intros z; cbn; rewrite in_app_iff; tauto).
  assert (Sn : forall z, In z (ys2 ++ [head]) -> In z (head :: ys1 ++ ys2)) by (intros z; cbn; rewrite !in_app_iff; cbn; tauto).
  set (p := lst head ys1) in *. set (n := hd head ys2) in *. set (t := lst x xs) in *.
  assert (Dx : forall z w, In z (head :: ys1 ++ ys2) -> In w (x :: xs) -> z <> w).
  { intros z w Hz Hw ->. apply (D w); auto. right; auto. }
  assert (Ix : In x (x :: xs)) by (cbn; auto).
  assert (Sh : In head (head :: ys1 ++ ys2)) by (cbn; auto).
  unfold __list_splice. rewrite get_next_live, get_prev_live by auto. rewrite Q1, Ql. fold t.
  run. eexists. split; [reflexivity|]. split; [split; [|split]|].
  - rewrite <- app_comm_cons. apply path_app. split.
    + apply (path_retail h _ _ _ n); auto; fold p; cbn [nx pv].
      * apply NoDup_cons_iff. auto.
      * intros z Hz Hd. rewrite !set_other; auto.
      * intros z Hz. rewrite !set_other; auto. 
        -- apply Dx; auto. apply Sp. cbn; auto.
        -- intros E. rewrite E in Hz. apply in_app_iff in In_. destruct In_ as [H|[H|[]]]; [exact (N5 _ Hz H)|].
           apply N3. rewrite H. exact Hz.
      * rewrite set_other by (apply Dx; auto). apply set_same.
      * rewrite set_other. 2:{ intros E. apply (Dx n x); auto. } apply set_same.
    + apply path_split. split.
      * apply (path_retail h _ _ _ l); auto; fold t; cbn [nx pv].
        -- intros z Hz Hd. rewrite !set_other; auto. intros E. apply (Dx p z); auto.
        -- intros z Hz. assert (In z (x :: xs)) by (cbn; auto). rewrite !set_other; auto.
           ++ intros ->. apply NoDup_cons_iff in M2. tauto.
           ++ intros E. apply (Dx n z); auto.
        -- apply set_same.
        -- apply set_same.
      * fold t. apply (path_rehead h _ p); auto; fold n; cbn [nx pv].
        -- apply nodup_rot. apply NoDup_cons_iff. auto.
        -- intros z Hz. assert (In z (head :: ys1 ++ ys2)) by (apply Sn, in_app_iff; auto). rewrite !set_other; auto.
           intros E. rewrite E in Hz. destruct Ip as [Hp|Hp]; [apply N4; rewrite Hp; auto|eauto].
        -- intros z Hz Hd. rewrite !set_other; auto.
        -- apply set_same.
        -- apply set_same.
  - apply NoDup_cons_iff. split.
    + rewrite !in_app_iff. intros [H|[H|H]]; auto. apply (Dx head head); auto.
    + apply nodup_app. split; auto. split.
      * apply nodup_app. split; auto. split; auto. intros z Hz Hy. apply (Dx z z); auto. apply Sn, in_app_iff; auto.
      * intros z Hz Hy. apply in_app_iff in Hy. destruct Hy as [Hy|Hy]; [|eauto]. apply (Dx z z); auto. apply Sp. cbn; auto.
  - cbn [live]. apply Forall_forall. intros z Hz. destruct Hz as [<-|Hz]; [eapply ring_in; [exact R|auto]|].
    rewrite !in_app_iff in Hz. destruct Hz as [Hz|[Hz|Hz]].
    + eapply ring_in; [exact R|]. apply Sp; cbn; auto.
    + eapply ring_in; [exact R2|]. right; auto.
    + eapply ring_in; [exact R|]. apply Sn, in_app_iff; auto.
  - split; cbn [live nx pv]; auto. intros z Hz. rewrite in_app_iff in Hz.
    assert (z <> p) by (intros ->; auto). assert (z <> n) by (intros ->; auto).
    assert (z <> x) by (intros ->; auto). assert (z <> t) by (intros ->; auto).
    rewrite !set_other; auto.
Qed.

Lemma list_splice_ok h head l1 l l2 : ring h head l1 -> ring h l l2 -> disjoint (head :: l1) (l :: l2) ->
  exists h', list_splice h l head = Some h' /\ ring h' head (l2 ++ l1) /\
    only_changes h h' ((head :: l1) ++ l2).
Proof.
  intros R R2 D. unfold list_splice. rewrite (list_empty_ok h l l2 R2).
  destruct (ring_in h head _ head R) as [L Z]; [cbn; auto|].
  destruct l2 as [|x xs].
  - exists h. cbn [app]. split; auto. split; auto. split; auto.
  - rewrite get_next_live by auto. pose proof R as (P & _ & _). rewrite (path_first _ _ _ _ P).
    exact (splice_between h head [] l1 l x xs R R2 D).
Qed.

Lemma list_splice_tail_ok h head l1 l l2 : ring h head l1 -> ring h l l2 -> disjoint (head :: l1) (l :: l2) ->
  exists h', list_splice_tail h l head = Some h' /\ ring h' head (l1 ++ l2) /\
    only_changes h h' ((head :: l1) ++ l2).
Proof.
  intros R R2 D. unfold list_splice_tail. rewrite (list_empty_ok h l l2 R2).
  destruct (ring_in h head _ head R) as [L Z]; [cbn; auto|].
  destruct l2 as [|x xs].
  - exists h. rewrite !app_nil_r. split; auto. split; auto. split; auto.
  - rewrite get_prev_live by auto. pose proof R as (P & _ & _). rewrite (path_last _ _ _ _ P).
    rewrite <- (app_nil_r l1) in R, D.
    destruct (splice_between h head l1 [] l x xs R R2 D) as (h' & A & B & C).
    rewrite app_nil_r in B, C. exists h'. auto.
Qed.

(** ** Traversal *)

Lemma for_each_from_ok h head xs : forall a fuel, path h a xs head -> ~ In head xs ->
  Forall (fun x => live h x = true) xs -> (length xs < fuel)%nat ->
  for_each_from fuel h (nx h a) head = Some xs.
Proof.
  induction xs as [|x xs IH]; intros a fuel P N F L; destruct fuel as [|fuel]; cbn [length] in L; try lia;
    cbn [for_each_from path] in *.
  - destruct P as [-> _]. rewrite Z.eqb_refl. reflexivity.
  - destruct P as (-> & _ & P). apply Forall_cons_iff in F. destruct F as [Fx F].
    destruct (Z.eqb_spec x head) as [->|_]; [cbn in N; tauto|].
    rewrite get_next_live by auto. rewrite (IH x fuel); auto; [cbn in N; tauto|lia].
Qed.

Lemma list_for_each_ok h head l fuel : ring h head l -> (length l < fuel)%nat ->
  list_for_each fuel h head = Some l.
Proof.
  intros R L. unfold list_for_each. destruct (ring_in h head _ head R) as [Lh Z]; [cbn; auto|].
  rewrite get_next_live by auto. pose proof R as (P & N & F). apply NoDup_cons_iff in N.
  apply for_each_from_ok; auto; [tauto|]. apply Forall_cons_iff in F. eapply Forall_impl; [|apply F]. cbn. tauto.
Qed.

Lemma for_each_prev_ok h head xs : forall b fuel, path h head xs b -> ~ In head xs ->
  Forall (fun x => live h x = true) xs -> (length xs < fuel)%nat ->
  for_each_prev_from fuel h (pv h b) head = Some (rev xs).
Proof.
  induction xs as [|x xs IH] using rev_ind; intros b fuel P N F L; destruct fuel as [|fuel];
    try rewrite app_length in L; cbn [length] in L; try lia; cbn [for_each_prev_from].
  - cbn [path] in P. destruct P as [_ ->]. rewrite Z.eqb_refl. reflexivity.
  - apply path_app in P. destruct P as [P1 P2]. cbn [path] in P2. destruct P2 as [_ ->].
    rewrite in_app_iff in N. cbn in N. apply Forall_app in F. destruct F as [F Fx].
    apply Forall_cons_iff in Fx. destruct Fx as [Fx _].
    destruct (Z.eqb_spec x head) as [->|_]; [tauto|].
    rewrite get_prev_live by auto. rewrite (IH x fuel); auto; [|lia]. rewrite rev_app_distr. reflexivity.
Qed.

Lemma list_for_each_prev_ok h head l fuel : ring h head l -> (length l < fuel)%nat ->
  list_for_each_prev fuel h head = Some (rev l).
Proof.
  intros R L. unfold list_for_each_prev. destruct (ring_in h head _ head R) as [Lh Z]; [cbn; auto|].
  rewrite get_prev_live by auto. pose proof R as (P & N & F). apply NoDup_cons_iff in N.
  apply for_each_prev_ok; auto; [tauto|]. apply Forall_cons_iff in F. eapply Forall_impl; [|apply F]. cbn. tauto.
Qed.

Lemma free_from_ok l : forall h head fuel, ring h head l -> (length l < fuel)%nat ->
  exists h', free_from fuel h (nx h head) (nx h (nx h head)) head = Some (l, h') /\ ring h' head [] /\
    (forall x, live h' x = if in_dec Z.eq_dec x l then false else live h x) /\
    (forall x, ~ In x (head :: l) -> nx h' x = nx h x /\ pv h' x = pv h x).
Proof.
  induction l as [|x l IH]; intros h head fuel R L; destruct fuel as [|fuel]; cbn [length] in L; try lia;
    cbn [free_from]; pose proof R as (P & N & F); pose proof (path_first _ _ _ _ P) as E; rewrite E; cbn [hd].
  - rewrite Z.eqb_refl. exists h. auto.
  - apply NoDup_cons_iff in N. destruct N as [N1 N2]. cbn in N1.
    destruct (Z.eqb_spec x head) as [->|Hx]; [tauto|].
    destruct (list_del_ok h head [] x l R) as (h1 & A & B & C). cbn [app] in *. rewrite A.
    apply NoDup_cons_iff in N2. destruct N2 as [N2 N3].
    assert (Lx : live h1 x = true). { rewrite (proj1 C). apply (ring_in h head (x :: l)); cbn; auto. }
    unfold release. rewrite Lx.
    set (h2 := Lh (fun y => if y =? x then false else live h1 y) (nx h1) (pv h1)).
    assert (R2 : ring h2 head l).
    { destruct B as (B1 & B2 & B3). split; [|split]; auto.
      - apply (path_ext h1); auto.
      - rewrite Forall_forall in *. intros z Hz. cbn [live h2]. destruct (Z.eqb_spec z x) as [->|_]; auto.
        exfalso. cbn in Hz. intuition congruence. }
    assert (E2 : nx h x = nx h2 head).
    { cbn [path] in P. destruct P as (_ & _ & P). rewrite (path_first _ _ _ _ P).
      destruct R2 as (R2 & _). rewrite (path_first _ _ _ _ R2). reflexivity. }
    rewrite E2. rewrite get_next_live.
    2:{ destruct R2 as (R2 & _ & R3). rewrite (path_first _ _ _ _ R2). rewrite Forall_forall in R3.
        apply R3. destruct l; cbn; auto. }
    destruct (IH h2 head fuel R2) as (h3 & G1 & G2 & G3 & G4); [lia|]. rewrite G1. cbn [fst snd].
    exists h3. split; auto. split; auto. split.
    + intros z. rewrite G3. cbn [live h2]. rewrite (proj1 C).
      destruct (in_dec Z.eq_dec z l), (in_dec Z.eq_dec z (x :: l)), (Z.eqb_spec z x); auto;
        exfalso; cbn in *; intuition congruence.
    + intros z Hz. cbn in Hz. destruct (G4 z) as [G5 G6]; [cbn; tauto|]. rewrite G5, G6. cbn [nx pv h2].
      apply (proj2 C). cbn; tauto.
Qed.

Lemma list_free_all_ok h head l fuel : ring h head l -> (length l < fuel)%nat ->
  exists h', list_free_all fuel h head = Some (l, h') /\ ring h' head [] /\
    (forall x, live h' x = if in_dec Z.eq_dec x l then false else live h x) /\
    (forall x, ~ In x (head :: l) -> nx h' x = nx h x /\ pv h' x = pv h x).
Proof.
  intros R L. unfold list_free_all. destruct (ring_in h head _ head R) as [Lh Z]; [cbn; auto|].
  rewrite get_next_live by auto. rewrite get_next_live; [apply free_from_ok; auto|].
  pose proof R as (P & _). rewrite (path_first _ _ _ _ P). eapply ring_in; [exact R|]. destruct l; cbn; auto.
Qed.
