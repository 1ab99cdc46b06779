(** Facts about trees and contexts without memory. *)
From Coq Require Import ZArith List Bool Lia.
From Coq Require Import ZifyBool ZifyNat.
From Verif Require Import RbModel RbSpec RbSep RbInsert.
Import ListNotations.
Open Scope Z_scope.

(** ** Order *)

Fixpoint kpre (k : ctx) : list Z :=
  match k with
  | [] => []
  | Fr DL _ _ _ :: k' => kpre k'
  | Fr DR _ a s :: k' => kpre k' ++ inorder s ++ [a]
  end.
Fixpoint kpost (k : ctx) : list Z :=
  match k with
  | [] => []
  | Fr DL _ a s :: k' => a :: inorder s ++ kpost k'
  | Fr DR _ _ _ :: k' => kpost k'
  end.

Lemma inorder_plug k x : inorder (plug k x) = kpre k ++ inorder x ++ kpost k.
Proof.
  revert x. induction k as [|[d c a s] k IH]; intros x; cbn [plug kpre kpost].
  - rewrite app_nil_r. reflexivity.
  - rewrite IH. destruct d; cbn [mk inorder]; rewrite <- ?app_assoc; cbn [app]; reflexivity.
Qed.

Lemma inorder_mk d c x a y :
  inorder (mk d c x a y) = match d with DL => inorder x ++ a :: inorder y | DR => inorder y ++ a :: inorder x end.
Proof. destruct d; reflexivity. Qed.

(** ** Balance *)

Fixpoint rbt (t : tree) (n : nat) : Prop :=
  match t with
  | E => n = O
  | T Red l _ r => rbt l n /\ rbt r n /\ rcolor l = Black /\ rcolor r = Black
  | T Black l _ r => match n with O => False | S m => rbt l m /\ rbt r m end
  end.

(** A red tree may be put into the hole. *)
Definition red_allowed (k : ctx) : Prop :=
  match k with Fr _ Black _ _ :: _ => True | _ => False end.

(** A black tree of black height [n] may be put into the hole. *)
Fixpoint rbk (k : ctx) (n : nat) : Prop :=
  match k with
  | [] => True
  | Fr _ Red _ s :: k' => rbt s n /\ rcolor s = Black /\ rbk k' n /\ red_allowed k'
  | Fr _ Black _ s :: k' => rbt s n /\ rbk k' (S n)
  end.

Lemma rbt_mk d c x a y n :
  rbt (mk d c x a y) n <->
  match c with
  | Red => rbt x n /\ rbt y n /\ rcolor x = Black /\ rcolor y = Black
  | Black => match n with O => False | S m => rbt x m /\ rbt y m end
  end.
Proof. destruct d, c, n; cbn; tauto. Qed.

Lemma rcolor_mk d c x a y : rcolor (mk d c x a y) = c.
Proof. destruct d; reflexivity. Qed.

Lemma rcolor_recolor_black t : rcolor (recolor Black t) = Black.
Proof. destruct t; reflexivity. Qed.

Lemma recolor_black_id t : rcolor t = Black -> recolor Black t = t.
Proof. destruct t; cbn; auto. intros ->. reflexivity. Qed.

Lemma rbt_blacken_red t n : rcolor t = Red -> rbt t n -> rbt (recolor Black t) (S n).
Proof. destruct t as [|c l a r]; [discriminate|]. cbn. intros ->. tauto. Qed.

Lemma plug_rb k : forall x n, rbt x n -> rbk k n -> (rcolor x = Red -> red_allowed k) ->
  exists m, rbt (plug k x) m /\ rcolor (plug k x) = Black.
Proof.
  induction k as [|[d c a s] k IH]; intros x n Hx Hk Hr; cbn [plug].
  - exists n. split; auto. destruct (rcolor x); auto. destruct (Hr eq_refl).
  - destruct c; cbn [rbk red_allowed] in *.
    + destruct Hk as (A & B & C & D). apply (IH _ n); auto.
      * apply rbt_mk. repeat split; auto. destruct (rcolor x); auto. destruct (Hr eq_refl).
    + destruct Hk as (A & B). apply (IH _ (S n)); auto.
      * apply rbt_mk. auto.
      * rewrite rcolor_mk. discriminate.
Qed.

Lemma unplug_rb k : forall x m, rbt (plug k x) m -> rcolor (plug k x) = Black ->
  exists n, rbt x n /\ rbk k n /\ (rcolor x = Red -> red_allowed k).
Proof.
  induction k as [|[d c a s] k IH]; intros x m H C; cbn [plug] in *.
  - exists m. cbn. split; [auto|]. split; auto. congruence.
  - destruct (IH _ _ H C) as (n & A & B & D). rewrite rbt_mk in A. rewrite rcolor_mk in D.
    destruct c; cbn [rbk red_allowed].
    + destruct A as (A1 & A2 & A3 & A4). exists n. split; auto. split; [auto|]. congruence.
    + destruct n as [|n]; [contradiction|]. destruct A as [A1 A2]. exists n. auto.
Qed.

(** Relation to the specification. *)
Lemma rbt_paths t : forall n, rbt t n -> no_red_red t /\ forall m, path t m -> m = n.
Proof.
  induction t as [|c l IHl a r IHr]; intros n H.
  - split; [exact I|]. cbn in H. subst. intros m P. inversion P. reflexivity.
  - destruct c; cbn [rbt] in H.
    + destruct H as (A & B & C & D). destruct (IHl _ A) as [N1 P1]. destruct (IHr _ B) as [N2 P2].
      split; [cbn; tauto|]. intros m P. inversion P; subst; auto.
    + destruct n as [|n]; [contradiction|]. destruct H as (A & B).
      destruct (IHl _ A) as [N1 P1]. destruct (IHr _ B) as [N2 P2].
      split; [cbn; split; [discriminate|tauto]|]. intros m P. inversion P; subst; f_equal; auto.
Qed.

Lemma path_exists t : exists n, path t n.
Proof.
  induction t as [|c l [n IH] a r _]; [exists O; constructor|].
  eexists. apply path_left. exact IH.
Qed.

Lemma paths_rbt t : no_red_red t -> (forall n m, path t n -> path t m -> n = m) ->
  exists n, rbt t n.
Proof.
  induction t as [|c l IHl a r IHr]; intros N P; [exists O; reflexivity|].
  cbn [no_red_red] in N. destruct N as (N1 & N2 & N3).
  assert (Pl : forall n m, path l n -> path l m -> n = m).
  { intros n m A B. pose proof (P _ _ (path_left c l a r n A) (path_left c l a r m B)) as G.
    destruct c; congruence. }
  assert (Pr : forall n m, path r n -> path r m -> n = m).
  { intros n m A B. pose proof (P _ _ (path_right c l a r n A) (path_right c l a r m B)) as G.
    destruct c; congruence. }
  destruct (IHl N2 Pl) as [n Hn]. destruct (IHr N3 Pr) as [m Hm].
  assert (n = m).
  { destruct (path_exists l) as [p Hp]. destruct (path_exists r) as [q Hq].
    rewrite <- (proj2 (rbt_paths _ _ Hn) _ Hp), <- (proj2 (rbt_paths _ _ Hm) _ Hq).
    pose proof (P _ _ (path_left c l a r p Hp) (path_right c l a r q Hq)) as G. destruct c; congruence. }
  subst m. destruct c; cbn [rbt].
  - exists n. destruct (N1 eq_refl). auto.
  - exists (S n). auto.
Qed.

Lemma red_black_rbt t : red_black t <-> exists n, rbt t n /\ rcolor t = Black.
Proof.
  split.
  - intros (A & B & C). destruct (paths_rbt t B C) as [n H]. exists n. auto.
  - intros (n & A & B). destruct (rbt_paths _ _ A) as [N P]. split; [auto|split; [auto|]].
    intros p q Hp Hq. rewrite (P _ Hp), (P _ Hq). reflexivity.
Qed.

(** ** Height *)

Lemma size_T c l a r : size (T c l a r) = (size l + size r + 1)%nat.
Proof. unfold size. cbn [inorder]. rewrite app_length. cbn [length]. lia. Qed.

Lemma rbt_size t : forall n, rbt t n -> (2 ^ n <= size t + 1)%nat.
Proof.
  induction t as [|c l IHl a r IHr]; intros n H.
  - cbn in *. subst. simpl. lia.
  - rewrite size_T. destruct c; cbn [rbt] in H.
    + destruct H as (A & B & _). specialize (IHl _ A). lia.
    + destruct n as [|n]; [contradiction|]. destruct H as [A B].
      specialize (IHl _ A). specialize (IHr _ B). rewrite Nat.pow_succ_r'. lia.
Qed.

Lemma rbt_height t : forall n, rbt t n -> (height t <= 2 * n + match rcolor t with Red => 1 | Black => 0 end)%nat.
Proof.
  induction t as [|c l IHl a r IHr]; intros n H; [cbn in *; lia|].
  cbn [height rcolor]. destruct c; cbn [rbt] in H.
  - destruct H as (A & B & C & D). specialize (IHl _ A). specialize (IHr _ B). rewrite C in IHl. rewrite D in IHr. lia.
  - destruct n as [|n]; [contradiction|]. destruct H as [A B]. specialize (IHl _ A). specialize (IHr _ B).
    destruct (rcolor l), (rcolor r); lia.
Qed.

Lemma red_black_height t : red_black t -> (height t <= 2 * Nat.log2 (size t + 1))%nat.
Proof.
  intros H. apply red_black_rbt in H. destruct H as (n & A & B).
  pose proof (rbt_height _ _ A) as Hh. rewrite B in Hh.
  pose proof (rbt_size _ _ A) as Hs.
  assert (n <= Nat.log2 (size t + 1))%nat.
  { apply Nat.log2_le_pow2; lia. }
  lia.
Qed.

Lemma height_size t : (height t <= size t)%nat.
Proof. induction t as [|c l IHl a r IHr]; [cbn; lia|]. rewrite size_T. cbn [height]. lia. Qed.

Fixpoint kheight (k : ctx) (h : nat) : nat :=
  match k with [] => h | Fr _ _ _ s :: k' => kheight k' (S (Nat.max h (height s))) end.

Lemma height_mk d c x a y : height (mk d c x a y) = S (Nat.max (height x) (height y)).
Proof. destruct d; cbn [mk height]; [reflexivity|]. f_equal. apply Nat.max_comm. Qed.

Lemma length_height k : forall x, (length k + height x <= height (plug k x))%nat.
Proof.
  induction k as [|[d c a s] k IH]; intros x; cbn [plug length]; [lia|].
  specialize (IH (mk d c x a s)). rewrite height_mk in IH. lia.
Qed.

(** ** Insertion keeps the tree red-black *)

Lemma fix_ins_ok n : forall k x b, (length k <= n)%nat -> rcolor x = Red -> rbt x b -> rbk k b ->
  exists t, fix_ins k x = Some t /\ inorder t = inorder (plug k x) /\
    exists m, rbt t m /\ rcolor t = Black.
Proof.
  induction n as [n IH] using lt_wf_ind. intros k x b Hn Hx Hr Hk.
  destruct k as [|[d c p s] k].
  - exists (recolor Black x). cbn [fix_ins plug]. split; auto. rewrite inorder_recolor. split; auto.
    exists (S b). split; [apply rbt_blacken_red; auto|apply rcolor_recolor_black].
  - destruct c.
    2:{ eexists. split; [reflexivity|]. split; [reflexivity|].
        apply (plug_rb (Fr d Black p s :: k) x b); auto. intros _. exact I. }
    cbn [rbk] in Hk. destruct Hk as (Hs & Cs & Hk & Ra).
    destruct k as [|[e cg g u] k]; [destruct Ra|]. cbn [red_allowed] in Ra.
    destruct cg; [destruct Ra|]. cbn [rbk] in Hk. destruct Hk as (Hu & Hk).
    cbn [fix_ins plug]. destruct (rcolor u) eqn:Eu.
    + cbn [length] in Hn.
      destruct (IH (length k) ltac:(lia) k (mk e Red (mk d Black x p s) g (recolor Black u)) (S b))
        as (t & F & I1 & m & M1 & M2).
      * lia.
      * apply rcolor_mk.
      * apply rbt_mk. repeat split; [apply rbt_mk; auto| |apply rcolor_mk|apply rcolor_recolor_black].
        apply rbt_blacken_red; auto.
      * exact Hk.
      * exists t. split; [exact F|]. split; [|eauto].
        rewrite I1, !inorder_plug. f_equal. f_equal.
        rewrite !inorder_mk, inorder_recolor. destruct d, e; reflexivity.
    + assert (Hsb : recolor Black s = s) by (apply recolor_black_id; auto).
      destruct (side_eqb d e) eqn:Ed.
      * assert (d = e) by (destruct d, e; cbn in Ed; congruence). subst e.
        eexists. split; [reflexivity|]. rewrite Hsb. split.
        -- rewrite !inorder_plug. f_equal. f_equal. rewrite !inorder_mk.
           destruct d; rewrite ?inorder_mk, <- ?app_assoc; cbn [app]; reflexivity.
        -- eapply (plug_rb k _ (S b)); auto.
           ++ apply rbt_mk. split; auto. apply rbt_mk. repeat split; auto.
           ++ rewrite rcolor_mk. discriminate.
      * destruct x as [|cx xl n0 xr]; [discriminate|]. cbn [rcolor] in Hx. subst cx.
        cbn [rbt] in Hr. destruct Hr as (Hl & Hrr & Cl & Cr).
        destruct e; cbn iota.
        -- eexists. split; [reflexivity|]. rewrite !recolor_black_id by auto. split.
           ++ rewrite !inorder_plug. f_equal. f_equal. destruct d; [discriminate|].
              cbn [mk inorder]. rewrite <- ?app_assoc; cbn [app]. rewrite <- ?app_assoc; cbn [app]. reflexivity.
           ++ eapply (plug_rb k _ (S b)); auto.
              ** apply rbt_mk. split; apply rbt_mk; auto.
              ** rewrite rcolor_mk. discriminate.
        -- eexists. split; [reflexivity|]. rewrite !recolor_black_id by auto. split.
           ++ rewrite !inorder_plug. f_equal. f_equal. destruct d; [|discriminate].
              cbn [mk inorder]. rewrite <- ?app_assoc; cbn [app]. rewrite <- ?app_assoc; cbn [app]. reflexivity.
           ++ eapply (plug_rb k _ (S b)); auto.
              ** apply rbt_mk. split; apply rbt_mk; auto.
              ** rewrite rcolor_mk. discriminate.
Qed.
