(** Separation by counting: a state is described by a list of disjoint chunks. *)
From Coq Require Import ZArith List Bool Lia.
From Coq Require Import ZifyBool ZifyNat.
From Verif Require Import RbModel RbSpec.
Import ListNotations.
Open Scope Z_scope.

(** ** The packed word *)

Lemma land_lnot3 p c : 0 <= p -> p mod 4 = 0 -> 0 <= c < 4 -> Z.land (p + c) (Z.lnot 3) = p.
Proof.
  intros H0 Hp Hc. change 3 with (Z.ones 2). rewrite <- Z.ldiff_land, Z.ldiff_ones_r by lia.
  rewrite Z.shiftr_div_pow2, Z.shiftl_mul_pow2 by lia. change (2 ^ 2) with 4.
  pose proof (Z.div_mod p 4). 
  assert ((p + c) / 4 = p / 4).
  { replace (p + c) with (c + p / 4 * 4) by lia. rewrite Z.div_add by lia.
    rewrite (Z.div_small c 4) by lia. lia. }
  lia.
Qed.

Lemma land_1 p c : p mod 4 = 0 -> 0 <= c < 2 -> Z.land (p + c) 1 = c.
Proof.
  intros Hp Hc. change 1 with (Z.ones 1) at 1. rewrite Z.land_ones by lia. change (2 ^ 1) with 2.
  pose proof (Z.div_mod p 4 ltac:(lia)) as D. rewrite Hp in D.
  replace (p + c) with (c + (2 * (p / 4)) * 2) by lia. rewrite Z.mod_add by lia. apply Z.mod_small. lia.
Qed.

Lemma low_bits_disjoint p c : p mod 4 = 0 -> 0 <= c < 4 -> Z.land p c = 0.
Proof.
  intros Hp Hc. apply Z.bits_inj'. intros i Hi. rewrite Z.land_spec, Z.bits_0.
  destruct (Z.lt_ge_cases i 2).
  - replace (Z.testbit p i) with false; [reflexivity|].
    replace p with (p / 4 * 2 ^ 2) by (change (2 ^ 2) with 4; pose proof (Z.div_mod p 4); lia).
    symmetry. apply Z.mul_pow2_bits_low. lia.
  - replace (Z.testbit c i) with false; [apply andb_false_r|].
    symmetry. apply Z.bits_above_log2; [lia|].
    destruct (Z.eq_dec c 0) as [->|]; [change (Z.log2 0) with 0; lia|].
    assert (Z.log2 c < 2) by (apply Z.log2_lt_pow2; lia). lia.
Qed.

Lemma lor_add p c : p mod 4 = 0 -> 0 <= c < 4 -> Z.lor p c = p + c.
Proof.
  intros Hp Hc. pose proof (low_bits_disjoint p c Hp Hc) as D.
  rewrite Z.add_nocarry_lxor by auto. symmetry. apply Z.lxor_lor. exact D.
Qed.

Definition ptr_ok (p : Z) : Prop := 0 <= p /\ p mod 4 = 0.

Lemma pc_parent_pack p c : ptr_ok p -> pc_parent (p + color_bit c) = p.
Proof. intros [A B]. apply land_lnot3; auto. destruct c; cbn; lia. Qed.
Lemma pc_color_pack p c : ptr_ok p -> pc_color (p + color_bit c) = color_bit c.
Proof. intros [A B]. apply land_1; auto. destruct c; cbn; lia. Qed.
Lemma pack p c : ptr_ok p -> Z.lor p (color_bit c) = p + color_bit c.
Proof. intros [A B]. apply lor_add; auto. destruct c; cbn; lia. Qed.
Lemma pack' p c : ptr_ok p -> Z.lor (color_bit c) p = p + color_bit c.
Proof. intros. rewrite Z.lor_comm. apply pack; auto. Qed.
Lemma pack_black p c : ptr_ok p -> Z.lor (p + color_bit c) 1 = p + color_bit Black.
Proof.
  intros H. rewrite <- pack by auto. rewrite <- Z.lor_assoc.
  replace (Z.lor (color_bit c) 1) with (color_bit Black) by (destruct c; reflexivity).
  apply pack; auto.
Qed.

(** ** Contexts *)

Inductive side := DL | DR.
Definition mk (d : side) (c : color) (x : tree) (a : Z) (y : tree) : tree :=
  match d with DL => T c x a y | DR => T c y a x end.

(** A hole: innermost frame first; the hole is on side [d] of node [a], whose
    other child is [s]. *)
Inductive frame := Fr (d : side) (c : color) (a : Z) (s : tree).
Definition ctx := list frame.

Fixpoint plug (k : ctx) (x : tree) : tree :=
  match k with [] => x | Fr d c a s :: k' => plug k' (mk d c x a s) end.

Definition top (k : ctx) : Z := match k with [] => 0 | Fr _ _ a _ :: _ => a end.

Definition mknode (d : side) (w x y : Z) : rbn :=
  match d with DL => Rbn w y x | DR => Rbn w x y end.

Fixpoint repk (s : rbs) (k : ctx) (x : Z) : Prop :=
  match k with
  | [] => rootp s = x
  | Fr d c a t :: k' => node_addr a /\ hp s a = Some (mknode d (top k' + color_bit c) x (raddr t)) /\
                        rep (hp s) a t /\ Forall node_addr (inorder t) /\ repk s k' a
  end.

(** ** Counting *)

Definition eq1 (x a : Z) : nat := if x =? a then 1%nat else 0%nat.
Fixpoint cnt (x : Z) (t : tree) : nat :=
  match t with E => 0 | T _ l a r => cnt x l + eq1 x a + cnt x r end%nat.
Fixpoint cntk (x : Z) (k : ctx) : nat :=
  match k with [] => 0 | Fr _ _ a s :: k' => eq1 x a + cnt x s + cntk x k' end%nat.

Lemma cnt_in x t : (0 < cnt x t)%nat <-> In x (inorder t).
Proof.
  induction t as [|c l IHl a r IHr]; cbn [cnt inorder].
  - simpl. lia.
  - rewrite in_app_iff. simpl. unfold eq1. destruct (Z.eqb_spec x a).
    + split; [intros _; right; left; auto|lia].
    + split; [intros H|intros [H|[H|H]]].
      * destruct (Nat.eq_dec (cnt x l) 0); [right; right; apply IHr; lia|left; apply IHl; lia].
      * apply IHl in H. lia.
      * congruence.
      * apply IHr in H. lia.
Qed.

Lemma cnt_count x t : cnt x t = count_occ Z.eq_dec (inorder t) x.
Proof.
  induction t as [|c l IHl a r IHr]; cbn [cnt inorder]; auto.
  rewrite count_occ_app. cbn [count_occ]. unfold eq1. destruct (Z.eqb_spec x a), (Z.eq_dec a x); try congruence; lia.
Qed.

Lemma cnt_nodup t : (forall x, (cnt x t <= 1)%nat) <-> NoDup (inorder t).
Proof.
  split.
  - intros H. apply (NoDup_count_occ Z.eq_dec). intros x. rewrite <- cnt_count. apply H.
  - intros H x. rewrite cnt_count. rewrite (NoDup_count_occ Z.eq_dec) in H. apply H.
Qed.

(** ** Chunks *)

(** A piece of a path: frames [k] with [x] in the hole, whose outermost node has
    parent [b]. *)
Definition topb (k : ctx) (b : Z) : Z := match k with [] => b | Fr _ _ a _ :: _ => a end.
Fixpoint repseg (s : rbs) (k : ctx) (b x : Z) : Prop :=
  match k with
  | [] => True
  | Fr d c a t :: k' => node_addr a /\ hp s a = Some (mknode d (topb k' b + color_bit c) x (raddr t)) /\
                        rep (hp s) a t /\ Forall node_addr (inorder t) /\ repseg s k' b a
  end.

Inductive chunk :=
| CCell (a : Z) (n : rbn)
| CTree (p : Z) (t : tree)
| CCtx (k : ctx) (x : Z)
| CSeg (k : ctx) (b x : Z).

Definition chold (s : rbs) (c : chunk) : Prop :=
  match c with
  | CCell a n => node_addr a /\ hp s a = Some n
  | CTree p t => rep (hp s) p t /\ Forall node_addr (inorder t)
  | CCtx k x => repk s k x
  | CSeg k b x => repseg s k b x
  end.

Definition foot (x : Z) (c : chunk) : nat :=
  match c with CCell a _ => eq1 x a | CTree _ t => cnt x t | CCtx k _ => cntk x k | CSeg k _ _ => cntk x k end.

Fixpoint feet (x : Z) (l : list chunk) : nat :=
  match l with [] => 0 | c :: r => foot x c + feet x r end%nat.

Fixpoint choldall (s : rbs) (l : list chunk) : Prop :=
  match l with [] => True | c :: r => chold s c /\ choldall s r end.

(** Described by [l], and equal to [s0] elsewhere. *)
Definition sat (s0 s : rbs) (l : list chunk) : Prop :=
  choldall s l /\ (forall x, (feet x l <= 1)%nat) /\
  (forall x, feet x l = 0%nat -> hp s x = hp s0 x).

(** ** Frame *)

Lemma upd_same h a v : upd h a v a = v.
Proof. unfold upd. rewrite Z.eqb_refl. reflexivity. Qed.
Lemma upd_other h a v x : x <> a -> upd h a v x = h x.
Proof. intros. unfold upd. destruct (Z.eqb_spec x a); congruence. Qed.

Lemma eq1_refl x : eq1 x x = 1%nat.
Proof. unfold eq1. rewrite Z.eqb_refl. reflexivity. Qed.
Lemma eq1_neq x y : x <> y -> eq1 x y = 0%nat.
Proof. unfold eq1. destruct (Z.eqb_spec x y); congruence. Qed.
Lemma eq1_0 x y : eq1 x y = 0%nat -> x <> y.
Proof. unfold eq1. destruct (Z.eqb_spec x y); congruence. Qed.

Lemma rep_ext h h' p t : (forall x, (0 < cnt x t)%nat -> h' x = h x) -> rep h p t -> rep h' p t.
Proof.
  revert p. induction t as [|c l IHl a r IHr]; intros p He H; cbn [rep] in *; auto.
  destruct H as (A & B & C). split; [|split].
  - rewrite He; auto. cbn [cnt]. rewrite eq1_refl. lia.
  - apply IHl; auto. intros x Hx. apply He. cbn [cnt]. lia.
  - apply IHr; auto. intros x Hx. apply He. cbn [cnt]. lia.
Qed.

Lemma repk_ext s s' k x : (forall y, (0 < cntk y k)%nat -> hp s' y = hp s y) -> rootp s' = rootp s ->
  repk s k x -> repk s' k x.
Proof.
  revert x. induction k as [|[d c a t] k IH]; intros x He Hr H; cbn [repk] in *; [congruence|].
  destruct H as (A & B & C & D & F). split; [auto|split; [|split; [|split]]]; auto.
  - rewrite He; auto. cbn [cntk]. rewrite eq1_refl. lia.
  - eapply rep_ext; [|exact C]. intros y Hy. apply He. cbn [cntk]. lia.
  - apply IH; auto. intros y Hy. apply He. cbn [cntk]. lia.
Qed.

Lemma repseg_ext s s' k b x : (forall y, (0 < cntk y k)%nat -> hp s' y = hp s y) ->
  repseg s k b x -> repseg s' k b x.
Proof.
  revert x. induction k as [|[d c a t] k IH]; intros x He H; cbn [repseg] in *; [auto|].
  destruct H as (A & B & C & D & F). split; [auto|split; [|split; [|split]]]; auto.
  - rewrite He; auto. cbn [cntk]. rewrite eq1_refl. lia.
  - eapply rep_ext; [|exact C]. intros y Hy. apply He. cbn [cntk]. lia.
  - apply IH; auto. intros y Hy. apply He. cbn [cntk]. lia.
Qed.

Lemma chold_ext s s' c : (forall x, (0 < foot x c)%nat -> hp s' x = hp s x) -> rootp s' = rootp s ->
  chold s c -> chold s' c.
Proof.
  destruct c as [a n|p t|k x|k b x]; cbn [foot chold]; intros He Hr H.
  - rewrite He; auto. rewrite eq1_refl. lia.
  - destruct H as [H1 H2]. split; auto. eapply rep_ext; eauto.
  - eapply repk_ext; eauto.
  - eapply repseg_ext; eauto.
Qed.

Lemma choldall_ext s s' l : (forall x, (0 < feet x l)%nat -> hp s' x = hp s x) -> rootp s' = rootp s ->
  choldall s l -> choldall s' l.
Proof.
  induction l as [|c l IH]; cbn [feet choldall]; auto. intros He Hr [A B]. split.
  - eapply chold_ext; [|exact Hr|exact A]. intros. apply He. lia.
  - apply IH; auto. intros. apply He. lia.
Qed.

(** Chunks [i] of the list. *)
Fixpoint repl (l : list chunk) (i : nat) (c : chunk) : list chunk :=
  match l, i with
  | [], _ => []
  | _ :: r, O => c :: r
  | b :: r, S j => b :: repl r j c
  end.

Lemma choldall_nth s l i c : choldall s l -> nth_error l i = Some c -> chold s c.
Proof.
  revert i. induction l as [|b l IH]; intros [|i] H E; try discriminate; cbn in *.
  - injection E as ->. tauto.
  - eapply IH; [apply H|eauto].
Qed.

Lemma feet_repl x l i c c' : nth_error l i = Some c -> foot x c' = foot x c ->
  feet x (repl l i c') = feet x l.
Proof.
  revert i. induction l as [|b l IH]; intros [|i] E F; try discriminate; cbn in *.
  - injection E as ->. lia.
  - rewrite (IH i); auto.
Qed.

Lemma feet_nth x l i c : nth_error l i = Some c -> (foot x c <= feet x l)%nat.
Proof.
  revert i. induction l as [|b l IH]; intros [|i] E; try discriminate; cbn in *.
  - injection E as ->. lia.
  - specialize (IH i E). lia.
Qed.

Lemma feet_two x l i j c d : nth_error l i = Some c -> nth_error l j = Some d -> i <> j ->
  (foot x c + foot x d <= feet x l)%nat.
Proof.
  revert i j. induction l as [|b l IH]; intros [|i] [|j] E F N; try discriminate; try congruence; cbn in *.
  - injection E as ->. pose proof (feet_nth x _ _ _ F). lia.
  - injection F as ->. pose proof (feet_nth x _ _ _ E). lia.
  - specialize (IH i j E F ltac:(congruence)). lia.
Qed.

Lemma choldall_repl s s' l i c c' :
  choldall s l -> (forall x, (feet x l <= 1)%nat) -> nth_error l i = Some c ->
  (forall x, foot x c = 0%nat -> hp s' x = hp s x) -> rootp s' = rootp s -> chold s' c' ->
  choldall s' (repl l i c').
Proof.
  intros A B E Fr Hr Hc. revert i E B A. induction l as [|b l IH]; intros [|i] E B A; try discriminate; cbn in *.
  - injection E as ->. split; auto. eapply choldall_ext; [|exact Hr|apply A].
    intros x Hx. apply Fr. specialize (B x). lia.
  - split.
    + eapply chold_ext; [|exact Hr|apply A]. intros x Hx. apply Fr.
      pose proof (feet_nth x _ _ _ E). specialize (B x). lia.
    + apply IH; auto; [|apply A]. intros x. specialize (B x). lia.
Qed.

(** Replace one chunk by another with the same footprint. *)
Lemma sat_change s0 s s' l i c c' :
  sat s0 s l -> nth_error l i = Some c -> (forall x, foot x c' = foot x c) ->
  (forall x, foot x c = 0%nat -> hp s' x = hp s x) -> rootp s' = rootp s -> chold s' c' ->
  sat s0 s' (repl l i c').
Proof.
  intros (A & B & C) E F Fr Hr Hc. split; [|split].
  - eapply choldall_repl; eauto.
  - intros x. rewrite (feet_repl x l i c c'); auto.
  - intros x Hx. rewrite (feet_repl x l i c c') in Hx by auto. rewrite Fr; auto.
    pose proof (feet_nth x _ _ _ E). lia.
Qed.

(** ** Cells *)

Lemma node_at_cell s0 s l i a n : sat s0 s l -> nth_error l i = Some (CCell a n) ->
  node_at s a = Some n.
Proof.
  intros (A & _) E. pose proof (choldall_nth _ _ _ _ A E) as [[H1 H2] H3].
  unfold node_at. destruct (Z.eqb_spec a 0); [lia|auto].
Qed.

Lemma sat_put s0 s l i a n n' : sat s0 s l -> nth_error l i = Some (CCell a n) ->
  sat s0 (put s a n') (repl l i (CCell a n')).
Proof.
  intros H E. eapply sat_change; eauto.
  - intros x Hx. cbn in Hx. apply eq1_0 in Hx. cbn. apply upd_other; auto.
  - destruct H as (A & _). pose proof (choldall_nth _ _ _ _ A E) as [H1 _].
    split; auto. cbn. apply upd_same.
Qed.

Lemma cell_addr s0 s l i a n : sat s0 s l -> nth_error l i = Some (CCell a n) -> node_addr a.
Proof. intros (A & _) E. apply (choldall_nth _ _ _ _ A E). Qed.

Lemma node_ptr a : node_addr a -> ptr_ok a.
Proof. intros [H1 H2]. split; lia. Qed.

Lemma cells_neq s0 s l i j a n b m : sat s0 s l -> nth_error l i = Some (CCell a n) ->
  nth_error l j = Some (CCell b m) -> i <> j -> a <> b.
Proof.
  intros (_ & B & _) E F N ->. pose proof (feet_two b l i j _ _ E F N) as G. specialize (B b).
  cbn [foot] in G. rewrite eq1_refl in G. lia.
Qed.

Lemma cell_tree_neq s0 s l i j a n p t : sat s0 s l -> nth_error l i = Some (CCell a n) ->
  nth_error l j = Some (CTree p t) -> i <> j -> a <> raddr t.
Proof.
  intros Hs E F N. pose proof (cell_addr _ _ _ _ _ _ Hs E) as [H _]. destruct Hs as (_ & B & _).
  destruct t as [|c tl b tr]; cbn [raddr]; [lia|]. intros ->.
  pose proof (feet_two b l i j _ _ E F N) as G. specialize (B b).
  cbn [foot cnt] in G. rewrite !eq1_refl in G. lia.
Qed.

Lemma top_cntk k : top k <> 0 -> (0 < cntk (top k) k)%nat.
Proof. destruct k as [|[d c a t] k]; cbn [top cntk]; [congruence|]. rewrite eq1_refl. lia. Qed.

Lemma cell_top_neq s0 s l i j a n k x : sat s0 s l -> nth_error l i = Some (CCell a n) ->
  nth_error l j = Some (CCtx k x) -> i <> j -> a <> top k.
Proof.
  intros Hs E F N. pose proof (cell_addr _ _ _ _ _ _ Hs E) as [H _]. destruct Hs as (_ & B & _).
  intros ->. pose proof (feet_two (top k) l i j _ _ E F N) as G. specialize (B (top k)).
  cbn [foot] in G. rewrite !eq1_refl in G. pose proof (top_cntk k). lia.
Qed.

Lemma top_ok s k x : repk s k x -> ptr_ok (top k).
Proof.
  destruct k as [|[d c a t] k]; cbn [top repk]; [split; [lia|reflexivity]|]. intros [H _].
  apply node_ptr; auto.
Qed.

Lemma sat_top_ok s0 s l i k x : sat s0 s l -> nth_error l i = Some (CCtx k x) -> ptr_ok (top k).
Proof. intros (A & _) E. exact (top_ok _ _ _ (choldall_nth _ _ _ _ A E)). Qed.

(** ** Splitting and joining chunks at the head of the list *)

Lemma sat_equiv s0 s l l' : sat s0 s l -> (forall x, feet x l' = feet x l) -> choldall s l' -> sat s0 s l'.
Proof.
  intros (A & B & C) F H. split; [auto|split].
  - intros x. rewrite F. auto.
  - intros x. rewrite F. auto.
Qed.

(** Replace chunk [i] by a list of chunks, keeping the others in order. *)
Fixpoint splice (l : list chunk) (i : nat) (cs : list chunk) : list chunk :=
  match l, i with
  | [], _ => []
  | _ :: r, O => cs ++ r
  | b :: r, S j => b :: splice r j cs
  end.

Lemma feet_app x a b : feet x (a ++ b) = (feet x a + feet x b)%nat.
Proof. induction a; cbn; auto. rewrite IHa. lia. Qed.

Lemma choldall_app s a b : choldall s (a ++ b) <-> choldall s a /\ choldall s b.
Proof. induction a; cbn; tauto. Qed.

Lemma sat_splice s0 s l i c cs : sat s0 s l -> nth_error l i = Some c ->
  (forall x, feet x cs = foot x c) -> choldall s cs -> sat s0 s (splice l i cs).
Proof.
  intros (A & B & C) E F H.
  assert (FE : forall x, feet x (splice l i cs) = feet x l).
  { intros x. clear -E F. revert i E. induction l as [|b l IH]; intros [|i] E; try discriminate; cbn in *.
    - injection E as ->. rewrite feet_app, F. reflexivity.
    - rewrite (IH i); auto. }
  split; [|split].
  - clear -A E H. revert i E A. induction l as [|b l IH]; intros [|i] E A; try discriminate; cbn in *.
    + apply choldall_app. tauto.
    + split; [tauto|]. apply IH; tauto.
  - intros x. rewrite FE. auto.
  - intros x. rewrite FE. auto.
Qed.

Lemma sat_unfold_tree s0 s l i p c tl a tr : sat s0 s l -> nth_error l i = Some (CTree p (T c tl a tr)) ->
  sat s0 s (splice l i [CCell a (Rbn (p + color_bit c) (raddr tr) (raddr tl)); CTree a tl; CTree a tr]).
Proof.
  intros H E. eapply sat_splice; eauto.
  - intros x. cbn [feet foot cnt]. lia.
  - destruct H as (A & _). pose proof (choldall_nth _ _ _ _ A E) as [(H1 & H2 & H3) H4].
    cbn [inorder] in H4. apply Forall_app in H4. destruct H4 as [H4 H5]. inversion H5; subst.
    cbn [choldall chold]. tauto.
Qed.

Lemma sat_unfold_ctx s0 s l i d c a t k x : sat s0 s l -> nth_error l i = Some (CCtx (Fr d c a t :: k) x) ->
  sat s0 s (splice l i [CCell a (mknode d (top k + color_bit c) x (raddr t)); CTree a t; CCtx k a]).
Proof.
  intros H E. eapply sat_splice; eauto.
  - intros y. cbn [feet foot cntk]. lia.
  - destruct H as (A & _). pose proof (choldall_nth _ _ _ _ A E) as (H1 & H2 & H3 & H4 & H5).
    cbn [choldall chold]. tauto.
Qed.

(** Any rearrangement with the same footprints, to be shown chunk by chunk. *)
Lemma sat_cell_in s0 s l a n : sat s0 s l -> In (CCell a n) l -> node_addr a /\ hp s a = Some n.
Proof.
  intros (A & _) H. apply In_nth_error in H. destruct H as [i E].
  exact (choldall_nth _ _ _ _ A E).
Qed.
Lemma sat_tree_in s0 s l p t : sat s0 s l -> In (CTree p t) l -> rep (hp s) p t /\ Forall node_addr (inorder t).
Proof.
  intros (A & _) H. apply In_nth_error in H. destruct H as [i E].
  exact (choldall_nth _ _ _ _ A E).
Qed.
Lemma sat_ctx_in s0 s l k x : sat s0 s l -> In (CCtx k x) l -> repk s k x.
Proof.
  intros (A & _) H. apply In_nth_error in H. destruct H as [i E].
  exact (choldall_nth _ _ _ _ A E).
Qed.

(** ** Compound steps *)

Definition recolor (c : color) (t : tree) : tree :=
  match t with E => E | T _ l a r => T c l a r end.

Lemma raddr_recolor c t : raddr (recolor c t) = raddr t.
Proof. destruct t; reflexivity. Qed.
Lemma inorder_recolor c t : inorder (recolor c t) = inorder t.
Proof. destruct t; reflexivity. Qed.
Lemma cnt_recolor x c t : cnt x (recolor c t) = cnt x t.
Proof. destruct t; reflexivity. Qed.

Lemma set_root_pc s0 s l i p0 p c t w : sat s0 s l -> nth_error l i = Some (CTree p0 t) ->
  t <> E -> w = p + color_bit c ->
  exists s', set_pc s (raddr t) w = Some s' /\ sat s0 s' (repl l i (CTree p (recolor c t))).
Proof.
  intros H E Ht ->. destruct t as [|c0 tl a tr]; [congruence|]. clear Ht. cbn [raddr recolor].
  pose proof H as (A & B & C). pose proof (choldall_nth _ _ _ _ A E) as [(H1 & H2 & H3) H4].
  assert (Ha : node_addr a).
  { rewrite Forall_forall in H4. apply H4. cbn [inorder]. rewrite in_app_iff. right. left. auto. }
  assert (Hb : (cnt a tl + 1 + cnt a tr <= 1)%nat).
  { pose proof (feet_nth a _ _ _ E) as G. cbn [foot cnt] in G. rewrite eq1_refl in G.
    specialize (B a). lia. }
  unfold set_pc, node_at. destruct (Z.eqb_spec a 0); [destruct Ha; lia|]. rewrite H1.
  eexists. split; [reflexivity|]. eapply sat_change; eauto.
  - intros x Hx. cbn [foot cnt] in Hx. cbn. apply upd_other. apply eq1_0. lia.
  - split; [|exact H4]. cbn [rep put hp]. split; [apply upd_same|].
    split; (eapply rep_ext; [|eassumption]); intros x Hx; apply upd_other; intros ->; lia.
Qed.

Lemma get_root_pc s0 s l i p c tl a tr : sat s0 s l -> nth_error l i = Some (CTree p (T c tl a tr)) ->
  node_at s a = Some (Rbn (p + color_bit c) (raddr tr) (raddr tl)).
Proof.
  intros H E. pose proof H as (A & B & C). pose proof (choldall_nth _ _ _ _ A E) as [(H1 & H2 & H3) H4].
  assert (Ha : node_addr a).
  { rewrite Forall_forall in H4. apply H4. cbn [inorder]. rewrite in_app_iff. right. left. auto. }
  unfold node_at. destruct (Z.eqb_spec a 0); [destruct Ha; lia|]. auto.
Qed.

Lemma raddr_0 s0 s l i p t : sat s0 s l -> nth_error l i = Some (CTree p t) -> raddr t = 0 -> t = E.
Proof.
  intros (A & _) E H. destruct t as [|c tl a tr]; auto. cbn in H. subst a.
  pose proof (choldall_nth _ _ _ _ A E) as [_ H4]. rewrite Forall_forall in H4.
  assert (G : node_addr 0) by (apply H4; cbn [inorder]; rewrite in_app_iff; right; left; auto).
  destruct G. lia.
Qed.

(** "if (tmp) rb_set_parent_color(tmp, p, c)" on a subtree. *)
Lemma exec_set_parent_color_if s0 s l i p0 p c t w : sat s0 s l -> nth_error l i = Some (CTree p0 t) ->
  ptr_ok p -> w = color_bit c ->
  exists s', set_parent_color_if s (raddr t) p w = Some s' /\ sat s0 s' (repl l i (CTree p (recolor c t))).
Proof.
  intros H E Hp ->. unfold set_parent_color_if. destruct (Z.eqb_spec (raddr t) 0) as [Z0|Z0].
  - pose proof (raddr_0 _ _ _ _ _ _ H E Z0) as ->. cbn [recolor]. exists s. split; auto.
    eapply sat_change; eauto. cbn. auto.
  - unfold rb_set_parent_color. eapply set_root_pc; eauto.
    + intros ->. apply Z0. reflexivity.
    + apply pack; auto.
Qed.

Lemma exec_set_parent s0 s l i p0 p t : sat s0 s l -> nth_error l i = Some (CTree p0 t) -> t <> E ->
  ptr_ok p0 -> ptr_ok p ->
  exists s', rb_set_parent s (raddr t) p = Some s' /\ sat s0 s' (repl l i (CTree p t)).
Proof.
  intros H E Ht Hp0 Hp. destruct t as [|c tl a tr]; [congruence|]. cbn [raddr].
  unfold rb_set_parent, get_pc. rewrite (get_root_pc _ _ _ _ _ _ _ _ _ H E). cbn [pc].
  rewrite pc_color_pack by auto.
  destruct (set_root_pc s0 s l i p0 p c (T c tl a tr) (Z.lor (color_bit c) p) H E) as (s' & E1 & H1).
  - discriminate.
  - apply pack'; auto.
  - exists s'. auto.
Qed.

Lemma exec_set_parent_if s0 s l i p0 p t : sat s0 s l -> nth_error l i = Some (CTree p0 t) ->
  ptr_ok p0 -> ptr_ok p ->
  exists s', set_parent_if s (raddr t) p = Some s' /\ sat s0 s' (repl l i (CTree p t)).
Proof.
  intros H E Hp0 Hp. unfold set_parent_if. destruct (Z.eqb_spec (raddr t) 0) as [Z0|Z0].
  - pose proof (raddr_0 _ _ _ _ _ _ H E Z0) as ->. exists s. split; auto.
    eapply sat_change; eauto. cbn. auto.
  - eapply exec_set_parent; eauto. intros ->. apply Z0. reflexivity.
Qed.

Lemma exec_present_red s0 s l i p t : sat s0 s l -> nth_error l i = Some (CTree p t) -> ptr_ok p ->
  present_red s (raddr t) = Some (match rcolor t with Red => true | Black => false end).
Proof.
  intros H E Hp. unfold present_red. destruct (Z.eqb_spec (raddr t) 0) as [Z0|Z0].
  - pose proof (raddr_0 _ _ _ _ _ _ H E Z0) as ->. reflexivity.
  - destruct t as [|c tl a tr]; [exfalso; apply Z0; reflexivity|]. cbn [raddr rcolor]. unfold rb_is_red, get_pc.
    rewrite (get_root_pc _ _ _ _ _ _ _ _ _ H E). cbn [pc]. rewrite pc_color_pack by auto.
    destruct c; reflexivity.
Qed.

Lemma exec_absent_black s0 s l i p t : sat s0 s l -> nth_error l i = Some (CTree p t) -> ptr_ok p ->
  absent_black s (raddr t) = Some (match rcolor t with Red => false | Black => true end).
Proof.
  intros H E Hp. unfold absent_black. destruct (Z.eqb_spec (raddr t) 0) as [Z0|Z0].
  - pose proof (raddr_0 _ _ _ _ _ _ H E Z0) as ->. reflexivity.
  - destruct t as [|c tl a tr]; [exfalso; apply Z0; reflexivity|]. cbn [raddr rcolor]. unfold rb_is_black, get_pc.
    rewrite (get_root_pc _ _ _ _ _ _ _ _ _ H E). cbn [pc]. rewrite pc_color_pack by auto.
    destruct c; reflexivity.
Qed.

(** Replacing the child of the innermost frame.  [l] has no other context. *)
Definition no_ctx (l : list chunk) : bool :=
  forallb (fun c => match c with CCtx _ _ => false | _ => true end) l.

Fixpoint drop (l : list chunk) (i : nat) : list chunk :=
  match l, i with
  | [], _ => []
  | _ :: r, O => r
  | b :: r, S j => b :: drop r j
  end.

Lemma choldall_no_ctx s s' l : no_ctx l = true -> hp s' = hp s -> choldall s l -> choldall s' l.
Proof.
  intros N Hh. induction l as [|c l IH]; cbn in *; auto. apply andb_true_iff in N. destruct N as [N1 N2].
  intros [A B]. split; [|auto]. destruct c; try discriminate; cbn [chold] in *; try (rewrite Hh; auto).
  eapply repseg_ext; [|exact A]. intros. rewrite Hh. reflexivity.
Qed.

Lemma exec_change_child s0 s l i k x y : sat s0 s l -> nth_error l i = Some (CCtx k x) ->
  no_ctx (drop l i) = true -> x <> 0 -> cntk x k = 0%nat ->
  exists s', rb_change_child s x y (top k) = Some s' /\ sat s0 s' (repl l i (CCtx k y)).
Proof.
  intros H E N Hx Hc. pose proof H as (A & B & C). pose proof (choldall_nth _ _ _ _ A E) as K.
  cbn [chold] in K. unfold rb_change_child. destruct k as [|[d c a t] k]; cbn [top repk] in *.
  - cbn [Z.eqb negb]. eexists. split; [reflexivity|]. split; [|split].
    + clear -A E N. revert i E N A. induction l as [|b l IH]; intros [|i] E N A; try discriminate; cbn in *.
      * split; [reflexivity|]. apply (choldall_no_ctx s); [exact N|reflexivity|tauto].
      * apply andb_true_iff in N. destruct N as [N1 N2]. split.
        -- destruct A as [A _]. destruct b; try discriminate; try exact A.
           cbn [chold] in *. eapply repseg_ext; [|exact A]. reflexivity.
        -- apply IH; auto. tauto.
    + intros z. rewrite (feet_repl z l i (CCtx [] x) (CCtx [] y)); auto.
    + intros z. rewrite (feet_repl z l i (CCtx [] x) (CCtx [] y)) by auto. exact (C z).
  - destruct K as ([K0 K1] & K2 & K3 & K4 & K5).
    destruct (Z.eqb_spec a 0); [lia|]. cbn [negb]. unfold get_lf, set_lf, set_rt, node_at.
    destruct (Z.eqb_spec a 0); [lia|]. rewrite K2.
    assert (Hk : forall w, w = mknode d (top k + color_bit c) y (raddr t) ->
      sat s0 (put s a w) (repl l i (CCtx (Fr d c a t :: k) y))).
    { intros w ->. assert (Ba : (cnt a t + cntk a k = 0)%nat).
      { pose proof (feet_nth a _ _ _ E) as G. cbn [foot cntk] in G. rewrite eq1_refl in G.
        specialize (B a). lia. }
      eapply sat_change; eauto.
      - intros z Hz. cbn [foot cntk] in Hz. cbn. apply upd_other, eq1_0. lia.
      - cbn [chold repk put hp]. split; [split; auto|]. split; [apply upd_same|].
        split; [|split; [auto|]].
        + eapply rep_ext; [|exact K3]. intros z Hz. apply upd_other. intros ->. lia.
        + eapply repk_ext; [| |exact K5]; [|reflexivity]. intros z Hz. cbn. apply upd_other. intros ->. lia. }
    cbn [cntk] in Hc. destruct d; cbn [mknode lf rt pc].
    + rewrite Z.eqb_refl. eexists. split; [reflexivity|]. apply Hk. reflexivity.
    + destruct (Z.eqb_spec (raddr t) x) as [Ex|Ex].
      * exfalso. destruct t as [|c' tl b tr]; cbn [raddr] in Ex; [congruence|]. subst b.
        cbn [cnt] in Hc. rewrite eq1_refl in Hc. lia.
      * eexists. split; [reflexivity|]. apply Hk. reflexivity.
Qed.

Lemma cell_cntk s0 s l i j a n k x : sat s0 s l -> nth_error l i = Some (CCell a n) ->
  nth_error l j = Some (CCtx k x) -> i <> j -> cntk a k = 0%nat.
Proof.
  intros (_ & B & _) E F N. pose proof (feet_two a l i j _ _ E F N) as G. specialize (B a).
  cbn [foot] in G. rewrite eq1_refl in G. lia.
Qed.

Lemma no_ctx_repl l j a n : no_ctx l = true -> no_ctx (repl l j (CCell a n)) = true.
Proof.
  revert j. induction l as [|c l IH]; intros [|j] N; cbn in *; auto.
  - apply andb_true_iff in N. tauto.
  - apply andb_true_iff in N. destruct N as [N1 N2]. rewrite N1. cbn. apply IH. exact N2.
Qed.

Lemma no_ctx_drop_repl l q j a n : no_ctx (drop l q) = true ->
  no_ctx (drop (repl l j (CCell a n)) q) = true.
Proof.
  revert q j. induction l as [|c l IH]; intros [|q] [|j] N; cbn in *; auto.
  - apply no_ctx_repl; auto.
  - apply andb_true_iff in N. tauto.
  - apply andb_true_iff in N. destruct N as [N1 N2]. rewrite N1. cbn. apply IH. exact N2.
Qed.

(** __rb_rotate_set_parents. *)
Lemma exec_rotate s0 s l i j q old new k w r1 l1 w2 r2 l2 co c :
  sat s0 s l -> nth_error l i = Some (CCell old (Rbn w r1 l1)) ->
  nth_error l j = Some (CCell new (Rbn w2 r2 l2)) ->
  nth_error l q = Some (CCtx k old) -> no_ctx (drop l q) = true -> i <> j ->
  w = top k + color_bit co -> i <> q -> j <> q ->
  exists s', rb_rotate_set_parents s old new (color_bit c) = Some s' /\
    sat s0 s' (repl (repl (repl l j (CCell new (Rbn w r2 l2))) i (CCell old (Rbn (new + color_bit c) r1 l1)))
                    q (CCtx k new)).
Proof.
  intros H E1 E2 E3 N Nij -> Niq Njq. unfold rb_rotate_set_parents, rb_parent, get_pc.
  rewrite (node_at_cell _ _ _ _ _ _ H E1). cbn [pc].
  rewrite pc_parent_pack by (eapply sat_top_ok; eauto).
  unfold set_pc at 1. rewrite (node_at_cell _ _ _ _ _ _ H E2). cbn [rt lf].
  pose proof (cell_addr _ _ _ _ _ _ H E1) as Ao. pose proof (cell_addr _ _ _ _ _ _ H E2) as An.
  pose proof (cell_cntk _ _ _ _ _ _ _ _ _ H E1 E3 Niq) as Ck.
  pose proof (sat_put _ _ _ _ _ _ (Rbn (top k + color_bit co) r2 l2) H E2) as H1.
  assert (nthr : forall l i j c d, i <> j -> nth_error l i = Some c -> nth_error (repl l j d) i = Some c).
  { clear. induction l as [|b l IH]; intros [|i] [|j] c d N E; try discriminate; try congruence; cbn in *; auto. }
  pose proof (nthr _ _ _ _ (CCell new (Rbn (top k + color_bit co) r2 l2)) Nij E1) as E1'.
  unfold rb_set_parent_color. rewrite pack by (apply node_ptr; auto).
  unfold set_pc. rewrite (node_at_cell _ _ _ _ _ _ H1 E1'). cbn [rt lf].
  pose proof (sat_put _ _ _ _ _ _ (Rbn (new + color_bit c) r1 l1) H1 E1') as H2.
  eapply exec_change_child; eauto.
  - apply no_ctx_drop_repl, no_ctx_drop_repl. exact N.
  - destruct Ao. lia.
Qed.
