(** Properties C06, C07: intrusive lists. *)
From Coq Require Import ZArith List Bool Lia Sorted Permutation.
From Verif Require Import Word ListModel ListSpec ListProofs ListSort.
Import ListNotations.
Open Scope Z_scope.

(** ** Concrete lists for the examples: heads 8 and 9. *)
Fixpoint link (h : lheap) (a : Z) (xs : list Z) (b : Z) : lheap :=
  match xs with
  | [] => Lh (live h) (set (nx h) a b) (set (pv h) b a)
  | x :: xs => link (Lh (live h) (set (nx h) a x) (set (pv h) x a)) x xs b
  end.
Definition ex_blank : lheap := Lh (fun x => (0 <? x) && (x <? 100)) (fun _ => 77) (fun _ => 78).
Definition ex_h : lheap := link (link ex_blank 8 [10; 20; 30; 40] 8) 9 [50; 60] 9.
Ltac ring_ex := split; [|split];
  [ cbn; repeat split; reflexivity
  | repeat (constructor; [cbn; intuition discriminate|]); constructor
  | repeat (constructor; [split; [reflexivity|discriminate]|]); constructor ].
Lemma ex_ring8 : ring ex_h 8 [10; 20; 30; 40]. Proof. ring_ex. Qed.
Lemma ex_ring9 : ring ex_h 9 [50; 60]. Proof. ring_ex. Qed.
Lemma ex_fresh : fresh ex_h 70 [8; 10; 20; 30; 40].
Proof. split; [reflexivity|]. split; [discriminate|]. cbn. intuition discriminate. Qed.
Lemma ex_disjoint : disjoint [8; 10; 20; 30; 40] [9; 50; 60].
Proof. intros x A B. cbn in A, B. intuition (subst; discriminate). Qed.
Definition after (o : option lheap) (head : Z) : option (list Z * list Z) :=
  h <- o ;; f <- list_for_each 20 h head ;; b <- list_for_each_prev 20 h head ;; Some (f, b).

(** ** C06 *)

Theorem C06_init h a : live h a = true -> a <> 0 ->
  exists h', list_init h a = Some h' /\ ring h' a [] /\ only_changes h h' [a].
Proof. exact (list_init_ok h a). Qed.
Print Assumptions C06_init.
Example C06_init_ex : live ex_h 70 = true /\ after (list_init ex_h 70) 70 = Some ([], []).
Proof. split; reflexivity. Qed.

(** Traversals see the sequence forwards and backwards. *)
Theorem C06_traverse h head l fuel : ring h head l -> (length l < fuel)%nat ->
  list_for_each fuel h head = Some l /\ list_for_each_prev fuel h head = Some (rev l).
Proof. intros R F. split; [apply list_for_each_ok|apply list_for_each_prev_ok]; auto. Qed.
Print Assumptions C06_traverse.
Example C06_traverse_ex : ring ex_h 8 [10; 20; 30; 40] /\
  after (Some ex_h) 8 = Some ([10; 20; 30; 40], [40; 30; 20; 10]).
Proof. split; [exact ex_ring8|reflexivity]. Qed.

Theorem C06_append h head l new : ring h head l -> fresh h new (head :: l) ->
  exists h', list_add h new head = Some h' /\ ring h' head (l ++ [new]) /\ only_changes h h' (new :: head :: l).
Proof. exact (list_add_ok h head l new). Qed.
Print Assumptions C06_append.

Theorem C06_prepend h head l new : ring h head l -> fresh h new (head :: l) ->
  exists h', list_add_head h new head = Some h' /\ ring h' head (new :: l) /\ only_changes h h' (new :: head :: l).
Proof. exact (list_add_head_ok h head l new). Qed.
Print Assumptions C06_prepend.
Example C06_add_ex : ring ex_h 8 [10; 20; 30; 40] /\ fresh ex_h 70 [8; 10; 20; 30; 40] /\
  after (list_add ex_h 70 8) 8 = Some ([10; 20; 30; 40; 70], [70; 40; 30; 20; 10]) /\
  after (list_add_head ex_h 70 8) 8 = Some ([70; 10; 20; 30; 40], [40; 30; 20; 10; 70]).
Proof. split; [exact ex_ring8|]. split; [exact ex_fresh|]. split; reflexivity. Qed.

Theorem C06_remove h head xs a ys : ring h head (xs ++ a :: ys) ->
  exists h', list_del h a = Some h' /\ ring h' head (xs ++ ys) /\ only_changes h h' (head :: xs ++ ys).
Proof. exact (list_del_ok h head xs a ys). Qed.
Print Assumptions C06_remove.

Theorem C06_replace h head xs old ys new : ring h head (xs ++ old :: ys) ->
  fresh h new (head :: xs ++ old :: ys) ->
  exists h', list_replace h old new = Some h' /\ ring h' head (xs ++ new :: ys) /\
    only_changes h h' (new :: head :: xs ++ ys).
Proof. exact (list_replace_ok h head xs old ys new). Qed.
Print Assumptions C06_replace.
Example C06_remove_ex : ring ex_h 8 ([10; 20] ++ 30 :: [40]) /\ fresh ex_h 70 (8 :: [10; 20] ++ 30 :: [40]) /\
  after (list_del ex_h 30) 8 = Some ([10; 20; 40], [40; 20; 10]) /\
  after (list_replace ex_h 30 70) 8 = Some ([10; 20; 70; 40], [40; 70; 20; 10]).
Proof. split; [exact ex_ring8|]. split; [exact ex_fresh|]. split; reflexivity. Qed.

(** Moving appends, whichever of the two move operations is used. *)
Theorem C06_move_within h head xs a ys : ring h head (xs ++ a :: ys) ->
  exists h', list_move h a head = Some h' /\ list_move_tail h a head = Some h' /\
    ring h' head (xs ++ ys ++ [a]) /\ only_changes h h' (head :: xs ++ a :: ys).
Proof.
  intros R. destruct (list_move_same_ok h head xs a ys R) as (h' & A & B & C). exists h'.
  split; auto.
Qed.
Print Assumptions C06_move_within.

Theorem C06_move_across h head xs a ys head2 l2 : ring h head (xs ++ a :: ys) -> ring h head2 l2 ->
  disjoint (head :: xs ++ a :: ys) (head2 :: l2) ->
  exists h', list_move h a head2 = Some h' /\ list_move_tail h a head2 = Some h' /\
    ring h' head (xs ++ ys) /\ ring h' head2 (l2 ++ [a]) /\
    only_changes h h' (head :: (xs ++ a :: ys) ++ head2 :: l2).
Proof.
  intros R R2 D. destruct (list_move_other_ok h head xs a ys head2 l2 R R2 D) as (h' & A & B). exists h'.
  split; auto.
Qed.
Print Assumptions C06_move_across.
Example C06_move_ex : ring ex_h 8 ([10] ++ 20 :: [30; 40]) /\ ring ex_h 9 [50; 60] /\
  disjoint (8 :: [10] ++ 20 :: [30; 40]) [9; 50; 60] /\
  after (list_move ex_h 20 8) 8 = Some ([10; 30; 40; 20], [20; 40; 30; 10]) /\
  after (list_move ex_h 20 9) 8 = Some ([10; 30; 40], [40; 30; 10]) /\
  after (list_move ex_h 20 9) 9 = Some ([50; 60; 20], [20; 60; 50]).
Proof. split; [exact ex_ring8|]. split; [exact ex_ring9|]. split; [exact ex_disjoint|]. repeat split; reflexivity. Qed.

Theorem C06_rotate h head l : ring h head l ->
  exists h', list_rotate_left h head = Some h' /\
    ring h' head (match l with [] => [] | x :: xs => xs ++ [x] end) /\ only_changes h h' (head :: l).
Proof. exact (list_rotate_ok h head l). Qed.
Print Assumptions C06_rotate.

(** Cutting the front of a list off into a new list. *)
Theorem C06_cut h head xs e ys l : ring h head (xs ++ e :: ys) -> fresh h l (head :: xs ++ e :: ys) ->
  exists h', __list_cut_position h l head e = Some h' /\ ring h' l (xs ++ [e]) /\ ring h' head ys /\
    only_changes h h' (l :: head :: xs ++ e :: ys).
Proof. exact (list_cut_ok h head xs e ys l). Qed.
Print Assumptions C06_cut.
Example C06_cut_ex : ring ex_h 8 ([10] ++ 20 :: [30; 40]) /\ fresh ex_h 70 (8 :: [10] ++ 20 :: [30; 40]) /\
  after (list_rotate_left ex_h 8) 8 = Some ([20; 30; 40; 10], [10; 40; 30; 20]) /\
  after (__list_cut_position ex_h 70 8 20) 70 = Some ([10; 20], [20; 10]) /\
  after (__list_cut_position ex_h 70 8 20) 8 = Some ([30; 40], [40; 30]).
Proof. split; [exact ex_ring8|]. split; [exact ex_fresh|]. repeat split; reflexivity. Qed.

Theorem C06_splice h head l1 l l2 : ring h head l1 -> ring h l l2 -> disjoint (head :: l1) (l :: l2) ->
  exists h', list_splice h l head = Some h' /\ ring h' head (l2 ++ l1) /\ only_changes h h' ((head :: l1) ++ l2).
Proof. exact (list_splice_ok h head l1 l l2). Qed.
Print Assumptions C06_splice.

Theorem C06_splice_tail h head l1 l l2 : ring h head l1 -> ring h l l2 -> disjoint (head :: l1) (l :: l2) ->
  exists h', list_splice_tail h l head = Some h' /\ ring h' head (l1 ++ l2) /\ only_changes h h' ((head :: l1) ++ l2).
Proof. exact (list_splice_tail_ok h head l1 l l2). Qed.
Print Assumptions C06_splice_tail.
Example C06_splice_ex : ring ex_h 8 [10; 20; 30; 40] /\ ring ex_h 9 [50; 60] /\
  disjoint [8; 10; 20; 30; 40] [9; 50; 60] /\
  after (list_splice ex_h 9 8) 8 = Some ([50; 60; 10; 20; 30; 40], [40; 30; 20; 10; 60; 50]) /\
  after (list_splice_tail ex_h 9 8) 8 = Some ([10; 20; 30; 40; 50; 60], [60; 50; 40; 30; 20; 10]).
Proof. split; [exact ex_ring8|]. split; [exact ex_ring9|]. split; [exact ex_disjoint|]. split; reflexivity. Qed.

(** The predicates. *)
Theorem C06_predicates h head l : ring h head l ->
  list_empty h head = Some (match l with [] => true | _ => false end) /\
  list_empty_careful h head = Some (match l with [] => true | _ => false end) /\
  list_is_singular h head = Some (match l with [_] => true | _ => false end) /\
  (forall xs a ys, l = xs ++ a :: ys -> list_is_last h a head = Some (match ys with [] => true | _ => false end)).
Proof.
  intros R. split; [apply list_empty_ok; auto|]. split; [apply list_empty_careful_ok; auto|].
  split; [apply list_singular_ok; auto|]. intros xs a ys ->. eapply list_is_last_ok; eauto.
Qed.
Print Assumptions C06_predicates.
Example C06_predicates_ex : ring ex_h 9 ([50] ++ 60 :: []) /\ list_is_last ex_h 60 9 = Some true.
Proof. split; [exact ex_ring9|reflexivity]. Qed.

(** Deleting and freeing every entry while iterating: every entry is freed once,
    no freed entry is accessed, the list is empty afterwards. *)
Theorem C06_free_all h head l fuel : ring h head l -> (length l < fuel)%nat ->
  exists h', list_free_all fuel h head = Some (l, h') /\ ring h' head [] /\
    (forall x, live h' x = if in_dec Z.eq_dec x l then false else live h x) /\
    (forall x, ~ In x (head :: l) -> nx h' x = nx h x /\ pv h' x = pv h x).
Proof. exact (list_free_all_ok h head l fuel). Qed.
Print Assumptions C06_free_all.
Example C06_free_all_ex : ring ex_h 8 [10; 20; 30; 40] /\
  exists h', list_free_all 5 ex_h 8 = Some ([10; 20; 30; 40], h').
Proof. split; [exact ex_ring8|]. eexists. vm_compute. reflexivity. Qed.

(** ** C07 *)

Theorem C07_list_sort cmp h head l fuel : total_preorder cmp -> ring h head l ->
  Z.of_nat (length l) < 2 ^ 64 -> (3 * length l < fuel)%nat ->
  exists h' l', list_sort cmp fuel h head = Some h' /\ ring h' head l' /\ stable_sort_of cmp l l' /\
    only_changes h h' (head :: l).
Proof. intros C. exact (list_sort_ok cmp C h head l fuel). Qed.
Print Assumptions C07_list_sort.

(** Keys are tens modulo three: boolean-style comparison, three groups. *)
Definition ex_key (x : Z) : Z := (x / 10) mod 3.
Definition ex_gt (a b : Z) : Z := if ex_key a >? ex_key b then 1 else 0.
Definition ex_h2 : lheap := link ex_blank 8 [50; 10; 20; 30; 40; 90; 60; 80; 70] 8.
Example C07_list_sort_ex : total_preorder ex_gt /\ ring ex_h2 8 [50; 10; 20; 30; 40; 90; 60; 80; 70] /\
  after (list_sort ex_gt 30 ex_h2 8) 8 = Some ([30; 90; 60; 10; 40; 70; 50; 20; 80], [80; 20; 50; 70; 40; 10; 60; 90; 30]).
Proof.
  split; [|split; [ring_ex|reflexivity]].
  split; intros; unfold ex_gt in *; repeat match goal with |- context [?a >? ?b] => destruct (Z.gtb_spec a b)
    | H : context [?a >? ?b] |- _ => destruct (Z.gtb_spec a b) end; lia.
Qed.
