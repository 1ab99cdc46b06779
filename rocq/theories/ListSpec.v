(** What the list operations are supposed to do, as operations on sequences. *)
From Coq Require Import ZArith List Bool Sorted Permutation.
From Verif Require Import ListModel.
Import ListNotations.
Open Scope Z_scope.

(** From [a] through [xs] to [b] along next, and back along prev. *)
Fixpoint path (h : lheap) (a : Z) (xs : list Z) (b : Z) : Prop :=
  match xs with
  | [] => nx h a = b /\ pv h b = a
  | x :: xs => nx h a = x /\ pv h x = a /\ path h x xs b
  end.

(** [head] is the head of a well-formed circular list with entries [l]. *)
Definition ring (h : lheap) (head : Z) (l : list Z) : Prop :=
  path h head l head /\ NoDup (head :: l) /\ Forall (fun x => live h x = true /\ x <> 0) (head :: l).

(** Nothing but the entries [zs] may have changed. *)
Definition only_changes (h h' : lheap) (zs : list Z) : Prop :=
  (forall x, live h' x = live h x) /\
  (forall x, ~ In x zs -> nx h' x = nx h x /\ pv h' x = pv h x).

(** A usable entry that is not on the list. *)
Definition fresh (h : lheap) (new : Z) (zs : list Z) : Prop :=
  live h new = true /\ new <> 0 /\ ~ In new zs.

Definition disjoint (xs ys : list Z) : Prop := forall x, In x xs -> In x ys -> False.

(** Stable sorting: a permutation, in order, with equal entries in their
    original order. *)
Definition total_preorder (cmp : Z -> Z -> Z) : Prop :=
  (forall a b, cmp a b <= 0 \/ cmp b a <= 0) /\
  (forall a b c, cmp a b <= 0 -> cmp b c <= 0 -> cmp a c <= 0).
Definition same_key (cmp : Z -> Z -> Z) (x y : Z) : bool := (cmp x y <=? 0) && (cmp y x <=? 0).
Definition stable_sort_of (cmp : Z -> Z -> Z) (l l' : list Z) : Prop :=
  Permutation l l' /\ StronglySorted (fun a b => cmp a b <= 0) l' /\
  forall x, filter (same_key cmp x) l' = filter (same_key cmp x) l.
