(** What a red-black tree in memory is. *)
From Coq Require Import ZArith List Bool.
From Verif Require Import RbModel.
Import ListNotations.
Open Scope Z_scope.

Inductive color := Red | Black.

(** A tree of node addresses. *)
Inductive tree := E | T (c : color) (l : tree) (a : Z) (r : tree).

Fixpoint inorder (t : tree) : list Z :=
  match t with E => [] | T _ l a r => inorder l ++ a :: inorder r end.

Fixpoint postorder (t : tree) : list Z :=
  match t with E => [] | T _ l a r => postorder l ++ postorder r ++ [a] end.

(** Address of the topmost node, 0 for the empty tree. *)
Definition raddr (t : tree) : Z := match t with E => 0 | T _ _ a _ => a end.
Definition rcolor (t : tree) : color := match t with E => Black | T c _ _ _ => c end.

Definition color_bit (c : color) : Z := match c with Red => 0 | Black => 1 end.

(** The heap holds [t] below parent [p]: every node has its children's addresses
    in its link fields and parent and colour in its first word. *)
Fixpoint rep (h : Z -> option rbn) (p : Z) (t : tree) : Prop :=
  match t with
  | E => True
  | T c l a r => h a = Some (Rbn (p + color_bit c) (raddr r) (raddr l)) /\ rep h a l /\ rep h a r
  end.

(** Node addresses are not null and 4-aligned (struct rb_node is aligned to the
    size of a long). *)
Definition node_addr (a : Z) : Prop := 0 < a /\ a mod 4 = 0.

(** [s] holds exactly the tree [t]. *)
Definition holds (s : rbs) (t : tree) : Prop :=
  rootp s = raddr t /\ rep (hp s) 0 t /\ NoDup (inorder t) /\ Forall node_addr (inorder t).

(** The red-black rules: no red node has a red child, every path from a node
    down to a leaf passes the same number of black nodes, the root is black. *)
Fixpoint no_red_red (t : tree) : Prop :=
  match t with
  | E => True
  | T c l _ r => (c = Red -> rcolor l = Black /\ rcolor r = Black) /\ no_red_red l /\ no_red_red r
  end.

(** Black nodes on the paths to the leaves. *)
Inductive path : tree -> nat -> Prop :=
| path_leaf : path E 0
| path_left c l a r n : path l n -> path (T c l a r) (match c with Black => S n | Red => n end)
| path_right c l a r n : path r n -> path (T c l a r) (match c with Black => S n | Red => n end).

Definition red_black (t : tree) : Prop :=
  rcolor t = Black /\ no_red_red t /\ (forall n m, path t n -> path t m -> n = m).

(** Nodes on the longest path. *)
Fixpoint height (t : tree) : nat :=
  match t with E => O | T _ l _ r => S (Nat.max (height l) (height r)) end.

Definition size (t : tree) : nat := length (inorder t).

(** Memory of all nodes other than those of [t] (and possibly [extra]) is the same. *)
Definition same_elsewhere (s s' : rbs) (l : list Z) : Prop :=
  forall x, ~ In x l -> hp s' x = hp s x.

(** [cmp n] says where the key lies relative to node [n]: along the tree the
    key is first larger, then equal, then smaller. *)
Definition monotone (cmp : Z -> Z) (l : list Z) : Prop :=
  exists L M R, l = L ++ M ++ R /\
    Forall (fun n => 0 < cmp n) L /\ Forall (fun n => cmp n = 0) M /\ Forall (fun n => cmp n < 0) R.

(** Follow [next] from [a] until it answers 0; at most [n] steps. *)
Fixpoint walk (next : Z -> option Z) (n : nat) (a : Z) : option (list Z) :=
  match n with
  | O => None
  | S m => if a =? 0 then Some [] else
           match next a with
           | None => None
           | Some b => match walk next m b with None => None | Some l => Some (a :: l) end
           end
  end.

(** The tree with node [a] renamed to [b]. *)
Fixpoint rename (a b : Z) (t : tree) : tree :=
  match t with
  | E => E
  | T c l x r => T c (rename a b l) (if x =? a then b else x) (rename a b r)
  end.

(** A comparison [c node new] consistent with a total preorder: negative if
    [new] is smaller than [node]. *)
Definition consistent (c : Z -> Z -> Z) : Prop :=
  (forall a b, c a b < 0 <-> 0 < c b a) /\
  (forall a b d, c a b <= 0 -> c b d <= 0 -> c a d <= 0).

(** Sorted contents of an index, and what insertion and removal do to it. *)
Fixpoint place (c : Z -> Z -> Z) (n : Z) (l : list Z) : list Z :=
  match l with
  | [] => [n]
  | a :: r => if 0 <? c a n then a :: place c n r else if c a n <? 0 then n :: l else l
  end.

Inductive op := Ins (n : Z) | Del (n : Z).

Definition op_spec (c : Z -> Z -> Z) (l : list Z) (o : op) : list Z :=
  match o with
  | Ins n => place c n l
  | Del n => remove Z.eq_dec n l
  end.

(** Insert nodes that are in memory and not in the index; remove nodes of the index. *)
Fixpoint valid (c : Z -> Z -> Z) (pool : Z -> Prop) (l : list Z) (os : list op) : Prop :=
  match os with
  | [] => True
  | o :: r => match o with Ins n => pool n /\ ~ In n l | Del n => In n l end /\
              valid c pool (op_spec c l o) r
  end.

(** [x] is the first of its group of equal elements in [ns]. *)
Definition first_of_group (c : Z -> Z -> Z) (ns : list Z) (x : Z) : Prop :=
  exists L R, ns = L ++ x :: R /\ forall y, In y L -> c y x <> 0.
