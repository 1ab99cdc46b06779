(** Intrusive red-black trees: src/utils/rbtree.h and src/utils/rbtree.c.

    A node is the three words of [struct rb_node] (rbtree.h 38-42); the first one
    packs the parent address and the colour.  The heap maps addresses to nodes;
    reading or writing through a null pointer or an address that holds no node is
    undefined behaviour and makes the model return [None].  Loops take a fuel
    argument and return [None] when it runs out; all theorems are about every
    fuel that is large enough. *)
From Coq Require Import ZArith List Bool.
Import ListNotations.
Open Scope Z_scope.

Notation "x <- e ;; k" := (match e with Some x => k | None => None end)
  (at level 60, e at next level, right associativity).

(** struct rb_node, rbtree.h 38-42. *)
Record rbn := Rbn { pc : Z; rt : Z; lf : Z }.

(** The heap and [root->rb_node] (struct rb_root, rbtree.h 45-47). *)
Record rbs := Rbs { hp : Z -> option rbn; rootp : Z }.

Definition upd (h : Z -> option rbn) (a : Z) (v : option rbn) : Z -> option rbn :=
  fun x => if x =? a then v else h x.

Definition node_at (s : rbs) (a : Z) : option rbn := if a =? 0 then None else hp s a.

(** Field reads and writes. *)
Definition get_pc (s : rbs) (a : Z) : option Z := n <- node_at s a ;; Some (pc n).
Definition get_rt (s : rbs) (a : Z) : option Z := n <- node_at s a ;; Some (rt n).
Definition get_lf (s : rbs) (a : Z) : option Z := n <- node_at s a ;; Some (lf n).
Definition put (s : rbs) (a : Z) (n : rbn) : rbs := Rbs (upd (hp s) a (Some n)) (rootp s).
Definition set_pc (s : rbs) (a v : Z) : option rbs :=
  n <- node_at s a ;; Some (put s a (Rbn v (rt n) (lf n))).
Definition set_rt (s : rbs) (a v : Z) : option rbs :=
  n <- node_at s a ;; Some (put s a (Rbn (pc n) v (lf n))).
Definition set_lf (s : rbs) (a v : Z) : option rbs :=
  n <- node_at s a ;; Some (put s a (Rbn (pc n) (rt n) v)).
Definition set_root (s : rbs) (v : Z) : rbs := Rbs (hp s) v.

(** RB_RED, RB_BLACK, rbtree.h 123-124. *)
Definition RB_RED := 0.
Definition RB_BLACK := 1.

(** __rb_parent / rb_parent, __rb_color, rbtree.h 50, 126-133. *)
Definition pc_parent (v : Z) : Z := Z.land v (Z.lnot 3).
Definition pc_color (v : Z) : Z := Z.land v 1.
Definition rb_parent (s : rbs) (a : Z) : option Z := v <- get_pc s a ;; Some (pc_parent v).
Definition rb_is_black (s : rbs) (a : Z) : option bool :=
  v <- get_pc s a ;; Some (negb (pc_color v =? 0)).
Definition rb_is_red (s : rbs) (a : Z) : option bool :=
  v <- get_pc s a ;; Some (pc_color v =? 0).

(** rb_set_parent, rbtree.h 135-138. *)
Definition rb_set_parent (s : rbs) (a p : Z) : option rbs :=
  v <- get_pc s a ;; set_pc s a (Z.lor (pc_color v) p).

(** rb_set_parent_color, rbtree.h 140-144. *)
Definition rb_set_parent_color (s : rbs) (a p c : Z) : option rbs := set_pc s a (Z.lor p c).

(** rb_set_black, rbtree.c 70-73. *)
Definition rb_set_black (s : rbs) (a : Z) : option rbs :=
  v <- get_pc s a ;; set_pc s a (Z.lor v RB_BLACK).

(** rb_red_parent, rbtree.c 75-78. *)
Definition rb_red_parent (s : rbs) (a : Z) : option Z := get_pc s a.

(** __rb_change_child, rbtree.h 146-157. *)
Definition rb_change_child (s : rbs) (old new parent : Z) : option rbs :=
  if negb (parent =? 0) then
    l <- get_lf s parent ;;
    if l =? old then set_lf s parent new else set_rt s parent new
  else Some (set_root s new).

(** __rb_rotate_set_parents, rbtree.c 85-93. *)
Definition rb_rotate_set_parents (s : rbs) (old new color : Z) : option rbs :=
  parent <- rb_parent s old ;;
  v <- get_pc s old ;;
  s <- set_pc s new v ;;
  s <- rb_set_parent_color s old new color ;;
  rb_change_child s old new parent.

(** "if (tmp) rb_set_parent_color(tmp, p, c)". *)
Definition set_parent_color_if (s : rbs) (a p c : Z) : option rbs :=
  if a =? 0 then Some s else rb_set_parent_color s a p c.

(** "if (tmp) rb_set_parent(tmp, p)". *)
Definition set_parent_if (s : rbs) (a p : Z) : option rbs :=
  if a =? 0 then Some s else rb_set_parent s a p.

(** "tmp && rb_is_red(tmp)". *)
Definition present_red (s : rbs) (a : Z) : option bool :=
  if a =? 0 then Some false else rb_is_red s a.

(** "!tmp || rb_is_black(tmp)". *)
Definition absent_black (s : rbs) (a : Z) : option bool :=
  if a =? 0 then Some true else rb_is_black s a.

(** ** Insertion *)

(** What one round of the loop in __rb_insert ends with: [break], or [continue]
    with new values of [node] and [parent]. *)
Inductive round := Break (s : rbs) | Again (s : rbs) (node parent : Z).

(** parent == gparent->rb_left, rbtree.c 117-179; [tmp0] is gparent->rb_right. *)
Definition insert_round_left (s : rbs) (node parent gparent tmp0 : Z) : option round :=
  red <- present_red s tmp0 ;;
  if (red : bool) then
    s <- rb_set_parent_color s tmp0 gparent RB_BLACK ;;
    s <- rb_set_parent_color s parent gparent RB_BLACK ;;
    parent' <- rb_parent s gparent ;;
    s <- rb_set_parent_color s gparent parent' RB_RED ;;
    Some (Again s gparent parent')
  else
    tmp <- get_rt s parent ;;
    r <- (if node =? tmp then
            tmp <- get_lf s node ;;
            s <- set_rt s parent tmp ;;
            s <- set_lf s node parent ;;
            s <- set_parent_color_if s tmp parent RB_BLACK ;;
            s <- rb_set_parent_color s parent node RB_RED ;;
            tmp <- get_rt s node ;;
            Some (s, node, tmp)
          else Some (s, parent, tmp)) ;;
    let '(s, parent, tmp) := r in
    s <- set_lf s gparent tmp ;;
    s <- set_rt s parent gparent ;;
    s <- set_parent_color_if s tmp gparent RB_BLACK ;;
    s <- rb_rotate_set_parents s gparent parent RB_RED ;;
    Some (Break s).

(** The mirror case, rbtree.c 180-213. *)
Definition insert_round_right (s : rbs) (node parent gparent : Z) : option round :=
  tmp0 <- get_lf s gparent ;;
  red <- present_red s tmp0 ;;
  if (red : bool) then
    s <- rb_set_parent_color s tmp0 gparent RB_BLACK ;;
    s <- rb_set_parent_color s parent gparent RB_BLACK ;;
    parent' <- rb_parent s gparent ;;
    s <- rb_set_parent_color s gparent parent' RB_RED ;;
    Some (Again s gparent parent')
  else
    tmp <- get_lf s parent ;;
    r <- (if node =? tmp then
            tmp <- get_rt s node ;;
            s <- set_lf s parent tmp ;;
            s <- set_rt s node parent ;;
            s <- set_parent_color_if s tmp parent RB_BLACK ;;
            s <- rb_set_parent_color s parent node RB_RED ;;
            tmp <- get_lf s node ;;
            Some (s, node, tmp)
          else Some (s, parent, tmp)) ;;
    let '(s, parent, tmp) := r in
    s <- set_rt s gparent tmp ;;
    s <- set_lf s parent gparent ;;
    s <- set_parent_color_if s tmp gparent RB_BLACK ;;
    s <- rb_rotate_set_parents s gparent parent RB_RED ;;
    Some (Break s).

(** One round of the loop, rbtree.c 100-214. *)
Definition insert_round (s : rbs) (node parent : Z) : option round :=
  if parent =? 0 then
    s <- rb_set_parent_color s node 0 RB_BLACK ;; Some (Break s)
  else
    black <- rb_is_black s parent ;;
    if (black : bool) then Some (Break s) else
    gparent <- rb_red_parent s parent ;;
    tmp <- get_rt s gparent ;;
    if negb (parent =? tmp) then insert_round_left s node parent gparent tmp
    else insert_round_right s node parent gparent.

Fixpoint insert_loop (fuel : nat) (s : rbs) (node parent : Z) : option rbs :=
  match fuel with
  | O => None
  | S f => r <- insert_round s node parent ;;
           match r with
           | Break s' => Some s'
           | Again s' node' parent' => insert_loop f s' node' parent'
           end
  end.

(** rb_insert_color -> __rb_insert, rbtree.c 95-215, 410-413. *)
Definition rb_insert_color (fuel : nat) (s : rbs) (node : Z) : option rbs :=
  parent <- rb_red_parent s node ;;
  insert_loop fuel s node parent.

(** The location a [struct rb_node **] points to. *)
Inductive link := LRoot | LLeft (a : Z) | LRight (a : Z).

Definition link_get (s : rbs) (l : link) : option Z :=
  match l with LRoot => Some (rootp s) | LLeft a => get_lf s a | LRight a => get_rt s a end.
Definition link_set (s : rbs) (l : link) (v : Z) : option rbs :=
  match l with LRoot => Some (set_root s v) | LLeft a => set_lf s a v | LRight a => set_rt s a v end.

(** rb_link_node, rbtree.h 84-91. *)
Definition rb_link_node (s : rbs) (node parent : Z) (l : link) : option rbs :=
  s <- set_pc s node parent ;;
  s <- set_rt s node 0 ;;
  s <- set_lf s node 0 ;;
  link_set s l node.

(** The descent of rb_insert_node, rbtree.h 308-317: either an existing node
    that compares equal, or parent and link. *)
Inductive descent := Found (a : Z) | Slot (parent : Z) (l : link).

Fixpoint insert_descend (fuel : nat) (s : rbs) (cmp : Z -> Z) (parent : Z) (l : link) : option descent :=
  match fuel with
  | O => None
  | S f =>
      cur <- link_get s l ;;
      if cur =? 0 then Some (Slot parent l)
      else if cmp cur <? 0 then insert_descend f s cmp cur (LLeft cur)
      else if 0 <? cmp cur then insert_descend f s cmp cur (LRight cur)
      else Some (Found cur)
  end.

(** rb_insert_node, rbtree.h 298-324.  [cmp n] stands for [cmp_fn(n, key)]:
    negative if the key belongs to the left of node [n]. *)
Definition rb_insert_node (fuel : nat) (s : rbs) (new : Z) (cmp : Z -> Z) : option (Z * rbs) :=
  d <- insert_descend fuel s cmp 0 LRoot ;;
  match d with
  | Found a => Some (a, s)
  | Slot parent l =>
      s <- rb_link_node s new parent l ;;
      s <- rb_insert_color fuel s new ;;
      Some (0, s)
  end.

(** ** Search *)

(** rb_search_node, rbtree.h 275-295; also counts calls of the comparison
    function. *)
Fixpoint search_loop (fuel : nat) (s : rbs) (cmp : Z -> Z) (node : Z) (calls : nat) : option (Z * nat) :=
  match fuel with
  | O => None
  | S f =>
      if node =? 0 then Some (0, calls)
      else if cmp node <? 0 then n <- get_lf s node ;; search_loop f s cmp n (S calls)
      else if 0 <? cmp node then n <- get_rt s node ;; search_loop f s cmp n (S calls)
      else Some (node, S calls)
  end.
Definition rb_search_node (fuel : nat) (s : rbs) (cmp : Z -> Z) : option (Z * nat) :=
  search_loop fuel s cmp (rootp s) 0.

(** ** Removal *)

(** "do { parent = successor; successor = tmp; tmp = tmp->rb_left; } while (tmp)",
    rbtree.h 224-228. *)
Fixpoint succ_loop (fuel : nat) (s : rbs) (successor tmp : Z) : option (Z * Z) :=
  match fuel with
  | O => None
  | S f => tmp' <- get_lf s tmp ;;
           if tmp' =? 0 then Some (successor, tmp) else succ_loop f s tmp tmp'
  end.

(** __rb_erase, rbtree.h 161-256: new state and the node to rebalance at. *)
Definition rb_erase_unlink (fuel : nat) (s : rbs) (node : Z) : option (rbs * Z) :=
  child <- get_rt s node ;;
  tmp <- get_lf s node ;;
  if tmp =? 0 then
    v <- get_pc s node ;;
    let parent := pc_parent v in
    s <- rb_change_child s node child parent ;;
    if negb (child =? 0) then
      s <- set_pc s child v ;; Some (s, 0)
    else Some (s, if negb (pc_color v =? 0) then parent else 0)
  else if child =? 0 then
    v <- get_pc s node ;;
    s <- set_pc s tmp v ;;
    let parent := pc_parent v in
    s <- rb_change_child s node tmp parent ;;
    Some (s, 0)
  else
    tmp <- get_lf s child ;;
    r <- (if tmp =? 0 then
            child2 <- get_rt s child ;;
            Some (s, child, child, child2)
          else
            ps <- succ_loop fuel s child tmp ;;
            let '(parent, successor) := ps in
            child2 <- get_rt s successor ;;
            s <- set_lf s parent child2 ;;
            s <- set_rt s successor child ;;
            s <- rb_set_parent s child successor ;;
            Some (s, parent, successor, child2)) ;;
    let '(s, parent, successor, child2) := r in
    tmp <- get_lf s node ;;
    s <- set_lf s successor tmp ;;
    s <- rb_set_parent s tmp successor ;;
    v <- get_pc s node ;;
    s <- rb_change_child s node successor (pc_parent v) ;;
    if negb (child2 =? 0) then
      s <- set_pc s successor v ;;
      s <- rb_set_parent_color s child2 parent RB_BLACK ;;
      Some (s, 0)
    else
      pc2 <- get_pc s successor ;;
      s <- set_pc s successor v ;;
      Some (s, if negb (pc_color pc2 =? 0) then parent else 0).

(** Case 4, rbtree.c 322-342: [tmp1] is the far child of [sibling]. *)
Definition erase_case4_left (s : rbs) (parent sibling tmp1 : Z) : option round :=
  tmp2 <- get_lf s sibling ;;
  s <- set_rt s parent tmp2 ;;
  s <- set_lf s sibling parent ;;
  s <- rb_set_parent_color s tmp1 sibling RB_BLACK ;;
  s <- set_parent_if s tmp2 parent ;;
  s <- rb_rotate_set_parents s parent sibling RB_BLACK ;;
  Some (Break s).

(** node == parent->rb_left in ____rb_erase_color, rbtree.c 235-342; [sibling0]
    is parent->rb_right. *)
Definition erase_round_left (s : rbs) (parent sibling0 : Z) : option round :=
  red <- rb_is_red s sibling0 ;;
  r <- (if (red : bool) then
          tmp1 <- get_lf s sibling0 ;;
          s <- set_rt s parent tmp1 ;;
          s <- set_lf s sibling0 parent ;;
          s <- rb_set_parent_color s tmp1 parent RB_BLACK ;;
          s <- rb_rotate_set_parents s parent sibling0 RB_RED ;;
          Some (s, tmp1)
        else Some (s, sibling0)) ;;
  let '(s, sibling) := r in
  tmp1 <- get_rt s sibling ;;
  b1 <- absent_black s tmp1 ;;
  if (b1 : bool) then
    tmp2 <- get_lf s sibling ;;
    b2 <- absent_black s tmp2 ;;
    if (b2 : bool) then
      s <- rb_set_parent_color s sibling parent RB_RED ;;
      pred <- rb_is_red s parent ;;
      if (pred : bool) then
        s <- rb_set_black s parent ;; Some (Break s)
      else
        parent' <- rb_parent s parent ;;
        if negb (parent' =? 0) then Some (Again s parent parent') else Some (Break s)
    else
      tmp1 <- get_rt s tmp2 ;;
      s <- set_lf s sibling tmp1 ;;
      s <- set_rt s tmp2 sibling ;;
      s <- set_rt s parent tmp2 ;;
      s <- set_parent_color_if s tmp1 sibling RB_BLACK ;;
      erase_case4_left s parent tmp2 sibling
  else erase_case4_left s parent sibling tmp1.

(** Case 4 mirrored, rbtree.c 383-392. *)
Definition erase_case4_right (s : rbs) (parent sibling tmp1 : Z) : option round :=
  tmp2 <- get_rt s sibling ;;
  s <- set_lf s parent tmp2 ;;
  s <- set_rt s sibling parent ;;
  s <- rb_set_parent_color s tmp1 sibling RB_BLACK ;;
  s <- set_parent_if s tmp2 parent ;;
  s <- rb_rotate_set_parents s parent sibling RB_BLACK ;;
  Some (Break s).

(** The mirror case, rbtree.c 343-393. *)
Definition erase_round_right (s : rbs) (parent : Z) : option round :=
  sibling0 <- get_lf s parent ;;
  red <- rb_is_red s sibling0 ;;
  r <- (if (red : bool) then
          tmp1 <- get_rt s sibling0 ;;
          s <- set_lf s parent tmp1 ;;
          s <- set_rt s sibling0 parent ;;
          s <- rb_set_parent_color s tmp1 parent RB_BLACK ;;
          s <- rb_rotate_set_parents s parent sibling0 RB_RED ;;
          Some (s, tmp1)
        else Some (s, sibling0)) ;;
  let '(s, sibling) := r in
  tmp1 <- get_lf s sibling ;;
  b1 <- absent_black s tmp1 ;;
  if (b1 : bool) then
    tmp2 <- get_rt s sibling ;;
    b2 <- absent_black s tmp2 ;;
    if (b2 : bool) then
      s <- rb_set_parent_color s sibling parent RB_RED ;;
      pred <- rb_is_red s parent ;;
      if (pred : bool) then
        s <- rb_set_black s parent ;; Some (Break s)
      else
        parent' <- rb_parent s parent ;;
        if negb (parent' =? 0) then Some (Again s parent parent') else Some (Break s)
    else
      tmp1 <- get_lf s tmp2 ;;
      s <- set_rt s sibling tmp1 ;;
      s <- set_lf s tmp2 sibling ;;
      s <- set_lf s parent tmp2 ;;
      s <- set_parent_color_if s tmp1 sibling RB_BLACK ;;
      erase_case4_right s parent tmp2 sibling
  else erase_case4_right s parent sibling tmp1.

(** One round of the loop of ____rb_erase_color, rbtree.c 221-395. *)
Definition erase_round (s : rbs) (node parent : Z) : option round :=
  sibling <- get_rt s parent ;;
  if negb (node =? sibling) then erase_round_left s parent sibling
  else erase_round_right s parent.

Fixpoint erase_loop (fuel : nat) (s : rbs) (node parent : Z) : option rbs :=
  match fuel with
  | O => None
  | S f => r <- erase_round s node parent ;;
           match r with
           | Break s' => Some s'
           | Again s' node' parent' => erase_loop f s' node' parent'
           end
  end.

(** rb_erase, rbtree.c 416-422. *)
Definition rb_erase (fuel : nat) (s : rbs) (node : Z) : option rbs :=
  r <- rb_erase_unlink fuel s node ;;
  let '(s, rebalance) := r in
  if negb (rebalance =? 0) then erase_loop fuel s 0 rebalance else Some s.

(** ** Iteration *)

(** "while (n->rb_left) n = n->rb_left". *)
Fixpoint go_left (fuel : nat) (s : rbs) (n : Z) : option Z :=
  match fuel with
  | O => None
  | S f => l <- get_lf s n ;; if l =? 0 then Some n else go_left f s l
  end.
Fixpoint go_right (fuel : nat) (s : rbs) (n : Z) : option Z :=
  match fuel with
  | O => None
  | S f => r <- get_rt s n ;; if r =? 0 then Some n else go_right f s r
  end.

(** rb_first / rb_last, rbtree.c 428-451. *)
Definition rb_first (fuel : nat) (s : rbs) : option Z :=
  if rootp s =? 0 then Some 0 else go_left fuel s (rootp s).
Definition rb_last (fuel : nat) (s : rbs) : option Z :=
  if rootp s =? 0 then Some 0 else go_right fuel s (rootp s).

(** "while ((parent = rb_parent(node)) && node == parent->rb_right) node = parent". *)
Fixpoint climb_right (fuel : nat) (s : rbs) (node : Z) : option Z :=
  match fuel with
  | O => None
  | S f => parent <- rb_parent s node ;;
           if parent =? 0 then Some 0 else
           r <- get_rt s parent ;;
           if node =? r then climb_right f s parent else Some parent
  end.
Fixpoint climb_left (fuel : nat) (s : rbs) (node : Z) : option Z :=
  match fuel with
  | O => None
  | S f => parent <- rb_parent s node ;;
           if parent =? 0 then Some 0 else
           l <- get_lf s parent ;;
           if node =? l then climb_left f s parent else Some parent
  end.

(** rb_next, rbtree.c 454-483; RB_EMPTY_NODE, rbtree.h 58-59. *)
Definition rb_next (fuel : nat) (s : rbs) (node : Z) : option Z :=
  v <- get_pc s node ;;
  if v =? node then Some 0 else
  r <- get_rt s node ;;
  if negb (r =? 0) then go_left fuel s r else climb_right fuel s node.

(** rb_prev, rbtree.c 486-512. *)
Definition rb_prev (fuel : nat) (s : rbs) (node : Z) : option Z :=
  v <- get_pc s node ;;
  if v =? node then Some 0 else
  l <- get_lf s node ;;
  if negb (l =? 0) then go_right fuel s l else climb_left fuel s node.

(** rb_replace_node, rbtree.c 515-529. *)
Definition rb_replace_node (s : rbs) (victim new : Z) : option rbs :=
  parent <- rb_parent s victim ;;
  n <- node_at s victim ;;
  _ <- node_at s new ;;
  let s := put s new n in
  l <- get_lf s victim ;;
  s <- set_parent_if s l new ;;
  r <- get_rt s victim ;;
  s <- set_parent_if s r new ;;
  rb_change_child s victim new parent.

(** rb_left_deepest_node, rbtree.c 533-543. *)
Fixpoint left_deepest (fuel : nat) (s : rbs) (n : Z) : option Z :=
  match fuel with
  | O => None
  | S f => l <- get_lf s n ;;
           if negb (l =? 0) then left_deepest f s l else
           r <- get_rt s n ;;
           if negb (r =? 0) then left_deepest f s r else Some n
  end.

(** rb_next_postorder, rbtree.c 545-561. *)
Definition rb_next_postorder (fuel : nat) (s : rbs) (node : Z) : option Z :=
  if node =? 0 then Some 0 else
  parent <- rb_parent s node ;;
  if parent =? 0 then Some parent else
  l <- get_lf s parent ;;
  r <- get_rt s parent ;;
  if (node =? l) && negb (r =? 0) then left_deepest fuel s r else Some parent.

(** rb_first_postorder, rbtree.c 564-570. *)
Definition rb_first_postorder (fuel : nat) (s : rbs) : option Z :=
  if rootp s =? 0 then Some 0 else left_deepest fuel s (rootp s).

(** ** Destruction *)

(** The callback frees the memory of the node. *)
Definition free_node (s : rbs) (a : Z) : option rbs :=
  _ <- node_at s a ;; Some (Rbs (upd (hp s) a None) (rootp s)).

(** "while (parent && node == parent->rb_right) { node = parent; parent =
    rb_parent(node); } node = parent;", rbtree.h 345-349. *)
Fixpoint destroy_climb (fuel : nat) (s : rbs) (node parent : Z) : option Z :=
  match fuel with
  | O => None
  | S f => if parent =? 0 then Some 0 else
           r <- get_rt s parent ;;
           if node =? r then
             parent' <- rb_parent s parent ;; destroy_climb f s parent parent'
           else Some parent
  end.

(** The loop of rb_destroy, rbtree.h 332-351: nodes passed to the callback, in
    order, and the final heap. *)
Fixpoint destroy_loop (fuel : nat) (s : rbs) (node : Z) : option (list Z * rbs) :=
  match fuel with
  | O => None
  | S f =>
      if node =? 0 then Some ([], s) else
      right <- get_rt s node ;;
      parent <- rb_parent s node ;;
      s <- free_node s node ;;
      ns <- (if negb (right =? 0) then
               s <- set_pc s right parent ;;
               n <- go_left f s right ;;
               Some (n, s)
             else n <- destroy_climb f s node parent ;; Some (n, s)) ;;
      let '(n, s) := ns in
      r <- destroy_loop f s n ;;
      let '(l, s) := r in Some (node :: l, s)
  end.

(** rb_destroy, rbtree.h 326-352. *)
Definition rb_destroy (fuel : nat) (s : rbs) : option (list Z * rbs) :=
  n <- rb_first fuel s ;;
  destroy_loop fuel s n.
