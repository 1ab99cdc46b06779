(** Intrusive circular lists: src/utils/list.h and src/utils/list.c.

    A heap has a set of live [struct list_head]s and their two words.  Access to
    a [list_head] that is not live is undefined behaviour: the model returns
    [None].  Loops take fuel and return [None] when it runs out. *)
From Coq Require Import ZArith List Bool.
From Verif Require Import Word.
Import ListNotations.
Open Scope Z_scope.

Notation "x <- e ;; k" := (match e with Some x => k | None => None end)
  (at level 60, e at next level, right associativity).

(** struct list_head, list.h 4-6. *)
Record lheap := Lh { live : Z -> bool; nx : Z -> Z; pv : Z -> Z }.

Definition set (f : Z -> Z) (a v : Z) : Z -> Z := fun x => if x =? a then v else f x.

(** Field reads and writes. *)
Definition get_next (h : lheap) (a : Z) : option Z := if live h a then Some (nx h a) else None.
Definition get_prev (h : lheap) (a : Z) : option Z := if live h a then Some (pv h a) else None.
Definition set_next (h : lheap) (a v : Z) : option lheap :=
  if live h a then Some (Lh (live h) (set (nx h) a v) (pv h)) else None.
Definition set_prev (h : lheap) (a v : Z) : option lheap :=
  if live h a then Some (Lh (live h) (nx h) (set (pv h) a v)) else None.

(** free() of the object that contains the entry. *)
Definition release (h : lheap) (a : Z) : option lheap :=
  if live h a then Some (Lh (fun x => if x =? a then false else live h x) (nx h) (pv h)) else None.

(** list_init, list.h 33-37. *)
Definition list_init (h : lheap) (l : Z) : option lheap :=
  h <- set_next h l l ;; set_prev h l l.

(** __list_add, list.h 45-53. *)
Definition __list_add (h : lheap) (new prev next : Z) : option lheap :=
  h <- set_prev h next new ;;
  h <- set_next h new next ;;
  h <- set_prev h new prev ;;
  set_next h prev new.

(** list_add_head, list.h 63-66. *)
Definition list_add_head (h : lheap) (new head : Z) : option lheap :=
  n <- get_next h head ;; __list_add h new head n.

(** list_add, list.h 77-80: adds at the end. *)
Definition list_add (h : lheap) (new head : Z) : option lheap :=
  p <- get_prev h head ;; __list_add h new p head.

(** __list_del, list.h 89-93. *)
Definition __list_del (h : lheap) (prev next : Z) : option lheap :=
  h <- set_prev h next prev ;; set_next h prev next.

(** __list_del_entry, list.h 101-104; list_del, list.h 106-109. *)
Definition list_del (h : lheap) (entry : Z) : option lheap :=
  p <- get_prev h entry ;; n <- get_next h entry ;; __list_del h p n.

(** list_replace, list.h 118-125. *)
Definition list_replace (h : lheap) (old new : Z) : option lheap :=
  n <- get_next h old ;;
  h <- set_next h new n ;;
  n' <- get_next h new ;;
  h <- set_prev h n' new ;;
  p <- get_prev h old ;;
  h <- set_prev h new p ;;
  p' <- get_prev h new ;;
  set_next h p' new.

(** list_move, list.h 132-136. *)
Definition list_move (h : lheap) (l head : Z) : option lheap :=
  h <- list_del h l ;; list_add h l head.

(** list_move_tail, list.h 143-148. *)
Definition list_move_tail (h : lheap) (l head : Z) : option lheap :=
  h <- list_del h l ;; list_add h l head.

(** list_is_last, list.h 155-159. *)
Definition list_is_last (h : lheap) (l head : Z) : option bool :=
  n <- get_next h l ;; Some (n =? head).

(** list_empty, list.h 165-168. *)
Definition list_empty (h : lheap) (head : Z) : option bool :=
  n <- get_next h head ;; Some (n =? head).

(** list_empty_careful, list.h 183-187. *)
Definition list_empty_careful (h : lheap) (head : Z) : option bool :=
  n <- get_next h head ;; p <- get_prev h head ;; Some ((n =? head) && (n =? p)).

(** list_rotate_left, list.h 193-201. *)
Definition list_rotate_left (h : lheap) (head : Z) : option lheap :=
  e <- list_empty h head ;;
  if e : bool then Some h else first <- get_next h head ;; list_move_tail h first head.

(** list_is_singular, list.h 207-210. *)
Definition list_is_singular (h : lheap) (head : Z) : option bool :=
  e <- list_empty h head ;; n <- get_next h head ;; p <- get_prev h head ;; Some (negb e && (n =? p)).

(** __list_cut_position, list.h 212-222. *)
Definition __list_cut_position (h : lheap) (l head entry : Z) : option lheap :=
  new_first <- get_next h entry ;;
  n <- get_next h head ;;
  h <- set_next h l n ;;
  n <- get_next h l ;;
  h <- set_prev h n l ;;
  h <- set_prev h l entry ;;
  h <- set_next h entry l ;;
  h <- set_next h head new_first ;;
  set_prev h new_first head.

(** __list_splice, list.h 224-236. *)
Definition __list_splice (h : lheap) (l prev next : Z) : option lheap :=
  first <- get_next h l ;;
  last <- get_prev h l ;;
  h <- set_prev h first prev ;;
  h <- set_next h prev first ;;
  h <- set_next h last next ;;
  set_prev h next last.

(** list_splice, list.h 243-248. *)
Definition list_splice (h : lheap) (l head : Z) : option lheap :=
  e <- list_empty h l ;;
  if e : bool then Some h else n <- get_next h head ;; __list_splice h l head n.

(** list_splice_tail, list.h 255-260. *)
Definition list_splice_tail (h : lheap) (l head : Z) : option lheap :=
  e <- list_empty h l ;;
  if e : bool then Some h else p <- get_prev h head ;; __list_splice h l p head.

(** list_for_each / list_for_each_entry, list.h 328-329, 366-369: the entries in
    the order in which the loop body sees them; [pos] is the loop cursor. *)
Fixpoint for_each_from (fuel : nat) (h : lheap) (pos head : Z) : option (list Z) :=
  match fuel with
  | O => None
  | S fuel =>
      if pos =? head then Some []
      else n <- get_next h pos ;; r <- for_each_from fuel h n head ;; Some (pos :: r)
  end.
Definition list_for_each (fuel : nat) (h : lheap) (head : Z) : option (list Z) :=
  n <- get_next h head ;; for_each_from fuel h n head.

(** list_for_each_prev / list_for_each_entry_reverse, list.h 336-337, 377-380. *)
Fixpoint for_each_prev_from (fuel : nat) (h : lheap) (pos head : Z) : option (list Z) :=
  match fuel with
  | O => None
  | S fuel =>
      if pos =? head then Some []
      else n <- get_prev h pos ;; r <- for_each_prev_from fuel h n head ;; Some (pos :: r)
  end.
Definition list_for_each_prev (fuel : nat) (h : lheap) (head : Z) : option (list Z) :=
  n <- get_prev h head ;; for_each_prev_from fuel h n head.

(** list_for_each_entry_safe, list.h 453-457, with the loop body
    "list_del(pos); free(pos)" used all over the program (e.g. task/symbol.c 62-68,
    utils/string.c 312-316). *)
Fixpoint free_from (fuel : nat) (h : lheap) (pos n head : Z) : option (list Z * lheap) :=
  match fuel with
  | O => None
  | S fuel =>
      if pos =? head then Some ([], h)
      else
        h <- list_del h pos ;;
        h <- release h pos ;;
        n' <- get_next h n ;;
        r <- free_from fuel h n n' head ;;
        Some (pos :: fst r, snd r)
  end.
Definition list_free_all (fuel : nat) (h : lheap) (head : Z) : option (list Z * lheap) :=
  pos <- get_next h head ;; n <- get_next h pos ;; free_from fuel h pos n head.

(** ** list_sort *)

(** A [struct list_head **]: a local variable or the [next] or [prev] word of an entry. *)
Inductive ploc := Local | NextOf (a : Z) | PrevOf (a : Z).

(** *tail and *tail = v; the local variable is carried beside the heap. *)
Definition pload (h : lheap) (var : Z) (p : ploc) : option Z :=
  match p with Local => Some var | NextOf a => get_next h a | PrevOf a => get_prev h a end.
Definition pstore (h : lheap) (var : Z) (p : ploc) (v : Z) : option (lheap * Z) :=
  match p with
  | Local => Some (h, v)
  | NextOf a => h <- set_next h a v ;; Some (h, var)
  | PrevOf a => h <- set_prev h a v ;; Some (h, var)
  end.

Section Sort.
(** The comparison callback, a function of the two entries. *)
Variable cmp : Z -> Z -> Z.

(** merge, list.c 18-44: the loop; [head] is the local variable, [tail] the
    pointer into it. *)
Fixpoint merge_loop (fuel : nat) (h : lheap) (head : Z) (tail : ploc) (a b : Z) : option (lheap * Z) :=
  match fuel with
  | O => None
  | S fuel =>
      if cmp a b <=? 0 then
        s <- pstore h head tail a ;; let '(h, head) := s in
        a' <- get_next h a ;;
        if a' =? 0 then pstore h head (NextOf a) b
        else merge_loop fuel h head (NextOf a) a' b
      else
        s <- pstore h head tail b ;; let '(h, head) := s in
        b' <- get_next h b ;;
        if b' =? 0 then pstore h head (NextOf b) a
        else merge_loop fuel h head (NextOf b) a b'
  end.
Definition merge (fuel : nat) (h : lheap) (a b : Z) : option (lheap * Z) :=
  merge_loop fuel h 0 Local a b.

(** merge_final, list.c 54-101: the comparing loop (first component of the result:
    the tail, second: the remainder). *)
Fixpoint mf_loop (fuel : nat) (h : lheap) (tail a b : Z) : option (lheap * Z * Z) :=
  match fuel with
  | O => None
  | S fuel =>
      if cmp a b <=? 0 then
        h <- set_next h tail a ;;
        h <- set_prev h a tail ;;
        a' <- get_next h a ;;
        if a' =? 0 then Some (h, a, b) else mf_loop fuel h a a' b
      else
        h <- set_next h tail b ;;
        h <- set_prev h b tail ;;
        b' <- get_next h b ;;
        if b' =? 0 then Some (h, b, a) else mf_loop fuel h b a b'
  end.

(** list.c 81-96, the do/while loop.  The [count] that only triggers an extra
    call of the comparison is left out (the callback has no effect here). *)
Fixpoint mf_rest (fuel : nat) (h : lheap) (tail b : Z) : option (lheap * Z) :=
  match fuel with
  | O => None
  | S fuel =>
      h <- set_prev h b tail ;;
      b' <- get_next h b ;;
      if b' =? 0 then Some (h, b) else mf_rest fuel h b b'
  end.

Definition merge_final (fuel : nat) (h : lheap) (head a b : Z) : option lheap :=
  s <- mf_loop fuel h head a b ;; let '(h, tail, b) := s in
  h <- set_next h tail b ;;
  s <- mf_rest fuel h tail b ;; let '(h, tail) := s in
  h <- set_next h tail head ;;
  set_prev h head tail.

(** The inner for loop, list.c 221-222: returns the remaining bits and [tail]. *)
Fixpoint find_clear (fuel : nat) (h : lheap) (pending : Z) (bits : Z) (tail : ploc) : option (Z * ploc) :=
  match fuel with
  | O => None
  | S fuel =>
      if Z.land bits 1 =? 0 then Some (bits, tail)
      else p <- pload h pending tail ;; find_clear fuel h pending (Z.shiftr bits 1) (PrevOf p)
  end.

(** The do/while loop, list.c 216-239. *)
Fixpoint sort_loop (fuel : nat) (h : lheap) (lst pending count : Z) : option (lheap * Z) :=
  match fuel with
  | O => None
  | S fuel' =>
      s <- find_clear fuel h pending count Local ;; let '(bits, tail) := s in
      s <- (if bits =? 0 then Some (h, pending) else
              a <- pload h pending tail ;;
              b <- get_prev h a ;;
              m <- merge fuel h b a ;; let '(h, a) := m in
              bp <- get_prev h b ;;
              h <- set_prev h a bp ;;
              pstore h pending tail a) ;;
      let '(h, pending) := s in
      h <- set_prev h lst pending ;;
      let pending := lst in
      lst' <- get_next h lst ;;
      h <- set_next h pending 0 ;;
      let count := u64 (count + 1) in
      if lst' =? 0 then Some (h, pending) else sort_loop fuel' h lst' pending count
  end.

(** The second for loop, list.c 242-251. *)
Fixpoint collect (fuel : nat) (h : lheap) (lst pending : Z) : option (lheap * Z * Z) :=
  match fuel with
  | O => None
  | S fuel' =>
      next <- get_prev h pending ;;
      if next =? 0 then Some (h, lst, pending)
      else m <- merge fuel h pending lst ;; let '(h, lst) := m in collect fuel' h lst next
  end.

(** list_sort, list.c 187-254. *)
Definition list_sort (fuel : nat) (h : lheap) (head : Z) : option lheap :=
  lst <- get_next h head ;;
  last <- get_prev h head ;;
  if lst =? last then Some h else
  h <- set_next h last 0 ;;
  s <- sort_loop fuel h lst 0 0 ;; let '(h, pending) := s in
  let lst := pending in
  pending <- get_prev h pending ;;
  s <- collect fuel h lst pending ;; let '(h, lst, pending) := s in
  merge_final fuel h head pending lst.
End Sort.
