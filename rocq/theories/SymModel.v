(** The symbol tables of the target process: src/task/symbol.c.

    A symbol is named by its address.  Name and address of a symbol never change
    after allocation and are given by a function.  Each of the two [rb_node]s
    embedded in a symbol has its own heap.  A duplicate chain ([list_name] or
    [list_addr]) is kept at its head as the sequence of its members; C06 shows that
    the intrusive list represents sequences and that list_add appends.  Reference
    counts are integers (size_t in the code; they are bounded by the number of
    symbols).  Touching a symbol that has been freed is undefined: [None]. *)
From Coq Require Import ZArith String List Bool.
From Verif Require Import Word RbModel Str.
Import ListNotations.
Open Scope Z_scope.

(** struct task_sym, symbol.h 22-75: name and addr. *)
Record tinfo := Ti { ts_name : list Z; ts_addr : Z }.

(** One table: the tree, the chains and the is_head flags. *)
Record table := Tb { tb_rb : rbs; tb_chain : Z -> list Z; tb_head : Z -> bool }.

(** struct task_syms, symbol.h 77-85, together with the symbols' reference counts,
    whether they are allocated, and the order in which they were freed. *)
Record tsyms := Ts { t_syms : table; t_addrs : table; refc : Z -> Z; alive : Z -> bool; freed : list Z }.

Definition setf {A} (f : Z -> A) (a : Z) (v : A) : Z -> A := fun x => if x =? a then v else f x.

(** __cmp_task_sym, symbol.c 24-29. *)
Definition cmp_task_sym (a b : list Z) : Z := strcmp a b.

(** __cmp_task_addr, symbol.c 31-36: the difference of two unsigned longs returned as int. *)
Definition cmp_task_addr (a b : Z) : Z := s32 (a - b).

(** The common text of __link_task_sym_name and __link_task_sym_addr, symbol.c 166-215
    and 218-263: [cmp] is the comparison of a node with the new symbol, [same] the test
    "same address" or "same name" against a member of the group. *)
Definition link_in (fuel : nat) (tb : table) (rc : Z -> Z) (cmp : Z -> Z) (same : Z -> bool) (new : Z)
  : option (table * (Z -> Z)) :=
  r <- rb_insert_node fuel (tb_rb tb) new cmp ;;
  let '(node, rb) := r in
  if node =? 0 then
    Some (Tb rb (tb_chain tb) (setf (tb_head tb) new true), setf rc new (rc new + 1))
  else if same node then Some (Tb rb (tb_chain tb) (tb_head tb), rc)
  else if existsb same (tb_chain tb node) then Some (Tb rb (tb_chain tb) (tb_head tb), rc)
  else
    let rc := setf rc new (rc new + 1) in
    let rc := setf rc node (rc node + 1) in
    Some (Tb rb (setf (tb_chain tb) node (tb_chain tb node ++ [new])) (tb_head tb), rc).

(** __link_task_sym_name, symbol.c 166-215. *)
Definition link_task_sym_name (fuel : nat) (info : Z -> tinfo) (s : tsyms) (new : Z) : option tsyms :=
  r <- link_in fuel (t_syms s) (refc s)
         (fun n => cmp_task_sym (ts_name (info n)) (ts_name (info new)))
         (fun n => ts_addr (info n) =? ts_addr (info new)) new ;;
  Some (Ts (fst r) (t_addrs s) (snd r) (alive s) (freed s)).

(** __link_task_sym_addr, symbol.c 218-263. *)
Definition link_task_sym_addr (fuel : nat) (info : Z -> tinfo) (s : tsyms) (new : Z) : option tsyms :=
  r <- link_in fuel (t_addrs s) (refc s)
         (fun n => cmp_task_addr (ts_addr (info n)) (ts_addr (info new)))
         (fun n => str_eqb (ts_name (info n)) (ts_name (info new))) new ;;
  Some (Ts (t_syms s) (fst r) (snd r) (alive s) (freed s)).

(** link_task_sym, symbol.c 265-270, of a symbol just made by alloc_task_sym, 74-93:
    reference count 0, no chains, no head flags. *)
Definition link_task_sym (fuel : nat) (info : Z -> tinfo) (s : tsyms) (new : Z) : option tsyms :=
  s <- link_task_sym_name fuel info s new ;;
  link_task_sym_addr fuel info s new.

(** The loop of task_load_vma_elf_syms, symbol.c 312-340, over the symbols it allocates. *)
Fixpoint link_all (fuel : nat) (info : Z -> tinfo) (s : tsyms) (l : list Z) : option tsyms :=
  match l with
  | [] => Some s
  | a :: l' => s <- link_task_sym fuel info s a ;; link_all fuel info s l'
  end.

(** find_task_sym, symbol.c 114-151: the symbol (0 is NULL) and the extra symbols. *)
Definition find_task_sym (fuel : nat) (info : Z -> tinfo) (s : tsyms) (name : list Z) : option (Z * list Z) :=
  r <- rb_search_node fuel (tb_rb (t_syms s)) (fun n => cmp_task_sym (ts_name (info n)) name) ;;
  let node := fst r in
  Some (node, if node =? 0 then [] else tb_chain (t_syms s) node).

(** find_task_addr, symbol.c 153-163. *)
Definition find_task_addr (fuel : nat) (info : Z -> tinfo) (s : tsyms) (addr : Z) : option Z :=
  r <- rb_search_node fuel (tb_rb (t_addrs s)) (fun n => cmp_task_addr (ts_addr (info n)) addr) ;;
  Some (fst r).

(** free_task_sym, symbol.c 95-101; TS_REFCOUNT_NOT_USED is 0, symbol.h 30. *)
Record fstate := Fs { f_rc : Z -> Z; f_alive : Z -> bool; f_log : list Z }.
Definition free_task_sym (f : fstate) (x : Z) : option fstate :=
  if f_alive f x then
    let rc := setf (f_rc f) x (f_rc f x - 1) in
    if f_rc f x - 1 =? 0 then Some (Fs rc (setf (f_alive f) x false) (f_log f ++ [x]))
    else Some (Fs rc (f_alive f) (f_log f))
  else None.

(** The loop over the chain in __rb_free_task_sym_name / __rb_free_task_sym_addr,
    symbol.c 43-49, 61-67. *)
Fixpoint free_members (f : fstate) (h : Z) (ms : list Z) : option fstate :=
  match ms with
  | [] => Some f
  | m :: ms' =>
      if f_alive f h && f_alive f m then
        f <- free_task_sym (Fs (setf (f_rc f) h (f_rc f h - 1)) (f_alive f) (f_log f)) m ;;
        free_members f h ms'
      else None
  end.

(** __rb_free_task_sym_name / __rb_free_task_sym_addr, symbol.c 38-54, 56-72. *)
Definition rb_free_cb (tb : table) (f : fstate) (x : Z) : option fstate :=
  if f_alive f x then
    f <- (if tb_head tb x then free_members f x (tb_chain tb x) else Some f) ;;
    free_task_sym f x
  else None.

Fixpoint free_all (tb : table) (f : fstate) (l : list Z) : option fstate :=
  match l with
  | [] => Some f
  | x :: l' => f <- rb_free_cb tb f x ;; free_all tb f l'
  end.

(** free_task_syms, symbol.c 345-349.  The callbacks are run in the order in which
    rb_destroy calls them; [rb_destroy] itself treats a node as gone once its
    callback has been called and does not look at it again. *)
Definition free_task_syms (fuel : nat) (s : tsyms) : option fstate :=
  d <- rb_destroy fuel (tb_rb (t_syms s)) ;;
  f <- free_all (t_syms s) (Fs (refc s) (alive s) (freed s)) (fst d) ;;
  d <- rb_destroy fuel (tb_rb (t_addrs s)) ;;
  free_all (t_addrs s) f (fst d).
