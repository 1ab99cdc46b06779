(** What the symbol table properties mean. *)
From Coq Require Import ZArith String List Bool.
From Verif Require Import RbModel RbSpec Str SymModel.
Import ListNotations.
Open Scope Z_scope.

(** The first of each group of elements that agree on [same]. *)
Fixpoint distinct (same : Z -> Z -> bool) (l : list Z) : list Z :=
  match l with
  | [] => []
  | a :: r => a :: filter (fun b => negb (same a b)) (distinct same r)
  end.

(** Registered symbols with a given name, one per address, in order of registration. *)
Definition named (info : Z -> tinfo) (hist : list Z) (name : list Z) : list Z :=
  distinct (fun a b => ts_addr (info a) =? ts_addr (info b))
    (filter (fun s => str_eqb (ts_name (info s)) name) hist).

(** Registered symbols with a given address, in order of registration. *)
Definition located (info : Z -> tinfo) (hist : list Z) (addr : Z) : list Z :=
  filter (fun s => ts_addr (info s) =? addr) hist.

(** A C string: no NUL byte inside. *)
Definition cstring (s : list Z) : Prop := Forall (fun c => 0 < c < 256) s.

(** Empty tables, and memory for the symbols to come. *)
Definition empty_table (tb : table) : Prop :=
  rootp (tb_rb tb) = 0 /\ (forall x, tb_chain tb x = []) /\ (forall x, tb_head tb x = false).
Definition fresh_syms (s : tsyms) (l : list Z) : Prop :=
  empty_table (t_syms s) /\ empty_table (t_addrs s) /\ NoDup l /\
  Forall (fun x => node_addr x /\ hp (tb_rb (t_syms s)) x <> None /\ hp (tb_rb (t_addrs s)) x <> None /\
                   refc s x = 0 /\ alive s x = true) l.

(** Symbols that can be reached from a table. *)
Definition reachable (tb : table) (t : tree) (x : Z) : Prop :=
  exists h, In h (inorder t) /\ (x = h \/ In x (tb_chain tb h)).
