(** What a running program does when functions of it are replaced: machines whose
    instructions look at memory, threads that take turns, and the program in which every
    call of a replaced function goes to its replacement.  Independent of the code model. *)
From Coq Require Import ZArith List Bool.
From Verif Require Import Word.
Import ListNotations.
Open Scope Z_scope.

(** A machine: the state of a thread with its program counter; one instruction gives the
    next state and the bytes written, [None]: it faults; [looks m s x]: the next instruction
    of a thread in state [s] fetches or reads the byte at [x].  [go s t] is the state when
    control has been passed to [t] at the entry of a function. *)
Record machine := Machine {
  cpu : Type;
  pc : cpu -> Z;
  go : cpu -> Z -> cpu;
  exec : mem -> cpu -> option (cpu * list (Z * Z));
  looks : mem -> cpu -> Z -> Prop }.

(** An instruction depends on the bytes it looks at and on no others. *)
Definition local (M : machine) : Prop :=
  forall m m' s, (forall x, looks M m s x -> m' x = m x) -> exec M m' s = exec M m s.

(** The 16 bytes [le_bytes 8 j ++ le_bytes 8 t] are at [f]. *)
Definition jump_at (m : mem) (f j t : Z) : Prop :=
  forall i, 0 <= i < 16 -> m (f + i) = nth (Z.to_nat i) (le_bytes 8 j ++ le_bytes 8 t) 0.

(** Executed from its first byte, the jump entry with first word [j] passes control in [k]
    instructions, through the states [mid]. *)
Record enters (M : machine) (j : Z) (k : nat) (mid : nat -> cpu M -> Z -> cpu M) : Prop := {
  en_first : forall s t, mid O s t = s;
  en_last : forall s t, mid k s t = go M s t;
  en_some : (0 < k)%nat;
  en_step : forall n m s t, (n < k)%nat -> 0 <= t < 2 ^ 64 -> 0 <= pc M s -> pc M s + 16 <= 2 ^ 64 -> jump_at m (pc M s) j t ->
    exec M m (mid n s t) = Some (mid (S n) s t, []) }.

(** Threads and memory. *)
Definition threads (M : machine) := nat -> cpu M.
Definition set_thread {M} (ths : threads M) (i : nat) (s : cpu M) : threads M := fun k => if Nat.eqb k i then s else ths k.

(** Bytes written, in order. *)
Fixpoint write (m : mem) (w : list (Z * Z)) : mem :=
  match w with [] => m | (a, b) :: r => write (fun x => if x =? a then b else m x) r end.

(** The process: threads [sch] execute one instruction each, in this order. *)
Definition turn (M : machine) (st : threads M * mem) (i : nat) : option (threads M * mem) :=
  match exec M (snd st) (fst st i) with
  | Some (s, w) => Some (set_thread (fst st) i s, write (snd st) w)
  | None => None
  end.
Fixpoint runs (M : machine) (st : threads M * mem) (sch : list nat) : option (threads M * mem) :=
  match sch with
  | [] => Some st
  | i :: r => match turn M st i with Some st' => runs M st' r | None => None end
  end.

(** The program with replaced functions [R], (function, replacement), the first entry for a
    function counts: a thread that has come to the function goes on in the replacement. *)
Fixpoint replaced (R : list (Z * Z)) (f : Z) : option Z :=
  match R with [] => None | (g, t) :: r => if f =? g then Some t else replaced r f end.
Definition turn_replaced (M : machine) (R : list (Z * Z)) (st : threads M * mem) (i : nat) : option (threads M * mem) :=
  match replaced R (pc M (fst st i)) with
  | Some t => Some (set_thread (fst st) i (go M (fst st i) t), snd st)
  | None => turn M st i
  end.
Fixpoint runs_replaced (M : machine) (R : list (Z * Z)) (st : threads M * mem) (sch : list nat) : option (threads M * mem) :=
  match sch with
  | [] => Some st
  | i :: r => match turn_replaced M R st i with Some st' => runs_replaced M R st' r | None => None end
  end.

(** The first 16 bytes of replaced functions. *)
Definition covered (R : list (Z * Z)) (x : Z) : Prop := exists f t, In (f, t) R /\ f <= x < f + 16.

(** No thread of the program, however the threads take turns, executes, reads or writes
    the bytes [B], except by coming to a replaced function. *)
Definition respects (M : machine) (R : list (Z * Z)) (B : Z -> Prop) (st : threads M * mem) : Prop :=
  forall sch st', runs_replaced M R st sch = Some st' -> forall i, replaced R (pc M (fst st' i)) = None ->
    (forall x, looks M (snd st') (fst st' i) x -> ~ B x) /\
    forall s w, exec M (snd st') (fst st' i) = Some (s, w) -> forall x b, In (x, b) w -> ~ B x.

(** Replaced functions are the same or at least 16 bytes apart. *)
Definition apart (R : list (Z * Z)) : Prop :=
  forall f t f' t', In (f, t) R -> In (f', t') R -> f = f' \/ f + 16 <= f' \/ f' + 16 <= f.

(** The same state, except that a thread may still be inside the jump that leads to the
    replacement. *)
Definition same_thread (M : machine) (R : list (Z * Z)) (k : nat) (mid : nat -> cpu M -> Z -> cpu M) (s s' : cpu M) : Prop :=
  s = s' \/ exists n s0 t, (0 < n < k)%nat /\ replaced R (pc M s0) = Some t /\ s = mid n s0 t /\ s' = go M s0 t.
Definition same_process (M : machine) (R : list (Z * Z)) (B : Z -> Prop) k mid (st st' : threads M * mem) : Prop :=
  (forall i, same_thread M R k mid (fst st i) (fst st' i)) /\ (forall x, ~ B x -> snd st x = snd st' x).

(** The process [st] behaves like the program [st'] with the functions [R] replaced: what
    the process does the program can do, it faults only if the program can fault, and what
    the program can do the process can do; the bytes [B] do not matter. *)
Definition behaves (M : machine) (R : list (Z * Z)) (B : Z -> Prop) k mid (st st' : threads M * mem) : Prop :=
  (forall sch, match runs M st sch with
               | Some st1 => exists sch' st1', runs_replaced M R st' sch' = Some st1' /\ same_process M R B k mid st1 st1'
               | None => exists sch', runs_replaced M R st' sch' = None
               end) /\
  (forall sch st1', runs_replaced M R st' sch = Some st1' ->
     exists sch1 st1, runs M st sch1 = Some st1 /\ (forall i, fst st1 i = fst st1' i) /\ forall x, ~ B x -> snd st1 x = snd st1' x).
