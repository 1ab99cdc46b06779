(** What the small modules are supposed to do. *)
From Coq Require Import ZArith String List Bool.
From Verif Require Import Word Str.
Import ListNotations.
Open Scope Z_scope.

(** The value of an entry: the last one given, 0 if none is. *)
Definition last_given (l : list (Z * Z)) (t v : Z) : Prop :=
  (exists L R, l = L ++ (t, v) :: R /\ forall v', ~ In (t, v') R) \/ ((forall v', ~ In (t, v') l) /\ v = 0).

(** The file holds these entries and nothing else, and reads deliver all there is. *)
Definition vector_file (f : mem) (l : list (Z * Z)) : Prop :=
  forall k t v, nth_error l k = Some (t, v) -> ld 8 f (16 * Z.of_nat k) = t /\ ld 8 f (16 * Z.of_nat k + 8) = v.
Definition reads_all (rd : nat -> Z -> Z) (size : Z) : Prop :=
  forall i off, 0 <= off <= size -> rd i off = Z.min 16 (size - off).

(** Registrations: callback (0 is NULL), argument, address allocated if there was memory. *)

(** The callbacks that could be registered, in order. *)
Fixpoint registered (l : list (Z * Z * option Z)) : list (Z * Z) :=
  match l with
  | [] => []
  | (cb, arg, new) :: r => if cb =? 0 then registered r else match new with None => registered r | Some _ => (cb, arg) :: registered r end
  end.
Fixpoint allocated (l : list (Z * Z * option Z)) : list Z :=
  match l with
  | [] => []
  | (cb, _, new) :: r => if cb =? 0 then allocated r else match new with None => allocated r | Some a => a :: allocated r end
  end.
Definition insert_result (x : Z * Z * option Z) : Z :=
  let '(cb, _, new) := x in if cb =? 0 then -2 else match new with None => -12 | Some _ => 0 end.

(** Two names that differ at most in the case of letters. *)
Inductive same_letter : Z -> Z -> Prop :=
| SameChar c : same_letter c c
| UpLow c : 65 <= c <= 90 -> same_letter c (c + 32)
| LowUp c : 65 <= c <= 90 -> same_letter (c + 32) c.
Definition same_name (a b : list Z) : Prop := Forall2 same_letter a b.

(** The documented names. *)
Definition level_names : list (string * Z) :=
  [("debug", 7); ("dbg", 7); ("info", 6); ("inf", 6); ("notice", 5); ("note", 5); ("warning", 4); ("warn", 4);
   ("error", 3); ("err", 3); ("crit", 2); ("alert", 1); ("emerg", 0)]%string.

(** The messages of a program that are at most as detailed as the level set at that point. *)
Inductive said := Level (n : Z) | Message (level : Z) (msg : list Z).
Fixpoint visible (level : Z) (l : list said) : list (list Z) :=
  match l with
  | [] => []
  | Level n :: r => visible n r
  | Message k m :: r => if k <=? level then m :: visible level r else visible level r
  end.

(** Four bytes in memory, little endian. *)
Definition holds4 (m : mem) (a v : Z) : Prop :=
  m a + 256 * m (a + 1) + 65536 * m (a + 2) + 16777216 * m (a + 3) = v.
