(** The memory map of a process as the kernel shows it (fs/proc/task_mmu.c); independent of MpModel. *)
From Coq Require Import ZArith String List Bool.
From Verif Require Import Str PrSpec.
Import ListNotations.
Open Scope Z_scope.

Record mapping := Mp { p_start : Z; p_end : Z; p_r : bool; p_w : bool; p_x : bool; p_shared : bool; p_off : Z; p_major : Z; p_minor : Z;
                       p_inode : Z; p_path : list Z }.

(** Lower case hexadecimal digits, and the number they mean. *)
Definition hexchar (c : Z) : Prop := 48 <= c <= 57 \/ 97 <= c <= 102.
Definition hexvalue (t : list Z) : Z := fold_left (fun a c => 16 * a + (if c <? 58 then c - 48 else c - 87)) t 0.
Definition hextext (v : Z) (t : list Z) : Prop := t <> [] /\ Forall hexchar t /\ hexvalue t = v.

Definition flag (b : bool) (c : string) : list Z := if b then str c else str "-".
Definition perms_of (m : mapping) : list Z :=
  flag (p_r m) "r"%string ++ flag (p_w m) "w"%string ++ flag (p_x m) "x"%string ++ (if p_shared m then str "s" else str "p").

(** A line for the mapping, without the newline: numbers with any number of leading zeros, blanks up to the path. *)
Definition line_of (m : mapping) (l : list Z) : Prop :=
  exists a b o j n k, hextext (p_start m) a /\ hextext (p_end m) b /\ hextext (p_off m) o /\ hextext (p_major m) j /\ hextext (p_minor m) n /\
    l = a ++ str "-" ++ b ++ str " " ++ perms_of m ++ str " " ++ o ++ str " " ++ j ++ str ":" ++ n ++ str " " ++ dec (p_inode m) ++
        repeat 32 (S k) ++ p_path m.

(** What the kernel can have; a path starts with a slash or a bracket and a newline in it is shown as \012. *)
Definition valid (m : mapping) : Prop :=
  0 <= p_start m < 2 ^ 64 /\ 0 <= p_end m < 2 ^ 64 /\ 0 <= p_off m < 2 ^ 64 /\ 0 <= p_major m < 2 ^ 32 /\ 0 <= p_minor m < 2 ^ 32 /\
  0 <= p_inode m < 2 ^ 64 /\ ~ In 10 (p_path m) /\ ~ In 0 (p_path m) /\ (forall c r, p_path m = c :: r -> ~ blank c).

(** PROT_READ, PROT_WRITE, PROT_EXEC of mman.h. *)
Definition prot_of (m : mapping) : Z := (if p_r m then 1 else 0) + (if p_w m then 2 else 0) + (if p_x m then 4 else 0).

(** The first word of a text. *)
Definition first_word (t w : list Z) : Prop :=
  Forall (fun c => ~ blank c) w /\ (t = w \/ exists c r, t = w ++ c :: r /\ blank c).
