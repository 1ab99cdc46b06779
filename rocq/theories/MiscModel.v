(** Small modules: src/task/auxv.c, src/utils/callback.c, src/utils/log.c,
    src/args-common.c (log level option), src/arch/aarch64/ftrace.c and the accesses of
    src/arch/aarch64/insn.c. *)
From Coq Require Import ZArith String List Bool.
From Verif Require Import Word Str ListModel.
From Verif Require Import ScModel.
Import ListNotations.
Open Scope Z_scope.

Notation "x <- e ;; k" := (match e with Some x => k | None => None end)
  (at level 60, e at next level, right associativity).

(** ** The auxiliary vector *)

(** struct task_auxv, task/auxv.h. *)
Record auxv := Auxv { av_phdr : Z; av_phent : Z; av_phnum : Z; av_interp : Z; av_entry : Z }.

Definition AT_PHDR := 3. Definition AT_PHENT := 4. Definition AT_PHNUM := 5.
Definition AT_BASE := 7. Definition AT_ENTRY := 9.

(** The switch, auxv.c 37-53. *)
Definition record_entry (p : auxv) (t v : Z) : auxv :=
  let '(Auxv a b c d e) := p in
  if t =? AT_PHDR then Auxv v b c d e
  else if t =? AT_PHENT then Auxv a v c d e
  else if t =? AT_PHNUM then Auxv a b v d e
  else if t =? AT_BASE then Auxv a b c v e
  else if t =? AT_ENTRY then Auxv a b c d v
  else p.

(** The loop, auxv.c 33-54.  [rd i off] is the result of the i-th read at file offset off:
    -1 or the number of bytes delivered (at most 16).  The local variable auxv keeps its
    value when the read fails.  [n < sizeof(auxv)] compares as size_t, hence [u64]. *)
Fixpoint auxv_loop (fuel : nat) (rd : nat -> Z -> Z) (f : mem) (i : nat) (off : Z) (cur : Z * Z) (p : auxv) : option auxv :=
  match fuel with
  | O => None
  | S fuel =>
      let n := rd i off in
      if u64 n <? 16 then Some p
      else
        let cur := if n =? -1 then cur else (ld 8 f off, ld 8 f (off + 8)) in
        let off := if n =? -1 then off else off + n in
        auxv_loop fuel rd f (S i) off cur (record_entry p (fst cur) (snd cur))
  end.

(** load_task_auxv, auxv.c 17-91: [op] is the errno of open, [junk] the initial value of
    the local variable. *)
Definition load_task_auxv (fuel : nat) (op : option Z) (rd : nat -> Z -> Z) (f : mem) (junk : Z * Z) : option (Z * auxv) :=
  let p := Auxv 0 0 0 0 0 in
  match op with
  | Some en => Some (- en, p)
  | None =>
      p <- auxv_loop fuel rd f O 0 junk p ;;
      if av_phdr p =? 0 then Some (- ENOENT, p)
      else if av_phent p =? 0 then Some (- ENOENT, p)
      else if av_phnum p =? 0 then Some (- ENOENT, p)
      else if av_interp p =? 0 then Some (- ENOENT, p)
      else if av_entry p =? 0 then Some (- ENOENT, p)
      else Some (0, p)
  end.

(** ** Callback chains *)

(** struct callback, callback.c 10-16: the list node and the two other fields.  Callbacks
    are numbered, 0 is NULL. *)
Record chain := Ch { c_heap : lheap; c_cb : Z -> Z; c_arg : Z -> Z }.

Definition alloc_live (h : lheap) (a : Z) : lheap := Lh (fun x => if x =? a then true else live h x) (nx h) (pv h).

(** insert_callback, callback.c 19-35: [new] is what malloc returned, [head] the list head
    of the chain (0 for a NULL chain). *)
Definition insert_callback (c : chain) (head cb arg : Z) (new : option Z) : option (Z * chain) :=
  if (head =? 0) || (cb =? 0) then Some (- ENOENT, c)
  else match new with
  | None => Some (- ENOMEM, c)
  | Some a =>
      let c := Ch (alloc_live (c_heap c) a) (set (c_cb c) a cb) (set (c_arg c) a arg) in
      h <- list_add (c_heap c) a head ;;
      Some (0, Ch h (c_cb c) (c_arg c))
  end.

(** callback_launch_chain, callback.c 37-43, with list_for_each_entry_safe, list.h 453-457:
    the calls made, in order.  Callbacks do not change the chain. *)
Fixpoint launch_from (fuel : nat) (c : chain) (pos n head : Z) : option (list (Z * Z)) :=
  match fuel with
  | O => None
  | S fuel =>
      if pos =? head then Some []
      else n' <- get_next (c_heap c) n ;;
           r <- launch_from fuel c n n' head ;;
           Some ((c_cb c pos, c_arg c pos) :: r)
  end.
Definition callback_launch_chain (fuel : nat) (c : chain) (head : Z) : option (list (Z * Z)) :=
  pos <- get_next (c_heap c) head ;; n <- get_next (c_heap c) pos ;; launch_from fuel c pos n head.

(** destroy_callback_chain, callback.c 45-54: the nodes freed, in order. *)
Definition destroy_callback_chain (fuel : nat) (c : chain) (head : Z) : option (Z * list Z * chain) :=
  r <- list_free_all fuel (c_heap c) head ;; Some (0, fst r, Ch (snd r) (c_cb c) (c_arg c)).

(** A sequence of registrations with what malloc returns: the results and the chain. *)
Fixpoint insert_all (c : chain) (head : Z) (l : list (Z * Z * option Z)) : option (list Z * chain) :=
  match l with
  | [] => Some ([], c)
  | (cb, arg, new) :: r =>
      match insert_callback c head cb arg new with
      | Some (v, c) => match insert_all c head r with Some (vs, c) => Some (v :: vs, c) | None => None end
      | None => None
      end
  end.

(** ** Log levels *)

(** tolower and strcasecmp (C locale). *)
Definition tolower (c : Z) : Z := if (65 <=? c) && (c <=? 90) then c + 32 else c.
Definition strcasecmp_eq (a b : list Z) : bool := str_eqb (map tolower a) (map tolower b).

(** str2loglevel, log.c 83-109; None is NULL. *)
Definition str2loglevel (s : option (list Z)) : Z :=
  match s with
  | None => - EINVAL
  | Some s =>
      let is n := strcasecmp_eq s (str n) in
      if is "debug"%string || is "dbg"%string then 7
      else if is "info"%string || is "inf"%string then 6
      else if is "notice"%string || is "note"%string then 5
      else if is "warning"%string || is "warn"%string then 4
      else if is "error"%string || is "err"%string then 3
      else if is "crit"%string then 2
      else if is "alert"%string then 1
      else if is "emerg"%string then 0
      else - EINVAL
  end.

(** The state of log.c 28-30 and the mask of syslog(3). *)
Record lstate := Ls { l_level : Z; l_prefix : bool; l_mask : Z }.
Definition lstate0 := Ls 3 false 255.

(** LOG_UPTO (sys/syslog.h): 1 << (pri + 1), undefined outside 0..30. *)
Definition log_upto (pri : Z) : option Z :=
  if (0 <=? pri + 1) && (pri + 1 <=? 30) then Some (2 ^ (pri + 1) - 1) else None.

(** setlogmask(3): 0 leaves the mask unchanged. *)
Definition setlogmask (m old : Z) : Z := if m =? 0 then old else m.

(** init_syslog, log.c 32-36. *)
Definition init_syslog (s : lstate) : option lstate :=
  m <- log_upto (l_level s) ;; Some (Ls (l_level s) (l_prefix s) (setlogmask m (l_mask s))).

(** set_log_level, log.c 43-50. *)
Definition set_log_level (s : lstate) (level : Z) : option lstate :=
  if l_level s =? level then Some s else init_syslog (Ls level (l_prefix s) (l_mask s)).

(** level_prefix, log.c 17-26: an index outside the array is an invalid access. *)
Definition level_prefix (level : Z) : option Z := if (0 <=? level) && (level <=? 7) then Some level else None.

(** ulp_log, log.c 116-158: the message handed on by syslog, and the line written to the log
    file (with the index of the prefix). *)
Definition ulp_log (s : lstate) (level : Z) (has_prefix : bool) (msg : list Z) : option (option (list Z) * option (option Z * list Z)) :=
  let sys := if Z.testbit (l_mask s) (level mod 8) then Some msg else None in
  if l_level s <? level then Some (sys, None)
  else if has_prefix && l_prefix s then p <- level_prefix level ;; Some (sys, Some (Some p, msg))
  else Some (sys, Some (None, msg)).

Inductive lop := SetLevel (level : Z) | SetPrefix (on : bool) | Log (level : Z) (has_prefix : bool) (msg : list Z).

(** A program that initialised the log: what syslog passes on, what is written. *)
Fixpoint lrun (s : lstate) (l : list lop) : option (list (list Z) * list (list Z)) :=
  match l with
  | [] => Some ([], [])
  | SetLevel v :: r => s <- set_log_level s v ;; lrun s r
  | SetPrefix on :: r => lrun (Ls (l_level s) on (l_mask s)) r
  | Log level hp msg :: r =>
      o <- ulp_log s level hp msg ;;
      q <- lrun s r ;;
      Some ((match fst o with Some m => [m] | None => [] end) ++ fst q,
            (match snd o with Some (_, m) => [m] | None => [] end) ++ snd q)
  end.
Definition log_program (l : list lop) : option (list (list Z) * list (list Z)) := s <- init_syslog lstate0 ;; lrun s l.

(** atoi: strtol(s, NULL, 10) as int. *)
Definition is_space (c : Z) : bool := (c =? 32) || ((9 <=? c) && (c <=? 13)).
Definition is_digit (c : Z) : bool := (48 <=? c) && (c <=? 57).
Fixpoint skip_space (s : list Z) : list Z := match s with c :: r => if is_space c then skip_space r else s | [] => [] end.
Fixpoint digits_val (s : list Z) (acc : Z) : Z := match s with c :: r => if is_digit c then digits_val r (acc * 10 + (c - 48)) else acc | [] => acc end.
Definition atoi (s : list Z) : Z :=
  let s := skip_space s in
  let '(neg, s) := match s with 45 :: r => (true, r) | 43 :: r => (false, r) | _ => (false, s) end in
  let v := digits_val s 0 in
  s32 (if neg then Z.max (- 2 ^ 63) (- v) else Z.min (2 ^ 63 - 1) v).

(** ARG_LOG_LEVEL, args-common.c 79-86: None is the exit of the program. *)
Definition log_level_option (arg : list Z) : option Z :=
  let v := atoi arg in
  if v =? 0 then let v := str2loglevel (Some arg) in if v <? 0 then None else Some v else Some v.

(** ** Code modification on aarch64 *)

(** A 32-bit word in the byte order of the machine. *)
Definition word4 (v : Z) : arr := fun i => (v / 2 ^ (8 * i)) mod 256.

(** aarch64_insn_read, aarch64/insn.c 16-28; [val] is the initial content of the local
    variable val, [old] what *insnp held. *)
Definition aarch64_insn_read (e : env) (w : world) (addr : Z) (val : arr) (old : Z) : Z * Z * world :=
  let '(ret, val, w) := memcpy_from_task e w val addr 4 in
  let insn := if ret =? 0 then old else ld 4 val 0 in
  (if ret =? 0 then -1 else 0, insn, w).

(** aarch64_insn_write, insn.c 29-47. *)
Definition aarch64_insn_write (e : env) (w : world) (addr insn : Z) : Z * world :=
  if negb (addr mod 4 =? 0) then (- EINVAL, w)
  else let '(ret, w) := memcpy_to_task e w addr (word4 insn) 4 in (if ret =? 0 then -1 else 0, w).

(** ftrace_modify_code, aarch64/ftrace.c 20-47. *)
Definition ftrace_modify_code (e : env) (w : world) (pc old new : Z) (validate : bool) (val : arr) (junk : Z) : Z * world :=
  let write w := let '(r, w) := aarch64_insn_write e w pc new in if r =? 0 then (0, w) else (- EPERM, w) in
  if validate then
    let '(r, replaced, w) := aarch64_insn_read e w pc val junk in
    if negb (r =? 0) then (- EFAULT, w)
    else if negb (replaced =? old) then (- EINVAL, w)
    else write w
  else write w.
