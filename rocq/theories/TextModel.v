(** Text conversion and rounding: src/utils/string.c, src/utils/macros.h,
    src/elf/note.c (build id), src/elf/symbol-bfd.c (build id).

    A C string that is only read is the list of its bytes up to the terminating NUL; a
    pointer into it is a suffix.  A buffer that is written is a function from offsets
    to bytes, so that writes outside it are visible. *)
From Coq Require Import ZArith String List Bool.
From Verif Require Import Word Str.
Import ListNotations.
Open Scope Z_scope.

Notation "r <- x ;; b" := (match x with Some r => b | None => None end) (at level 100, x at next level, right associativity).

Definition buffer := Z -> Z.
Definition len (l : list Z) : Z := Z.of_nat (List.length l).

(** Writing the bytes [l] at offset [off]. *)
Definition put (b : buffer) (off : Z) (l : list Z) : buffer :=
  fun x => if (off <=? x) && (x <? off + len l) then nth (Z.to_nat (x - off)) l 0 else b x.

(** ** The C library *)

(** The digit of a character in bases up to 36. *)
Definition digit_val (c : Z) : option Z :=
  if (48 <=? c) && (c <=? 57) then Some (c - 48)
  else if (97 <=? c) && (c <=? 122) then Some (c - 87)
  else if (65 <=? c) && (c <=? 90) then Some (c - 55)
  else None.

Definition is_digit (base c : Z) : bool := match digit_val c with Some d => d <? base | None => false end.

Fixpoint conv (base : Z) (l : list Z) (acc : Z) : Z :=
  match l with
  | [] => acc
  | c :: r => match digit_val c with
              | Some d => if d <? base then conv base r (base * acc + d) else acc
              | None => acc
              end
  end.

Definition is_space (c : Z) : bool := (c =? 32) || ((9 <=? c) && (c <=? 13)).
Fixpoint skip_space (l : list Z) : list Z :=
  match l with c :: r => if is_space c then skip_space r else l | [] => [] end.

(** strtoull(s, NULL, base) of glibc for base 8, 10, 16. *)
Definition strtoull (s : list Z) (base : Z) : Z :=
  let s := skip_space s in
  let '(neg, s) := match s with 45 :: r => (true, r) | 43 :: r => (false, r) | _ => (false, s) end in
  let s := match s with
           | 48 :: x :: h :: r => if (base =? 16) && ((x =? 120) || (x =? 88)) && is_digit 16 h then h :: r else s
           | _ => s
           end in
  let v := conv base s 0 in
  if 2 ^ 64 - 1 <? v then 2 ^ 64 - 1 else if neg then u64 (- v) else v.

(** "%02x" of a byte. *)
Definition hex_digit (d : Z) : Z := if d <? 10 then 48 + d else 87 + d.
Definition hex2 (u : Z) : list Z := [hex_digit (u / 16); hex_digit (u mod 16)].

(** strstr with a needle of one character. *)
Fixpoint find_ch (c : Z) (l : list Z) : option (list Z) :=
  match l with [] => None | x :: r => if x =? c then Some l else find_ch c r end.

(** ** string.c *)

(** strbytes2mem_check, 107-130. *)
Fixpoint strbytes2mem_check (s : list Z) (sep : Z) : bool :=
  match s with
  | [] => true
  | c :: r =>
      if ((48 <=? c) && (c <=? 57)) || ((97 <=? c) && (c <=? 102)) || ((65 <=? c) && (c <=? 70)) || (c =? 120) || (c =? sep)
      then strbytes2mem_check r sep else false
  end.

Fixpoint skip_sep (sep : Z) (s : list Z) : list Z :=
  match s with c :: r => if c =? sep then skip_sep sep r else s | [] => [] end.

(** The result of strbytes2mem: the buffer, whether it returned [buf], and *nbytes if it was set. *)
Record s2m := S2m { s2m_buf : buffer; s2m_ok : bool; s2m_n : option Z }.

(** The loop of strbytes2mem, 169-195. *)
Fixpoint s2m_loop (fuel : nat) (s : list Z) (b : buffer) (n buf_len sep : Z) : option s2m :=
  match fuel with
  | O => None
  | S fuel' =>
      match s with
      | [] => Some (S2m b true (Some n))
      | _ =>
          match s with
          | 48 :: 120 :: _ =>
              let b := put b n [u8 (strtoull s 16)] in
              let n := n + 1 in
              if buf_len <? n then Some (S2m b false (Some 0))
              else match find_ch sep s with
                   | None => Some (S2m b true (Some n))
                   | Some s => s2m_loop fuel' (skip_sep sep s) b n buf_len sep
                   end
          | _ => Some (S2m b false (Some 0))
          end
      end
  end.

(** strbytes2mem, 138-200, for a non-null [buf]. *)
Definition strbytes2mem (fuel : nat) (bytes : list Z) (b : buffer) (buf_len separator : Z) : option s2m :=
  let sep := if separator =? 0 then 44 else separator in
  if buf_len <? 1 then Some (S2m b false None)
  else if strbytes2mem_check bytes sep then s2m_loop fuel (skip_sep sep bytes) b 0 buf_len sep
  else Some (S2m b false None).

(** The loop of mem2strbytes, 227-244; the [int] i does not overflow below 2^31 bytes. *)
Fixpoint m2s_loop (bytes : list Z) (b : buffer) (i mem_len sep : Z) : buffer :=
  match bytes with
  | [] => b
  | u :: r =>
      let s := i * 5 in
      let b := if i =? mem_len - 1 then put b s ([48; 120] ++ hex2 u ++ [0])
               else put b s ([48; 120] ++ hex2 u ++ [sep; 0]) in
      m2s_loop r b (i + 1) mem_len sep
  end.

(** mem2strbytes, 205-247, for non-null pointers: None is NULL. *)
Definition mem2strbytes (mem : list Z) (b : buffer) (buf_len sep : Z) : option buffer :=
  let mem_len := len mem in
  if (mem_len <? 1) || (buf_len <? 5) then None
  else if buf_len <? 5 * mem_len then None
  else Some (m2s_loop mem (put b 0 [0]) 0 mem_len sep).

(** The characters before the next comma or the end. *)
Fixpoint upto_comma (s : list Z) : list Z * list Z :=
  match s with
  | [] => ([], [])
  | c :: r => if c =? 44 then ([], s) else let '(a, b) := upto_comma r in (c :: a, b)
  end.

(** parse_strstr, 279-308: the items added to the list (list_add appends, C06) and the
    return value.  Allocation succeeds. *)
Fixpoint parse_loop (fuel : nat) (p : list Z) (acc : list (list Z)) : option (list (list Z)) :=
  match fuel with
  | O => None
  | S fuel' =>
      match p with
      | [] => Some acc
      | _ =>
          let '(name, p) := upto_comma p in
          let p := match p with 44 :: r => r | _ => p end in
          parse_loop fuel' p (if List.length name =? 0 then acc else acc ++ [name])%nat
      end
  end.
Definition parse_strstr (fuel : nat) (src : list Z) : option (list (list Z) * Z) :=
  l <- parse_loop fuel src [] ;; Some (l, 0).

Definition KB := 1024. Definition MB := 1024 * 1024. Definition GB := 1024 * 1024 * 1024.

(** str2size, 319-341. *)
Definition str2size (s : list Z) : Z :=
  let size := match s with 48 :: 120 :: _ => strtoull s 16 | _ => strtoull s 10 end in
  if strstrb s (str "GB") then u64 (size * GB)
  else if strstrb s (str "MB") then u64 (size * MB)
  else if strstrb s (str "KB") then u64 (size * KB)
  else size.

(** str2addr, 343-362. *)
Definition str2addr (s : list Z) : Z :=
  match s with
  | 48 :: 120 :: _ => strtoull s 16
  | 48 :: d :: _ => if (48 <=? d) && (d <=? 57) then strtoull s 8 else strtoull s 10
  | _ => strtoull s 10
  end.

(** str2verbose, 364-377: the loop compares the int [i] with strlen; [v] is an int. *)
Fixpoint verbose_loop (s : list Z) (v : Z) : Z :=
  match s with
  | [] => v
  | c :: r => verbose_loop r (if c =? 118 then s32 (v + 1) else v)
  end.
Definition str2verbose (str : option (list Z)) : Z :=
  match str with
  | None => 0
  | Some s => if len s =? 0 then 0 else verbose_loop s 0
  end.

(** The verbosity after the options -v with the given optional arguments, args-common.c
    72-75 and enable_verbose, init.c 133-136; it starts at 0 (args_common_reset). *)
Definition verbosity (opts : list (option (list Z))) : Z :=
  fold_left (fun _ o => s32 (str2verbose o + 1)) opts 0.

(** ** Build ids *)

(** elf_strbuildid, note.c 229-245. *)
Fixpoint bid_loop (bid : list Z) (b : buffer) (p : Z) : buffer :=
  match bid with
  | [] => put b p [0]
  | u :: r => bid_loop r (put b p (hex2 u ++ [0])) (p + 2)
  end.
Definition elf_strbuildid (bid : list Z) (b : buffer) (buf_len : Z) : option buffer :=
  if buf_len <? u64 (len bid * 2 + 1) then None else Some (bid_loop bid b 0).

(** bfd_strbid, symbol-bfd.c 509-525: [blen] is an int compared as unsigned long in the
    first test and, promoted, with i * 2 in the loop. *)
Fixpoint bfd_loop (bid : list Z) (b : buffer) (i blen : Z) : buffer :=
  match bid with
  | [] => put b (i * 2) [0]
  | u :: r => if i * 2 <? blen then bfd_loop r (put b (i * 2) (hex2 u ++ [0])) (i + 1) blen else put b (i * 2) [0]
  end.
Definition bfd_strbid (bid : list Z) (b : buffer) (blen : Z) : option buffer :=
  if u64 blen <? u64 (len bid * 2 + 1) then None else Some (bfd_loop bid b 0 blen).

(** ** macros.h, on unsigned long *)
Definition ROUND_DOWN (x m : Z) : Z := Z.land x (u64 (Z.lnot (u64 (m - 1)))).
Definition ROUND_UP (x m : Z) : Z := Z.land (u64 (u64 (x + m) - 1)) (u64 (Z.lnot (u64 (m - 1)))).
Definition ALIGN (x a : Z) : Z := Z.land (u64 (x + u64 (a - 1))) (u64 (Z.lnot (u64 (a - 1)))).
Definition ALIGN_DOWN (x a : Z) : Z := ALIGN (u64 (x - u64 (a - 1))) a.
Definition PAGE_DOWN (shift x : Z) : Z := ROUND_DOWN x (2 ^ shift).
Definition PAGE_UP (shift x : Z) : Z := ROUND_UP x (2 ^ shift).
Definition ELF_PAGESTART (shift v : Z) : Z := Z.land v (u64 (Z.lnot (u64 (2 ^ shift - 1)))).
Definition ELF_PAGEOFFSET (shift v : Z) : Z := Z.land v (u64 (2 ^ shift - 1)).
Definition ELF_PAGEALIGN (shift v : Z) : Z := Z.land (u64 (u64 (v + 2 ^ shift) - 1)) (u64 (Z.lnot (u64 (2 ^ shift - 1)))).
