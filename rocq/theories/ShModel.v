(** Showing bytes and files: src/utils/string.c (memshow, print_bytes, fmembytes),
    src/utils/file.c (fprint_file, fprint_fd, dir_iter, ftype).

    What is written to a stream is the list of its bytes; writes to the stream succeed. *)
From Coq Require Import ZArith String List Bool.
From Verif Require Import Word Str.
From Verif Require TextModel.
Import ListNotations.
Open Scope Z_scope.

Notation hex2 := TextModel.hex2.
Notation hex_digit := TextModel.hex_digit.

(** ** string.c *)

(** "%08x" of a non-negative int. *)
Definition hex8 (v : Z) : list Z :=
  map (fun k => hex_digit (v / 16 ^ k mod 16)) [7; 6; 5; 4; 3; 2; 1; 0].

(** isprint in the C locale. *)
Definition isprint (c : Z) : bool := (32 <=? c) && (c <=? 126).

(** What memshow wrote, which offsets of [data] it read, and its running length. *)
Record shown := Shown { sh_out : list Z; sh_reads : list Z; sh_len : Z }.
Definition emit (s : shown) (t : list Z) : shown := Shown (sh_out s ++ t) (sh_reads s) (sh_len s).
(** [len += fprintf(...)] on the outer [len]. *)
Definition emit_len (s : shown) (t : list Z) : shown :=
  Shown (sh_out s ++ t) (sh_reads s) (sh_len s + Z.of_nat (List.length t)).
Definition reads (s : shown) (o : Z) : shown := Shown (sh_out s) (sh_reads s ++ [o]) (sh_len s).

(** The loop over the hex cells of a line, 37-49: the inner [len] shadows the outer one, so the
    characters are not counted.  [i] counts up to 16. *)
Fixpoint hex_cells (n : nat) (d : Z -> Z) (data_len base i : Z) (s : shown) : shown :=
  match n with
  | O => s
  | S n' =>
      let e := if i =? 16 / 2 - 1 then [32; 32] else [32] in
      let s := if data_len <=? base + i then emit s ([32; 32] ++ e)
               else emit (reads s (base + i)) (hex2 (d (base + i)) ++ e) in
      hex_cells n' d data_len base (i + 1) s
  end.

(** The loop over the characters of a line, 53-65; [isprint(line[i])] is evaluated for all 16. *)
Fixpoint char_cells (n : nat) (d : Z -> Z) (data_len base i : Z) (s : shown) : shown :=
  match n with
  | O => s
  | S n' =>
      let s := reads s (base + i) in
      let e := if isprint (d (base + i)) then d (base + i) else 46 in
      let s := emit s (if data_len <=? base + i then [32] else [e]) in
      char_cells n' d data_len base (i + 1) s
  end.

(** One line, 33-67. *)
Definition memshow_line (d : Z -> Z) (data_len base : Z) (s : shown) : shown :=
  let s := emit_len s (hex8 base ++ [32; 32]) in
  let s := hex_cells 16 d data_len base 0 s in
  let s := emit_len s [32; 32; 124] in
  let s := char_cells 16 d data_len base 0 s in
  emit_len s [124; 10].

(** The loop, 31-68; [iline * align] is an int, and data_len is at most 2^31 - 16 (beyond that
    the product overflows): None is either that or too little fuel. *)
Fixpoint memshow_loop (fuel : nat) (d : Z -> Z) (data_len iline : Z) (s : shown) : option shown :=
  match fuel with
  | O => None
  | S f =>
      if 2 ^ 31 <=? iline * 16 then None
      else if iline * 16 <? data_len then memshow_loop f d data_len (iline + 1) (memshow_line d data_len (iline * 16) s)
      else Some s
  end.

(** memshow, 21-71: the bytes written and read, and the value returned.  [d] is the memory
    from [data] on, None for a null pointer; [fp] says whether there is a stream. *)
Definition memshow (fuel : nat) (fp : bool) (d : option (Z -> Z)) (data_len : Z) : option shown :=
  match d with
  | None => Some (Shown [] [] (- EINVAL))
  | Some d =>
      if data_len <=? 0 then Some (Shown [] [] (- EINVAL))
      else if fp then memshow_loop fuel d data_len 0 (Shown [] [] 0)
      else Some (Shown [] [] 0)
  end.

(** print_bytes, 84-91. *)
Fixpoint print_bytes (mem : list Z) : list Z * Z :=
  match mem with
  | [] => ([], 0)
  | c :: r => let '(t, n) := print_bytes r in (hex2 c ++ 32 :: t, 3 + n)
  end.

(** fmembytes, 93-105. *)
Fixpoint fmembytes_loop (l : list Z) (i data_len : Z) : list Z :=
  match l with
  | [] => []
  | b :: r => [48; 120] ++ hex2 b ++ (if i <? data_len - 1 then [44] else []) ++ fmembytes_loop r (i + 1) data_len
  end.
Definition fmembytes (data : list Z) : list Z := fmembytes_loop data 0 (Z.of_nat (List.length data)) ++ [10].

(** ** file.c *)

(** fgets(buf, n + 1, fp): at most [n] bytes, through the first newline; what it stored and the rest. *)
Fixpoint fgets (n : nat) (f : list Z) : list Z * list Z :=
  match n, f with
  | O, _ => ([], f)
  | _, [] => ([], [])
  | S n', c :: r => if c =? 10 then ([c], r) else let '(t, r') := fgets n' r in (c :: t, r')
  end.
(** "%s" of a buffer: up to the first NUL. *)
Fixpoint cstr (l : list Z) : list Z := match l with [] => [] | c :: r => if c =? 0 then [] else c :: cstr r end.

(** fprint_file, 378-392, for a file that can be opened: what was written and the value returned. *)
Fixpoint fprint_file (fuel : nat) (f : list Z) : option (list Z * Z) :=
  match fuel with
  | O => None
  | S fuel' =>
      match f with
      | [] => Some ([], 0)
      | _ => let '(t, r) := fgets 31 f in
             match fprint_file fuel' r with
             | Some (out, n) => Some (cstr t ++ out, Z.of_nat (List.length (cstr t)) + n)
             | None => None
             end
      end
  end.

(** fprint_fd, 394-409: read(2) returns one byte until the end of the file. *)
Fixpoint fprint_fd (f : list Z) : list Z * Z :=
  match f with [] => ([], 0) | c :: r => let '(o, n) := fprint_fd r in (c :: o, n + 1) end.

(** dir_iter, 411-432: the names the callback gets, for the entries readdir returns; None for a
    directory that cannot be opened. *)
Definition dir_iter (entries : option (list (list Z))) : Z * list (list Z) :=
  match entries with
  | None => (- EINVAL, [])
  | Some l => (0, filter (fun n => negb (str_eqb n (str ".") || str_eqb n (str ".."))) l)
  end.

(** What is seen of a file through mmap: its bytes, then zeros to the end of the page. *)
Definition mapped (f : list Z) (o : Z) : Z := nth (Z.to_nat o) f 0.

(** ehdr_magic_ok, src/elf/ehdr.c 14-24: the first four bytes. *)
Definition ehdr_magic_ok (m : Z -> Z) : bool := (m 0 =? 127) && (m 1 =? 69) && (m 2 =? 76) && (m 3 =? 70).

(** _file_type_mem, 164-176; e_type is the half word at 16, ET_REL is 1. *)
Definition file_type_mem (m : Z -> Z) : Z :=
  if ehdr_magic_ok m then if m 16 + 256 * m 17 =? 1 then Z.lor 1 3 else 1 else 0.

(** _mmap_file, 301-352: the mapping, the descriptors the process has open afterwards and the
    strings it still owns.  [creat]: O_CREAT is set; [content]: what the file holds once open, None if it does not
    exist; [fd]: what open(2) returns; mmap(2) of no bytes fails. *)
Record mmaped := Mm { mm_fd : Z; mm_size : Z; mm_mem : Z -> Z; mm_type : Z }.
Record owner := Own { o_fds : list Z; o_heap : nat }.
Definition mmap_file (creat : bool) (content : option (list Z)) (fd : Z) (trunc : Z) (trunc_ok mmap_ok : bool) (s : owner)
  : option mmaped * owner :=
  if negb creat && match content with None => true | _ => false end then (None, s)
  else
    let s := Own (o_fds s) (o_heap s + 2) in
    if fd <=? 0 then (None, Own (o_fds s) (o_heap s - 1))
    else
      let s := Own (fd :: o_fds s) (o_heap s) in
      if negb (trunc =? 0) && negb trunc_ok then (None, s)
      else
        let c := match content with Some c => c | None => [] end in
        let size := if trunc =? 0 then Z.of_nat (List.length c) else trunc in
        if (size =? 0) || negb mmap_ok then (None, Own (o_fds s) (o_heap s - 1))
        else (Some (Mm fd size (mapped c) (file_type_mem (mapped c))), s).

(** _munmap_file, 353-360. *)
Definition munmap_file (m : mmaped) (s : owner) : owner :=
  Own (List.remove Z.eq_dec (mm_fd m) (o_fds s)) (o_heap s - 2).

(** ftype, 178-196. *)
Definition ftype (content : option (list Z)) (fd : Z) (mmap_ok : bool) (s : owner) : Z * owner :=
  match mmap_file false content fd 0 true mmap_ok s with
  | (None, s) => (0, s)
  | (Some m, s) => (file_type_mem (mm_mem m), munmap_file m s)
  end.
