(** The text of /proc/PID/maps and the listing of mappings: src/task/vma.c 321-481, src/init.c 32-48.

    The scanf family is libc's; the definitions below are its documented meaning (glibc: "0x" without digits
    behind it is 0).  None is a write outside a buffer. *)
From Coq Require Import ZArith String List Bool.
From Verif Require Import Word Str VmaModel PrModel.
From Verif Require TextModel MiscModel ShModel.
Import ListNotations.
Open Scope Z_scope.

(** ** Numbers *)

Definition hexval (c : Z) : option Z :=
  if (48 <=? c) && (c <=? 57) then Some (c - 48)
  else if (97 <=? c) && (c <=? 102) then Some (c - 87)
  else if (65 <=? c) && (c <=? 70) then Some (c - 55)
  else None.
(** The hexadecimal digits at the beginning of a text, as a number; how many; what follows. *)
Fixpoint hex_run (s : list Z) (acc : Z) : Z * bool * list Z :=
  match s with
  | [] => (acc, false, [])
  | c :: r => match hexval c with
              | Some d => let '(v, _, r) := hex_run r (16 * acc + d) in (v, true, r)
              | None => (acc, false, s)
              end
  end.
(** "%lx": strtoul, which saturates. *)
Definition scan_lx (s : list Z) : option (Z * list Z) :=
  let s := skip_space s in
  let '(neg, s) := match s with 45 :: r => (true, r) | 43 :: r => (false, r) | _ => (false, s) end in
  let '(pre, s) := match s with
                   | 48 :: c :: r => if (c =? 120) || (c =? 88) then (true, r) else (false, s)
                   | _ => (false, s)
                   end in
  let '(v, some, r) := hex_run s 0 in
  if some || pre then Some (if 2 ^ 64 <=? v then 2 ^ 64 - 1 else if neg : bool then u64 (- v) else v, r) else None.
(** "%x" into an unsigned int. *)
Definition scan_x (s : list Z) : option (Z * list Z) :=
  match scan_lx s with Some (v, r) => Some (u32 v, r) | None => None end.
(** "%ld" into an unsigned long: strtol, which saturates. *)
Definition scan_ld (s : list Z) : option (Z * list Z) :=
  let s := skip_space s in
  let '(neg, s) := match s with 45 :: r => (true, r) | 43 :: r => (false, r) | _ => (false, s) end in
  match span_digits s with
  | [] => None
  | ds => let v := MiscModel.digits_val ds 0 in
          Some (u64 (if neg : bool then Z.max (- 2 ^ 63) (- v) else Z.min (2 ^ 63 - 1) v), after_digits s)
  end.

(** ** read_task_vmas *)

(** The variables of one iteration, 336-348; all are cleared. *)
Record mrec := Mr { r_start : Z; r_end : Z; r_perms : list Z; r_off : Z; r_major : Z; r_minor : Z; r_inode : Z; r_name : list Z }.

(** sscanf(line, "%lx-%lx %s %lx %x:%x %ld %255s", ...), 353-354: its value (0 for EOF too) and the variables.
    perms has 5 bytes. *)
Definition scan_line (line : list Z) : option (Z * mrec) :=
  match scan_lx line with
  | None => Some (0, Mr 0 0 [] 0 0 0 0 [])
  | Some (start, s) =>
      match (match s with 45 :: s => scan_lx s | _ => None end) with
      | None => Some (1, Mr start 0 [] 0 0 0 0 [])
      | Some (en, s) =>
          match scan_s 5 s with
          | None => None
          | Some None => Some (2, Mr start en [] 0 0 0 0 [])
          | Some (Some (perms, s)) =>
              Some match scan_lx s with
              | None => (3, Mr start en perms 0 0 0 0 [])
              | Some (off, s) =>
                  match scan_x s with
                  | None => (4, Mr start en perms off 0 0 0 [])
                  | Some (major, s) =>
                      match (match s with 58 :: s => scan_x s | _ => None end) with
                      | None => (5, Mr start en perms off major 0 0 [])
                      | Some (minor, s) =>
                          match scan_ld s with
                          | None => (6, Mr start en perms off major minor 0 [])
                          | Some (inode, s) =>
                              match skip_space s with
                              | [] => (7, Mr start en perms off major minor inode [])
                              | s => (8, Mr start en perms off major minor inode (firstn (Z.to_nat 255) (word s)))
                              end
                          end
                      end
                  end
              end
          end
      end
  end.

(** The fields of a vm_area_struct that are set from the line, 374-383; [shift] is PAGE_SHIFT. *)
Record mvma := Mv { m_start : Z; m_end : Z; m_perms : list Z; m_prot : Z; m_pgoff : Z; m_major : Z; m_minor : Z; m_inode : Z;
                    m_name : list Z; m_type : vma_type }.
Definition make_vma (shift pid : Z) (exe : list Z) (r : mrec) : mvma :=
  Mv (r_start r) (r_end r) (r_perms r) (vma_perms2prot (nth 0 (r_perms r) 0) (nth 1 (r_perms r) 0) (nth 2 (r_perms r) 0))
     (Z.shiftr (r_off r) shift) (r_major r) (r_minor r) (r_inode r) (r_name r) (get_vma_type pid exe (r_name r)).

(** The loop over the lines, 335-400; fgets takes at most 1023 bytes.  The result says whether 0 or -1 is
    returned, and the mappings made in order (what becomes of them is VmaModel.read_task_vmas). *)
Fixpoint read_maps (fuel : nat) (shift pid : Z) (exe f : list Z) : option (bool * list mvma) :=
  match fuel with
  | O => None
  | S fuel' =>
      match f with
      | [] => Some (true, [])
      | _ =>
          let '(line, f) := ShModel.fgets (Z.to_nat 1023) f in
          match scan_line line with
          | None => None
          | Some (r, x) =>
              if r <=? 0 then Some (false, [])
              else match read_maps fuel' shift pid exe f with
                   | Some (ok, l) => Some (ok, make_vma shift pid exe x :: l)
                   | None => None
                   end
          end
      end
  end.

(** What VmaModel keeps of a mapping. *)
Definition vinfo_of (m : mvma) : vinfo := Vi (m_start m) (m_end m) (m_name m).

(** ** Page size, init.c 32-48 *)

(** The loop of ulp_page_shift from [tmp] on; a shift by 64 is undefined. *)
Fixpoint shift_loop (n : nat) (tmp pgsz : Z) : option Z :=
  match n with
  | O => None
  | S n' => if 2 ^ tmp =? pgsz then Some tmp else shift_loop n' (tmp + 1) pgsz
  end.
(** The two static variables; [getpagesize] is the kernel's answer. *)
Record pages := Pg { g_size : Z; g_shift : Z }.
Definition ulp_page_size (getpagesize : Z) (g : pages) : Z * pages :=
  let g := if g_size g =? 0 then Pg getpagesize (g_shift g) else g in (g_size g, g).
Definition ulp_page_shift (getpagesize : Z) (g : pages) : option (Z * pages) :=
  let '(pgsz, g) := ulp_page_size getpagesize g in
  if g_shift g =? 0 then
    match shift_loop 64 0 pgsz with
    | None => None
    | Some t => Some (t, Pg (g_size g) t)
    end
  else Some (g_shift g, g).

(** ** Listing *)

(** __vma_type_names, 259-286. *)
Definition vma_type_name (t : vma_type) : list Z :=
  match t with
  | VMA_NONE => str "unknown" | VMA_SELF => str "self" | VMA_LIBC => str "libc" | VMA_HEAP => str "heap" | VMA_LD => str "ld"
  | VMA_STACK => str "stack" | VMA_UPROBES => str "uprobes" | VMA_VVAR => str "vvar" | VMA_VVAR_VCLOCK => str "vvar_vclock"
  | VMA_VDSO => str "vdso" | VMA_VSYSCALL => str "vsyscall" | VMA_LIB_UNKNOWN => str "lib?" | VMA_ANON => str "anon"
  | VMA_ULPATCH => str "ulpatch"
  end.
(** "%Ns": filled with blanks on the left. *)
Definition pad (n : nat) (t : list Z) : list Z := repeat 32 (n - List.length t) ++ t.
(** "%016lx" of an unsigned long. *)
Definition hex16 (v : Z) : list Z :=
  map (fun k => TextModel.hex_digit (v / 16 ^ k mod 16)) [15; 14; 13; 12; 11; 10; 9; 8; 7; 6; 5; 4; 3; 2; 1; 0].

(** What print_vma, 407-464, shows without detail: is_elf, is_share_lib, is_matched_phdr, leader, voffset
    besides the fields above. *)
Record shown := Sv { s_vma : mvma; s_elf : bool; s_lib : bool; s_phdr : bool; s_leader : bool; s_voffset : Z }.
Definition print_vma (shift : Z) (first : bool) (x : shown) : list Z :=
  let v := s_vma x in
  let role (b : bool) (c : string) := if b then str c else str "-" in
  (if first then pad 10 (str "TYPE") ++ str ": " ++ pad 16 (str "Start") ++ [32] ++ pad 16 (str "End") ++ [32] ++ pad 6 (str "Perm") ++ [32]
                 ++ pad 4 (str "Role") ++ [10] ++ pad 11 [] ++ [32] ++ pad 16 (str "off") ++ [32] ++ pad 16 (str "Voffset") ++ [32] ++ str "Name" ++ [10]
   else []) ++
  pad 10 (vma_type_name (m_type v)) ++ str ": " ++ hex16 (m_start v) ++ str "-" ++ hex16 (m_end v) ++ [32] ++ pad 6 (m_perms v) ++ [32]
    ++ role (s_elf x) "E"%string ++ role (s_lib x) "S"%string ++ role (s_phdr x) "P"%string ++ role (s_leader x) "L"%string ++ [10] ++
  pad 11 [] ++ [32] ++ hex16 (u64 (Z.shiftl (m_pgoff v) shift)) ++ [32] ++ hex16 (s_voffset x) ++ [32] ++ m_name v ++ [10].

(** print_vma_root, 466-481. *)
Definition print_vma_root (shift : Z) (l : list shown) : list Z :=
  match l with
  | [] => []
  | x :: r => print_vma shift true x ++ flat_map (print_vma shift false) r
  end ++ [10] ++ str "(E)ELF, (S)SharedLib, (P)MatchPhdr, (L)Leader" ++ [10].
