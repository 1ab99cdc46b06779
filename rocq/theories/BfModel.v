(** Opening and closing an object file through libbfd: symbol-bfd.c 239-299, 350-432,
    434-502.  The symbols themselves and the three trees are those of ElfModel. *)
From Coq Require Import ZArith String List Bool Lia.
From Verif Require Import Word RbModel Str ElfDefs ElfModel.
Import ListNotations.
Open Scope Z_scope.

(** What is allocated while a file is open: struct bfd_elf_file, the handle of libbfd, the
    vectors of static, dynamic, synthetic and sorted symbols, and a struct bfd_sym with its
    name, given by its class and the address of its tree node. *)
Inductive obj := OFile | OBfd | OSyms | ODyn | OSynth | OSorted | OSym (c : cls) (n : Z).

(** The answers of the system and of libbfd for one file name: fexist, bfd_openr,
    bfd_check_format(bfd_archive), bfd_check_format_matches(bfd_object), HAS_SYMS,
    bfd_get_symtab_upper_bound and bfd_canonicalize_symtab, the same for dynamic symbols,
    bfd_get_synthetic_symtab, and the symbols of the three tables. *)
Record blib := Bl { l_exist : bool; l_open : bool; l_archive : bool; l_object : bool; l_has_syms : bool;
  l_room : Z; l_count : Z; l_droom : Z; l_dcount : Z; l_ycount : Z;
  l_syms : list asym; l_dyn : list asym; l_synth : list asym }.

(** slurp_symtab, symbol-bfd.c 239-271: the size of the vector returned (None: NULL),
    file->symcount, and what stays allocated. *)
Definition slurp_symtab (l : blib) : option Z * Z * list obj :=
  if negb (l_has_syms l) then (None, 0, []) else
  if l_room l <=? 0 then (None, 0, []) else
  if l_count l <? 0 then (None, l_count l, []) else
  (Some (l_room l), l_count l, [OSyms]).

(** slurp_dynamic_symtab, symbol-bfd.c 273-300: the vector is not freed on a failure. *)
Definition slurp_dynamic_symtab (l : blib) : option Z * Z * list obj :=
  if l_droom l <=? 0 then (None, 0, []) else
  if l_dcount l <? 0 then (None, l_dcount l, [ODyn]) else
  (Some (l_droom l), l_dcount l, [ODyn]).

(** A struct bfd_elf_file: which of the vectors are there, and the three trees. *)
Record bfile := Bf { f_syms : bool; f_dyn : bool; f_synth : bool; f_tree : cls -> (Z -> bsym) * rbs }.

(** A NULL, or a file; and what is allocated. *)
Inductive bres := BNull (left : list obj) | BFile (f : bfile) (alive : list obj).

Definition is_some {A} (o : option A) : bool := match o with Some _ => true | None => false end.

(** The memcpy of symbol-bfd.c 386-387 into the vector of 382-383: the size of the copy,
    of the vector it reads (None: NULL) and of the one it writes, for which malloc gives
    NULL above PTRDIFF_MAX. *)
Definition copy_ok (size : Z) (src : option Z) (dst : Z) : bool :=
  match src with None => false | Some k => (size <=? k) && (size <=? dst) && (dst <? 2 ^ 63) end.

(** The loop of symbol-bfd.c 396-425 for one class: the tree and the nodes allocated. *)
Definition fill_class (fuel : nat) (c : cls) (l1 l2 l3 : list asym) (b : buffer) (h : rbs * list Z) :
    option (((Z -> bsym) * rbs) * list obj) :=
  es <- entries c (sorted_syms l1 l2 l3) b ;;
  t <- load_class fuel c l1 l2 l3 b (fst h) (snd h) ;;
  Some (t, map (OSym c) (firstn (List.length es) (snd h))).

(** bfd_elf_open, symbol-bfd.c 434-442, and file_load, 350-432.  None is undefined
    behaviour: libbfd is handed NULL for an open file (361-363), or the copy leaves its
    vectors.  A failing malloc of a moderate size is not modelled.  [h] gives for each class
    the empty tree and the addresses malloc returns. *)
Definition bfd_elf_open (fuel : nat) (l : blib) (b : buffer) (h : cls -> rbs * list Z) : option bres :=
  if negb (l_exist l) then Some (BNull []) else
  if negb (l_open l) then None else
  if l_archive l then Some (BNull [OFile]) else
  if negb (l_object l) then Some (BNull [OFile]) else
  let '(sy, sc, a1) := slurp_symtab l in
  let '(dy, dc, a2) := slurp_dynamic_symtab l in
  let yc := if l_ycount l <? 0 then 0 else l_ycount l in
  let n := if sc =? 0 then dc else sc in
  let room := u64 ((n + yc) * 8) in
  if negb (n =? 0) && negb (copy_ok (u64 (n * 8)) (if sc =? 0 then dy else sy) room) then None else
  let l1 := firstn (Z.to_nat sc) (l_syms l) in
  let l2 := firstn (Z.to_nat dc) (l_dyn l) in
  let l3 := firstn (Z.to_nat yc) (l_synth l) in
  p <- fill_class fuel CPlt l1 l2 l3 b (h CPlt) ;;
  t <- fill_class fuel CText l1 l2 l3 b (h CText) ;;
  d <- fill_class fuel CData l1 l2 l3 b (h CData) ;;
  Some (BFile (Bf (is_some sy) (is_some dy) (0 <? yc)
                  (fun c => match c with CPlt => fst p | CText => fst t | CData => fst d end))
         ([OFile; OBfd] ++ a1 ++ a2 ++ (if 0 <? yc then [OSynth] else []) ++ [OSorted] ++ snd p ++ snd t ++ snd d)).

(** bfd_elf_close, symbol-bfd.c 464-502: what is given back, in order; free_bfd_sym,
    87-91, is the callback of rb_destroy.  The classes come in the order of the enum, 18-23. *)
Definition bfd_elf_close (fuel : nat) (f : bfile) : option (list obj) :=
  t <- rb_destroy fuel (snd (f_tree f CText)) ;;
  p <- rb_destroy fuel (snd (f_tree f CPlt)) ;;
  d <- rb_destroy fuel (snd (f_tree f CData)) ;;
  Some ((if f_syms f then [OSyms] else []) ++ (if f_dyn f then [ODyn] else []) ++
        (if f_synth f then [OSynth] else []) ++ [OSorted] ++
        map (OSym CText) (fst t) ++ map (OSym CPlt) (fst p) ++ map (OSym CData) (fst d) ++ [OBfd; OFile]).
