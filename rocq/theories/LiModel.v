(** The list of the patches of a process: src/ulpinfo.c 134-190, with the part of
    src/patch/patch.c 51-124 and 248-304 that it needs.

    A patch mapping is given by its copy in the tool ([RsModel.image]).  localtime(3) and
    strftime(3) are an input: [date t] is the text "%Y/%m/%d %T" for the time [t], [None]
    if localtime returns NULL, which strftime then reads.  [None] as a result is undefined
    behaviour.  What --verbose adds is not modelled, except for the jump that print_ulp_info
    shows. *)
From Coq Require Import ZArith String List Bool.
From Verif Require TextModel EcModel LdModel PaModel.
From Verif Require Import Word RbModel Str ScModel CmdModel DsModel RsModel.
Import ListNotations.
Open Scope Z_scope.

(** struct vma_ulp, task/patch.h 13-31, after vma_load_ulp: where the mapping starts, the
    copy of struct ulpatch_info, the name of the function that is replaced, the build id. *)
Record entry := En { n_start : Z; n_info : arr; n_dst : list Z; n_bid : list Z }.

(** vma_load_ulp, task/patch.c 87-122, for a mapping that was read: alloc_ulp puts the
    structure in the list before load_ulp_info_from_vma (patch.c 248-304) fills it, whose
    errors are ignored.  [Some None]: an entry that was never filled; malloc does not clear it. *)
Definition load_entry (im : image) : option (option entry) :=
  let img := im_mem im in let len := im_len im in
  l <- patch_syms im ;;
  r <- LdModel.setup_load_info img len ;;
  match r with
  | inl _ => Some None
  | inr li =>
      dst <- LdModel.cstr img len (LdModel.li_dst li) ;;
      bid <- LdModel.li_bid li ;;
      Some (Some (En (im_start im) (PaModel.copy_of img (LdModel.li_info li)) dst bid))
  end.

(** open_task, core.c 517-523: the list in the order of the memory map; what is no ELF
    file is left out (task/patch.c 106-111). *)
Fixpoint load_list (ims : list image) : option (list (option entry)) :=
  match ims with
  | [] => Some []
  | im :: r =>
      if negb (LdModel.magic_ok (im_mem im)) then load_list r
      else x <- load_entry im ;; y <- load_list r ;; Some (x :: y)
  end.

Section Show.
Variable date : Z -> option (list Z).

(** ulp_info_strftime, patch.c 51-57: time is 44 bytes into the structure. *)
Definition ulp_info_strftime (info : arr) : option (list Z) := date (s64 (ld 8 info LdModel.ui_time)).

(** One row, ulpinfo.c 163-173, without --verbose; reading what was never set: None. *)
Definition row (i : Z) (x : option entry) : option (list Z) :=
  n <- x ;;
  d <- ulp_info_strftime (n_info n) ;;
  Some (EcModel.padr 4 (dec i) ++ [32] ++ EcModel.padr 4 (dec (s32 (ld 4 (n_info n) LdModel.ui_id))) ++ [32] ++
        EcModel.padr 20 d ++ [32] ++ alt16 (n_start n) ++ [32] ++ EcModel.padr 16 (n_dst n) ++ [10]).
Fixpoint rows (i : Z) (l : list (option entry)) : option (list Z) :=
  match l with
  | [] => Some []
  | x :: r => a <- row i x ;; b <- rows (i + 1) r ;; Some (a ++ b)
  end.

(** The escape sequences of ansi.h 13-25. *)
Definition ESC (t : string) : list Z := 27 :: str t.

(** show_task_patch_info, ulpinfo.c 134-190, without --verbose, after open_task. *)
Definition show_task_patch_info (pid : Z) (exe : list Z) (ims : list image) : option (list Z) :=
  l <- load_list ims ;;
  match l with
  | [] => Some (str "No ULPatch founded in process " ++ dec pid ++ [10])
  | _ =>
      r <- rows 1 l ;;
      Some (ESC "[1m" ++ str "COMM: " ++ exe ++ [10] ++ str "PID: " ++ dec pid ++ [10] ++ ESC "[m" ++ ESC "[1m" ++ ESC "[7m" ++
            EcModel.padr 4 (str "NUM") ++ [32] ++ EcModel.padr 4 (str "ID") ++ [32] ++ EcModel.padr 20 (str "DATE") ++ [32] ++
            EcModel.padr 16 (str "VMA_START") ++ [32] ++ EcModel.padr 16 (str "TARGET_FUNC") ++ ESC "[m" ++ [10] ++ r)
  end.

End Show.

(** The part of print_ulp_info, patch.c 88-98, that shows the code of the patched function,
    and the address it jumps to; [host] is where the variable is in the memory of the tool,
    [cs] is capstone (DsModel).  The result of memcpy_from_task is ignored. *)
Definition print_jump (e : env) (w : world) (opened : bool) (cs : list Z -> Z -> list insn) (host : Z) (pfx : list Z) (target : Z)
  : list Z * world :=
  let '(_, insn, w) := memcpy_from_task e w (e_junk e) target 16 in
  (pfx ++ str "----- jmp table ------" ++ [10] ++ fst (fdisasm opened cs pfx target host (bytes_at insn 0 16)) ++
   pfx ++ str "jmp addr = 0x" ++ EcModel.hexn 1 (ld 8 insn 8) ++ [10], w).
