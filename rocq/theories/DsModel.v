(** What ultask shows of a process: the list of its symbols (src/ultask.c 720-764) and the
    disassembly of its memory (src/ultask.c 826-854, src/utils/disasm.c 26-104); and the dump
    of its vdso (src/ultask.c 909-912, src/task/vma.h 144-152).  Capstone is not modelled:
    what it delivers is an input. *)
From Coq Require Import ZArith String List Bool.
From Verif Require TextModel ShModel EcModel.
From Verif Require Import Word RbModel Str VmaModel SymModel ScModel CmdModel RsModel.
Import ListNotations.
Open Scope Z_scope.

(** "%#016lx": no prefix for 0. *)
Definition alt16 (v : Z) : list Z := if v =? 0 then repeat 48 16 else str "0x" ++ EcModel.hexn 14 v.

(** ** Symbols *)

(** PRINT_TSYM, ultask.c 743-747; [file] gives basename(tsym->vma->name_). *)
Definition print_tsym (wv wn : nat) (file : Z -> list Z) (info : Z -> tinfo) (x : Z) : list Z :=
  EcModel.padr wv (file x) ++ [32] ++ EcModel.padr wn (ts_name (info x)) ++ [32] ++ alt16 (ts_addr (info x)) ++ [10].

(** The widths, 726-736. *)
Definition widest (f : Z -> list Z) (l : list Z) : nat :=
  fold_left (fun m x => if (m <? List.length (f x))%nat then List.length (f x) else m) l 0%nat.

(** list_all_symbols, 720-764, with next_task_sym, symbol.c 272-279. *)
Definition list_all_symbols (fuel : nat) (verbose : bool) (file : Z -> list Z) (info : Z -> tinfo) (s : tsyms) : option (list Z) :=
  a <- rb_first fuel (tb_rb (t_syms s)) ;;
  l <- each (rb_next fuel (tb_rb (t_syms s))) fuel a ;;
  let print := print_tsym (widest file l) (widest (fun x => ts_name (info x)) l) file info in
  Some (concat (map (fun x => print x ++ (if verbose then concat (map print (tb_chain (t_syms s) x)) else [])) l)).

(** ** Disassembly *)

(** cs_insn as far as looked at: address, bytes, mnemonic, op_str. *)
Record insn := In_ { i_addr : Z; i_bytes : list Z; i_mnemonic : list Z; i_operands : list Z }.

(** fdisasm, disasm.c 33-104, for a known architecture: the text and the value returned.
    [opened] is whether cs_open succeeds, [cs] what cs_disasm delivers for bytes at an
    address, [host] where the bytes are in the memory of the tool. *)
Definition max_size (l : list insn) : Z :=
  fold_left (fun m i => if m <? Z.of_nat (List.length (i_bytes i)) then Z.of_nat (List.length (i_bytes i)) else m) l 0.
Definition insn_line (prefix : list Z) (w : Z) (i : insn) : list Z :=
  let '(t, n) := ShModel.print_bytes (i_bytes i) in
  prefix ++ str "0x" ++ EcModel.hexn 1 (i_addr i) ++ str ": " ++ t ++ repeat 32 (Z.to_nat (w - n)) ++ [32]
    ++ [9] ++ i_mnemonic i ++ [9] ++ i_operands i ++ [10].
Definition fdisasm (opened : bool) (cs : list Z -> Z -> list insn) (prefix : list Z) (base host : Z) (code : list Z) : list Z * Z :=
  let address := if base =? 0 then host else base in
  if negb opened then ([], - EINVAL)
  else
    let l := cs code address in
    match rev l with
    | [] => ([], - EINVAL)
    | last :: _ =>
        let w := max_size l * 3 in
        (prefix ++ str "Disasm: code addr 0x" ++ EcModel.hexn 1 host ++ str ", size " ++ dec (s64 (Z.of_nat (List.length code)))
           ++ str ", count " ++ dec (Z.of_nat (List.length l)) ++ [10]
         ++ concat (map (insn_line prefix w) l)
         ++ prefix ++ str "0x" ++ EcModel.hexn 1 (u64 (i_addr last + Z.of_nat (List.length (i_bytes last)))) ++ str ":" ++ [10], 0)
    end.

(** print_string_hex, string.c 73-82. *)
Definition print_string_hex (comment : list Z) (l : list Z) : list Z :=
  comment ++ concat (map (fun c => str "0x" ++ TextModel.hex2 c ++ [32]) l) ++ [10].

(** run_disasm, ultask.c 826-854: the text on standard output, the value returned and the
    target; [host] is the address malloc returned. *)
Definition run_disasm (e : env) (w : world) (opened : bool) (cs : list Z -> Z -> list insn) (host addr size : Z)
  : list Z * Z * world :=
  if (addr =? 0) || (size =? 0) then ([], 0, w)
  else
    let '(ret, mem, w) := memcpy_from_task e w (e_junk e) addr size in
    if ret <=? 0 then ([], - ENOMEM, w)
    else
      let code := bytes_of (Z.to_nat size) mem 0 in
      let '(t, r) := fdisasm opened cs [] 0 host code in
      (print_string_hex (str "Hex: ") code ++ t, r, w).

(** ** The vdso *)

(** task_vdso_vma, vma.h 144-152, over the mappings in order: the last one; 0 is NULL. *)
Definition task_vdso_vma (vdso : Z -> bool) (vs : list Z) : Z :=
  fold_left (fun r v => if vdso v then v else r) vs 0.

(** ultask --dump vdso, ultask.c 909-912; reading vm_start through NULL: None. *)
Definition dump_vdso (fuel : nat) (e : env) (info : Z -> vinfo) (s : vroot) (vdso : Z -> bool) (vs : list Z)
    (w : world) (old : list Z) (opens : bool) (wr : option Z) (err : Z) : option (Z * option (list Z) * world) :=
  let v := task_vdso_vma vdso vs in
  if v =? 0 then None
  else dump_task_vma_to_file fuel e info s w old opens wr err (u64 (vm_start (info v) + 1)).
