(** What a listing of symbols and a disassembly should show; independent of DsModel except
    for the instructions capstone delivers. *)
From Coq Require Import ZArith String List Bool.
From Verif Require Import Str PrSpec MpSpec TextSpec.
From Verif Require ShProps.
From Verif Require Import DsModel.
Import ListNotations.
Open Scope Z_scope.

(** A text that consists of one line for each element of a list. *)
Definition lines_of {A} (line : A -> list Z -> Prop) (l : list A) (text : list Z) : Prop :=
  exists ls, Forall2 line l ls /\ text = concat ls.

(** ** Symbols *)

(** A line for a symbol: file, name and address, separated by blanks. *)
Definition sym_line (r : list Z * list Z * Z) (line : list Z) : Prop :=
  let '(file, name, addr) := r in
  exists i j p h, line = file ++ repeat 32 (S i) ++ name ++ repeat 32 (S j) ++ p ++ h ++ [10] /\
    (p = [] \/ p = str "0x") /\ hextext addr h.

(** Alphabetical order of names, by bytes. *)
Inductive before : list Z -> list Z -> Prop :=
| before_end c r : before [] (c :: r)
| before_byte c d r t : c < d -> before (c :: r) (d :: t)
| before_rest c r t : before r t -> before (c :: r) (c :: t).

(** ** Disassembly *)

(** [one] says what instruction there is at the start of the bytes, at that address, if any;
    an engine delivers one instruction after the other until there is none. *)
Definition decoder := list Z -> Z -> option insn.
Definition proper_decoder (one : decoder) : Prop :=
  forall code a i, one code a = Some i -> i_addr i = a /\ i_bytes i <> [] /\ exists rest, code = i_bytes i ++ rest.
Inductive decoded (one : decoder) : list Z -> Z -> list insn -> list Z -> Prop :=
| decoded_stop code a : one code a = None -> decoded one code a [] code
| decoded_step b rest a i l left : one (b ++ rest) a = Some i -> i_bytes i = b ->
    decoded one rest ((a + Z.of_nat (List.length b)) mod 2 ^ 64) l left -> decoded one (b ++ rest) a (i :: l) left.
Definition engine (one : decoder) (cs : list Z -> Z -> list insn) : Prop :=
  forall code a, exists left, decoded one code a (cs code a) left.

(** The line for an instruction: its address, its bytes, what it is. *)
Definition insn_shown (prefix : list Z) (i : insn) (line : list Z) : Prop :=
  exists h t k, line = prefix ++ str "0x" ++ h ++ str ": " ++ ShProps.spaced t ++ repeat 32 (S k) ++ [9] ++ i_mnemonic i ++ [9] ++ i_operands i ++ [10] /\
    hextext (i_addr i) h /\ hex_of (i_bytes i) t.

(** Instructions one after the other from an address on. *)
Fixpoint consecutive (a : Z) (l : list insn) : Prop :=
  match l with
  | [] => True
  | i :: r => i_addr i = a /\ i_bytes i <> [] /\ consecutive ((a + Z.of_nat (List.length (i_bytes i))) mod 2 ^ 64) r
  end.

(** A disassembly of bytes at an address: a heading, the instructions and the address after
    them; [left] are the bytes not disassembled. *)
Definition disassembly (one : decoder) (prefix : list Z) (a : Z) (code left : list Z) (text : list Z) : Prop :=
  exists l head rows h, lines_of (insn_shown prefix) l rows /\ l <> [] /\ consecutive a l /\
    code = concat (map i_bytes l) ++ left /\ one left ((a + Z.of_nat (List.length code - List.length left)) mod 2 ^ 64) = None /\
    text = head ++ [10] ++ rows ++ prefix ++ str "0x" ++ h ++ str ":" ++ [10] /\
    hextext ((a + Z.of_nat (List.length code - List.length left)) mod 2 ^ 64) h /\
    (exists q, head = prefix ++ str "Disasm: code addr 0x" ++ q).

(** The bytes as a line of numbers. *)
Fixpoint numbers (t : list Z) : list Z := match t with c1 :: c2 :: r => str "0x" ++ c1 :: c2 :: 32 :: numbers r | _ => [] end.
Definition hex_line (l : list Z) (line : list Z) : Prop := exists t, hex_of l t /\ line = str "Hex: " ++ numbers t ++ [10].
