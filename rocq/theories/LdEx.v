(** A small but complete x86-64 patch file, used by the examples: it replaces old_fn by
    new_fn, which calls the external function helper; weak_fn is an undefined weak symbol. *)
From Coq Require Import ZArith List.
From Verif Require Import Word.
Import ListNotations.
Open Scope Z_scope.

Definition ex_ehdr : list Z := [127; 69; 76; 70; 2; 1; 1; 0; 0; 0; 0; 0; 0; 0; 0; 0; 1; 0; 62; 0; 1; 0; 0; 0; 0; 0; 0; 0; 0; 0; 0; 0; 0; 0; 0; 0; 0; 0; 0; 0; 224; 1; 0; 0; 0; 0; 0; 0; 0; 0; 0; 0; 64; 0; 0; 0; 0; 0; 64; 0; 11; 0; 10; 0].
(** .text, offset 64 *)
Definition ex_text : list Z := [85; 72; 137; 229; 232; 0; 0; 0; 0; 93; 195; 144; 144; 144; 144; 144].
(** .ulpatch.info, offset 80 *)
Definition ex_ulpatch_info : list Z := [0; 0; 0; 0; 0; 0; 0; 0; 0; 0; 0; 0; 0; 0; 0; 0; 0; 0; 0; 0; 0; 0; 0; 0; 0; 0; 0; 0; 0; 0; 0; 0; 0; 0; 0; 0; 0; 0; 0; 0; 0; 0; 0; 0; 0; 0; 0; 0; 0; 0; 0; 0; 0; 0; 0; 0; 5; 0; 0; 0; 17; 34; 51; 68].
(** .ulpatch.strtab, offset 144 *)
Definition ex_ulpatch_strtab : list Z := [46; 85; 76; 80; 65; 84; 67; 72; 0; 110; 101; 119; 95; 102; 110; 0; 111; 108; 100; 95; 102; 110; 0; 0].
(** .ulpatch.author, offset 168 *)
Definition ex_ulpatch_author : list Z := [109; 101; 0; 0; 0; 0; 0; 0].
(** .ulpatch.license, offset 176 *)
Definition ex_ulpatch_license : list Z := [71; 80; 76; 0; 0; 0; 0; 0].
(** .note.gnu.build-id, offset 184 *)
Definition ex_note_gnu_build_id : list Z := [4; 0; 0; 0; 4; 0; 0; 0; 3; 0; 0; 0; 71; 78; 85; 0; 222; 173; 190; 239; 0; 0; 0; 0].
(** .rela.text, offset 208 *)
Definition ex_rela_text : list Z := [5; 0; 0; 0; 0; 0; 0; 0; 4; 0; 0; 0; 2; 0; 0; 0; 252; 255; 255; 255; 255; 255; 255; 255].
(** .symtab, offset 232 *)
Definition ex_symtab : list Z := [0; 0; 0; 0; 0; 0; 0; 0; 0; 0; 0; 0; 0; 0; 0; 0; 0; 0; 0; 0; 0; 0; 0; 0; 1; 0; 0; 0; 18; 0; 1; 0; 0; 0; 0; 0; 0; 0; 0; 0; 0; 0; 0; 0; 0; 0; 0; 0; 8; 0; 0; 0; 18; 0; 0; 0; 0; 0; 0; 0; 0; 0; 0; 0; 0; 0; 0; 0; 0; 0; 0; 0; 15; 0; 0; 0; 32; 0; 0; 0; 0; 0; 0; 0; 0; 0; 0; 0; 0; 0; 0; 0; 0; 0; 0; 0].
(** .strtab, offset 328 *)
Definition ex_strtab : list Z := [0; 110; 101; 119; 95; 102; 110; 0; 104; 101; 108; 112; 101; 114; 0; 119; 101; 97; 107; 95; 102; 110; 0; 0].
(** .shstrtab, offset 352 *)
Definition ex_shstrtab : list Z := [0; 46; 116; 101; 120; 116; 0; 46; 117; 108; 112; 97; 116; 99; 104; 46; 105; 110; 102; 111; 0; 46; 117; 108; 112; 97; 116; 99; 104; 46; 115; 116; 114; 116; 97; 98; 0; 46; 117; 108; 112; 97; 116; 99; 104; 46; 97; 117; 116; 104; 111; 114; 0; 46; 117; 108; 112; 97; 116; 99; 104; 46; 108; 105; 99; 101; 110; 115; 101; 0; 46; 110; 111; 116; 101; 46; 103; 110; 117; 46; 98; 117; 105; 108; 100; 45; 105; 100; 0; 46; 114; 101; 108; 97; 46; 116; 101; 120; 116; 0; 46; 115; 121; 109; 116; 97; 98; 0; 46; 115; 116; 114; 116; 97; 98; 0; 46; 115; 104; 115; 116; 114; 116; 97; 98; 0; 0; 0].

Definition ex_shdr (name type flags off size link info : Z) : list Z :=
  le_bytes 4 name ++ le_bytes 4 type ++ le_bytes 8 flags ++ le_bytes 8 0 ++ le_bytes 8 off ++ le_bytes 8 size
  ++ le_bytes 4 link ++ le_bytes 4 info ++ le_bytes 8 1 ++ le_bytes 8 0.
(** The section header table, offset 480. *)
Definition ex_shdrs : list Z :=
     ex_shdr 0 0 0 0 0 0 0 (* 0  *)
  ++ ex_shdr 1 1 6 64 16 0 0 (* 1 .text *)
  ++ ex_shdr 7 1 3 80 64 0 0 (* 2 .ulpatch.info *)
  ++ ex_shdr 21 1 2 144 23 0 0 (* 3 .ulpatch.strtab *)
  ++ ex_shdr 37 1 2 168 3 0 0 (* 4 .ulpatch.author *)
  ++ ex_shdr 53 1 2 176 4 0 0 (* 5 .ulpatch.license *)
  ++ ex_shdr 70 7 2 184 20 0 0 (* 6 .note.gnu.build-id *)
  ++ ex_shdr 89 4 64 208 24 8 1 (* 7 .rela.text *)
  ++ ex_shdr 100 2 0 232 96 9 2 (* 8 .symtab *)
  ++ ex_shdr 108 3 0 328 23 0 0 (* 9 .strtab *)
  ++ ex_shdr 116 3 0 352 126 0 0 (* 10 .shstrtab *).

Definition ex_file : list Z := Eval vm_compute in
  ex_ehdr ++ ex_text ++ ex_ulpatch_info ++ ex_ulpatch_strtab ++ ex_ulpatch_author ++ ex_ulpatch_license ++ ex_note_gnu_build_id ++ ex_rela_text ++ ex_symtab ++ ex_strtab ++ ex_shstrtab ++ ex_shdrs.
Definition ex_shoff := 480.
Definition ex_len := 1184.
