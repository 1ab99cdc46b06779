(** What the list of the patches of a process should show; independent of LiModel. *)
From Coq Require Import ZArith String List Bool.
From Verif Require Import Word Str ElfDefs LdSpec PaSpec MpSpec DsSpec RsModel RsSpec.
Import ListNotations.
Open Scope Z_scope.

(** What a patch mapping says about itself: number, time it was applied, replaced function. *)
Definition says (im : image) (id t : Z) (func : list Z) : Prop :=
  (exists info, info_at (im_mem im) info /\ id = ld 4 (im_mem im) info /\ t = ld 8 (im_mem im) (info + 44)) /\
  exists src, redirects (im_mem im) src func.

(** A mapping that starts with an ELF header. *)
Definition elf_image (im : image) : bool := if list_eq_dec Z.eq_dec (bytes_at (im_mem im) 0 4) (0x7f :: str "ELF") then true else false.

(** The row for patch number [i] of the list; [date] is the text for a time. *)
Definition row_shown (date : Z -> option (list Z)) (r : Z * image) (line : list Z) : Prop :=
  exists id t func d p h b1 b2 b3 b4,
    says (snd r) id t func /\ date (s64 t) = Some d /\
    line = dec (fst r) ++ repeat 32 (S b1) ++ dec id ++ repeat 32 (S b2) ++ d ++ repeat 32 (S b3) ++ p ++ h ++ [32] ++ func ++ repeat 32 b4 ++ [10] /\
    (p = [] \/ p = str "0x") /\ hextext (im_start (snd r)) h.

(** A list with its numbers. *)
Fixpoint numbered {A} (i : Z) (l : list A) : list (Z * A) := match l with [] => [] | x :: r => (i, x) :: numbered (i + 1) r end.

(** The three strings of the patch end inside its mapping. *)
Definition strings_inside (im : image) : Prop :=
  forall j, 0 <= j < ld 2 (im_mem im) 60 -> sec_named (im_mem im) ".ulpatch.strtab" j -> exists z1 z2 z3,
    im_mem im z1 = 0 /\ im_mem im z2 = 0 /\ im_mem im z3 = 0 /\
    sh_offset (section (im_mem im) (ld 8 (im_mem im) 40) j) <= z1 /\ z1 < z2 /\ z2 < z3 < im_len im.

(** A mapping that is recognised as a patch, with a number and a time that can be shown. *)
Definition can_be_shown (date : Z -> option (list Z)) (im : image) : Prop :=
  good_image im /\ strings_inside im /\
  forall id t func, says im id t func -> id < 2 ^ 31 /\ date (s64 t) <> None.

(** The text shown for the patches [ims]: [head] does not depend on them. *)
Definition list_shown (date : Z -> option (list Z)) (pid : Z) (head : list Z) (ims : list image) (text : list Z) : Prop :=
  (filter elf_image ims = [] /\ text = str "No ULPatch founded in process " ++ dec pid ++ [10]) \/
  (filter elf_image ims <> [] /\ exists body, lines_of (row_shown date) (numbered 1 (filter elf_image ims)) body /\ text = head ++ body).

(** ** The jump of a patch: the code of the function at [target] in the memory [m], and the
    address in it. *)
Definition jump_shown (one : decoder) (pfx : list Z) (target : Z) (m : mem) (a : Z) (text : list Z) : Prop :=
  exists dis h, text = pfx ++ str "----- jmp table ------" ++ [10] ++ dis ++ pfx ++ str "jmp addr = 0x" ++ h ++ [10] /\ hextext a h /\
    (dis = [] \/ exists left, disassembly one pfx target (bytes_at m target 16) left dis).
