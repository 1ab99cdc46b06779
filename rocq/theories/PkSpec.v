(** What a loader does with an ELF file: Linux fs/binfmt_elf.c elf_map, glibc elf/dl-load.c. *)
From Coq Require Import ZArith List.
From Verif Require Import PkModel.
Import ListNotations.
Open Scope Z_scope.

Definition page := 4096.
Definition page_down (x : Z) : Z := x / page * page.
Definition page_up (x : Z) : Z := (x + page - 1) / page * page.

(** The segments to be loaded. *)
Definition segment (ph : list phdr) (p : phdr) : Prop := In p ph /\ p_type p = 1.

(** With the bias [bias] a link-time address [x] is the run-time address [bias + x]; segment
    [p] is mapped in whole pages. *)
Definition mapped_from (bias : Z) (p : phdr) : Z := page_down (bias + p_vaddr p).
Definition mapped_to (bias : Z) (p : phdr) : Z := page_up (bias + p_vaddr p + p_filesz p).

(** A sound file: addresses are addresses, the bias is a multiple of the page size, offset
    and address of a segment agree within pages. *)
Definition sound (bias : Z) (ph : list phdr) : Prop :=
  bias mod page = 0 /\ 0 <= bias /\
  forall p, segment ph p -> 0 <= p_vaddr p /\ 0 < p_filesz p /\ bias + p_vaddr p + p_filesz p + 8192 < 2 ^ 64 /\ p_offset p mod page = p_vaddr p mod page.

(** The mapping that starts with the header of the file: that of a segment [p] whose pages
    begin with the begin of the file. *)
Definition header_segment (ph : list phdr) (p : phdr) : Prop := segment ph p /\ 0 <= p_offset p < page.

(** [p] has the lowest address. *)
Definition first_segment (ph : list phdr) (p : phdr) : Prop := segment ph p /\ forall q, segment ph q -> p_vaddr p <= p_vaddr q.
