(** What the listing of mappings should say. *)
From Coq Require Import ZArith List.
From Verif Require Import PkModel PkSpec MpModel GrModel.
Import ListNotations.
Open Scope Z_scope.

(** The name of the file of the mapping [k]. *)
Definition name_at (l : list mvma) (k : nat) : option (list Z) := option_map m_name (nth_error l k).
(** The mapping [k] is the first of those of its file that follow each other. *)
Definition opens (l : list mvma) (k : nat) : Prop := k = 0%nat \/ name_at l (k - 1) <> name_at l k.
(** From [i] to [j] all mappings are of the same file. *)
Definition one_run (l : list mvma) (i j : nat) : Prop := forall k, (i <= k <= j)%nat -> name_at l k = name_at l i.

(** Rights of a mapping: bits of PROT_READ (1), PROT_WRITE (2), PROT_EXEC (4), and of p_flags:
    PF_R (4), PF_W (2), PF_X (1). *)
Definition same_rights (prot flags : Z) : Prop :=
  (Z.testbit prot 0 = Z.testbit flags 2) /\ (Z.testbit prot 1 = Z.testbit flags 1) /\ (Z.testbit prot 2 = Z.testbit flags 0).

(** The mapping is that of [p], with all its pages and its rights. *)
Definition is_mapping_of (bias : Z) (p : phdr) (v : mvma) : Prop :=
  m_start v = mapped_from bias p /\ m_end v = mapped_to bias p /\ same_rights (m_prot v) (p_flags p).

(** A part of the pages of a segment in memory: that is what the mapping starts with. *)
Definition starts_in (bias : Z) (p : phdr) (v : mvma) : Prop :=
  mapped_from bias p <= m_start v < page_up (bias + p_vaddr p + p_memsz p).

(** The program headers of a process that says which pages it protects after relocation
    (type 0x6474e552), and the first byte behind these. *)
Definition protects (ph : list phdr) (r : phdr) : Prop := In r ph /\ p_type r = 0x6474e552.
Definition behind (bias : Z) (r : phdr) : Z := page_down (bias + p_vaddr r + p_memsz r).

(** The entries that have pages: segments and protected parts; the last of these. *)
Definition has_pages (p : phdr) : Prop := p_type p = 1 \/ p_type p = 0x6474e552.
Definition last_entry (ph : list phdr) (p : phdr) : Prop :=
  exists a b, ph = a ++ p :: b /\ has_pages p /\ forall q, In q b -> ~ has_pages q.

(** Two mappings are of one run. *)
Definition together (l : list mvma) (i j : nat) : Prop := one_run l (Nat.min i j) (Nat.max i j).

(** The mapping [h], which is [u], starts with the ELF header of the file with the program
    headers [ph]; it is of one run with [k], and no other mapping of the run starts with an ELF
    header. *)
Definition file_of (l : list mvma) (elf : nat -> option (list aph)) (k h : nat) (u : mvma) (ph : list aph) : Prop :=
  nth_error l h = Some u /\ together l k h /\ elf h = Some ph /\
  forall j, (j < List.length l)%nat -> together l k j -> j <> h -> elf j = None.

(** A sound file, loaded with the bias [bias]: the mapping with the header is that of the first
    segment, which starts at a page. *)
Definition placed (bias : Z) (u : mvma) (ph : list phdr) : Prop :=
  sound bias ph /\
  (forall p, In p ph -> has_pages p -> 0 <= p_vaddr p /\ 0 < p_filesz p <= p_memsz p /\ bias + p_vaddr p + p_memsz p + 8192 < 2 ^ 64) /\
  exists p, first_segment ph p /\ m_start u = bias + p_vaddr p.

Definition is_range (v : mvma) : Prop := 0 <= m_start v < 2 ^ 64 /\ 0 <= m_end v < 2 ^ 64.
