(** Notes, symbol tables and listings of ELF files (gABI, chapters 4 and 5); independent of EcModel's functions. *)
From Coq Require Import ZArith String List Bool.
From Verif Require Import Word Str ElfDefs EcModel.
From Verif Require ElfModel ElfSpec TextSpec.
Import ListNotations.
Open Scope Z_scope.

Definition isbyte (c : Z) : Prop := 0 <= c < 256.

(** ** Notes *)

Record note := Nt { t_owner : list Z; t_type : Z; t_desc : list Z }.
(** The bytes of a note: sizes, type, owner with NUL, descriptor; both filled to a multiple of 4. *)
Definition filled (l b : list Z) : Prop := exists p, b = l ++ p /\ (List.length p < 4)%nat /\ (Z.of_nat (List.length b)) mod 4 = 0.
Definition note_bytes (n : note) (b : list Z) : Prop :=
  exists o d, filled (t_owner n ++ [0]) o /\ filled (t_desc n) d /\
    b = le_bytes 4 (Z.of_nat (List.length (t_owner n)) + 1) ++ le_bytes 4 (Z.of_nat (List.length (t_desc n))) ++ le_bytes 4 (t_type n) ++ o ++ d.
Definition note_ok (n : note) : Prop :=
  ~ In 0 (t_owner n) /\ Forall isbyte (t_owner n) /\ Forall isbyte (t_desc n) /\ 0 <= t_type n < 2 ^ 32 /\
  Z.of_nat (List.length (t_owner n)) < 2 ^ 31 /\ Z.of_nat (List.length (t_desc n)) < 2 ^ 31 - 1.
(** A build id. *)
Definition is_id (n : note) : Prop := t_owner n = str "GNU" /\ t_type n = 3 /\ t_desc n <> [].

(** What a list of notes makes of the build id: the last id in it, as digits; else it stays. *)
Definition id_after (ns : list note) (bid bid' : option (list Z)) : Prop :=
  (Forall (fun n => ~ is_id n) ns /\ bid' = bid) \/
  (exists a n b t, ns = a ++ n :: b /\ is_id n /\ Forall (fun n => ~ is_id n) b /\ TextSpec.hex_of (t_desc n) t /\ bid' = Some t).

(** ** Symbol tables *)

Definition sym_bytes (s : sym) : list Z :=
  le_bytes 4 (y_name s) ++ [y_info s; y_other s] ++ le_bytes 2 (y_shndx s) ++ le_bytes 8 (y_value s) ++ le_bytes 8 (y_size s).
Definition sym_ok (s : sym) : Prop :=
  0 <= y_name s < 2 ^ 32 /\ isbyte (y_info s) /\ isbyte (y_other s) /\ 0 <= y_shndx s < 2 ^ 16 /\ 0 <= y_value s < 2 ^ 64 /\ 0 <= y_size s < 2 ^ 64.
(** The string [nm] is at [off] in section [sec]. *)
Definition string_at (f : efile) (sec off : Z) (nm : list Z) : Prop :=
  exists a b, f_data f sec = Some (a ++ nm ++ 0 :: b) /\ Z.of_nat (List.length a) = off /\ ~ In 0 nm.
(** Section [idx] is a table of the symbols [l]; at its end there may be bytes that are no whole symbol. *)
Definition table (f : efile) (idx : Z) (l : list (list Z * sym)) : Prop :=
  exists extra, f_data f idx = Some (flat_map (fun x => sym_bytes (snd x)) l ++ extra) /\ (List.length extra < 24)%nat /\
    Forall (fun x => sym_ok (snd x) /\ string_at f (sh_link (nth (Z.to_nat idx) (f_shdrs f) shdr0)) (y_name (snd x)) (fst x)) l.
(** The section of a symbol is one of the file. *)
Definition section_ok (f : efile) (s : sym) : Prop :=
  y_shndx s = 0 \/ 0xff00 <= y_shndx s \/ y_shndx s < Z.of_nat (List.length (f_shdrs f)).
(** Every section has a name. *)
Definition named (f : efile) : Prop := Forall (fun h => exists nm, string_at f (f_shstrndx f) (sh_name h) nm) (f_shdrs f).
(** [i] is the last section of type [ty], 0 if there is none; section 0 is reserved. *)
Definition last_section (f : efile) (ty i : Z) : Prop :=
  (i = 0 /\ Forall (fun h => sh_type h <> ty) (f_shdrs f)) \/
  (0 < i /\ exists a h b, f_shdrs f = a ++ h :: b /\ Z.of_nat (List.length a) = i /\ sh_type h = ty /\ Forall (fun h => sh_type h <> ty) b).
(** The symbols of that section; none without one. *)
Definition symbols (f : efile) (ty : Z) (l : list (list Z * sym)) : Prop :=
  exists i, last_section f ty i /\ ((i = 0 /\ l = []) \/ (0 < i /\ table f i l /\ Forall (fun x => section_ok f (snd x)) l)).

Definition has_kind (s : sym) (k : ElfSpec.kind) : Prop := ElfSpec.kind_is (ElfModel.Gs (y_info s) (y_shndx s)) k.
Definition code (k : ElfSpec.kind) : Z := match k with ElfSpec.Extern => 1 | ElfSpec.Undef => 2 | ElfSpec.Defined => 3 end.

(** [nss] are the notes of each section: those its bytes are, none if it is no note section. *)
Definition file_notes (f : efile) (nss : list (list note)) : Prop :=
  List.length nss = List.length (f_shdrs f) /\
  forall i h ns, nth_error (f_shdrs f) i = Some h -> nth_error nss i = Some ns ->
    (sh_type h = 7 -> exists bs, f_data f (Z.of_nat i) = Some (concat bs) /\ Forall2 note_bytes ns bs /\ Forall note_ok ns) /\
    (sh_type h <> 7 -> ns = []).
(** The note sections are bytes, less than 2^31. *)
Definition small_notes (f : efile) : Prop :=
  forall i h d, nth_error (f_shdrs f) i = Some h -> sh_type h = 7 -> f_data f (Z.of_nat i) = Some d ->
    Forall isbyte d /\ Z.of_nat (List.length d) < 2 ^ 31.

(** The functions compilers call for profiling and tracing. *)
Definition tracing (nm : list Z) : Prop :=
  nm = str "__cyg_profile_func_enter" \/ nm = str "__fentry__" \/ nm = str "mcount" \/ nm = str "_mcount" \/ nm = str "__gnu_mcount_nc".

(** [s] is the first symbol of the list with that name and kind. *)
Definition first_of (l : list (list Z * sym)) (nm : list Z) (k : ElfSpec.kind) (s : sym) : Prop :=
  exists a b, l = a ++ (nm, s) :: b /\ has_kind s k /\ forall x, In x a -> ~ (fst x = nm /\ has_kind (snd x) k).
(** A function of that name, for tracing, is in the list, the first of its kind and name. *)
Definition traced (l : list (list Z * sym)) (nm : list Z) : Prop :=
  exists a s b k, l = a ++ (nm, s) :: b /\ tracing nm /\ st_type (y_info s) = 2 /\ has_kind s k /\ forall x, In x a -> ~ (fst x = nm /\ has_kind (snd x) k).

(** The bytes of the section are among those of the segment. *)
Definition in_segment (h : shdr) (p : phdr) : Prop :=
  p_offset p <= sh_offset h /\ sh_offset h + sh_size h <= p_offset p + p_filesz p.
(** The memory of the section is among that of the segment. *)
Definition in_memory (h : shdr) (p : phdr) : Prop :=
  p_type p = 1 /\ p_vaddr p <= sh_addr h /\ sh_addr h + sh_size h <= p_vaddr p + p_memsz p.

(** The visibility of a symbol is in st_other. *)
Definition visibility (s : sym) : list Z := nth (Z.to_nat (y_other s mod 4)) [str "DEFAULT"; str "INTERNAL"; str "HIDDEN"; str "PROTECTED"] [].

(** ** Listings *)

(** Names of types and bindings (gABI, figures 4-17 and 4-18). *)
Definition types_named : list (Z * list Z) :=
  [(0, str "NOTYPE"); (1, str "OBJECT"); (2, str "FUNC"); (3, str "SECTION"); (4, str "FILE"); (5, str "COMMON"); (6, str "TLS"); (7, str "NUM"); (10, str "LOOS"); (12, str "HIOS"); (13, str "LOPROC"); (15, str "HIPROC")].
Definition binds_named : list (Z * list Z) :=
  [(0, str "LOCAL"); (1, str "GLOBAL"); (2, str "WEAK"); (3, str "NUM"); (10, str "LOOS"); (12, str "HIOS"); (13, str "LOPROC"); (15, str "HIPROC")].
(** Fields in their ranges. *)
Definition phdr_ok (p : phdr) : Prop :=
  0 <= p_type p < 2 ^ 32 /\ 0 <= p_flags p < 2 ^ 32 /\ 0 <= p_offset p < 2 ^ 64 /\ 0 <= p_vaddr p < 2 ^ 64 /\ 0 <= p_paddr p < 2 ^ 64 /\
  0 <= p_filesz p < 2 ^ 64 /\ 0 <= p_memsz p < 2 ^ 64 /\ 0 <= p_align p < 2 ^ 64.
Definition ehdr_ok (h : ehdr) : Prop :=
  List.length (e_ident h) = 16%nat /\ Forall isbyte (e_ident h) /\ 0 <= e_type h < 2 ^ 16 /\ 0 <= e_machine h < 2 ^ 16 /\ 0 <= e_version h < 2 ^ 32 /\
  0 <= e_entry h < 2 ^ 64 /\ 0 <= e_phoff h < 2 ^ 64 /\ 0 <= e_shoff h < 2 ^ 64 /\ 0 <= e_flags h < 2 ^ 32.

(** The interpreter named by a program header is a string of the file. *)
Definition interp_ok (f : efile) : Prop :=
  forall p, In p (f_phdrs f) -> p_type p = 3 -> exists a nm b, f_raw f = a ++ nm ++ 0 :: b /\ Z.of_nat (List.length a) = p_offset p /\ ~ In 0 nm.
