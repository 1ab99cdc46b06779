(** What names should denote. *)
From Coq Require Import ZArith String List Bool.
From Verif Require LdModel LdSpec.
From Verif Require Import Word WordLemmas RbModel RbSpec Str ElfDefs ElfModel ElfSpec SymModel SymSpec RsModel.
Import ListNotations.
Open Scope Z_scope.

(** A mapping whose symbols count: it starts with an ELF header, its file can be read, and
    it is not a patch. *)
Definition in_use (m : mapping) : Prop := m_elf m = true /\ m_open m = true /\ m_patch m = false.

(** The symbols of the file of a mapping. *)
Definition file_syms (m : mapping) (all : list asym) : Prop := considered (m_syms m) (m_dynsyms m) (m_synth m) all.

(** The mapping has a symbol of the class with that name. *)
Definition offers (m : mapping) (c : cls) (name : list Z) (s : asym) : Prop :=
  in_use m /\ exists all, file_syms m all /\ In s all /\ answers c name s.

(** Where a symbol of a mapped file is in the process. *)
Definition at_run_time (m : mapping) (s : asym) : Z := (a_value s + m_load m) mod 2 ^ 64.

(** Code before data before stubs. *)
Definition rank (c : cls) : nat := match c with CText => 0 | CData => 1 | CPlt => 2 end.

(** The definition a name denotes if no patch has one, mappings being listed by address. *)
Definition file_denotes (ms : list mapping) (name : list Z) (r : Z) : Prop :=
  (r = 0 /\ forall m c s, In m ms -> ~ offers m c name s) \/
  (exists L m R c all A s B, ms = L ++ m :: R /\ in_use m /\ file_syms m all /\ all = A ++ s :: B /\
     answers c name s /\ r = at_run_time m s /\
     (forall m' c' s', In m' L -> ~ offers m' c' name s') /\
     (forall c' s', (rank c' < rank c)%nat -> ~ offers m c' name s') /\
     (forall s', In s' A -> ~ answers c name s')).

(** ** Patches in the process *)

(** Section [i] of the copy of a patch; its (first) symbol table; symbol [k] of it. *)
Definition im_sect (im : image) (i : Z) : shdr := LdSpec.section (im_mem im) (ld 8 (im_mem im) 40) i.
Definition im_table (im : image) (s : Z) : Prop :=
  1 <= s < ld 2 (im_mem im) 60 /\ sh_type (im_sect im s) = SHT_SYMTAB /\ forall i, 1 <= i < s -> sh_type (im_sect im i) <> SHT_SYMTAB.
Definition im_count (im : image) (s : Z) : Z := sh_size (im_sect im s) / 24.
Definition im_sym (im : image) (s k : Z) : Z := sh_addr (im_sect im s) - im_start im + 24 * k.
Definition im_name (im : image) (s k : Z) : Z := sh_offset (im_sect im (sh_link (im_sect im s))) + ld 4 (im_mem im) (im_sym im s k).
Definition im_defined (im : image) (s k : Z) : Prop := 1 <= ld 2 (im_mem im) (im_sym im s k + 6) < 0xff00.

(** Symbol [k] of table [s] is defined in the patch, has this name and this address. *)
Definition im_has (im : image) (s k : Z) (name : list Z) (v : Z) : Prop :=
  0 <= k < im_count im s /\ im_defined im s k /\ LdSpec.string_at (im_mem im) (im_name im s k) name /\ v = ld 8 (im_mem im) (im_sym im s k + 8).

Definition patch_defines (m : mapping) (name : list Z) (v : Z) : Prop :=
  m_patch m = true /\ exists im s k, m_image m = Some im /\ im_table im s /\ im_has im s k name v.
Definition patch_first (m : mapping) (name : list Z) (v : Z) : Prop :=
  m_patch m = true /\ exists im s k, m_image m = Some im /\ im_table im s /\ im_has im s k name v /\
    forall k' v', 0 <= k' < k -> ~ im_has im s k' name v'.

(** What a name denotes: what the first patch that defines it has, else what the files have. *)
Definition denotes (ms : list mapping) (name : list Z) (r : Z) : Prop :=
  (exists L m R, ms = L ++ m :: R /\ patch_first m name r /\ forall m' v, In m' L -> ~ patch_defines m' name v) \/
  ((forall m v, In m ms -> ~ patch_defines m name v) /\ file_denotes ms name r).

(** A patch that was linked and is recognised: everything that is looked at is inside. *)
Record good_image (im : image) : Prop := {
  gi_bytes : byte_mem (im_mem im);
  gi_start : 0 <= im_start im;
  gi_len : im_len im < 2 ^ 63;
  gi_wf : LdSpec.well_formed (im_mem im) (im_len im);
  gi_known : exists li, LdModel.setup_load_info (im_mem im) (im_len im) = Some (inr li) /\ LdModel.li_bid li <> None;
  gi_syms : forall s, im_table im s -> 0 <= im_sym im s 0 /\ im_sym im s (im_count im s) <= im_len im;
  gi_names : forall s k, im_table im s -> 0 <= k < im_count im s -> im_defined im s k ->
    exists z, im_mem im z = 0 /\ im_name im s k <= z < im_len im }.
Definition good_patches (ms : list mapping) : Prop :=
  forall m im, In m ms -> m_patch m = true -> m_image m = Some im -> good_image im.

(** At most so many symbols. *)
Definition pmany (m : mapping) : nat := match m_image m with Some im => Z.to_nat (im_len im / 24) | None => 0%nat end.
Definition ptotal (ms : list mapping) : nat := fold_right (fun m n => pmany m + n)%nat 0%nat ms.

(** Memory for what is allocated: for each mapping and class an empty tree and enough nodes,
    for the process two empty tables and enough symbols. *)
Definition many (m : mapping) : nat := (List.length (m_syms m) + List.length (m_dynsyms m) + List.length (m_synth m))%nat.
Definition total (ms : list mapping) : nat := fold_right (fun m n => 3 * many m + n)%nat 0%nat ms.
Definition fresh_heap (heap : nat -> cls -> rbs * list Z) (ms : list mapping) : Prop :=
  forall k m c, nth_error ms k = Some m ->
    fresh_index (fst (heap k c)) (snd (heap k c)) /\ (many m <= List.length (snd (heap k c)))%nat.
Definition fresh_table (ts : tsyms) (pool : list Z) (ms : list mapping) : Prop :=
  fresh_syms ts pool /\ (ptotal ms + total ms <= List.length pool)%nat.

(** Names as they occur in files (C90). *)
Definition named_well (ms : list mapping) : Prop :=
  forall m all, In m ms -> file_syms m all -> Forall short_base all.

(** ** The dynamic loader *)

(** A definition that an object exports under its default version or without a version:
    its name, value, and, for an indirect function, what its resolver returned. *)
Record export := Ex { x_name : list Z; x_value : Z; x_ifunc : option Z }.
Record object := Ob { o_map : mapping; o_exports : list export }.

(** The loader takes the first object in the order of its search scope (executable, preloaded
    libraries, needed libraries breadth first) that exports the name. *)
Definition run_addr (o : object) (e : export) : Z :=
  match x_ifunc e with Some a => a | None => (x_value e + m_load (o_map o)) mod 2 ^ 64 end.
Definition binds (scope : list object) (name : list Z) (o : object) (e : export) : Prop :=
  exists L R, scope = L ++ o :: R /\ In e (o_exports o) /\ x_name e = name /\
    forall o' e', In o' L -> In e' (o_exports o') -> x_name e' <> name.

(** The symbols libbfd delivers for the file of an object include what it exports. *)
Definition shown (o : object) : Prop :=
  forall e, In e (o_exports o) -> exists c s, offers (o_map o) c (x_name e) s /\ a_value s = x_value e.

(** A process: the objects the loader has loaded are mapped, and nothing else that starts
    with an ELF header. *)
Definition loaded_process (ms : list mapping) (scope : list object) : Prop :=
  (forall o, In o scope -> In (o_map o) ms /\ shown o) /\
  (forall m, In m ms -> in_use m -> exists o, In o scope /\ o_map o = m).

(** The symbol table of a process has just been opened. *)
Definition opened (ms : list mapping) (fuel : nat) (heap : nat -> cls -> rbs * list Z) (ts : tsyms) (pool : list Z) : Prop :=
  fresh_heap heap ms /\ fresh_table ts pool ms /\ named_well ms /\ good_patches ms /\ (ptotal ms + total ms < fuel)%nat.
