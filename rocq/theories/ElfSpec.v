(** What the ELF reading functions should do. *)
From Coq Require Import ZArith String List Bool.
From Verif Require TextModel.
From Verif Require Import Word RbModel RbSpec Str ElfDefs ElfModel.
Import ListNotations.
Open Scope Z_scope.

(** A 64-bit little-endian ELF header of the current version with a type and a machine,
    byte by byte. *)
Definition elf64_header (f : mem) : Prop :=
  f 0 = 0x7f /\ f 1 = Z.of_nat 69 (* E *) /\ f 2 = 76 (* L *) /\ f 3 = 70 (* F *) /\
  f 4 = 2 /\ f 5 = 1 /\
  (f 16 <> 0 \/ f 17 <> 0) /\ (f 18 <> 0 \/ f 19 <> 0) /\
  f 20 = 1 /\ f 21 = 0 /\ f 22 = 0 /\ f 23 = 0.

Definition bytes_ok (f : mem) : Prop := forall a, 0 <= f a < 256.

(** C strings. *)
Definition cstr_ok (s : list Z) : Prop := Forall (fun c => 0 < c < 256) s.

(** The kinds of ELF symbols: external = undefined section, global or weak, no type;
    undefined = no section of the file; defined = the others. *)
Inductive kind := Extern | Undef | Defined.
Definition kind_is (g : gsym) (k : kind) : Prop :=
  let ext := g_st_shndx g = 0 /\ (g_st_info g / 16 = 1 \/ g_st_info g / 16 = 2) /\ g_st_info g mod 16 = 0 in
  match k with
  | Extern => ext
  | Undef => ~ ext /\ (g_st_shndx g = 0 \/ 0xff00 <= g_st_shndx g)
  | Defined => g_st_shndx g <> 0 /\ g_st_shndx g < 0xff00
  end.

(** The first element satisfying a predicate, 0 if there is none. *)
Definition first_with (P : Z -> Prop) (ns : list Z) (r : Z) : Prop :=
  (r = 0 /\ forall n, In n ns -> ~ P n) \/
  (exists L R, ns = L ++ r :: R /\ P r /\ forall n, In n L -> ~ P n).

(** An empty tree and memory for the nodes to come. *)
Definition fresh_index (s : rbs) (ns : list Z) : Prop :=
  rootp s = 0 /\ NoDup ns /\ forall n, In n ns -> node_addr n /\ hp s n <> None.

(** The part of a name before the first '@'. *)
Definition base_of (name base : list Z) : Prop :=
  ~ In 64 base /\ (name = base \/ exists version, name = base ++ 64 :: version).

(** Symbols worth keeping: with an address, a name and a section of the file, and not for
    debugging only. *)
Definition useful (s : asym) : Prop :=
  a_value s <> 0 /\ a_sec s = SOther /\
  exists name, a_name s = Some name /\ name <> [] /\
    (a_debug s = true -> exists r, name = str ".plt" ++ r \/ name = str ".got" ++ r).

(** [sub] holds exactly the elements of [l] that satisfy [P], in the same order. *)
Inductive picked {A} (P : A -> Prop) : list A -> list A -> Prop :=
| picked_nil : picked P [] []
| picked_keep a l r : P a -> picked P l r -> picked P (a :: l) (a :: r)
| picked_drop a l r : ~ P a -> picked P l r -> picked P (a :: l) r.

(** The symbol belongs to the class and has the given name without version. *)
Definition class_is (c : cls) (s : asym) (name : list Z) : Prop :=
  match c with
  | CPlt => exists p q, name = p ++ str "@plt" ++ q
  | CText => a_code s = true
  | CData => a_data s = true
  end.
Definition answers (c : cls) (base : list Z) (s : asym) : Prop :=
  exists name, a_name s = Some name /\ class_is c s name /\ base_of name base.

(** The symbols considered: the static ones if there are any, else the dynamic ones,
    as far as useful, followed by the synthetic ones. *)
Definition considered (syms dynsyms synth all : list asym) : Prop :=
  exists kept, picked useful (match syms with [] => dynsyms | _ => syms end) kept /\ all = kept ++ synth.

(** The address answered for a name: that of the first such symbol. *)
Definition first_addr (c : cls) (base : list Z) (all : list asym) (r : Z) : Prop :=
  (r = 0 /\ forall s, In s all -> ~ answers c base s) \/
  (exists L s R, all = L ++ s :: R /\ answers c base s /\ r = a_value s /\ forall s', In s' L -> ~ answers c base s').

(** A name as it may occur in a file, whose version suffix starts within the first 255 bytes. *)
Definition short_base (s : asym) : Prop :=
  exists name, a_name s = Some name /\ cstr_ok name /\
    forall base version, ~ In 64 base -> name = base ++ 64 :: version -> (List.length base < 256)%nat.
