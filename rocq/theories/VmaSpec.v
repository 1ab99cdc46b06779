(** What the memory map properties mean, independently of the index. *)
From Coq Require Import ZArith String List Bool.
From Verif Require Import RbModel RbSpec Str VmaModel.
Import ListNotations.
Open Scope Z_scope.

(** A mapping as the kernel reports it: a non-empty range of the address space. *)
Definition proper (info : Z -> vinfo) (v : Z) : Prop :=
  0 <= vm_start (info v) /\ vm_start (info v) < vm_end (info v) /\ vm_end (info v) < 2 ^ 64.

Definition disjoint (info : Z -> vinfo) (a b : Z) : Prop :=
  vm_end (info a) <= vm_start (info b) \/ vm_end (info b) <= vm_start (info a).

(** A memory map: pairwise disjoint mappings. *)
Definition memory_map (info : Z -> vinfo) (vs : list Z) : Prop :=
  Forall (proper info) vs /\ NoDup vs /\
  forall a b, In a vs -> In b vs -> a <> b -> disjoint info a b.

(** Address [x] is mapped by [v]. *)
Definition covers (info : Z -> vinfo) (v x : Z) : Prop := vm_start (info v) <= x < vm_end (info v).

(** Memory for the nodes of mappings that are about to be read. *)
Definition allocated (s : vroot) (vs : list Z) : Prop :=
  Forall (fun v => node_addr v /\ hp (v_rb s) v <> None) vs.

(** Looking up addresses in [s] answers exactly what the map [vs] says. *)
Definition lookup_exact (fuel : nat) (info : Z -> vinfo) (s : vroot) (vs : list Z) : Prop :=
  forall x, exists a, find_vma fuel info s x = Some a /\
    ((In a vs /\ covers info a x) \/ (a = 0 /\ forall v, In v vs -> ~ covers info v x)).

(** [l] lists the mappings [vs] by ascending address. *)
Definition ascending (info : Z -> vinfo) (l : list Z) : Prop :=
  forall L a R b S, l = L ++ a :: R ++ b :: S -> vm_end (info a) <= vm_start (info b).

Definition same_range (info : Z -> vinfo) (a b : Z) : Prop :=
  vm_start (info a) = vm_start (info b) /\ vm_end (info a) = vm_end (info b).

(** Looking up addresses in [s] answers by the current map [vs]; the answer may be
    another record of the same range. *)
Definition lookup_current (fuel : nat) (info : Z -> vinfo) (s : vroot) (vs : list Z) : Prop :=
  forall x, exists a, find_vma fuel info s x = Some a /\
    ((a <> 0 /\ exists v, In v vs /\ covers info v x /\ same_range info a v) \/
     (a = 0 /\ forall v, In v vs -> ~ covers info v x)).

(** [w :: M] is a maximal run of consecutive equally named mappings of [vs] at its left end:
    the mapping before [w], if any, has another name. *)
Definition run_at (info : Z -> vinfo) (vs L : list Z) (w : Z) (M R : list Z) : Prop :=
  vs = L ++ w :: M ++ R /\
  (forall x, In x M -> vm_name (info x) = vm_name (info w)) /\
  (forall L' p, L = L' ++ [p] -> vm_name (info p) <> vm_name (info w)).

(** The names of the kernel's special mappings. *)
Definition special_names : list (list Z) :=
  map (fun s => str s)
    ["[heap]"; "[stack]"; "[uprobes]"; "[vvar]"; "[vvar_vclock]"; "[vdso]"; "[vsyscall]"]%string.
