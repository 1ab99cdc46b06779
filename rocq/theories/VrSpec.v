(** What a refreshed memory map should say, independently of how it is refreshed. *)
From Coq Require Import ZArith List Bool.
From Verif Require Import RbModel RbSpec Str VmaModel VmaSpec.
Import ListNotations.
Open Scope Z_scope.

(** The mapping recorded for each mapping of the current map [vs] has the first mapping of its
    run of equally named mappings as leader. *)
Definition leaders_current (fuel : nat) (info : Z -> vinfo) (s : vroot) (vs : list Z) : Prop :=
  forall L w M R, run_at info vs L w M R -> forall x, In x (w :: M) ->
    exists a, find_vma fuel info s (vm_start (info x)) = Some a /\ same_range info a x /\
      same_range info (v_leader s a) w.

(** The mapping recorded for each mapping of the current map has its name. *)
Definition names_current (fuel : nat) (info : Z -> vinfo) (s : vroot) (vs : list Z) : Prop :=
  forall v, In v vs -> exists a, find_vma fuel info s (vm_start (info v)) = Some a /\ same_range info a v /\
    vm_name (info a) = vm_name (info v).

(** A mapping that was in the map [os] before, by its range. *)
Definition kept (info : Z -> vinfo) (os : list Z) (v : Z) : Prop := exists o, In o os /\ same_range info o v.

(** The map [vs] read now is the map [os] (the end of [all]) read before, line by line,
    with new lines in between. *)
Inductive grown (info : Z -> vinfo) (all : list Z) : list Z -> list Z -> Prop :=
| grown_nil : grown info all [] []
| grown_kept : forall o os v vs, In o all -> same_range info o v -> vm_name (info o) = vm_name (info v) ->
    grown info all os vs -> grown info all (o :: os) (v :: vs)
| grown_new : forall os v vs, ~ kept info all v ->
    grown info all os vs -> grown info all os (v :: vs).

(** New mappings have names that no other mapping has ... *)
Definition own_names (info : Z -> vinfo) (os vs : list Z) : Prop :=
  forall v u, In v vs -> In u vs -> u <> v -> ~ kept info os v -> vm_name (info u) <> vm_name (info v).

(** ... and do not come between two mappings of one object. *)
Definition no_split (info : Z -> vinfo) (os vs : list Z) : Prop :=
  forall L p Q q R, vs = L ++ p :: Q ++ q :: R -> Q <> [] -> (forall x, In x Q -> ~ kept info os x) ->
    vm_name (info p) <> vm_name (info q).
