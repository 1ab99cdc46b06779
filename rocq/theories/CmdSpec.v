(** What the properties of the ultask commands mean. *)
From Coq Require Import ZArith String List Bool.
From Verif Require Import Word RbModel Str VmaModel VmaSpec ScModel ScSpec.
Import ListNotations.
Open Scope Z_scope.

(** The address [x] is mapped. *)
Definition mapped (info : Z -> vinfo) (vs : list Z) (x : Z) : Prop := exists v, In v vs /\ covers info v x.

(** Some address of the range is mapped; every address of the range is mapped. *)
Definition overlaps (info : Z -> vinfo) (vs : list Z) (addr len : Z) : Prop :=
  exists x, addr <= x < addr + len /\ mapped info vs x.
Definition all_mapped (info : Z -> vinfo) (vs : list Z) (addr len : Z) : Prop :=
  forall x, addr <= x < addr + len -> mapped info vs x.

(** The target's memory is the same but for the range. *)
Definition same_outside (w w' : world) (addr len : Z) : Prop :=
  forall x, ~ within addr len x -> t_mem (w_t w') x = t_mem (w_t w) x.

(** [l] is the content of the target's memory in the range. *)
Definition content (w : world) (addr size : Z) (l : list Z) : Prop :=
  Z.of_nat (List.length l) = size /\
  forall i, (i < List.length l)%nat -> nth i l 0 = t_mem (w_t w) (addr + Z.of_nat i).

(** The string of length [n] at [addr]. *)
Definition string_at (m : mem) (addr : Z) (n : nat) : Prop :=
  m (addr + Z.of_nat n) = 0 /\ forall i, (i < n)%nat -> m (addr + Z.of_nat i) <> 0.
