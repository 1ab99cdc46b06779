(** What text conversion and rounding should do; independent of TextModel. *)
From Coq Require Import ZArith List Bool.
Import ListNotations.
Open Scope Z_scope.

(** A buffer (offset to byte) holds the NUL-terminated text [t] at its start. *)
Definition holds (b : Z -> Z) (t : list Z) : Prop :=
  ~ In 0 t /\ (forall i, (i < List.length t)%nat -> b (Z.of_nat i) = nth i t 0) /\ b (Z.of_nat (List.length t)) = 0.

(** Only offsets in [lo, hi) may differ. *)
Definition only_within (lo hi : Z) (b b' : Z -> Z) : Prop := forall x, b' x <> b x -> lo <= x < hi.

Definition byte (u : Z) : Prop := 0 <= u < 256.

(** The characters of the number syntax. *)
Definition number_char (c : Z) : Prop := 48 <= c <= 57 \/ 97 <= c <= 102 \/ 65 <= c <= 70 \/ c = 120.

(** Pieces joined by commas. *)
Fixpoint join (pieces : list (list Z)) : list Z :=
  match pieces with
  | [] => []
  | [p] => p
  | p :: r => p ++ 44 :: join r
  end.
Definition nonempty (l : list Z) : bool := match l with [] => false | _ => true end.

(** The value of a digit sequence, most significant first. *)
Fixpoint value (base : Z) (ds : list Z) : Z :=
  match ds with [] => 0 | d :: r => d * base ^ Z.of_nat (List.length r) + value base r end.

(** The text of decimal digits; of hexadecimal digits (each in lower or upper case). *)
Definition dec_text (ds : list Z) : list Z := map (fun d => 48 + d) ds.
Definition hex_char (d c : Z) : Prop := (d < 10 /\ c = 48 + d) \/ (10 <= d < 16 /\ (c = 97 + (d - 10) \/ c = 65 + (d - 10))).

(** The value of a lower case hexadecimal character. *)
Definition hex_val (c v : Z) : Prop := (48 <= c <= 57 /\ v = c - 48) \/ (97 <= c <= 102 /\ v = c - 97 + 10).

(** [t] is two lower case digits for each byte of [l]. *)
Inductive hex_of : list Z -> list Z -> Prop :=
| hex_nil : hex_of [] []
| hex_cons u l c1 c2 t h lo : hex_val c1 h -> hex_val c2 lo -> u = 16 * h + lo -> hex_of l t -> hex_of (u :: l) (c1 :: c2 :: t).

(** Least multiple of [m] not below [x]; greatest multiple not above it. *)
Definition least_above (m x y : Z) : Prop := (m | y) /\ x <= y /\ forall z, (m | z) -> x <= z -> y <= z.
Definition greatest_below (m x y : Z) : Prop := (m | y) /\ y <= x /\ forall z, (m | z) -> z <= x -> z <= y.
