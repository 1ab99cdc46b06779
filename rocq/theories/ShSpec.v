(** What showing bytes and files should do; independent of ShModel. *)
From Coq Require Import ZArith List Bool.
From Verif Require Import TextSpec.
Import ListNotations.
Open Scope Z_scope.

(** The column of byte [i] of a line among the hexadecimal cells: they start at column 10 and take
    three columns each, with one more between the eighth and the ninth. *)
Definition hex_col (i : Z) : Z := 10 + 3 * i + (if 8 <=? i then 1 else 0).

(** The text [t] is the dump of [data]: lines of 80 characters, one for each 16 bytes begun,
    that start with the offset of their first byte and show byte [i] twice: as two hexadecimal digits
    and as a character, a dot if it is not printable; positions past the end are blank. *)
Record dump_of (data : list Z) (t : list Z) : Prop := {
  du_len : Z.of_nat (List.length t) = 80 * ((Z.of_nat (List.length data) + 15) / 16);
  du_offset : forall k, 0 <= 16 * k < Z.of_nat (List.length data) ->
    exists ds, List.length ds = 8%nat /\ value 16 ds = 16 * k /\
      forall j, (j < 8)%nat -> hex_val (nth (Z.to_nat (80 * k) + j) t 0) (nth j ds 0);
  du_hex : forall i, (i < List.length data)%nat ->
    let p := Z.to_nat (80 * (Z.of_nat i / 16) + hex_col (Z.of_nat i mod 16)) in
    exists h l, hex_val (nth p t 0) h /\ hex_val (nth (S p) t 0) l /\ nth i data 0 = 16 * h + l;
  du_char : forall i, (i < List.length data)%nat ->
    let c := nth (Z.to_nat (80 * (Z.of_nat i / 16) + 62 + Z.of_nat i mod 16)) t 0 in
    (32 <= nth i data 0 <= 126 -> c = nth i data 0) /\ (~ 32 <= nth i data 0 <= 126 -> c = 46);
  du_blank : forall i, Z.of_nat (List.length data) <= i < 16 * ((Z.of_nat (List.length data) + 15) / 16) ->
    let p := Z.to_nat (80 * (i / 16) + hex_col (i mod 16)) in
    nth p t 0 = 32 /\ nth (S p) t 0 = 32 /\ nth (Z.to_nat (80 * (i / 16) + 62 + i mod 16)) t 0 = 32;
  du_lines : forall p, (p < List.length t)%nat -> (nth p t 0 = 10 <-> Z.of_nat p mod 80 = 79)
}.
