(** What the properties of opening and closing an object file need. *)
From Coq Require Import ZArith String List Bool.
From Verif Require Import Word RbModel RbSpec Str ElfDefs ElfModel ElfSpec BfModel.
Import ListNotations.
Open Scope Z_scope.

(** libbfd keeps its promises for a file it can open: counts are not negative and tell the
    length of the tables, and the size it names has room for the table and a final NULL. *)
Definition sound (l : blib) : Prop :=
  0 <= l_count l < 2 ^ 59 /\ 0 <= l_dcount l < 2 ^ 59 /\ l_ycount l < 2 ^ 59 /\
  List.length (l_syms l) = Z.to_nat (l_count l) /\ List.length (l_dyn l) = Z.to_nat (l_dcount l) /\
  List.length (l_synth l) = Z.to_nat (l_ycount l) /\
  (0 < l_room l -> l_count l * 8 + 8 <= l_room l) /\ (0 < l_droom l -> l_dcount l * 8 + 8 <= l_droom l).

(** The tables the file has, as far as it admits to have them. *)
Definition statics (l : blib) : list asym := if l_has_syms l && (0 <? l_room l) then l_syms l else [].
Definition dynamics (l : blib) : list asym := if 0 <? l_droom l then l_dyn l else [].

(** No two symbols of the class have the same name without version. *)
Definition distinct (c : cls) (all : list asym) : Prop :=
  forall L s R s' base, all = L ++ s :: R -> In s' R -> answers c base s -> answers c base s' -> False.

Definition heap_ok (h : cls -> rbs * list Z) (n : nat) : Prop :=
  forall c, fresh_index (fst (h c)) (snd (h c)) /\ (n <= List.length (snd (h c)))%nat.

