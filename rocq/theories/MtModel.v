(** The macros that describe a patch: src/patch/meta.h 36-83, as the assembler reads them.

    A macro puts its text between the quotes of a .string directive; the directive is
    read by the GNU assembler (gas/read.c, next_char_of_string), which has its own escape
    sequences.  Texts are what the C compiler leaves of the string literal. *)
From Coq Require Import ZArith String List Bool.
From Verif Require LdModel.
From Verif Require Import Word RbModel Str.
Import ListNotations.
Open Scope Z_scope.

(** ** A string of the assembler *)
Inductive gstate := Normal | Esc | Oct (k : nat) (v : Z) | Hex (v : Z).
Definition is_digit (c : Z) : bool := (48 <=? c) && (c <=? 57).
Definition hex_val (c : Z) : option Z :=
  if is_digit c then Some (c - 48)
  else if (97 <=? c) && (c <=? 102) then Some (c - 87)
  else if (65 <=? c) && (c <=? 70) then Some (c - 55) else None.
Definition esc_char (c : Z) : Z :=
  if c =? 98 then 8 else if c =? 102 then 12 else if c =? 110 then 10 else if c =? 114 then 13 else if c =? 116 then 9 else if c =? 118 then 11 else c.

(** The characters up to the closing quote and what follows; None if there is none. *)
Fixpoint gas_chars (t : gstate) (s : list Z) : option (list Z * list Z) :=
  match s with
  | [] => None
  | c :: r =>
      let push x o := match o with Some (l, rest) => Some (x :: l, rest) | None => None end in
      let normal := if c =? 34 then Some ([], r) else if c =? 92 then gas_chars Esc r else push c (gas_chars Normal r) in
      match t with
      | Normal => normal
      | Esc => if is_digit c then gas_chars (Oct 1 (c - 48)) r
               else if (c =? 120) || (c =? 88) then gas_chars (Hex 0) r
               else push (esc_char c) (gas_chars Normal r)
      | Oct k v => if is_digit c && (k <? 3)%nat then gas_chars (Oct (S k) (8 * v + c - 48)) r else push (v mod 256) normal
      | Hex v => match hex_val c with
                 | Some d => gas_chars (Hex (16 * v + d)) r
                 | None => push (v mod 256) normal
                 end
      end
  end.

(** [.string "s" \n]: the bytes with the NUL.  Anything but blanks behind the closing quote
    is taken for an error of the assembler (in truth a comma may follow). *)
Definition gas_string (s : list Z) : option (list Z) :=
  match gas_chars Normal (s ++ str """ " ++ [10]) with
  | Some (l, [32; 10]) => Some (l ++ [0])
  | _ => None
  end.

(** ** The macros, 41-83, and the sections that a source file with them gets: the
    contributions are put one after the other. *)
Inductive macro := MInfo (src dst : list Z) | MAuthor (text : list Z) | MLicense (text : list Z).
Record sections := Sx { x_strtab : list Z; x_info : list Z; x_author : list Z; x_license : list Z }.

Definition put_macro (m : macro) (s : sections) : option sections :=
  match m with
  | MInfo src dst =>
      a <- gas_string LdModel.SEC_MAGIC ;; b <- gas_string src ;; c <- gas_string dst ;;
      Some (Sx (x_strtab s ++ a ++ b ++ c) (x_info s ++ LdModel.info_bytes) (x_author s) (x_license s))
  | MAuthor t => a <- gas_string t ;; Some (Sx (x_strtab s) (x_info s) (x_author s ++ a) (x_license s))
  | MLicense t => a <- gas_string t ;; Some (Sx (x_strtab s) (x_info s) (x_author s) (x_license s ++ a))
  end.
Fixpoint assemble (ms : list macro) (s : sections) : option sections :=
  match ms with
  | [] => Some s
  | m :: r => s <- put_macro m s ;; assemble r s
  end.
Definition no_sections : sections := Sx [] [] [] [].
