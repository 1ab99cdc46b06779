(** What should be shown of a patch file; independent of UiModel. *)
From Coq Require Import ZArith String List Bool.
From Verif Require Import Word Str ElfDefs TextSpec LdSpec PaSpec MpSpec DsSpec.
Import ListNotations.
Open Scope Z_scope.

(** The first section of that name starts at [o]. *)
Definition first_named (m : mem) (name : string) (o : Z) : Prop :=
  exists j, 0 <= j < ld 2 m 60 /\ sec_named m name j /\ (forall i, 0 <= i < j -> ~ sec_named m name i) /\ o = sh_offset (section m (ld 8 m 40) j).
Definition sec_string (m : mem) (name : string) (s : list Z) : Prop := exists o, first_named m name o /\ string_at m o s.

(** [v] in hex, with or without 0x before it. *)
Definition hexnum (v : Z) (t : list Z) : Prop := exists p h, t = p ++ h /\ (p = [] \/ p = str "0x") /\ hextext v h.

(** The text of the build id of the file: the description of the note, two characters for
    each byte; (null) if the note is of another type. *)
Definition bid_shown (m : mem) (t : list Z) : Prop :=
  exists o, first_named m ".note.gnu.build-id" o /\
    ((ld 4 m (o + 8) = 3 /\ hex_of (bytes_at m (o + 12 + ld 4 m o) (Z.to_nat (ld 4 m (o + 4)))) t) \/
     (ld 4 m (o + 8) <> 3 /\ t = str "(null)")).

(** A byte as a number; [signed]: as one of -128..127. *)
Definition pad_value (signed : bool) (c v : Z) : Prop := if signed then -128 <= v < 128 /\ v mod 256 = c else v = c.

(** The code that was replaced, if there is any. *)
Definition orig_shown (one : decoder) (target : Z) (code : list Z) (t : list Z) : Prop :=
  (Forall (fun c => c = 0) code /\ t = []) \/
  (~ Forall (fun c => c = 0) code /\ exists q dis, t = q ++ str "----- orig code ------" ++ [10] ++ dis /\ Forall (fun c => c = 9 \/ c = 32) q /\
     (dis = [] \/ exists a left, (target <> 0 -> a = target) /\ disassembly one q a code left dis)).

Definition file_shown (one : decoder) (signed : bool) (date : Z -> option (list Z)) (file : list Z) (m : mem) (text : list Z) : Prop :=
  exists info src dst author license ta pa va o1 o2 orig tm d fl ve p0 p1 p2 p3 bid,
    info_at m info /\ redirects m src dst /\ sec_string m ".ulpatch.author" author /\ sec_string m ".ulpatch.license" license /\ bid_shown m bid /\
    hexnum (ld 8 m (info + 4)) ta /\ hexnum (ld 8 m (info + 12)) pa /\ hexnum (ld 8 m (info + 20)) va /\
    hexnum (ld 8 m (info + 28)) o1 /\ hexnum (ld 8 m (info + 36)) o2 /\
    orig_shown one (ld 8 m (info + 4)) (bytes_at m (info + 28) 16) orig /\
    hexnum (ld 8 m (info + 44)) tm /\ date (s64 (ld 8 m (info + 44))) = Some d /\
    hexnum (ld 4 m (info + 52)) fl /\ hexnum (ld 4 m (info + 56)) ve /\
    pad_value signed (m (info + 60)) p0 /\ pad_value signed (m (info + 61)) p1 /\ pad_value signed (m (info + 62)) p2 /\ pad_value signed (m (info + 63)) p3 /\
    text = [9] ++ str "File: " ++ file ++ [10] ++
           [9] ++ str "Magic      : .ULPATCH" ++ [10] ++
           [9] ++ str "SrcFunc    : " ++ src ++ [10] ++
           [9] ++ str "DstFunc    : " ++ dst ++ [10] ++
           [9] ++ str "Author     : " ++ author ++ [10] ++
           [9] ++ str "License    : " ++ license ++ [10] ++
           [9] ++ str "ID         : " ++ dec (ld 4 m info) ++ [10] ++
           [9] ++ str "TargetAddr : " ++ ta ++ [10] ++
           [9] ++ str "PatchAddr  : " ++ pa ++ [10] ++
           [9] ++ str "VirtAddr   : " ++ va ++ [10] ++
           [9] ++ str "OrigVal    : " ++ o1 ++ str "," ++ o2 ++ [10] ++
           orig ++
           [9] ++ str "InsertTime : " ++ tm ++ str " (" ++ d ++ str ")" ++ [10] ++
           [9] ++ str "Flags      : " ++ fl ++ [10] ++
           [9] ++ str "Version    : " ++ ve ++ [10] ++
           [9] ++ str "Pad[4]     : [" ++ dec p0 ++ str "," ++ dec p1 ++ str "," ++ dec p2 ++ str "," ++ dec p3 ++ str "]" ++ [10] ++
           [9] ++ str "BuildID    : " ++ bid ++ [10].

(** What is shown is in the [len] bytes of the file: the record, and the NUL of each of the
    strings. *)
Definition shown_inside (m : mem) (len : Z) : Prop :=
  (forall o, first_named m ".ulpatch.info" o -> o + 64 <= len) /\
  (forall o, first_named m ".ulpatch.strtab" o -> exists z1 z2 z3, m z1 = 0 /\ m z2 = 0 /\ m z3 = 0 /\ o <= z1 /\ z1 < z2 /\ z2 < z3 < len) /\
  (forall o, first_named m ".ulpatch.author" o -> exists z, m z = 0 /\ o <= z < len) /\
  (forall o, first_named m ".ulpatch.license" o -> exists z, m z = 0 /\ o <= z < len).
