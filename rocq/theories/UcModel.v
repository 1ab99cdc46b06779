(** The script ulpconfig: src/ulpconfig.sh.in.

    getopt(1) is getopt_long (ArModel); its failure ends the script at once (set -e, 12, before
    the test of line 189).  [uc_help w]: running "w --help": success, and what it
    writes to its standard error; the empty word stands for the command "--help".  What is
    written to the standard error of the script is left out. *)
From Coq Require Import ZArith String List Bool.
From Verif Require Import Word Str ArModel.
Import ListNotations.
Open Scope Z_scope.

(** uc_flag: the compiler accepts the flag (check_cc_option, 91-107); uc_rwx: the help of
    the linker names no-warn-rwx-segments (165); uc_machine: uname -m. *)
Record uenv := Ue { uc_help : list Z -> bool * list Z; uc_flag : list Z -> list Z -> bool; uc_rwx : list Z -> bool; uc_machine : list Z;
                    uc_version : list Z; uc_numbers : list Z }.

Definition U_CFLAGS := 1. Definition U_LDFLAGS := 2. Definition U_LIBS := 3. Definition U_CC := 4. Definition U_LD := 5.
(** The options, 177-187; the variables start as on 23-31. *)
Definition uc_long : list lopt :=
  [Lo (str "cc") true U_CC; Lo (str "ld") true U_LD; Lo (str "cflags") false U_CFLAGS; Lo (str "ldflags") false U_LDFLAGS; Lo (str "libs") false U_LIBS;
   Lo (str "help") false 104; Lo (str "version") false 86; Lo (str "verbose") false 118].
Definition uc_short : list sopt := [So 118 NoArg; So 104 NoArg; So 86 NoArg].

(** An expansion without quotes (212, 217, 255, 256): its first word, nothing if there is none; patterns are not expanded. *)
Definition blank (c : Z) : bool := (c =? 32) || (c =? 9) || (c =? 10).
Fixpoint until_blank (s : list Z) : list Z := match s with [] => [] | c :: r => if blank c then [] else c :: until_blank r end.
Fixpoint first_word (s : list Z) : list Z := match s with [] => [] | c :: r => if blank c then first_word r else until_blank s end.

(** The variables of the script and its standard output so far. *)
Record ust := Us { u_cc : list Z; u_ld : list Z; u_cflags : bool; u_ldflags : bool; u_libs : bool; u_verbose : bool; u_version : bool; u_out : list Z }.
Definition ust0 : ust := Us (str "gcc") (str "ld") false false false false false [].
Inductive ures := Go (s : ust) | Stop (status : Z) (out : list Z).

(** set_cc, set_ld, 109-125: "2>&1 >/dev/null" sends the standard error of the command to the
    standard output of the script. *)
Definition set_cc (e : uenv) (arg : list Z) (s : ust) : ures :=
  let w := first_word arg in let '(ok, err) := uc_help e w in let out := u_out s ++ err in
  if (ok : bool) then Go (Us w (u_ld s) (u_cflags s) (u_ldflags s) (u_libs s) (u_verbose s) (u_version s) out) else Stop 1 out.
Definition set_ld (e : uenv) (arg : list Z) (s : ust) : ures :=
  let w := first_word arg in let '(ok, err) := uc_help e w in let out := u_out s ++ err in
  if (ok : bool) then Go (Us (u_cc s) w (u_cflags s) (u_ldflags s) (u_libs s) (u_verbose s) (u_version s) out) else Stop 1 out.

(** The loop over the options, 193-237; usage (35-79) writes to the standard error only. *)
Definition uc_step (e : uenv) (s : ust) (ev : event) : ures :=
  match ev with
  | Unknown => Stop 1 []
  | Opt v a =>
      let arg := match a with Some x => x | None => [] end in
      if v =? U_CFLAGS then Go (Us (u_cc s) (u_ld s) true (u_ldflags s) (u_libs s) (u_verbose s) (u_version s) (u_out s))
      else if v =? U_LDFLAGS then Go (Us (u_cc s) (u_ld s) (u_cflags s) true (u_libs s) (u_verbose s) (u_version s) (u_out s))
      else if v =? U_LIBS then Go (Us (u_cc s) (u_ld s) (u_cflags s) (u_ldflags s) true (u_verbose s) (u_version s) (u_out s))
      else if v =? U_CC then set_cc e arg s
      else if v =? U_LD then set_ld e arg s
      else if v =? 104 then Stop 0 (u_out s)
      else if v =? 118 then Go (Us (u_cc s) (u_ld s) (u_cflags s) (u_ldflags s) (u_libs s) true (u_version s) (u_out s))
      else Go (Us (u_cc s) (u_ld s) (u_cflags s) (u_ldflags s) (u_libs s) (u_verbose s) true (u_out s))
  end.
Fixpoint uc_loop (e : uenv) (s : ust) (es : list event) : ures :=
  match es with
  | [] => Go s
  | ev :: r => match uc_step e s ev with Go s => uc_loop e s r | x => x end
  end.

(** echo of an array: the words with blanks between them. *)
Fixpoint join (ws : list (list Z)) : list Z := match ws with [] => [] | [w] => w | w :: r => w ++ [32] ++ join r end.

(** print_cflags, 127-157. *)
Definition x86_flags : list (list Z) :=
  map str ["-m64"; "-mno-sse"; "-mno-mmx"; "-mno-sse2"; "-mno-3dnow"; "-mno-avx"; "-fcf-protection=branch"; "-fno-jump-tables"; "-falign-jumps=1"]%string.
Definition a64_flags : list (list Z) :=
  map str ["-fshort-wchar"; "-funsigned-char"; "-fno-strict-aliasing"; "-mgeneral-regs-only"; "-fno-asynchronous-unwind-tables"; "-fno-unwind-tables";
           "-mbranch-protection=pac-ret"; "-fno-delete-null-pointer-checks"]%string.
Definition cflags (e : uenv) (cc : list Z) : list (list Z) :=
  map str ["-I/usr/include/"; "-D_GNU_SOURCE"; "-D__ULP_DEV=1"]%string ++
  filter (uc_flag e cc) (if str_eqb (uc_machine e) (str "x86_64") then x86_flags else if str_eqb (uc_machine e) (str "aarch64") then a64_flags else []).

(** print_ldflags, 159-170. *)
Definition ldflags (e : uenv) (ld : list Z) : list (list Z) :=
  map str ["-relocatable"; "--build-id=sha1"; "-z"; "noexecstack"]%string ++ (if uc_rwx e ld then [str "--no-warn-rwx-segments"] else []).

(** The rest, 239-266; print_libs (172-175) prints nothing. *)
Definition uc_finish (e : uenv) (s : ust) : Z * list Z :=
  if u_version s then (0, u_out s ++ str "ulpconfig " ++ uc_version e ++ [10] ++ (if u_verbose s then uc_numbers e else []))
  else match set_cc e (u_cc s) s with
       | Stop k o => (k, o)
       | Go s =>
           match set_ld e (u_ld s) s with
           | Stop k o => (k, o)
           | Go s =>
               if negb (u_cflags s || u_ldflags s || u_libs s) then (1, u_out s)
               else (0, u_out s ++ (if u_cflags s then join (cflags e (u_cc s)) ++ [32] else []) ++
                        (if u_ldflags s then join (ldflags e (u_ld s)) ++ [32] else []) ++ [10])
           end
       end.

(** The script: its status and its standard output. *)
Definition ulpconfig (e : uenv) (argv : list (list Z)) : Z * list Z :=
  let es := scan uc_long uc_short argv in
  if existsb (fun ev => match ev with Unknown => true | _ => false end) es then (1, [])
  else match uc_loop e ust0 es with Stop k o => (k, o) | Go s => uc_finish e s end.
