(** What the manual says of ulpconfig (man/man8/ulpconfig.8); independent of the functions of UcModel. *)
From Coq Require Import ZArith String List Bool.
From Verif Require Import Word Str ArModel ArSpec UcModel.
Import ListNotations.
Open Scope Z_scope.

(** The compiler or linker that the options name last, or the default. *)
Inductive chosen (v : Z) (default : list Z) : list event -> list Z -> Prop :=
| ch_none es : (forall a, ~ In (Opt v a) es) -> chosen v default es default
| ch_last pre w post : (forall a, ~ In (Opt v a) post) -> chosen v default (pre ++ Opt v (Some w) :: post) w.

(** One word, which runs quietly. *)
Definition one_word (w : list Z) : Prop := w <> [] /\ ~ In 32 w /\ ~ In 9 w /\ ~ In 10 w.
Definition usable (e : uenv) (w : list Z) : Prop := one_word w /\ uc_help e w = (true, []).

(** [text] consists of the words, in their order, with blanks between them. *)
Inductive spelled : list (list Z) -> list Z -> Prop :=
| sp_one w : spelled [w] w
| sp_more w ws t : spelled ws t -> spelled (w :: ws) (w ++ 32 :: t).

(** The flags for a compiler: those that are always needed, and those of the machine that the compiler
    accepts.  The flags for a linker. *)
Definition wanted (machine : list Z) (ws : list (list Z)) : Prop :=
  (machine = str "x86_64" /\ ws = map str ["-m64"; "-mno-sse"; "-mno-mmx"; "-mno-sse2"; "-mno-3dnow"; "-mno-avx"; "-fcf-protection=branch"; "-fno-jump-tables"; "-falign-jumps=1"]%string) \/
  (machine = str "aarch64" /\ ws = map str ["-fshort-wchar"; "-funsigned-char"; "-fno-strict-aliasing"; "-mgeneral-regs-only"; "-fno-asynchronous-unwind-tables"; "-fno-unwind-tables"; "-mbranch-protection=pac-ret"; "-fno-delete-null-pointer-checks"]%string) \/
  (machine <> str "x86_64" /\ machine <> str "aarch64" /\ ws = []).
Inductive accepted (ok : list Z -> Prop) : list (list Z) -> list (list Z) -> Prop :=
| ac_nil : accepted ok [] []
| ac_in w l k : ok w -> accepted ok l k -> accepted ok (w :: l) (w :: k)
| ac_out w l k : ~ ok w -> accepted ok l k -> accepted ok (w :: l) k.
Definition compiler_text (e : uenv) (cc text : list Z) : Prop := exists ws k, wanted (uc_machine e) ws /\ accepted (fun w => uc_flag e cc w = true) ws k /\
  spelled (str "-I/usr/include/" :: str "-D_GNU_SOURCE" :: str "-D__ULP_DEV=1" :: k) text.
Definition linker_text (e : uenv) (ld text : list Z) : Prop := exists k, (k = [] <-> uc_rwx e ld = false) /\ (k = [] \/ k = [str "--no-warn-rwx-segments"]) /\
  spelled (str "-relocatable" :: str "--build-id=sha1" :: str "-z" :: str "noexecstack" :: k) text.

(** A text that is there if and only if [asked]. *)
Definition if_asked (asked : Prop) (P : list Z -> Prop) (t : list Z) : Prop := (asked /\ exists t', P t' /\ t = t' ++ [32]) \/ (~ asked /\ t = []).
