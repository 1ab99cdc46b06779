(** The command lines of the tools: getopt_long(3) and getsubopt(3) as glibc defines them,
    src/args-common.c, parse_config of src/ulpatch.c, src/ulftrace.c, src/ulpinfo.c, src/ultask.c, and
    __env_init of src/init.c.

    Words are lists of characters without NUL.  What the tools ask the system (does a process or file exist,
    ...) is in [env]. *)
From Coq Require Import ZArith String List Bool.
From Verif Require Import Word Str.
From Verif Require TextModel MiscModel.
Import ListNotations.
Open Scope Z_scope.

Definition EEXIST := 17. Definition ENOENT := 2.

(** ** getopt_long *)

Record lopt := Lo { l_name : list Z; l_arg : bool; l_val : Z }.
Inductive argument := NoArg | Required | Optional.
Record sopt := So { s_char : Z; s_arg : argument }.
(** What a call returns: the value of an option with its argument, or '?'. *)
Inductive event := Opt (v : Z) (a : option (list Z)) | Unknown.

(** The name before '=' and what follows it. *)
Fixpoint upto_eq (s : list Z) : list Z * option (list Z) :=
  match s with
  | [] => ([], None)
  | c :: r => if c =? 61 then ([], Some r) else let '(n, v) := upto_eq r in (c :: n, v)
  end.
(** A long option: the exact name, or a beginning of it that does not fit options that differ. *)
Definition find_long (tab : list lopt) (n : list Z) : option lopt :=
  match find (fun o => str_eqb (l_name o) n) tab with
  | Some o => Some o
  | None =>
      match filter (fun o => prefixb n (l_name o)) tab with
      | [] => None
      | o :: r => if forallb (fun o' => Bool.eqb (l_arg o') (l_arg o) && (l_val o' =? l_val o)) r then Some o else None
      end
  end.
(** The characters of a word of short options; an option at the end may need the next word. *)
Fixpoint cluster (stab : list sopt) (cs : list Z) : list event * option Z :=
  match cs with
  | [] => ([], None)
  | c :: r =>
      match find (fun o => s_char o =? c) stab with
      | None => ([Unknown], None)
      | Some o =>
          match s_arg o with
          | NoArg => let '(es, p) := cluster stab r in (Opt c None :: es, p)
          | Required => match r with [] => ([], Some c) | _ => ([Opt c (Some r)], None) end
          | Optional => ([Opt c (match r with [] => None | _ => Some r end)], None)
          end
      end
  end.
(** All calls of getopt_long until it returns -1; the tools end at '?'.  Words that are no options are skipped
    (they are moved to the end). *)
Fixpoint scan (tab : list lopt) (stab : list sopt) (l : list (list Z)) : list event :=
  match l with
  | [] => []
  | a :: r =>
      match a with
      | c1 :: c2 :: rest =>
          if c1 =? 45 then
            if c2 =? 45 then
              match rest with
              | [] => []
              | _ =>
                  let '(n, v) := upto_eq rest in
                  match find_long tab n, v with
                  | None, _ => [Unknown]
                  | Some o, Some x => if l_arg o then Opt (l_val o) (Some x) :: scan tab stab r else [Unknown]
                  | Some o, None =>
                      if l_arg o then match r with [] => [Unknown] | x :: r' => Opt (l_val o) (Some x) :: scan tab stab r' end
                      else Opt (l_val o) None :: scan tab stab r
                  end
              end
            else
              let '(es, p) := cluster stab (c2 :: rest) in
              match p with
              | None => es ++ scan tab stab r
              | Some c => match r with [] => es ++ [Unknown] | x :: r' => es ++ Opt c (Some x) :: scan tab stab r' end
              end
          else scan tab stab r
      | _ => scan tab stab r
      end
  end.

(** ** getsubopt *)

(** The texts between the commas, one for each call. *)
Fixpoint toks (s cur : list Z) : list (list Z) :=
  match s with
  | [] => match cur with [] => [] | _ => [cur] end
  | c :: r => if c =? 44 then cur :: toks r [] else toks r (cur ++ [c])
  end.
Definition is_tok (t : list Z) (name : string) : bool := str_eqb (fst (upto_eq t)) (str name).
(** str2addr, str2size of the value, string.c 319-362; 0 for NULL. *)
Definition addr_of (v : option (list Z)) : Z := match v with Some s => TextModel.str2addr s | None => 0 end.
Definition size_of (v : option (list Z)) : Z := match v with Some s => TextModel.str2size s | None => 0 end.

(** ** Common options, args-common.c *)

Definition ARG_LOG_LEVEL := 139. Definition ARG_LOG_DEBUG := 140. Definition ARG_LOG_ERR := 141. Definition ARG_LOG_INFO := 142.
(** COMMON_OPTIONS and COMMON_GETOPT_OPTSTRING, 49-60. *)
Definition common_long : list lopt :=
  [Lo (str "version") false 86; Lo (str "help") false 104; Lo (str "log-level") true ARG_LOG_LEVEL; Lo (str "lv") true ARG_LOG_LEVEL;
   Lo (str "log-debug") false ARG_LOG_DEBUG; Lo (str "log-error") false ARG_LOG_ERR; Lo (str "dry-run") false 117; Lo (str "verbose") false 118;
   Lo (str "info") false ARG_LOG_INFO; Lo (str "force") false 70].
Definition common_short : list sopt := [So 117 NoArg; So 86 NoArg; So 118 Optional; So 104 NoArg; So 70 NoArg].

Record common := Co { o_level : Z; o_verbose : Z; o_dry : bool; o_force : bool }.
Definition common0 := Co 3 0 false false.
(** How a step or a run of parse_config ends: it goes on, the tool exits, or it writes outside its memory. *)
Inductive step (A : Type) := Next (a : A) | Exit (code : Z) | Crash.
Arguments Next {A}. Arguments Exit {A}. Arguments Crash {A}.
(** COMMON_GETOPT_CASES, 62-100; None for other options. *)
Definition common_step (c : common) (e : event) : option (step common) :=
  match e with
  | Unknown => Some (Exit 1)
  | Opt v a =>
      if v =? 86 then Some (Exit 0)
      else if v =? 104 then Some (Exit 0)
      else if v =? 118 then Some (Next (Co (o_level c) (s32 (TextModel.str2verbose a + 1)) (o_dry c) (o_force c)))
      else if v =? 117 then Some (Next (Co (o_level c) (o_verbose c) true (o_force c)))
      else if v =? ARG_LOG_LEVEL then
        let t := match a with Some t => t | None => [] end in
        Some (match MiscModel.log_level_option t with
              | Some n => Next (Co n (o_verbose c) (o_dry c) (o_force c))
              | None => Exit (MiscModel.str2loglevel (Some t))
              end)
      else if v =? ARG_LOG_DEBUG then Some (Next (Co 7 (o_verbose c) (o_dry c) (o_force c)))
      else if v =? ARG_LOG_ERR then Some (Next (Co 3 (o_verbose c) (o_dry c) (o_force c)))
      else if v =? ARG_LOG_INFO then Some (Exit 0)
      else if v =? 70 then Some (Next (Co (o_level c) (o_verbose c) (o_dry c) true))
      else None
  end.
(** A tool's options and the common ones: [own] for a tool's own option, [get] and [set] for the common part. *)
Definition tool_step {A} (own : A -> Z -> option (list Z) -> option (step A)) (get : A -> common) (set : A -> common -> A) (x : A) (e : event) : step A :=
  match (match e with Opt v a => own x v a | Unknown => None end) with
  | Some r => r
  | None =>
      match common_step (get x) e with
      | Some (Next c) => Next (set x c)
      | Some (Exit k) => Exit k
      | Some Crash => Crash
      | None => Exit 0 (* print_help() in the default case exits with success before cmd_exit(1) *)
      end
  end.
Fixpoint run {A} (f : A -> event -> step A) (x : A) (es : list event) : step A :=
  match es with
  | [] => Next x
  | e :: r => match f x e with Next y => run f y r | s => s end
  end.
Definition and_then {A B} (s : step A) (k : A -> step B) : step B :=
  match s with Next a => k a | Exit c => Exit c | Crash => Crash end.

(** What the tools ask the system. *)
Record env := Ev {
  e_pid : Z -> bool;                   (* proc_pid_exist *)
  e_exist : list Z -> bool;            (* fexist *)
  e_regular : list Z -> bool;          (* fregular *)
  e_size : list Z -> Z;                (* fsize *)
  e_cwd : Z -> option (list Z);        (* proc_pid_cwd *)
  e_page : Z;                          (* ulp_page_size *)
  e_patch : option (list Z) -> Z;      (* check_patch_file *)
  e_relo : list Z -> bool;             (* ftype says ELF relocatable *)
  e_default : list Z }.                (* ULPATCH_OBJ_FTRACE_MCOUNT_PATH *)

(** ** ulpatch, ulpatch.c 29-152 *)

Inductive command := CmdNone | CmdPatch | CmdUnpatch.
Record pcfg := Pc { p_cmd : command; p_pid : Z; p_file : option (list Z); p_common : common }.
Definition ulpatch_long : list lopt :=
  [Lo (str "pid") true 112; Lo (str "patch") true 144; Lo (str "unpatch") false 145; Lo (str "map-pfx") false 146] ++ common_long.
Definition ulpatch_short : list sopt := So 112 Required :: common_short.
Definition ulpatch_own (x : pcfg) (v : Z) (a : option (list Z)) : option (step pcfg) :=
  if v =? 112 then Some (Next (Pc (p_cmd x) (MiscModel.atoi (match a with Some t => t | None => [] end)) (p_file x) (p_common x)))
  else if v =? 144 then Some (Next (Pc CmdPatch (p_pid x) a (p_common x)))
  else if v =? 145 then Some (Next (Pc CmdUnpatch (p_pid x) (p_file x) (p_common x)))
  else if v =? 146 then Some (Exit 0)
  else None.
Definition ulpatch_step := tool_step ulpatch_own p_common (fun x c => Pc (p_cmd x) (p_pid x) (p_file x) c).
Definition ulpatch_check (e : env) (x : pcfg) : step pcfg :=
  match p_cmd x with
  | CmdNone => Exit 1
  | _ =>
      if p_pid x =? -1 then Exit 1
      else if negb (e_pid e (p_pid x)) then Exit 1
      else match p_cmd x with
           | CmdPatch => if negb (e_patch e (p_file x) =? 0) then Exit 1 else Next x
           | _ => Next x
           end
  end.
Definition ulpatch_config (e : env) (argv : list (list Z)) : step pcfg :=
  and_then (run ulpatch_step (Pc CmdNone (-1) None common0) (scan ulpatch_long ulpatch_short argv)) (ulpatch_check e).

(** ** ulftrace, ulftrace.c 74-157 *)

Record fcfg := Fc { f_pid : Z; f_func : option (list Z); f_obj : option (list Z); f_common : common }.
Definition ulftrace_long : list lopt := [Lo (str "pid") true 112; Lo (str "function") true 102; Lo (str "patch-obj") true 106] ++ common_long.
Definition ulftrace_short : list sopt := [So 112 Required; So 102 Required; So 106 Required] ++ common_short.
Definition ulftrace_own (x : fcfg) (v : Z) (a : option (list Z)) : option (step fcfg) :=
  if v =? 112 then Some (Next (Fc (MiscModel.atoi (match a with Some t => t | None => [] end)) (f_func x) (f_obj x) (f_common x)))
  else if v =? 102 then Some (Next (Fc (f_pid x) a (f_obj x) (f_common x)))
  else if v =? 106 then Some (Next (Fc (f_pid x) (f_func x) a (f_common x)))
  else None.
Definition ulftrace_step := tool_step ulftrace_own f_common (fun x c => Fc (f_pid x) (f_func x) (f_obj x) c).
Definition ulftrace_check (e : env) (x : fcfg) : step fcfg :=
  if f_pid x =? -1 then Exit 1
  else
    match f_func x with
    | None => Exit 1
    | Some _ =>
        if negb (e_pid e (f_pid x)) then Exit 1
        else
          match f_obj x with
          | Some o => if negb (e_exist e o) then Exit 1 else if negb (e_relo e o) then Exit 1 else Next x
          | None =>
              if negb (e_exist e (e_default e)) then Exit 1
              else if negb (e_relo e (e_default e)) then Exit 1
              else Next (Fc (f_pid x) (f_func x) (Some (e_default e)) (f_common x))
          end
    end.
Definition ulftrace_config (e : env) (argv : list (list Z)) : step fcfg :=
  and_then (run ulftrace_step (Fc (-1) None None common0) (scan ulftrace_long ulftrace_short argv)) (ulftrace_check e).

(** ** ulpinfo, ulpinfo.c 58-92 and 194-224 *)

Record icfg := Ic { i_file : option (list Z); i_pid : Z; i_common : common }.
Definition ulpinfo_long : list lopt := [Lo (str "patch") true 105; Lo (str "pid") true 112] ++ common_long.
Definition ulpinfo_short : list sopt := [So 105 Required; So 112 Required] ++ common_short.
Definition ulpinfo_own (x : icfg) (v : Z) (a : option (list Z)) : option (step icfg) :=
  if v =? 105 then Some (Next (Ic a (i_pid x) (i_common x)))
  else if v =? 112 then Some (Next (Ic (i_file x) (MiscModel.atoi (match a with Some t => t | None => [] end)) (i_common x)))
  else None.
Definition ulpinfo_step := tool_step ulpinfo_own i_common (fun x c => Ic (i_file x) (i_pid x) c).
(** What is shown. *)
Inductive shown := ShowFile (f : list Z) | ShowTask (pid : Z).
Definition ulpinfo_config (argv : list (list Z)) : step shown :=
  and_then (run ulpinfo_step (Ic None 0 common0) (scan ulpinfo_long ulpinfo_short argv))
    (fun x => match i_file x with
              | Some f => Next (ShowFile f)
              | None => if i_pid x =? 0 then Exit (- EINVAL) else Next (ShowTask (i_pid x))
              end).

(** ** ultask, ultask.c 33-588 *)

(** --dump *)
Record dcfg := Dc { d_vma : bool; d_vdso : bool; d_disasm : bool; d_mem : bool; d_addr : Z; d_size : Z; d_vaddr : Z; d_daddr : Z; d_dsize : Z }.
(** --map *)
Record mcfg := Mc { m_file : option (list Z); m_ro : bool; m_noexec : bool; m_addr : Z }.
(** --mprotect *)
Record rcfg := Rc { r_addr : Z; r_len : Z; r_prot : Z; r_none : bool }.
Record tcfg := Tc { t_pid : Z; t_vmas : bool; t_threads : bool; t_fds : bool; t_auxv : bool; t_status : bool; t_syms : bool;
                    t_dump : dcfg; t_jmp : Z * Z; t_map : mcfg; t_unmap : option Z; t_prot : rcfg; t_out : option (list Z);
                    t_rdonly : bool; t_common : common; t_print : bool }.
Definition tcfg0 : tcfg :=
  Tc (-1) false false false false false false (Dc false false false false 0 0 0 0 0) (0, 0) (Mc None false false 0) None (Rc 0 0 7 false) None true common0 true.
Definition ultask_long : list lopt :=
  [Lo (str "pid") true 112; Lo (str "vmas") false 145; Lo (str "threads") false 150; Lo (str "fds") false 151; Lo (str "auxv") false 152;
   Lo (str "status") false 153; Lo (str "dump") true 146; Lo (str "jmp") true 144; Lo (str "map") true 147; Lo (str "mprotect") true 148;
   Lo (str "unmap") true 149; Lo (str "symbols") false 154; Lo (str "syms") false 154; Lo (str "output") true 111] ++ common_long.
Definition ultask_short : list sopt := [So 112 Required; So 111 Required] ++ common_short.

(** The loop and the tests of --dump, 292-353. *)
Definition dump_tok (d : dcfg) (t : list Z) : step dcfg :=
  let v := snd (upto_eq t) in
  if is_tok t "vma" then Next (Dc true (d_vdso d) (d_disasm d) (d_mem d) (d_addr d) (d_size d) (d_vaddr d) (d_daddr d) (d_dsize d))
  else if is_tok t "vdso" then Next (Dc (d_vma d) true (d_disasm d) (d_mem d) (d_addr d) (d_size d) (d_vaddr d) (d_daddr d) (d_dsize d))
  else if is_tok t "disasm" then Next (Dc (d_vma d) (d_vdso d) true (d_mem d) (d_addr d) (d_size d) (d_vaddr d) (d_daddr d) (d_dsize d))
  else if is_tok t "addr" then Next (Dc (d_vma d) (d_vdso d) (d_disasm d) (d_mem d) (addr_of v) (d_size d) (d_vaddr d) (d_daddr d) (d_dsize d))
  else if is_tok t "size" then Next (Dc (d_vma d) (d_vdso d) (d_disasm d) (d_mem d) (d_addr d) (size_of v) (d_vaddr d) (d_daddr d) (d_dsize d))
  else Exit 1.
Fixpoint each {A} (f : A -> list Z -> step A) (x : A) (ts : list (list Z)) : step A :=
  match ts with [] => Next x | t :: r => match f x t with Next y => each f y r | s => s end end.
Definition dump_option (d : dcfg) (arg : list Z) : step dcfg :=
  and_then (each dump_tok d (toks arg []))
    (fun d =>
       if (d_vma d || d_vdso d) && d_disasm d then Exit 1
       else if d_vma d && d_vdso d then Exit 1
       else if d_vma d then
         if d_addr d =? 0 then Exit 1
         else Next (Dc (d_vma d) (d_vdso d) (d_disasm d) (d_mem d) (d_addr d) (d_size d) (d_addr d) (d_daddr d) (d_dsize d))
       else if d_disasm d then
         if (d_addr d =? 0) || (d_size d =? 0) then Exit 1
         else Next (Dc (d_vma d) (d_vdso d) (d_disasm d) (d_mem d) (d_addr d) (d_size d) (d_vaddr d) (d_addr d) (d_size d))
       else if d_vdso d then
         if negb (d_addr d =? 0) || negb (d_size d =? 0) then Exit 1 else Next d
       else
         if (d_addr d =? 0) || (d_size d =? 0) then Exit 1
         else Next (Dc (d_vma d) (d_vdso d) (d_disasm d) true (d_addr d) (d_size d) (d_vaddr d) (d_daddr d) (d_dsize d))).

(** --jmp, 354-375. *)
Definition jmp_tok (j : Z * Z) (t : list Z) : step (Z * Z) :=
  let v := snd (upto_eq t) in
  if is_tok t "from" then Next (addr_of v, snd j) else if is_tok t "to" then Next (fst j, addr_of v) else Exit 1.
Definition jmp_option (j : Z * Z) (arg : list Z) : step (Z * Z) :=
  and_then (each jmp_tok j (toks arg [])) (fun j => if (fst j =? 0) || (snd j =? 0) then Exit 1 else Next j).

(** --map, 376-407. *)
Definition map_tok (m : mcfg) (t : list Z) : step mcfg :=
  let v := snd (upto_eq t) in
  if is_tok t "file" then Next (Mc v (m_ro m) (m_noexec m) (m_addr m))
  else if is_tok t "ro" then Next (Mc (m_file m) true (m_noexec m) (m_addr m))
  else if is_tok t "noexec" then Next (Mc (m_file m) (m_ro m) true (m_addr m))
  else if is_tok t "addr" then if addr_of v =? 0 then Exit EINVAL else Next (Mc (m_file m) (m_ro m) (m_noexec m) (addr_of v))
  else Exit 1.
Definition map_option (m : mcfg) (arg : list Z) : step mcfg :=
  and_then (each map_tok m (toks arg [])) (fun m => match m_file m with None => Exit 1 | Some _ => Next m end).

(** --mprotect, 413-465: the protection begins at PROT_NONE, address and length do not begin anew. *)
Definition prot_tok (p : rcfg) (t : list Z) : step rcfg :=
  let v := snd (upto_eq t) in
  if is_tok t "addr" then Next (Rc (addr_of v) (r_len p) (r_prot p) (r_none p))
  else if is_tok t "len" then Next (Rc (r_addr p) (addr_of v) (r_prot p) (r_none p))
  else if is_tok t "none" then Next (Rc (r_addr p) (r_len p) (r_prot p) true)
  else if is_tok t "read" then Next (Rc (r_addr p) (r_len p) (Z.lor (r_prot p) 1) (r_none p))
  else if is_tok t "write" then Next (Rc (r_addr p) (r_len p) (Z.lor (r_prot p) 2) (r_none p))
  else if is_tok t "exec" then Next (Rc (r_addr p) (r_len p) (Z.lor (r_prot p) 4) (r_none p))
  else Exit 1.
Definition prot_option (page : Z) (p : rcfg) (arg : list Z) : step rcfg :=
  and_then (each prot_tok (Rc (r_addr p) (r_len p) 0 false) (toks arg []))
    (fun p =>
       if r_none p && negb (r_prot p =? 0) then Exit EINVAL
       else if (r_addr p =? 0) || (r_len p =? 0) then Exit 1
       else if negb (r_addr p mod page =? 0) || negb (r_len p mod page =? 0) then Exit 1
       else Next p).

Definition text (a : option (list Z)) : list Z := match a with Some t => t | None => [] end.
Definition ultask_own (page : Z) (x : tcfg) (v : Z) (a : option (list Z)) : option (step tcfg) :=
  let '(Tc pid vmas threads fds auxv status syms dump jmp map unmap prot out rdonly common print) := x in
  if v =? 112 then Some (Next (Tc (MiscModel.atoi (text a)) vmas threads fds auxv status syms dump jmp map unmap prot out rdonly common print))
  else if v =? 145 then Some (Next (Tc pid true threads fds auxv status syms dump jmp map unmap prot out rdonly common print))
  else if v =? 146 then Some (and_then (dump_option dump (text a)) (fun dump => Next (Tc pid vmas threads fds auxv status syms dump jmp map unmap prot out rdonly common print)))
  else if v =? 144 then Some (and_then (jmp_option jmp (text a)) (fun jmp => Next (Tc pid vmas threads fds auxv status syms dump jmp map unmap prot out false common print)))
  else if v =? 147 then Some (and_then (map_option map (text a)) (fun map => Next (Tc pid vmas threads fds auxv status syms dump jmp map unmap prot out false common print)))
  else if v =? 149 then Some (Next (Tc pid vmas threads fds auxv status syms dump jmp map (Some (addr_of a)) prot out false common print))
  else if v =? 148 then Some (and_then (prot_option page prot (text a)) (fun prot => Next (Tc pid vmas threads fds auxv status syms dump jmp map unmap prot out false common print)))
  else if v =? 154 then Some (Next (Tc pid vmas threads fds auxv status true dump jmp map unmap prot out rdonly common print))
  else if v =? 150 then Some (Next (Tc pid vmas true fds auxv status syms dump jmp map unmap prot out rdonly common print))
  else if v =? 151 then Some (Next (Tc pid vmas threads true auxv status syms dump jmp map unmap prot out rdonly common print))
  else if v =? 152 then Some (Next (Tc pid vmas threads fds true status syms dump jmp map unmap prot out rdonly common print))
  else if v =? 153 then Some (Next (Tc pid vmas threads fds auxv true syms dump jmp map unmap prot out rdonly common print))
  else if v =? 111 then Some (Next (Tc pid vmas threads fds auxv status syms dump jmp map unmap prot a rdonly common print))
  else None.
Definition set_common (x : tcfg) (c : common) : tcfg :=
  Tc (t_pid x) (t_vmas x) (t_threads x) (t_fds x) (t_auxv x) (t_status x) (t_syms x) (t_dump x) (t_jmp x) (t_map x) (t_unmap x) (t_prot x) (t_out x) (t_rdonly x) c (t_print x).
Definition ultask_step (page : Z) := tool_step (ultask_own page) t_common set_common.

(** PATH_MAX. *)
Definition PATH_MAX := 4096.
(** The file to map, 534-583: its path as the tool and the target open it.  A NULL directory is written as "(null)". *)
Definition map_path (e : env) (pid : Z) (f : list Z) : step (list Z) :=
  let cwd := match e_cwd e pid with Some d => d | None => str "(null)" end in
  let real := match f with c :: _ => if c =? 47 then f else firstn (Z.to_nat (PATH_MAX - 1)) (cwd ++ [47] ++ f) | [] => firstn (Z.to_nat (PATH_MAX - 1)) (cwd ++ [47] ++ f) end in
  if negb (e_exist e real) then Exit EEXIST
  else if negb (e_regular e real) then Exit ENOENT
  else if e_size e real =? 0 then Exit EINVAL
  else if PATH_MAX <=? Z.of_nat (List.length real) then Crash
  else Next real.
(** Nothing to do, 500-514. *)
Definition no_action (x : tcfg) : bool :=
  negb (t_vmas x) && negb (d_vma (t_dump x)) && negb (d_vdso (t_dump x)) && negb (d_mem (t_dump x))
  && match m_file (t_map x) with None => true | _ => false end && (r_addr (t_prot x) =? 0) && ((fst (t_jmp x) =? 0) || (snd (t_jmp x) =? 0))
  && match t_unmap x with None => true | _ => false end && negb (t_syms x) && negb (t_auxv x) && negb (t_status x) && negb (t_threads x)
  && negb (d_disasm (t_dump x)) && negb (t_fds x).
Definition ultask_check (e : env) (x : tcfg) : step tcfg :=
  if t_pid x =? -1 then Exit 1
  else if negb (e_pid e (t_pid x)) then Exit 1
  else
    let none := match t_out x with None => true | _ => false end in
    if (d_vma (t_dump x) || d_vdso (t_dump x)) && none then Exit 1
    else if d_mem (t_dump x) && none then Exit 1
    else
      and_then (match m_file (t_map x) with
                | None => Next None
                | Some f => and_then (map_path e (t_pid x) f) (fun p => Next (Some p))
                end)
        (fun file =>
           if match t_out x with Some o => negb (o_force (t_common x)) && e_exist e o | None => false end then Exit 1
           else Next (Tc (t_pid x) (t_vmas x) (t_threads x) (t_fds x) (t_auxv x) (t_status x) (t_syms x) (t_dump x) (t_jmp x)
                         (Mc file (m_ro (t_map x)) (m_noexec (t_map x)) (m_addr (t_map x))) (t_unmap x) (t_prot x) (t_out x) (t_rdonly x) (t_common x) (no_action x))).
Definition ultask_config (e : env) (argv : list (list Z)) : step tcfg :=
  and_then (run (ultask_step (e_page e)) tcfg0 (scan ultask_long ultask_short argv)) (ultask_check e).

(** ** __env_init, init.c 67-94 *)

(** The directory for all processes: its mode and owner, if it exists.  mkdir is subject to the umask; only the
    owner and root can change a mode.  The result is the directory afterwards, or the exit of the tool. *)
Definition env_init (tmp : bool) (dir : option (Z * Z)) (uid umask : Z) : option (Z * Z) + Z :=
  if negb tmp then inr 1
  else match dir with
       | None => inl (Some (Z.land 0x1ff (Z.lxor 0x1ff (Z.land umask 0x1ff)), uid))
       | Some (mode, owner) => if (uid =? 0) || (uid =? owner) then inl (Some (0x1ff, owner)) else inr 1
       end.

(** ** Repeated calls of ulpatch(), as in the tests

    ulpatch_args_reset and args_common_reset (ulpatch.c 50-55, args-common.c 106-111) leave the command and the dry run
    of the call before. *)
Definition ulpatch_reset (prev : pcfg) : pcfg := Pc (p_cmd prev) (-1) None (Co 3 0 (o_dry (p_common prev)) false).
Definition ulpatch_again (prev : pcfg) (e : env) (argv : list (list Z)) : step pcfg :=
  and_then (run ulpatch_step (ulpatch_reset prev) (scan ulpatch_long ulpatch_short argv)) (ulpatch_check e).
