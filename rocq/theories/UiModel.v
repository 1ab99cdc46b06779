(** What "ulpinfo -i FILE" prints: src/ulpinfo.c 93-132, src/patch/patch.c 28-124.

    The file is given by its bytes (LdModel).  localtime(3) and strftime(3) are an input, as
    in LiModel; [cs] is capstone (DsModel), [host] the address of the record in the tool.
    No process is open ([current] is [zero_task]), so that the part of print_ulp_info that
    shows a jump (C189) is not reached. *)
From Coq Require Import ZArith String List Bool.
From Verif Require TextModel EcModel LdModel.
From Verif Require Import Word RbModel Str DsModel.
Import ListNotations.
Open Scope Z_scope.

(** "%#08x": 8 characters with the leading 0x, zero without it. *)
Definition alt8 (v : Z) : list Z := if v =? 0 then repeat 48 8 else str "0x" ++ EcModel.hexn 6 v.

(** [fprintf(fp, "%s" label "%s\n", pfx, v)]. *)
Definition put (pfx : list Z) (label : string) (v : list Z) : list Z := pfx ++ str label ++ v ++ [10].

(** print_ulp_strtab, patch.c 28-34: magic, src_func and dst_func are pointers into the file. *)
Definition print_ulp_strtab (img : mem) (len : Z) (pfx : list Z) (magic src dst : Z) : option (list Z) :=
  m <- LdModel.cstr img len magic ;;
  s <- LdModel.cstr img len src ;;
  d <- LdModel.cstr img len dst ;;
  Some (put pfx "Magic      : " m ++ put pfx "SrcFunc    : " s ++ put pfx "DstFunc    : " d).

(** print_ulp_author, print_ulp_license, patch.c 36-49. *)
Definition print_ulp_author (img : mem) (len : Z) (pfx : list Z) (author : Z) : option (list Z) :=
  a <- LdModel.cstr img len author ;; Some (put pfx "Author     : " a).
Definition print_ulp_license (img : mem) (len : Z) (pfx : list Z) (license : Z) : option (list Z) :=
  a <- LdModel.cstr img len license ;; Some (put pfx "License    : " a).

(** A char, for "%d": [signed] says whether char is signed (x86_64: yes, aarch64: no). *)
Definition char_val (signed : bool) (c : Z) : Z := if signed && (128 <=? c) then c - 256 else c.

(** print_ulp_info, patch.c 59-124, without a process.  The prefix of the disassembly is
    cut after 62 characters (snprintf, 78). *)
Definition print_ulp_info (signed : bool) (date : Z -> option (list Z)) (opened : bool) (cs : list Z -> Z -> list insn) (host : Z)
  (img : mem) (len : Z) (pfx : list Z) (inf : Z) : option (list Z) :=
  if negb (LdModel.inb len inf 64) then None else
  let f8 off := ld 8 img (inf + off) in
  let f4 off := ld 4 img (inf + off) in
  let pad i := dec (char_val signed (img (inf + LdModel.ui_pad + i))) in
  let dpfx := firstn 62 (pfx ++ repeat 32 13) in
  let code := bytes_at img (inf + LdModel.ui_orig) 16 in
  d <- date (s64 (f8 LdModel.ui_time)) ;;
  Some (put pfx "ID         : " (dec (s32 (f4 LdModel.ui_id))) ++
        put pfx "TargetAddr : " (alt16 (f8 LdModel.ui_target)) ++
        put pfx "PatchAddr  : " (alt16 (f8 LdModel.ui_patch)) ++
        put pfx "VirtAddr   : " (alt16 (f8 LdModel.ui_virtual)) ++
        put pfx "OrigVal    : " (alt16 (f8 LdModel.ui_orig) ++ [44] ++ alt16 (f8 (LdModel.ui_orig + 8))) ++
        (if forallb (fun c => c =? 0) code then []
         else put dpfx "----- orig code ------" [] ++ fst (fdisasm opened cs dpfx (f8 LdModel.ui_target) host code)) ++
        put pfx "InsertTime : " (alt16 (f8 LdModel.ui_time) ++ str " (" ++ d ++ str ")") ++
        put pfx "Flags      : " (alt8 (f4 LdModel.ui_flags)) ++
        put pfx "Version    : " (alt8 (f4 LdModel.ui_version)) ++
        put pfx "Pad[4]     : " (str "[" ++ pad 0 ++ [44] ++ pad 1 ++ [44] ++ pad 2 ++ [44] ++ pad 3 ++ str "]")).

(** show_file_patch_info, ulpinfo.c 93-132, after alloc_patch_file: the result and the
    text.  parse_ulpatch_strtab (patch.c 397-400) leaves the start of the section in
    [magic], 9 bytes before [src_func].  glibc prints (null) for a null pointer. *)
Definition show_file_patch_info (signed : bool) (date : Z -> option (list Z)) (opened : bool) (cs : list Z -> Z -> list insn) (host : Z)
  (file : list Z) (img : mem) (len : Z) : option (Z * list Z) :=
  r <- LdModel.setup_load_info img len ;;
  match r with
  | inl err => Some (err, [])
  | inr li =>
      let pfx := [9] in
      t1 <- print_ulp_strtab img len pfx (LdModel.li_src li - 9) (LdModel.li_src li) (LdModel.li_dst li) ;;
      t2 <- print_ulp_author img len pfx (LdModel.li_author li) ;;
      t3 <- print_ulp_license img len pfx (LdModel.li_license li) ;;
      t4 <- print_ulp_info signed date opened cs host img len pfx (LdModel.li_info li) ;;
      let bid := match LdModel.li_bid li with Some b => b | None => str "(null)" end in
      Some (0, put pfx "File: " file ++ t1 ++ t2 ++ t3 ++ t4 ++ put pfx "BuildID    : " bid)
  end.
