(** Applying and removing patches: src/patch/patch.c 248-304, 807-1091, src/task/patch.c.

    The loader (LdModel) and the remote system calls (ScModel) are put together.  The patch
    file is mapped shared by the tool (alloc_patch_file) and by the target
    (create_mmap_vma_file), so what the tool writes to the image is at once in the target's
    memory ([sync]), and what the tool reads from it is what is there ([view]).

    Every step that changes the target's memory is logged, so that the log together with
    the final state shows what is left if the tool dies: dying at a tracing request is an
    environment in which that request and all later ones fail.

    [None]: the tool crashes (undefined behaviour). *)
From Coq Require Import ZArith String List Bool.
From Verif Require Import Word Str ElfDefs TextModel LdModel ScModel.
Import ListNotations.
Open Scope Z_scope.

(** mmap returned an address, not an error code: the image is shared. *)
Definition shared (hdr : Z) : bool := hdr <? 2 ^ 64 - 4095.

Definition inside (base size x : Z) : bool := (base <=? x) && (x <? base + size).

Definition sync (hdr len : Z) (img : mem) (w : world) : world :=
  set_t w (Tg (t_regs (w_t w)) (fun x => if shared hdr && inside hdr len x then img (x - hdr) else t_mem (w_t w) x) (t_attached (w_t w))).

Definition view (hdr len : Z) (img : mem) (w : world) : mem :=
  fun i => if shared hdr && inside 0 len i then t_mem (w_t w) (hdr + i) else img i.

(** struct vma_ulp, task/patch.h 14-31: the mapping, the copied metadata record, str_build_id. *)
Record ulp := Ulp { u_start : Z; u_end : Z; u_info : arr; u_bid : option (list Z) }.

(** struct vma_ulp_root, task/patch.h 33-37. *)
Record session := Sess { s_ulps : list ulp; s_max : Z }.

Definition list_eqb (l1 l2 : list Z) : bool := if list_eq_dec Z.eq_dec l1 l2 then true else false.

(** What differs between runs and architectures: the tracing environment, find_task_sym of
    the session, the relocation of one section, arch_jmp_table_jmp (639-650), the clock. *)
Section Patch.
Variable fuel : nat.
Variable a : arch.
Variable nn : nrs.
Variable x86 : bool.
Variable e : env.
Variables libc garbage : Z.
Variable lookup : list Z -> option Z.
Variable reloc : Z -> linfo -> mem -> Z -> Z * mem.
Variable jmp : Z.
Variable now : Z.

(** ** Reading what is in the target *)

(** The copy of a mapping read from the target: byte [i] for 0 <= i < size. *)
Definition info_found (img : mem) (len : Z) : option (option Z) :=
  sechdrs <- e_shoff img len ;;
  strndx <- e_shstrndx img len ;;
  secstrings <- g_offset img len (sec sechdrs strndx) ;;
  info <- find_sec img len sechdrs secstrings (str ".ulpatch.info") ;;
  if info =? 0 then Some None else (p <- g_offset img len (sec sechdrs info) ;; Some (Some p)).

Definition copy_of (buf : arr) (p : Z) : arr := fun i => buf (p + i).

(** vma_load_ulp, task/patch.c 87-122, with alloc_ulp, 29-65, and load_ulp_info_from_vma,
    patch.c 248-304.  alloc_ulp failing to read takes an unlinked node out of a list
    (free_ulp); the results of both are ignored, so that a missing metadata section is a
    null pointer at 118 and a half-filled entry can stay in the list.  The loop that
    registers the symbols of the patch for lookups (patch.c 273-293) is RsModel.patch_loop;
    here its effect is part of [lookup], and its accesses are taken to be inside the copy. *)
Definition vma_load_ulp (s : session) (w : world) (v : Z * Z) : option (session * world) :=
  let '(start, stop) := v in
  let '(n, eh, w) := memcpy_from_task e w (fun _ => 0) start 64 in
  if (n =? -1) || (n <? 64) then Some (s, w)
  else if negb (magic_ok eh) then Some (s, w)
  else
    let size := stop - start in
    let '(n, buf, w) := memcpy_from_task e w (e_junk e) start size in
    if (n =? -1) || (n <? size) then None
    else
      c <- chk_load_info_len buf size ;;
      if negb (c =? 0) then None
      else
        r <- setup_load_info buf size ;;
        match r with
        | inr li =>
            bid <- li_bid li ;;
            if inb size (li_info li) 64 then
              let id := ld 4 buf (li_info li) in
              Some (Sess (Ulp start stop (copy_of buf (li_info li)) (Some bid) :: s_ulps s) (Z.max (s_max s) id), w)
            else None
        | inl _ =>
            f <- info_found buf size ;;
            p <- f ;;
            id <- rd 4 buf size p ;;
            Some (Sess (Ulp start stop (e_junk e) None :: s_ulps s) (Z.max (s_max s) id), w)
        end.

(** open_task, task/core.c 515-520: the patch mappings in the order of the memory map. *)
Fixpoint load_ulps (s : session) (w : world) (vmas : list (Z * Z)) : option (session * world) :=
  match vmas with
  | [] => Some (s, w)
  | v :: r => p <- vma_load_ulp s w v ;; let '(s, w) := p in load_ulps s w r
  end.
Definition open_session (w : world) (vmas : list (Z * Z)) : option (session * world) := load_ulps (Sess [] 0) w vmas.

(** ** kick_target_process, patch.c 859-917 *)
Definition jmp_bytes (addr : Z) : list Z := le_bytes 8 jmp ++ le_bytes 8 addr.

Definition kick_target_process (hdr len : Z) (img : mem) (li : linfo) (w : world) : option (Z * world * list world) :=
  paddr <- rd 8 img len (li_info li + ui_patch) ;;
  vaddr <- rd 8 img len (li_info li + ui_virtual) ;;
  let orig := li_info li + ui_orig in
  if negb (inb len orig 16) then None
  else
    let '(n, buf, w) := memcpy_from_task e w (fun i => img (orig + i)) vaddr 16 in
    let img := fun x => if inside orig 16 x then buf (x - orig) else img x in
    let w1 := sync hdr len img w in
    if (n =? -1) || (n <? 16) then Some (- ENOEXEC, w1, [w1])
    else
      let '(n, w2) := memcpy_to_task e w1 hdr img len in
      if (n =? -1) || (n <? len) then Some (- ENOEXEC, w2, [w1; w2])
      else
        r <- task_attach fuel e w2 ;;
        let '(err, w3) := r in
        if negb (err =? 0) then Some (err, w3, [w1; w2; w3])
        else
          vaddr <- rd 8 (view hdr len img w3) len (li_info li + ui_virtual) ;;
          let '(n, w4) := memcpy_to_task e w3 vaddr (of_list (jmp_bytes paddr)) 16 in
          let err := if (n =? -1) || (n <? 16) then - ENOEXEC else 0 in
          let w5 := snd (task_detach e w4) in
          Some (err, w5, [w1; w2; w3; w4; w5]).

(** ** load_patch, patch.c 919-973 *)

(** The build id check, 931-940; strcmp of a null pointer crashes. *)
Fixpoint known (us : list ulp) (bid : option (list Z)) : option bool :=
  match us with
  | [] => Some false
  | u :: r =>
      x <- u_bid u ;;
      y <- bid ;;
      if list_eqb x y then Some true else known r bid
  end.

(** The result: return value, session, target, log. *)
Definition load_patch (s : session) (hdr len : Z) (img : mem) (w : world) : option (Z * session * world * list world) :=
  r <- setup_load_info img len ;;
  match r with
  | inl err => Some (err, s, w, [])
  | inr li =>
      k <- known (s_ulps s) (li_bid li) ;;
      if (k : bool) then Some (- EALREADY, s, w, [])
      else
        r <- rewrite_section_headers img len hdr li ;;
        let '(err, img) := r in
        let w1 := sync hdr len img w in
        if negb (err =? 0) then Some (err, s, w1, [w1])
        else
          r <- simplify_symbols lookup img len hdr li ;;
          let '(err, img) := r in
          let w2 := sync hdr len img w1 in
          if err <? 0 then Some (err, s, w2, [w1; w2])
          else
            r <- apply_relocations (reloc hdr li) img len li ;;
            let '(err, img) := r in
            let w3 := sync hdr len img w2 in
            if err <? 0 then Some (err, s, w3, [w1; w2; w3])
            else
              r <- solve_patch_symbols lookup img len li (s_max s) now ;;
              let '(err, img, max_id) := r in
              let s := Sess (s_ulps s) max_id in
              let w4 := sync hdr len img w3 in
              if err <? 0 then Some (err, s, w4, [w1; w2; w3; w4])
              else
                r <- kick_target_process hdr len img li w4 ;;
                let '(err, w5, log) := r in
                Some (err, s, w5, [w1; w2; w3; w4] ++ log)
  end.

(** ** init_patch, patch.c 976-1037.

    [chown] is the result of the chown; the task was opened with FTO_PROC.  A section table
    outside the file is reported as 0 by alloc_patch_file (C35) with the path released, so
    that the remote open takes the length of a null pointer.  The result: return value,
    session, address of the mapping, target, log. *)
Definition init_patch (s : session) (ae : alloc_env) (chown : Z) (path : list Z) (span : Z) (w : world)
  : option (Z * session * option Z * world * list world) :=
  r <- alloc_patch_file ae ;;
  let '(err, o) := r in
  if negb (err =? 0) then Some (err, s, None, w, [])
  else if negb (chown =? 0) then Some (chown, s, None, w, [])
  else
    o <- o ;;
    let '(img, len) := o in
    r <- create_mmap_vma_file fuel a nn x86 e libc garbage w path len span ;;
    let '(ret, hdr, w) := r in
    if negb (ret =? 0) then Some (ret, s, None, w, [w])
    else
      hdr <- hdr ;;
      let w0 := sync hdr len img w in
      r <- load_patch s hdr len img w0 ;;
      let '(err, s, w1, log) := r in
      if negb (err =? 0) then
        w2 <- delete_mmap_vma_file fuel a nn e libc garbage w1 hdr len ;;
        Some (err, s, Some hdr, w2, [w0] ++ log ++ [w2])
      else Some (0, s, Some hdr, w1, [w0] ++ log).

(** ** delete_patch, patch.c 1040-1091.  The result: return value, target, log and the
    entry that was chosen. *)
Fixpoint find_last (us : list ulp) (id : Z) : option ulp :=
  match us with
  | [] => None
  | u :: r => if ld 4 (u_info u) ui_id =? id then Some u else find_last r id
  end.

Definition delete_patch (s : session) (w : world) : option (Z * world * list world * option ulp) :=
  match find_last (s_ulps s) (s_max s) with
  | None => Some (- ENOENT, w, [], None)
  | Some u =>
      r <- task_attach fuel e w ;;
      let '(err, w1) := r in
      if negb (err =? 0) then Some (err, w1, [w1], Some u)
      else
        let '(n, w2) := memcpy_to_task e w1 (ld 8 (u_info u) ui_virtual) (copy_of (u_info u) ui_orig) 16 in
        if (n =? -1) || (n <? 16) then
          let w3 := snd (task_detach e w2) in Some (- ENOEXEC, w3, [w1; w2; w3], Some u)
        else
          r <- task_munmap fuel a nn e libc garbage w2 (u_start u) (u_end u - u_start u) ;;
          let '(err, w3) := r in
          let w4 := snd (task_detach e w3) in
          Some (if negb (err =? 0) then - ENOEXEC else 0, w4, [w1; w2; w3; w4], Some u)
  end.
End Patch.
