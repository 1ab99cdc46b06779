(** Handles of ELF files: src/elf/open.c.

    Memory, descriptors and libelf objects are resources owned by a handle (numbered by the
    open that made it); releasing something that is not owned is undefined behaviour: None. *)
From Coq Require Import ZArith List Bool.
From Verif Require Import Word Str.
Import ListNotations.
Open Scope Z_scope.

Notation "x <- e ;; k" := (match e with Some x => k | None => None end)
  (at level 60, e at next level, right associativity).

(** The k-th build id string and the k-th mcount name allocated while reading a file. *)
Inductive res := RFd | RLib | RObj | REhdr | RPhdrs | RShdrs | RNames | RBid (k : nat) | RMc (k : nat) | RSyms.
Definition res_eqb (a b : res) : bool :=
  match a, b with
  | RFd, RFd | RLib, RLib | RObj, RObj | REhdr, REhdr | RPhdrs, RPhdrs | RShdrs, RShdrs | RNames, RNames | RSyms, RSyms => true
  | RBid j, RBid k | RMc j, RMc k => Nat.eqb j k
  | _, _ => false
  end.

(** build_id of a handle: the last string allocated, or the literal NO_BUILD_ID (open.c 156-158). *)
Inductive bid := BStr (k : nat) | BLit.

(** struct elf_file: the fields that decide what is released; [h_mc] counts mcount names. *)
Record handle := Hd { h_id : nat; h_path : list Z; h_bid : bid; h_mc : nat }.

(** elf_file_list, elf_files_number (uint16_t), what is owned, number of the next handle. *)
Record est := St { handles : list handle; number : Z; owned : nat -> res -> bool; next : nat }.

Definition est0 : est := St [] 0 (fun _ _ => false) 0.

(** What the file and libelf answer to one open: the file exists and can be opened,
    elf_begin and elf_getident succeed, ehdr_ok, elf_getshdrstrndx and gelf_getshdr succeed,
    handle_sections succeeds; build id notes and mcount symbols seen; the type is ET_REL. *)
Record fenv := Fe { f_exist : bool; f_begin : bool; f_ident : bool; f_ehdr : bool; f_shdr : bool; f_sections : bool;
                    f_bids : nat; f_mcs : nat; f_rel : bool }.

Definition own (o : nat -> res -> bool) (id : nat) (r : res) : nat -> res -> bool :=
  fun i x => if Nat.eqb i id && res_eqb x r then true else o i x.
Definition owns (o : nat -> res -> bool) (id : nat) (l : list res) : nat -> res -> bool := fold_left (fun o r => own o id r) l o.
Definition release (o : nat -> res -> bool) (id : nat) (r : res) : option (nat -> res -> bool) :=
  if o id r then Some (fun i x => if Nat.eqb i id && res_eqb x r then false else o i x) else None.
Fixpoint releases (o : nat -> res -> bool) (id : nat) (l : list res) : option (nat -> res -> bool) :=
  match l with [] => Some o | r :: l => o <- release o id r ;; releases o id l end.

(** elf_file_find, open.c 22-41. *)
Definition elf_file_find (s : est) (p : list Z) : option handle :=
  find (fun h => str_eqb (h_path h) p) (handles s).

Definition strings (f : nat -> res) (n : nat) : list res := map f (seq 0 n).
Definition last_bid (n : nat) : list res := match n with O => [] | S k => [RBid k] end.

(** elf_file_open, open.c 43-190: the handle (None: NULL).  A file that does not exist cannot
    be opened either.  handle_notes (note.c 254-299) allocates a string per build id note,
    handle_symtab (symbol.c 298-336) a name per mcount symbol; both keep the last. *)
Definition elf_file_open (s : est) (p : list Z) (f : fenv) : option (option nat * est) :=
  if negb (f_exist f) then Some (None, s) else
  match elf_file_find s p with
  | Some h => Some (Some (h_id h), s)
  | None =>
      let id := next s in
      let fail o := Some (None, St (handles s) (number s) o (S id)) in
      let o := own (owned s) id RFd in
      if negb (f_begin f) then o <- release o id RFd ;; fail o else
      let o := own o id RLib in
      if negb (f_ident f) then o <- releases o id [RLib; RFd] ;; fail o else
      let o := owns o id [RObj; REhdr] in
      if negb (f_ehdr f) then o <- releases o id [REhdr; RObj; RLib; RFd] ;; fail o else
      let o := owns o id [RPhdrs; RShdrs; RNames] in
      let rest := [RPhdrs; REhdr; RObj; RLib; RFd] in
      if negb (f_shdr f) then o <- releases o id (RNames :: RShdrs :: rest) ;; fail o else
      let o := owns o id (strings RBid (f_bids f)) in
      if negb (f_sections f) then o <- releases o id (RNames :: RShdrs :: last_bid (f_bids f) ++ rest) ;; fail o else
      let o := owns (own o id RSyms) id (strings RMc (f_mcs f)) in
      match f_bids f, f_rel f with
      | O, false => o <- releases o id (RNames :: RShdrs :: rest) ;; fail o
      | O, true => Some (Some id, St (handles s ++ [Hd id p BLit (f_mcs f)]) ((number s + 1) mod 65536) o (S id))
      | S k, _ => Some (Some id, St (handles s ++ [Hd id p (BStr k) (f_mcs f)]) ((number s + 1) mod 65536) o (S id))
      end
  end.

Definition ENOENT := 2.

(** elf_file_close, open.c 192-234. *)
Definition elf_file_close (s : est) (p : list Z) : option (Z * est) :=
  if number s <=? 0 then Some (- ENOENT, s) else
  match elf_file_find s p with
  | None => Some (- ENOENT, s)
  | Some h =>
      let id := h_id h in
      o <- match h_bid h with BStr k => release (owned s) id (RBid k) | BLit => None end ;;
      o <- releases o id [RNames; RShdrs; RPhdrs; REhdr] ;;
      o <- match h_mc h with O => Some o | S k => release o id (RMc k) end ;;
      o <- releases o id [RSyms; RFd; RLib; RObj] ;;
      Some (0, St (filter (fun x => negb (Nat.eqb (h_id x) id)) (handles s)) ((number s - 1) mod 65536) o (next s))
  end.

(** A client: opens and closes. *)
Inductive eop := Open (p : list Z) (f : fenv) | Close (p : list Z).
Definition estep (s : est) (o : eop) : option est :=
  match o with
  | Open p f => r <- elf_file_open s p f ;; Some (snd r)
  | Close p => r <- elf_file_close s p ;; Some (snd r)
  end.
Fixpoint erun (s : est) (l : list eop) : option est :=
  match l with [] => Some s | o :: l => s <- estep s o ;; erun s l end.

(** ** Specification *)

(** An open succeeds iff every step of it does and there is a build id (object files need none). *)
Definition opens (f : fenv) : bool :=
  f_exist f && f_begin f && f_ident f && f_ehdr f && f_shdr f && f_sections f && (f_rel f || negb (Nat.eqb (f_bids f) 0)).

(** Ordinary files: one build id note at most, exactly one in files that are read to the end,
    and at most one mcount symbol. *)
Definition ordinary (f : fenv) : Prop :=
  (f_bids f <= 1)%nat /\ (f_mcs f <= 1)%nat /\ (f_sections f = true -> f_bids f = 1%nat).

(** The paths open after a history, if no path is opened while it is open. *)
Fixpoint open_paths (l : list eop) (paths : list (list Z)) : list (list Z) :=
  match l with
  | [] => paths
  | Open p f :: r => open_paths r (if opens f then paths ++ [p] else paths)
  | Close p :: r => open_paths r (filter (fun q => negb (str_eqb q p)) paths)
  end.
Fixpoint disciplined (l : list eop) (paths : list (list Z)) : Prop :=
  match l with
  | [] => True
  | Open p f :: r => ~ In p paths /\ ordinary f /\ (Z.of_nat (List.length paths) < 65535) /\
                     disciplined r (if opens f then paths ++ [p] else paths)
  | Close p :: r => disciplined r (filter (fun q => negb (str_eqb q p)) paths)
  end.

(** Everything a usable handle needs. *)
Definition needs (h : handle) (r : res) : Prop :=
  match r with
  | RBid k => h_bid h = BStr k
  | RMc k => h_mc h = S k
  | _ => True
  end.
