(** Properties C144-C153: what is read from an ELF file and how it is listed. *)
From Coq Require Import ZArith String List Bool Lia ZifyBool ZifyNat.
From Verif Require Import Word WordLemmas Str ElfDefs EcModel EcSpec EcProofs.
From Verif Require ElfModel ElfSpec TextModel TextSpec.
Import ListNotations.
Open Scope Z_scope.

(** A shared object: strings, symbols, notes, code, uninitialised data. *)
Definition ex_str : list Z := [0] ++ str "main" ++ [0] ++ str "mcount" ++ [0] ++ str "counter" ++ [0].
Definition ex_main := Sy 1 0x12 0 4 0x1000 32.
Definition ex_mcount := Sy 6 0x12 2 4 0x1020 8.
Definition ex_counter := Sy 13 0x11 0 5 0x3000 8.
Definition ex_undef := Sy 0 0 0 0 0 0.
Definition ex_syms : list (list Z * sym) := [([], ex_undef); (str "main", ex_main); (str "mcount", ex_mcount); (str "counter", ex_counter)].
Definition ex_note := Nt (str "GNU") 3 [0xde; 0xad; 0x01].
Definition ex_note_bytes : list Z := [4; 0; 0; 0; 3; 0; 0; 0; 3; 0; 0; 0; 71; 78; 85; 0; 0xde; 0xad; 0x01; 0].
Definition ex_text := Shdr 0 1 6 0x1000 0x1000 0x100 0 0 16 0.
Definition ex_bss := Shdr 0 8 3 0x3000 0x2100 0x40 0 0 8 0.
Definition ex_load1 := Ph 1 0x1000 0x1000 0x1000 0x200 0x200 5 4096.
Definition ex_load2 := Ph 1 0x2000 0x2f00 0x2f00 0x100 0x200 6 4096.
Definition ex_file : efile :=
  Ef [shdr0; Shdr 0 3 0 0 0 26 0 0 1 0; Shdr 0 2 0 0 0 96 1 1 8 24; Shdr 0 7 2 0 0 20 0 0 4 0; ex_text; ex_bss] [ex_load1; ex_load2]
     (fun i => if i =? 1 then Some ex_str else if i =? 2 then Some (flat_map (fun x => sym_bytes (snd x)) ex_syms)
               else if i =? 3 then Some ex_note_bytes else None) 1 [].

Lemma string_at_dec f sec off nm d : f_data f sec = Some d -> forallb (fun c => negb (c =? 0)) nm = true -> 0 <= off ->
  skipn (Z.to_nat off) d = nm ++ 0 :: skipn (S (Z.to_nat off + List.length nm)) d -> string_at f sec off nm.
Proof.
  intros D N P E. exists (firstn (Z.to_nat off) d), (skipn (S (Z.to_nat off + List.length nm)) d). rewrite <- E, firstn_skipn. split; [exact D|].
  split; [|intros I; rewrite forallb_forall in N; apply N in I; lia].
  assert (L : (List.length (skipn (Z.to_nat off) d) > 0)%nat) by (rewrite E, app_length; cbn [List.length]; lia).
  rewrite skipn_length in L. rewrite firstn_length. lia.
Qed.
Lemma ex_named : named ex_file.
Proof. repeat constructor; exists []; (apply (string_at_dec _ _ _ _ ex_str); [reflexivity|reflexivity|cbn; lia|reflexivity]). Qed.
Lemma ex_symtab : symbols ex_file 2 ex_syms.
Proof.
  exists 2. split.
  - right. split; [lia|]. exists [shdr0; Shdr 0 3 0 0 0 26 0 0 1 0], (Shdr 0 2 0 0 0 96 1 1 8 24), [Shdr 0 7 2 0 0 20 0 0 4 0; ex_text; ex_bss].
    repeat split. repeat constructor; discriminate.
  - right. split; [lia|]. split.
    + exists []. rewrite app_nil_r. split; [reflexivity|]. split; [cbn; lia|].
      repeat constructor; cbn [fst snd y_name ex_undef ex_main ex_mcount ex_counter y_info y_other y_shndx y_value y_size]; unfold isbyte; try lia;
        (apply (string_at_dec _ _ _ _ ex_str); [reflexivity|reflexivity|lia|reflexivity]).
    + repeat constructor; unfold section_ok; cbn [snd y_shndx ex_undef ex_main ex_mcount ex_counter f_shdrs ex_file List.length]; lia.
Qed.
Lemma ex_dynsym : symbols ex_file 11 [].
Proof. exists 0. split; [|left; auto]. left. split; [reflexivity|]. repeat constructor; discriminate. Qed.
Lemma ex_note_of : note_bytes ex_note ex_note_bytes.
Proof.
  exists (str "GNU" ++ [0]), [0xde; 0xad; 0x01; 0]. split; [exists []; repeat split; cbn; lia|]. split; [exists [0]; repeat split; cbn; lia|reflexivity].
Qed.
Lemma ex_note_ok : note_ok ex_note.
Proof. repeat split; try (cbn; lia); try (cbn; intuition discriminate); repeat constructor; cbn; lia. Qed.
Lemma ex_notes : file_notes ex_file [[]; []; []; [ex_note]; []; []].
Proof.
  split; [reflexivity|]. intros i h ns H N. destruct i as [|[|[|[|[|[|i]]]]]]; cbn in H, N; try (destruct i; discriminate H);
    injection H as <-; injection N as <-; (split; [|intros; reflexivity || (exfalso; cbn in *; lia)]); intros T; try discriminate T.
  exists [ex_note_bytes]. split; [reflexivity|]. split; repeat constructor; auto using ex_note_of; apply ex_note_ok.
Qed.
Lemma ex_small : small_notes ex_file.
Proof.
  intros i h d H T D. destruct i as [|[|[|[|[|[|i]]]]]]; cbn in H; try (destruct i; discriminate H); injection H as <-; try discriminate T.
  cbn in D. injection D as <-. split; [repeat constructor; lia|cbn; lia].
Qed.
Lemma ex_interp : interp_ok ex_file.
Proof. intros p [<-|[<-|[]]] T; discriminate T. Qed.

(** ** C144: the build id is the last one among the notes of the file *)
Theorem C144_notes ns bs bid : Forall2 note_bytes ns bs -> Forall note_ok ns ->
  exists bid', handle_notes (Some (concat bs)) bid = Some (0, bid') /\ id_after ns bid bid'.
Proof. intros F O. unfold handle_notes. apply notes_lines; auto. Qed.
Lemma phdrs_fine debug f : debug = false \/ interp_ok f -> forall l i, incl l (f_phdrs f) -> exists j, handle_phdrs debug f l i = Some j.
Proof.
  intros D. induction l as [|p l IH]; intros i S; cbn [handle_phdrs]; [eauto|].
  assert (S' : incl l (f_phdrs f)) by (intros x I; apply S; right; auto).
  destruct (Z.eqb_spec (p_type p) 3) as [T|]; [|apply IH; auto].
  replace (debug && match cstring (skipn (Z.to_nat (p_offset p)) (f_raw f)) with None => true | _ => false end) with false; [apply IH; auto|].
  destruct D as [->|D]; [reflexivity|]. destruct (D p (S p (or_introl eq_refl)) T) as (a & nm & b & E & L & N).
  rewrite E, skipn_app_all by lia. rewrite cstring_at by auto. rewrite andb_false_r. reflexivity.
Qed.
Theorem C144_file debug etype f nss st dy : named f -> file_notes f nss -> symbols f 2 st -> symbols f 11 dy -> debug = false \/ interp_ok f ->
  exists c bid, id_after (concat nss) None bid /\
    elf_contents debug etype f =
      Some (match bid with Some t => Some (t, c) | None => if etype =? 1 then Some (str "No Build ID", c) else None end).
Proof.
  intros N F S D G. destruct (sections_ok f st dy N (fine_notes f nss F) S D) as (c & E & L & _).
  exists c, (x_bid (c_secs c)). split; [apply (loop_id f nss F (f_shdrs f) [] [] nss _ 0 _ eq_refl eq_refl eq_refl L eq_refl)|].
  unfold elf_contents. destruct (phdrs_fine debug f G (f_phdrs f) None (incl_refl _)) as (j & ->). rewrite E. cbn [Z.eqb negb].
  destruct (x_bid (c_secs c)); [reflexivity|]. destruct (etype =? 1); reflexivity.
Qed.
Example C144_example : Forall2 note_bytes [ex_note] [ex_note_bytes] /\ Forall note_ok [ex_note] /\
  handle_notes (Some ex_note_bytes) None = Some (0, Some (str "dead01")) /\
  named ex_file /\ file_notes ex_file [[]; []; []; [ex_note]; []; []] /\ symbols ex_file 2 ex_syms /\ symbols ex_file 11 [] /\ interp_ok ex_file /\
  exists c, elf_contents true 3 ex_file = Some (Some (str "dead01", c)).
Proof.
  split; [repeat constructor; apply ex_note_of|]. split; [repeat constructor; apply ex_note_ok|]. split; [reflexivity|].
  split; [apply ex_named|]. split; [apply ex_notes|]. split; [apply ex_symtab|]. split; [apply ex_dynsym|]. split; [apply ex_interp|].
  eexists. vm_compute. reflexivity.
Qed.
Print Assumptions C144_notes.
Print Assumptions C144_file.

(** ** C145: whatever the bytes of a note section are, reading them stays in memory *)
Theorem C145_notes_safe_partial d bid : Forall isbyte d -> Z.of_nat (List.length d) < 2 ^ 31 ->
  exists r bid', handle_notes (Some d) bid = Some (r, bid') /\ (r = 0 \/ r = - ENODATA).
Proof. intros F L. apply notes_any; auto. Qed.
(** A build id of 2^31 bytes: room for one byte is allocated. *)
Theorem C145_notes_safe_refuted : exists d, Forall isbyte d /\ forall bid, handle_notes (Some d) bid = None.
Proof.
  assert (D : exists desc, Forall isbyte desc /\ len desc = 2 ^ 31).
  { exists (repeat 0 (Z.to_nat (2 ^ 31))). split; [|unfold len; rewrite repeat_length, Z2Nat.id; [reflexivity|apply Z.pow_nonneg; discriminate]].
    generalize (Z.to_nat (2 ^ 31)). intros n. induction n; cbn [repeat]; constructor; auto. unfold isbyte. lia. }
  destruct D as (desc & Fd & Ld). set (o := str "GNU" ++ [0]).
  exists (le_bytes 4 (len o) ++ le_bytes 4 (len desc) ++ le_bytes 4 3 ++ o ++ desc ++ []). split.
  - rewrite !Forall_app. split; [apply le_bytes_range|]. split; [apply le_bytes_range|]. split; [apply le_bytes_range|].
    split; [unfold o, isbyte; repeat constructor; lia|]. split; [exact Fd|constructor].
  - intros bid. set (d := le_bytes 4 (len o) ++ le_bytes 4 (len desc) ++ le_bytes 4 3 ++ o ++ desc ++ []).
    assert (G : getnote d = Some (Gn (len o) (len desc) 3 (o ++ desc ++ []) (desc ++ []) [])).
    { apply getnote_parts; [| |change (len o) with 4; lia|change (len o) with 4; lia|rewrite Ld; lia|lia].
      - exists []. rewrite app_nil_r. split; [reflexivity|]. split; [cbn [List.length]; lia|reflexivity].
      - exists []. rewrite app_nil_r. split; [reflexivity|]. split; [cbn [List.length]; lia|]. fold (len desc). rewrite Ld. reflexivity. }
    assert (Nd : d <> []) by (unfold d; intros Z0; apply (f_equal (@List.length _)) in Z0; rewrite app_length, le_bytes_length in Z0; cbn [List.length] in Z0; lia).
    clearbody d. unfold handle_notes. cbn [notes_loop]. destruct d as [|c0 d0]; [contradiction|]. rewrite G. cbn [n_namesz n_type n_descsz n_at_name n_at_desc n_rest].
    change (len o =? 0) with false. cbv iota. unfold elf_object_note.
    rewrite Ld. change ((2 ^ 31 =? 0) && (3 =? 1)) with false. cbv iota.
    change (o ++ desc ++ []) with (str "GNU" ++ 0 :: (desc ++ [])). rewrite cmp_lit_eq by (vm_compute; intuition discriminate).
    change (str_eqb (str "GNU") (str "GNU")) with true. cbv iota. change (u32 (2 ^ 31 * 2 + 1) <? 2 ^ 31 * 2 + 1) with true. reflexivity.
Qed.
Example C145_example : Forall isbyte [200; 0; 0; 0; 3; 0; 0; 0; 3; 0; 0; 0; 71] /\
  handle_notes (Some [200; 0; 0; 0; 3; 0; 0; 0; 3; 0; 0; 0; 71]) (Some (str "00")) = Some (- ENODATA, Some (str "00")).
Proof. split; [repeat constructor; unfold isbyte; lia|reflexivity]. Qed.
Print Assumptions C145_notes_safe_partial.
Print Assumptions C145_notes_safe_refuted.

(** ** C146: a malformed file is refused and does no harm *)
Theorem C146_reads_partial debug etype f st dy : named f -> small_notes f -> symbols f 2 st -> symbols f 11 dy -> debug = false \/ interp_ok f ->
  exists r, elf_contents debug etype f = Some r.
Proof.
  intros N F S D G. destruct (sections_ok f st dy N (fine_small f F) S D) as (c & E & _).
  unfold elf_contents. destruct (phdrs_fine debug f G (f_phdrs f) None (incl_refl _)) as (j & ->). rewrite E. cbn [Z.eqb negb].
  destruct (x_bid (c_secs c)); [eauto|]. destruct (etype =? 1); eauto.
Qed.
Definition with_syms (l : list (list Z * sym)) : efile :=
  Ef (f_shdrs ex_file) (f_phdrs ex_file)
     (fun i => if i =? 2 then Some (flat_map (fun x => sym_bytes (snd x)) l) else f_data ex_file i) 1 [].
(** A name outside the strings; a section that does not exist; symbols that cannot be read. *)
Theorem C146_reads_refuted :
  (exists s, sym_ok s /\ section_ok ex_file s /\ elf_contents false 3 (with_syms [([], s)]) = None) /\
  (exists s nm, sym_ok s /\ string_at ex_file 1 (y_name s) nm /\ elf_contents false 3 (with_syms [(nm, s)]) = None) /\
  (exists data, (forall i, i <> 2 -> data i = f_data ex_file i) /\ elf_contents false 3 (Ef (f_shdrs ex_file) (f_phdrs ex_file) data 1 []) = None).
Proof.
  split; [|split].
  - exists (Sy 1000 0x12 0 4 0x1000 32). split; [unfold sym_ok, isbyte; cbn; lia|]. split; [unfold section_ok; cbn; lia|]. vm_compute. reflexivity.
  - exists (Sy 1 0x12 0 77 0x1000 32), (str "main"). split; [unfold sym_ok, isbyte; cbn; lia|]. split; [apply (string_at_dec _ _ _ _ ex_str); [reflexivity|reflexivity|cbn; lia|reflexivity]|]. vm_compute. reflexivity.
  - exists (fun i => if i =? 2 then None else f_data ex_file i). split; [intros i H; destruct (Z.eqb_spec i 2); [contradiction|reflexivity]|]. vm_compute. reflexivity.
Qed.
Example C146_example : named ex_file /\ small_notes ex_file /\ symbols ex_file 2 ex_syms /\ symbols ex_file 11 [] /\ interp_ok ex_file.
Proof. auto using ex_named, ex_small, ex_symtab, ex_dynsym, ex_interp. Qed.
Print Assumptions C146_reads_partial.
Print Assumptions C146_reads_refuted.

(** ** C147: a symbol looked up is the first of that name and kind, the static table before the dynamic one *)
Theorem C147_lookup debug etype f st dy : named f -> small_notes f -> symbols f 2 st -> symbols f 11 dy -> debug = false \/ interp_ok f ->
  forall b c, elf_contents debug etype f = Some (Some (b, c)) ->
  forall k nm, match find_kind (c_tab c) (code k) nm with
               | Some e => n_name e = nm /\ first_of (st ++ dy) nm k (n_sym e)
               | None => forall s, ~ first_of (st ++ dy) nm k s
               end.
Proof.
  intros N F S D G b c E k nm. destruct (sections_ok f st dy N (fine_small f F) S D) as (c' & E' & _ & Ix & _).
  assert (c' = c).
  { unfold elf_contents in E. destruct (handle_phdrs debug f (f_phdrs f) None); [|discriminate]. rewrite E' in E. cbn [Z.eqb negb] in E.
    destruct (x_bid (c_secs c')); [congruence|]. destruct (etype =? 1); congruence. }
  subst c'. specialize (Ix k nm). destruct (find_kind (c_tab c) (code k) nm) as [e|]; [tauto|].
  intros s (a & b' & El & K & _). apply (Ix (nm, s)); [rewrite El; apply in_app_iff; right; left; reflexivity|auto].
Qed.
Example C147_example : exists b c, elf_contents false 3 ex_file = Some (Some (b, c)) /\
  option_map n_sym (find_kind (c_tab c) (code ElfSpec.Defined) (str "counter")) = Some ex_counter /\
  find_kind (c_tab c) (code ElfSpec.Extern) (str "counter") = None.
Proof. do 2 eexists. split; [vm_compute; reflexivity|]. split; vm_compute; reflexivity. Qed.
Print Assumptions C147_lookup.

(** ** C148: a file that calls a tracing function is recognised *)
(** Partial: when the table has a FUNC symbol of such a name, first of its name and kind. *)
Theorem C148_traceable_partial f st dy r c : named f -> small_notes f -> symbols f 2 st -> symbols f 11 dy -> handle_sections f = Some (r, c) ->
  match c_mcount c with Some nm => traced (st ++ dy) nm | None => forall nm, ~ traced (st ++ dy) nm end.
Proof. intros N F S D E. destruct (sections_ok f st dy N (fine_small f F) S D) as (c' & E' & _ & _ & T). rewrite E' in E. injection E as _ <-. exact T. Qed.
(** In an object file compiled with -pg, mcount is undefined and has no type. *)
Theorem C148_traceable_refuted : exists s, sym_ok s /\ has_kind s ElfSpec.Extern /\
  exists c, handle_sections (with_syms [([], ex_undef); (str "mcount", s)]) = Some (0, c) /\ c_mcount c = None /\
    option_map n_sym (find_kind (c_tab c) (code ElfSpec.Extern) (str "mcount")) = Some s.
Proof.
  exists (Sy 6 0x10 0 0 0 0). split; [unfold sym_ok, isbyte; cbn; lia|]. split; [apply (code_kind (str "mcount")); reflexivity|].
  eexists. split; [vm_compute; reflexivity|]. split; vm_compute; reflexivity.
Qed.
Example C148_example : exists c, handle_sections ex_file = Some (0, c) /\ c_mcount c = Some (str "mcount") /\ traced (ex_syms ++ []) (str "mcount").
Proof.
  eexists. split; [vm_compute; reflexivity|]. split; [reflexivity|].
  exists [([], ex_undef); (str "main", ex_main)], ex_mcount, [(str "counter", ex_counter)], ElfSpec.Defined. split; [reflexivity|].
  split; [unfold tracing; auto|]. split; [reflexivity|]. split; [apply (code_kind (str "mcount")); reflexivity|].
  intros x [<-|[<-|[]]] (E & _); discriminate E.
Qed.
Print Assumptions C148_traceable_partial.
Print Assumptions C148_traceable_refuted.

(** ** C149: the segments a symbol is in are those with its section *)
Theorem C149_segments_partial f st dy r c nm e h : named f -> small_notes f -> symbols f 2 st -> symbols f 11 dy -> handle_sections f = Some (r, c) ->
  find_kind (c_tab c) (code ElfSpec.Defined) nm = Some e ->
  nth_error (f_shdrs f) (Z.to_nat (y_shndx (n_sym e))) = Some h ->
  0 <= sh_offset h -> 0 <= sh_size h -> sh_offset h + sh_size h < 2 ^ 64 ->
  (forall p, In p (f_phdrs f) -> 0 <= p_offset p /\ 0 <= p_filesz p /\ p_offset p + p_filesz p < 2 ^ 64) ->
  forall p, In p (n_phdrs e) <-> In p (f_phdrs f) /\ in_segment h p.
Proof.
  intros N F S D E Fd Nh O1 O2 O3 P p. destruct (sections_ok f st dy N (fine_small f F) S D) as (c' & E' & _ & Ix & _).
  rewrite E' in E. injection E as _ <-. specialize (Ix ElfSpec.Defined nm). rewrite Fd in Ix. destruct Ix as (_ & (a & b & _ & K & _) & Ph').
  assert (U : is_undef_symbol (y_shndx (n_sym e)) = false).
  { apply (code_kind nm) in K. unfold ElfModel.alloc_symbol in K. cbn [ElfModel.s_type] in K.
    destruct (ElfModel.is_extern_symbol _); [discriminate K|]. cbn [ElfModel.g_st_shndx] in K. destruct (is_undef_symbol (y_shndx (n_sym e))); [discriminate K|reflexivity]. }
  unfold sym_phdrs in Ph'. rewrite U, Nh in Ph'.
  assert (Q : n_phdrs e = filter (holds h) (f_phdrs f)) by (destruct (f_phdrs f); injection Ph' as <-; reflexivity).
  rewrite Q, filter_In. unfold holds, in_segment. split; intros (I & H); (split; [exact I|]); destruct (P p I) as (P1 & P2 & P3);
    unfold u64, wrap in *; rewrite !Z.mod_small in * by lia; lia.
Qed.
(** Uninitialised data is in the memory of a segment but not in its part of the file. *)
Theorem C149_segments_refuted : exists c e, handle_sections ex_file = Some (0, c) /\ find_kind (c_tab c) (code ElfSpec.Defined) (str "counter") = Some e /\
  nth_error (f_shdrs ex_file) (Z.to_nat (y_shndx (n_sym e))) = Some ex_bss /\ In ex_load2 (f_phdrs ex_file) /\ in_memory ex_bss ex_load2 /\ n_phdrs e = [].
Proof.
  do 2 eexists. split; [vm_compute; reflexivity|]. split; [vm_compute; reflexivity|]. split; [reflexivity|]. split; [right; left; reflexivity|].
  split; [unfold in_memory; cbn; lia|reflexivity].
Qed.
Example C149_example : exists c e, handle_sections ex_file = Some (0, c) /\ find_kind (c_tab c) (code ElfSpec.Defined) (str "main") = Some e /\
  nth_error (f_shdrs ex_file) (Z.to_nat (y_shndx (n_sym e))) = Some ex_text /\ n_phdrs e = [ex_load1] /\
  forall p, In p (f_phdrs ex_file) -> 0 <= p_offset p /\ 0 <= p_filesz p /\ p_offset p + p_filesz p < 2 ^ 64.
Proof.
  do 2 eexists. split; [vm_compute; reflexivity|]. split; [vm_compute; reflexivity|]. split; [reflexivity|]. split; [reflexivity|].
  intros p [<-|[<-|[]]]; cbn; lia.
Qed.
Print Assumptions C149_segments_partial.
Print Assumptions C149_segments_refuted.

(** ** C150: the listing of symbols tells what they are *)
Theorem C150_symbols_partial pre s t nm nt : sym_ok s -> sym_ok t -> fprint_sym pre s nm None = fprint_sym pre t nt None ->
  nm = nt /\ y_value s = y_value t /\ y_size s = y_size t /\ y_shndx s = y_shndx t /\
  (In (y_info s mod 16) (map fst types_named) -> y_info s mod 16 = y_info t mod 16) /\
  (In (y_info s / 16) (map fst binds_named) -> y_info s / 16 = y_info t / 16).
Proof.
  intros S T E. destruct (fprint_inj pre s t nm nt S T E) as (Ev & Es & Ex & En & Et & Eb).
  assert (TY : forall i, 0 <= i -> st_type i = i mod 16) by (intros i H; unfold st_type; first [reflexivity|change 15 with (Z.ones 4); rewrite Z.land_ones by lia; reflexivity]).
  assert (BI : forall i, 0 <= i < 256 -> st_bind i = i / 16) by (intros i H; unfold st_bind; first [reflexivity|rewrite Z.shiftr_div_pow2 by lia; reflexivity]).
  destruct S as (_ & Si & _), T as (_ & Ti & _). unfold isbyte in *.
  repeat split; auto; intros I.
  - rewrite !type_named, !TY in Et by lia. eapply diff_names_inj; [|exact I|exact Et]. reflexivity.
  - rewrite !bind_named, !BI in Eb by lia. eapply diff_names_inj; [|exact I|exact Eb]. reflexivity.
Qed.
(** The visibility shown is not that of the symbol: a global function with default visibility is shown as hidden, and a
    hidden one is shown the same. *)
Theorem C150_symbols_refuted :
  st_visibility_string (y_info ex_main) <> visibility ex_main /\
  exists s t nm, sym_ok s /\ sym_ok t /\ visibility s <> visibility t /\ fprint_sym [] s nm None = fprint_sym [] t nm None.
Proof.
  split; [vm_compute; discriminate|]. exists ex_main, (Sy 1 0x12 2 4 0x1000 32), (str "main"). unfold sym_ok, isbyte.
  split; [cbn; lia|]. split; [cbn; lia|]. split; [vm_compute; discriminate|reflexivity].
Qed.
Example C150_example : sym_ok ex_main /\ In (y_info ex_main mod 16) (map fst types_named) /\ In (y_info ex_main / 16) (map fst binds_named) /\
  fprint_sym [] ex_main (str "main") None = str " 0x0000000000001000 32      FUNC     GLOBAL   HIDDEN       4    main" ++ [10].
Proof. split; [unfold sym_ok, isbyte; cbn; lia|]. split; [cbn; auto|]. split; [cbn; auto|reflexivity]. Qed.
Print Assumptions C150_symbols_partial.
Print Assumptions C150_symbols_refuted.

(** ** C151: the version of a symbol is found *)
(** Partial: none is ever found, so no symbol gets a wrong one. *)
Theorem C151_versions_partial versym look isym : sym_version versym look isym = None.
Proof. destruct versym; reflexivity. Qed.
Theorem C151_versions_refuted : exists d look isym v t, getversym (Some d) isym = Some v /\ 1 < v < 0x8000 /\ look v = Some t /\ sym_version (Some d) look isym = None.
Proof. exists [0; 0; 2; 0], (fun _ => Some (str "GLIBC_2.2.5")), 1, 2, (str "GLIBC_2.2.5"). repeat split; lia. Qed.
Print Assumptions C151_versions_partial.
Print Assumptions C151_versions_refuted.

(** ** C152: the listing of program headers tells what they are *)
Theorem C152_phdrs_partial pre p q : phdr_ok p -> phdr_ok q -> print_phdr pre p = print_phdr pre q ->
  p_offset p = p_offset q /\ p_vaddr p = p_vaddr q /\ p_paddr p = p_paddr q /\ p_filesz p = p_filesz q /\ p_memsz p = p_memsz q /\ p_align p = p_align q /\
  (forall i, 0 <= i < 3 -> Z.testbit (p_flags p) i = Z.testbit (p_flags q) i) /\
  (In (p_type p) (map fst phdr_types) -> p_type p = p_type q).
Proof.
  intros P Q E. destruct (print_phdr_inj pre p q P Q E) as (Et & Ef & H). destruct H as (H1 & H2 & H3 & H4 & H5 & H6).
  do 6 (split; [assumption|]). apply phdr_flags_inj in Ef. destruct Ef as (F0 & F1 & F2). split.
  - intros i I. assert (C : i = 0 \/ i = 1 \/ i = 2) by lia. destruct C as [->|[->| ->]]; assumption.
  - intros I. eapply diff_names_inj; [|exact I|exact Et]. vm_compute. reflexivity.
Qed.
(** Two types the table does not have are shown the same. *)
Theorem C152_phdrs_refuted : exists p q, phdr_ok p /\ phdr_ok q /\ p_type p <> p_type q /\ print_phdr [] p = print_phdr [] q.
Proof. exists (Ph 0x70000001 0 0 0 0 0 4 4), (Ph 0x6474e555 0 0 0 0 0 4 4). unfold phdr_ok. cbn [p_type p_flags p_offset p_vaddr p_paddr p_filesz p_memsz p_align]. repeat split; try lia. Qed.
Example C152_example : phdr_ok ex_load2 /\ In (p_type ex_load2) (map fst phdr_types) /\
  print_phdr [] ex_load2 = str "  LOAD             0x0000000000002000 0x0000000000002f00 0000000000002f00" ++ [10] ++
                           str "                   0x0000000000000100 0x0000000000000200 RW       00001000" ++ [10].
Proof. split; [unfold phdr_ok; cbn; lia|]. split; [cbn; auto|]. vm_compute. reflexivity. Qed.
Print Assumptions C152_phdrs_partial.
Print Assumptions C152_phdrs_refuted.

(** ** C153: the listing of the ELF header tells what it is *)
Theorem C153_header_partial g h : ehdr_ok g -> ehdr_ok h -> firstn 4 (e_ident g) = [127; 69; 76; 70] -> print_ehdr g = print_ehdr h ->
  e_ident g = e_ident h /\ e_version g = e_version h /\ e_entry g = e_entry h /\ e_phoff g = e_phoff h /\ e_shoff g = e_shoff h /\ e_flags g = e_flags h /\
  e_ehsize g = e_ehsize h /\ e_phentsize g = e_phentsize h /\ e_phnum g = e_phnum h /\ e_shentsize g = e_shentsize h /\ e_shnum g = e_shnum h /\
  e_shstrndx g = e_shstrndx h /\ (0 <= e_type g <= 4 -> e_type g = e_type h) /\ (In (e_machine g) [0; 40; 62; 183] -> e_machine g = e_machine h).
Proof.
  intros G H M E. destruct (print_ehdr_inj g h G H M E) as (H0 & Ht & Hm & H1 & H2 & H3 & H4 & H5 & H6 & H7 & H8 & H9 & H10 & H11).
  do 12 (split; [assumption|]). split; intros I.
  - unfold e_type_string in Ht. eapply diff_names_inj; [|idtac|exact Ht]; [vm_compute; reflexivity|].
    assert (C : e_type g = 0 \/ e_type g = 1 \/ e_type g = 2 \/ e_type g = 3 \/ e_type g = 4) by lia. cbn [map fst In]. intuition.
  - unfold e_machine_string in Hm. eapply diff_names_inj; [|idtac|exact Hm]; [vm_compute; reflexivity|]. cbn [map fst In] in *. intuition.
Qed.
(** Exactly what does not begin like an ELF file is refused, and nothing is written for it. *)
Theorem C153_not_elf h : ehdr_ok h -> (firstn 4 (e_ident h) <> [127; 69; 76; 70] <-> fst (print_ehdr h) <> 0) /\ (fst (print_ehdr h) <> 0 -> print_ehdr h = (- EINVAL, [])).
Proof.
  intros (L & _). unfold print_ehdr. destruct (e_ident h) as [|a [|b [|c [|d l]]]]; cbn [List.length] in L; try lia. cbn [firstn nth].
  destruct (Z.eqb_spec a 127), (Z.eqb_spec b 69), (Z.eqb_spec c 76), (Z.eqb_spec d 70); cbn [andb negb fst];
    (split; [|intros N; try reflexivity; exfalso; apply N; reflexivity]); (split; [intros N|intros N E; injection E as ? ? ? ?]); try (unfold EINVAL; lia); try congruence.
Qed.
(** Machines the table does not have are shown the same. *)
Definition ex_ident : list Z := [127; 69; 76; 70; 2; 1; 1; 0; 0; 0; 0; 0; 0; 0; 0; 0].
Definition ex_ehdr (machine : Z) := Eh ex_ident 3 machine 1 0x1040 64 0x3690 0 64 56 13 64 30 29.
Theorem C153_header_refuted : exists g h, ehdr_ok g /\ ehdr_ok h /\ fst (print_ehdr g) = 0 /\ e_machine g <> e_machine h /\ print_ehdr g = print_ehdr h.
Proof.
  exists (ex_ehdr 8), (ex_ehdr 243). unfold ehdr_ok. cbn [ex_ehdr e_ident e_type e_machine e_version e_entry e_phoff e_shoff e_flags].
  repeat split; try lia; try (repeat constructor; unfold isbyte; lia).
Qed.
Example C153_example : ehdr_ok (ex_ehdr 62) /\ firstn 4 (e_ident (ex_ehdr 62)) = [127; 69; 76; 70] /\ In (e_machine (ex_ehdr 62)) [0; 40; 62; 183] /\ fst (print_ehdr (ex_ehdr 62)) = 0.
Proof.
  split; [unfold ehdr_ok; cbn [ex_ehdr e_ident e_type e_machine e_version e_entry e_phoff e_shoff e_flags]; repeat split; try lia; repeat constructor; unfold isbyte; lia|].
  split; [reflexivity|]. split; [cbn; auto|reflexivity].
Qed.
Print Assumptions C153_header_partial.
Print Assumptions C153_not_elf.
Print Assumptions C153_header_refuted.
