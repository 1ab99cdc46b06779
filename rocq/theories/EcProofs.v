(** Lemmas about notes, symbol tables and sections of ELF files. *)
From Coq Require Import ZArith String List Bool Lia ZifyBool ZifyNat.
From Verif Require Import Word WordLemmas Str ElfDefs EcModel EcSpec.
From Verif Require ElfModel ElfSpec ElfProofs TextModel TextSpec TextProofs MiscModel MpModel MpProofs PrProofs VmaProofs.
Import ListNotations.
Open Scope Z_scope.

(** ** Bytes *)
Lemma firstn_app_all {A} (a b : list A) n : List.length a = n -> firstn n (a ++ b) = a.
Proof. intros <-. rewrite firstn_app, Nat.sub_diag, firstn_O, app_nil_r. apply firstn_all. Qed.
Lemma skipn_app_all {A} (a b : list A) n : List.length a = n -> skipn n (a ++ b) = b.
Proof. intros <-. rewrite skipn_app, Nat.sub_diag, skipn_all. reflexivity. Qed.
Lemma word_of n v r : 0 <= v < 2 ^ (8 * Z.of_nat n) -> le_word (firstn n (le_bytes n v ++ r)) = v.
Proof. intros H. rewrite firstn_app_all by apply le_bytes_length. rewrite le_word_bytes. apply Z.mod_small. auto. Qed.
Lemma len_app a b : len (a ++ b) = len a + len b.
Proof. unfold len. rewrite app_length. lia. Qed.
Lemma len_nonneg a : 0 <= len a.
Proof. unfold len. lia. Qed.

(** ** Notes *)
Lemma align_filled l b : filled l b -> len l + 3 < 2 ^ 32 -> note_align (len l) = len b.
Proof.
  intros (p & -> & P & M) B. unfold note_align, u32, wrap. rewrite Z.mod_small by (pose proof (len_nonneg l); lia).
  fold (len (l ++ p)) in M. rewrite len_app in *. unfold len in *. revert M B P. generalize (Z.of_nat (List.length l)).
  assert (forall n q, (q < 4)%nat -> (n + Z.of_nat q) mod 4 = 0 -> (n + 3) / 4 * 4 = n + Z.of_nat q); [|intros; auto].
  intros n q Q M. lia.
Qed.

Lemma getnote_parts o d name desc ty r : filled name o -> filled desc d -> 0 < len name -> len name + 3 < 2 ^ 32 -> len desc + 3 < 2 ^ 32 -> 0 <= ty < 2 ^ 32 ->
  getnote (le_bytes 4 (len name) ++ le_bytes 4 (len desc) ++ le_bytes 4 ty ++ o ++ d ++ r) =
  Some (Gn (len name) (len desc) ty (o ++ d ++ r) (d ++ r) r).
Proof.
  intros Fo Fd N0 Ln Ld T. unfold getnote.
  assert (E4 : skipn 4 (le_bytes 4 (len name) ++ le_bytes 4 (len desc) ++ le_bytes 4 ty ++ o ++ d ++ r) = le_bytes 4 (len desc) ++ le_bytes 4 ty ++ o ++ d ++ r)
    by (apply skipn_app_all, le_bytes_length).
  assert (E8 : skipn 8 (le_bytes 4 (len name) ++ le_bytes 4 (len desc) ++ le_bytes 4 ty ++ o ++ d ++ r) = le_bytes 4 ty ++ o ++ d ++ r).
  { rewrite (app_assoc (le_bytes 4 (len name))). apply skipn_app_all. rewrite app_length, !le_bytes_length. reflexivity. }
  assert (E12 : skipn 12 (le_bytes 4 (len name) ++ le_bytes 4 (len desc) ++ le_bytes 4 ty ++ o ++ d ++ r) = o ++ d ++ r).
  { rewrite (app_assoc (le_bytes 4 (len name))), app_assoc. apply skipn_app_all. rewrite !app_length, !le_bytes_length. reflexivity. }
  destruct (Z.ltb_spec (len (le_bytes 4 (len name) ++ le_bytes 4 (len desc) ++ le_bytes 4 ty ++ o ++ d ++ r)) 12) as [H|_].
  { rewrite !len_app in H. unfold len in H. rewrite !le_bytes_length in H. lia. }
  rewrite E4, E8, E12. pose proof (len_nonneg name). pose proof (len_nonneg desc).
  rewrite !word_of by (change (2 ^ (8 * Z.of_nat 4)) with (2 ^ 32); lia).
  rewrite (align_filled name o Fo Ln), (align_filled desc d Fd Ld).
  assert (Lo : len name <= len o) by (destruct Fo as (p & -> & _); rewrite len_app; pose proof (len_nonneg p); lia).
  assert (Ldd : len desc <= len d) by (destruct Fd as (p & -> & _); rewrite len_app; pose proof (len_nonneg p); lia).
  rewrite !len_app. pose proof (len_nonneg r). pose proof (len_nonneg d).
  destruct (Z.ltb_spec (len o + (len d + len r)) (len o)); [lia|]. destruct (Z.eqb_spec (len o) 0); [lia|]. cbn [andb orb].
  assert (Es : skipn (Z.to_nat (len o)) (o ++ d ++ r) = d ++ r) by (apply skipn_app_all; unfold len; lia).
  rewrite Es, len_app.
  destruct (Z.ltb_spec (len d + len r) (len d)); [lia|]. cbn [orb].
  replace ((len d =? 0) && negb (len desc =? 0)) with false by (destruct (Z.eqb_spec (len d) 0), (Z.eqb_spec (len desc) 0); cbn; lia || reflexivity).
  rewrite skipn_app_all by (unfold len; lia). reflexivity.
Qed.

Lemma cmp_lit_eq p : forall o x, ~ In 0 p -> ~ In 0 o -> cmp_lit (p ++ [0]) (o ++ 0 :: x) = Some (str_eqb p o).
Proof.
  induction p as [|c p IH]; intros [|d o] x Np No; cbn [app cmp_lit str_eqb].
  - rewrite Z.eqb_refl. reflexivity.
  - destruct (Z.eqb_spec d 0) as [->|]; [exfalso; apply No; left; auto|reflexivity].
  - destruct (Z.eqb_spec 0 c) as [<-|]; [exfalso; apply Np; left; auto|reflexivity].
  - rewrite (Z.eqb_sym d c). destruct (Z.eqb_spec c d); [|reflexivity]. cbn [andb]. apply IH; intros I; [apply Np|apply No]; right; auto.
Qed.
Lemma cmp_lit_total p : forall m, (List.length p <= List.length m)%nat -> cmp_lit p m <> None.
Proof.
  induction p as [|c p IH]; intros [|x m] L; cbn [cmp_lit List.length] in *; try discriminate; [lia|]. destruct (x =? c); [apply IH; lia|discriminate].
Qed.

Lemma id_after_app ns1 ns2 b0 b1 b2 : id_after ns1 b0 b1 -> id_after ns2 b1 b2 -> id_after (ns1 ++ ns2) b0 b2.
Proof.
  intros [(F1 & ->)|(a & n & b & t & -> & I & F & H & ->)] [(F2 & ->)|(a' & n' & b' & t' & -> & I' & F' & H' & ->)].
  - left. split; [apply Forall_app; auto|reflexivity].
  - right. exists (ns1 ++ a'), n', b', t'. rewrite app_assoc. auto.
  - right. exists a, n, (b ++ ns2), t. rewrite <- app_assoc. split; [reflexivity|]. split; [exact I|]. split; [apply Forall_app; auto|auto].
  - right. exists ((a ++ n :: b) ++ a'), n', b', t'. rewrite <- !app_assoc. auto.
Qed.

Lemma hexes_flat l : flat_map TextModel.hex2 l = TextProofs.hexes l.
Proof. induction l as [|u l IH]; [reflexivity|]. cbn [flat_map TextProofs.hexes]. rewrite IH. reflexivity. Qed.

Lemma object_note n x r bid : note_ok n ->
  exists bid', elf_object_note (t_owner n ++ 0 :: x) (t_type n) (len (t_desc n)) (t_desc n ++ r) bid = Some bid' /\ id_after [n] bid bid'.
Proof.
  intros (O0 & Ob & Db & T & Lo & Ld). unfold elf_object_note.
  destruct ((len (t_desc n) =? 0) && (t_type n =? 1)) eqn:E.
  { eexists. split; [reflexivity|]. left. split; [|reflexivity]. constructor; [|constructor]. intros (_ & T3 & _). lia. }
  rewrite cmp_lit_eq by (auto; vm_compute; intuition discriminate). destruct (str_eqb (str "GNU") (t_owner n)) eqn:G.
  2: { eexists. split; [reflexivity|]. left. split; [|reflexivity]. constructor; [|constructor]. intros (A & _). rewrite A, str_eqb_refl in G. discriminate. }
  apply str_eqb_eq in G. destruct ((t_type n =? 3) && (0 <? len (t_desc n))) eqn:K.
  2: { eexists. split; [reflexivity|]. left. split; [|reflexivity]. constructor; [|constructor]. intros (_ & T3 & N). destruct (t_desc n) as [|c l] eqn:Ed; [contradiction|].
       rewrite T3 in K. unfold len in K. cbn [List.length] in K. lia. }
  unfold u32, wrap. fold (len (t_desc n)) in Ld. rewrite Z.mod_small by (pose proof (len_nonneg (t_desc n)); lia). rewrite Z.ltb_irrefl.
  rewrite len_app. destruct (Z.ltb_spec (len (t_desc n) + len r) (len (t_desc n))); [pose proof (len_nonneg r); lia|].
  rewrite firstn_app_all by (unfold len; lia). eexists. split; [reflexivity|]. right. exists [], n, [], (flat_map TextModel.hex2 (t_desc n)).
  split; [reflexivity|]. split; [split; [auto|split; [lia|]]|]. { intros Z0. rewrite Z0 in K. unfold len in K. cbn in K. lia. }
  split; [constructor|]. split; [|reflexivity]. rewrite hexes_flat. apply TextProofs.hexes_of. exact Db.
Qed.

Lemma notes_lines ns bs : Forall2 note_bytes ns bs -> Forall note_ok ns -> forall fuel bid, (List.length (concat bs) < fuel)%nat ->
  exists bid', notes_loop fuel (concat bs) bid = Some (0, bid') /\ id_after ns bid bid'.
Proof.
  induction 1 as [|n b ns bs H F IH]; intros Ok fuel bid Lf.
  - destruct fuel; [cbn in Lf; lia|]. exists bid. split; [reflexivity|]. left. split; [constructor|reflexivity].
  - inversion Ok as [|? ? On Or]; subst. destruct fuel as [|fuel]; [cbn in Lf; lia|].
    destruct H as (o & d & Fo & Fd & E). cbn [concat] in *.
    assert (Lb : (12 <= List.length b)%nat) by (rewrite E, !app_length, !le_bytes_length; lia).
    rewrite app_length in Lf.
    cbn [notes_loop]. destruct (b ++ concat bs) as [|c0 l0] eqn:Eb; [apply (f_equal (@List.length _)) in Eb; rewrite app_length in Eb; cbn in Eb; lia|]. rewrite <- Eb. clear c0 l0 Eb.
    pose proof On as (O0 & Ob & Db & T & Lo & Ld).
    assert (Eo : len (t_owner n ++ [0]) = Z.of_nat (List.length (t_owner n)) + 1) by (rewrite len_app; reflexivity).
    assert (G : getnote (b ++ concat bs) = Some (Gn (len (t_owner n ++ [0])) (len (t_desc n)) (t_type n) (o ++ d ++ concat bs) (d ++ concat bs) (concat bs))).
    { rewrite E, <- !app_assoc. rewrite <- Eo. apply getnote_parts; auto; try (rewrite Eo; lia). unfold len. lia. }
    rewrite G. cbn [n_namesz n_descsz n_type n_at_name n_at_desc n_rest]. destruct (Z.eqb_spec (len (t_owner n ++ [0])) 0); [lia|].
    destruct Fo as (p & -> & _). destruct Fd as (q & -> & _). rewrite <- !app_assoc. cbn [app].
    destruct (object_note n (p ++ t_desc n ++ q ++ concat bs) (q ++ concat bs) bid On) as (bid1 & E1 & A1). rewrite E1.
    destruct (IH Or fuel bid1 ltac:(lia)) as (bid2 & E2 & A2). exists bid2. split; [exact E2|].
    apply (id_after_app [n] ns bid bid1 bid2); auto.
Qed.

(** Any bytes. *)
Lemma word4_range s : Forall isbyte s -> 0 <= le_word (firstn 4 s) < 2 ^ 32.
Proof.
  intros F. assert (G : Forall (fun b => 0 <= b < 256) (firstn 4 s)) by (apply Forall_forall; intros c I; rewrite Forall_forall in F; apply F; rewrite <- (firstn_skipn 4 s); apply in_app_iff; auto).
  pose proof (le_word_range _ G) as R. assert (L : (List.length (firstn 4 s) <= 4)%nat) by apply firstn_le_length.
  assert (2 ^ (8 * Z.of_nat (List.length (firstn 4 s))) <= 2 ^ 32) by (apply Z.pow_le_mono_r; lia). lia.
Qed.
Lemma Forall_skipn {A} (P : A -> Prop) n l : Forall P l -> Forall P (skipn n l).
Proof. intros F. apply Forall_forall. intros x I. rewrite Forall_forall in F. apply F. rewrite <- (firstn_skipn n l). apply in_app_iff. auto. Qed.
Lemma align_up n : 0 <= n < 2 ^ 32 -> note_align n <> 0 \/ n = 0 -> n <= note_align n.
Proof.
  intros R H. unfold note_align, u32, wrap in *. destruct (Z_lt_ge_dec (n + 3) (2 ^ 32)) as [L|L].
  - rewrite Z.mod_small in * by lia. clear -R. lia.
  - exfalso. assert (E : (n + 3) mod 2 ^ 32 = n + 3 - 2 ^ 32) by (rewrite <- (Z.mod_small (n + 3 - 2 ^ 32) (2 ^ 32)) by lia; rewrite <- (Z_mod_plus_full (n + 3 - 2 ^ 32) 1); f_equal; lia).
    rewrite E in H. assert (n + 3 - 2 ^ 32 < 4) by lia. assert (0 <= n + 3 - 2 ^ 32) by lia. rewrite (Z.div_small (n + 3 - 2 ^ 32) 4) in H by lia. lia.
Qed.

Lemma getnote_any s n : Forall isbyte s -> getnote s = Some n ->
  Forall isbyte (n_rest n) /\ (List.length (n_rest n) < List.length s)%nat /\ (n_namesz n = 0 \/ (4 <= List.length (n_at_name n))%nat) /\
  0 <= n_descsz n <= len (n_at_desc n) /\ len (n_at_desc n) <= len s.
Proof.
  intros F G. unfold getnote in G. destruct (Z.ltb_spec (len s) 12) as [|L]; [discriminate|].
  set (nz := le_word (firstn 4 s)) in *. set (dz := le_word (firstn 4 (skipn 4 s))) in *.
  assert (Rn : 0 <= nz < 2 ^ 32) by (apply word4_range; auto). assert (Rd : 0 <= dz < 2 ^ 32) by (apply word4_range, Forall_skipn; auto).
  set (name := skipn 12 s) in *. assert (Ln : len name = len s - 12) by (unfold name, len in *; rewrite skipn_length; lia).
  destruct ((len name <? note_align nz) || (note_align nz =? 0) && negb (nz =? 0)) eqn:C1; [discriminate|].
  set (desc := skipn (Z.to_nat (note_align nz)) name) in *.
  destruct ((len desc <? note_align dz) || (note_align dz =? 0) && negb (dz =? 0)) eqn:C2; [discriminate|].
  injection G as <-. cbn [n_rest n_namesz n_at_name n_descsz n_at_desc].
  assert (An : 0 <= note_align nz) by (unfold note_align, u32, wrap; pose proof (Z.mod_pos_bound (nz + 3) (2 ^ 32) ltac:(lia)) as B; revert B; generalize ((nz + 3) mod 2 ^ 32); clear; intros; lia).
  assert (An4 : note_align nz = 0 \/ 4 <= note_align nz) by (revert An; unfold note_align; generalize (u32 (nz + 3) / 4); clear; intros; lia).
  assert (Ld : len desc <= len name) by (unfold desc, len; rewrite skipn_length; lia).
  split; [apply Forall_skipn, Forall_skipn, Forall_skipn; auto|].
  split; [rewrite skipn_length; unfold len in *; lia|].
  split; [unfold len in *; lia|]. split; [|lia]. split; [lia|]. pose proof (align_up dz Rd). lia.
Qed.

Lemma notes_any fuel : forall s bid, Forall isbyte s -> len s < 2 ^ 31 -> (List.length s < fuel)%nat ->
  exists r bid', notes_loop fuel s bid = Some (r, bid') /\ (r = 0 \/ r = - ENODATA).
Proof.
  induction fuel as [|fuel IH]; intros s bid F B L; [lia|]. cbn [notes_loop].
  destruct s as [|c s']; [eauto|]. set (s := c :: s') in *.
  destruct (getnote s) as [n|] eqn:G; [|eauto].
  destruct (getnote_any s n F G) as (Fr & Lr & Nm & Dz & Dl).
  assert (E : exists b, elf_object_note (if n_namesz n =? 0 then [0] else n_at_name n) (n_type n) (n_descsz n) (n_at_desc n) bid = Some b).
  { unfold elf_object_note. destruct ((n_descsz n =? 0) && (n_type n =? 1)); [eauto|].
    assert (C : exists q, cmp_lit (str "GNU" ++ [0]) (if n_namesz n =? 0 then [0] else n_at_name n) = Some q).
    { destruct (Z.eqb_spec (n_namesz n) 0); [eexists; reflexivity|]. destruct Nm as [|Nm]; [contradiction|].
      destruct (cmp_lit (str "GNU" ++ [0]) (n_at_name n)) eqn:E; [eauto|]. exfalso. revert E. apply cmp_lit_total. exact Nm. }
    destruct C as (q & ->). destruct q; [|eauto]. destruct ((n_type n =? 3) && (0 <? n_descsz n)); [|eauto].
    unfold u32, wrap. rewrite Z.mod_small by lia. rewrite Z.ltb_irrefl. destruct (Z.ltb_spec (len (n_at_desc n)) (n_descsz n)); [lia|eauto]. }
  destruct E as (b & ->). apply IH; [exact Fr| |lia]. unfold len in *. lia.
Qed.

(** ** Strings and symbols *)
Lemma cstring_at nm b : ~ In 0 nm -> cstring (nm ++ 0 :: b) = Some nm.
Proof.
  induction nm as [|c nm IH]; intros N; cbn [app cstring]; [reflexivity|].
  destruct (Z.eqb_spec c 0) as [->|]; [exfalso; apply N; left; auto|]. rewrite IH; [reflexivity|]. intros I. apply N. right. auto.
Qed.
Lemma strptr_at f sec off nm : string_at f sec off nm -> strptr f sec off = Some nm.
Proof.
  intros (a & b & D & L & N). unfold strptr. rewrite D. rewrite !len_app.
  destruct (Z.leb_spec (len a + (len nm + len (0 :: b))) off) as [H|_].
  { unfold len in *. cbn [List.length] in H. lia. }
  rewrite skipn_app_all by lia. apply cstring_at. auto.
Qed.

Lemma sym_bytes_len s : List.length (sym_bytes s) = 24%nat.
Proof. unfold sym_bytes. rewrite !app_length, !le_bytes_length. reflexivity. Qed.
Lemma sym_at_pre pre s r i : sym_ok s -> List.length pre = (24 * i)%nat -> sym_at (pre ++ sym_bytes s ++ r) (Z.of_nat i) = Some s.
Proof.
  intros (H1 & H2 & H3 & H4 & H5 & H6) L. unfold sym_at. rewrite !len_app.
  assert (Ls : len (sym_bytes s) = 24) by (unfold len; rewrite sym_bytes_len; reflexivity).
  destruct (Z.ltb_spec (len pre + (len (sym_bytes s) + len r)) ((Z.of_nat i + 1) * 24)) as [B|_].
  { rewrite Ls in B. pose proof (len_nonneg r). unfold len in B at 1. lia. }
  rewrite skipn_app_all by lia. unfold sym_bytes. rewrite <- !app_assoc.
  set (r8 := le_bytes 8 (y_size s) ++ r).
  assert (E4 : skipn 4 (le_bytes 4 (y_name s) ++ [y_info s; y_other s] ++ le_bytes 2 (y_shndx s) ++ le_bytes 8 (y_value s) ++ r8) = [y_info s; y_other s] ++ le_bytes 2 (y_shndx s) ++ le_bytes 8 (y_value s) ++ r8)
    by (apply skipn_app_all, le_bytes_length).
  assert (E5 : skipn 5 (le_bytes 4 (y_name s) ++ [y_info s; y_other s] ++ le_bytes 2 (y_shndx s) ++ le_bytes 8 (y_value s) ++ r8) = [y_other s] ++ le_bytes 2 (y_shndx s) ++ le_bytes 8 (y_value s) ++ r8).
  { change [y_info s; y_other s] with ([y_info s] ++ [y_other s]). rewrite <- (app_assoc [y_info s]), app_assoc. apply skipn_app_all. rewrite app_length, le_bytes_length. reflexivity. }
  assert (E6 : skipn 6 (le_bytes 4 (y_name s) ++ [y_info s; y_other s] ++ le_bytes 2 (y_shndx s) ++ le_bytes 8 (y_value s) ++ r8) = le_bytes 2 (y_shndx s) ++ le_bytes 8 (y_value s) ++ r8).
  { rewrite app_assoc. apply skipn_app_all. rewrite app_length, le_bytes_length. reflexivity. }
  assert (E8 : skipn 8 (le_bytes 4 (y_name s) ++ [y_info s; y_other s] ++ le_bytes 2 (y_shndx s) ++ le_bytes 8 (y_value s) ++ r8) = le_bytes 8 (y_value s) ++ r8).
  { rewrite app_assoc, (app_assoc _ (le_bytes 2 (y_shndx s))). apply skipn_app_all. rewrite !app_length, !le_bytes_length. reflexivity. }
  assert (E16 : skipn 16 (le_bytes 4 (y_name s) ++ [y_info s; y_other s] ++ le_bytes 2 (y_shndx s) ++ le_bytes 8 (y_value s) ++ r8) = r8).
  { rewrite app_assoc, (app_assoc _ (le_bytes 2 (y_shndx s))), app_assoc. apply skipn_app_all. rewrite !app_length, !le_bytes_length. reflexivity. }
  rewrite E4, E5, E6, E8, E16. unfold r8.
  rewrite !word_of by (first [exact H1|exact H4|exact H5|exact H6]).
  cbn [app firstn le_word]. rewrite !Z.mul_0_r, !Z.add_0_r. destruct s; reflexivity.
Qed.

(** Registering a list of symbols. *)
Fixpoint reg (f : efile) (l : list (list Z * sym)) (x : list entry * option (list Z)) : option (list entry * option (list Z)) :=
  match l with
  | [] => Some x
  | (nm, s) :: r =>
      match link_symbol f (fst x) nm s with
      | None => None
      | Some (linked, tab) => reg f r (tab, if linked && (st_type (y_info s) =? 2) && is_ftrace_entry nm then Some nm else snd x)
      end
  end.
Lemma reg_app f l1 : forall l2 x, reg f (l1 ++ l2) x = match reg f l1 x with Some y => reg f l2 y | None => None end.
Proof. induction l1 as [|(nm, s) l1 IH]; intros l2 x; cbn [app reg]; [reflexivity|]. destruct (link_symbol f (fst x) nm s) as [(lk, tab)|]; auto. Qed.

Lemma loop_reg f link l : forall pre extra x, Forall (fun y => sym_ok (snd y) /\ string_at f link (y_name (snd y)) (fst y)) l ->
  forall i, List.length pre = (24 * i)%nat ->
  symtab_loop (List.length l) f (pre ++ flat_map (fun y => sym_bytes (snd y)) l ++ extra) link (Z.of_nat i) x = reg f l x.
Proof.
  induction l as [|(nm, s) l IH]; intros pre extra x F i L; [reflexivity|].
  inversion F as [|? ? (Ok & St) Fr]; subst. cbn [fst snd] in *. cbn [List.length symtab_loop flat_map snd reg]. rewrite <- (app_assoc (sym_bytes s)).
  rewrite (sym_at_pre pre s _ i Ok L). rewrite (strptr_at _ _ _ _ St).
  destruct (link_symbol f (fst x) nm s) as [(lk, tab)|]; [|reflexivity].
  replace (Z.of_nat i + 1) with (Z.of_nat (S i)) by lia. rewrite app_assoc.
  apply IH; [exact Fr|]. rewrite app_length, sym_bytes_len. lia.
Qed.
Lemma flat_len l : List.length (flat_map (fun y : list Z * sym => sym_bytes (snd y)) l) = (24 * List.length l)%nat.
Proof. induction l as [|y l IH]; [reflexivity|]. cbn [flat_map List.length]. rewrite app_length, sym_bytes_len, IH. lia. Qed.
Lemma symtab_reg f idx l x : table f idx l -> handle_symtab f idx x = reg f l x.
Proof.
  intros (extra & D & Le & F). unfold handle_symtab. rewrite D.
  replace (Z.to_nat (len (flat_map (fun y : list Z * sym => sym_bytes (snd y)) l ++ extra) / 24)) with (List.length l).
  - change 0 with (Z.of_nat 0). apply (loop_reg f _ l []); [exact F|reflexivity].
  - rewrite len_app. unfold len. rewrite flat_len. lia.
Qed.

(** The index after a list of symbols. *)
Definition index_of (f : efile) (l : list (list Z * sym)) (tab : list entry) : Prop :=
  forall k nm, match find_kind tab (code k) nm with
               | Some e => n_name e = nm /\ first_of l nm k (n_sym e) /\ sym_phdrs f (n_sym e) = Some (n_phdrs e)
               | None => forall x, In x l -> ~ (fst x = nm /\ has_kind (snd x) k)
               end.

Lemma code_kind nm s k : ElfModel.s_type (ElfModel.alloc_symbol nm (ElfModel.Gs (y_info s) (y_shndx s))) = code k <-> has_kind s k.
Proof. unfold has_kind. rewrite <- (ElfProofs.alloc_kind nm). destruct k; reflexivity. Qed.
Lemma code_inj k k' : code k = code k' -> k = k'.
Proof. destruct k, k'; cbn; congruence || lia. Qed.
Lemma code_of nm s : exists k, ElfModel.s_type (ElfModel.alloc_symbol nm (ElfModel.Gs (y_info s) (y_shndx s))) = code k.
Proof.
  unfold ElfModel.alloc_symbol. cbn [ElfModel.s_type]. destruct (ElfModel.is_extern_symbol _); [exists ElfSpec.Extern; reflexivity|].
  destruct (is_undef_symbol _); [exists ElfSpec.Undef; reflexivity|exists ElfSpec.Defined; reflexivity].
Qed.
Lemma find_app {A} (p : A -> bool) a b : find p (a ++ b) = match find p a with Some x => Some x | None => find p b end.
Proof. induction a as [|x a IH]; [reflexivity|]. cbn [app find]. destruct (p x); auto. Qed.
Lemma existsb_find {A} (p : A -> bool) l : existsb p l = match find p l with Some _ => true | None => false end.
Proof. induction l as [|x l IH]; [reflexivity|]. cbn [existsb find]. destruct (p x); auto. Qed.

Lemma phdrs_ok f s : section_ok f s -> 0 <= y_shndx s -> exists ph, sym_phdrs f s = Some ph.
Proof.
  intros H P. unfold sym_phdrs, is_undef_symbol, SHN_UNDEF, SHN_LORESERVE. destruct ((y_shndx s =? 0) || (65280 <=? y_shndx s)) eqn:E; [eauto|].
  destruct (f_phdrs f); [eauto|]. destruct (nth_error (f_shdrs f) (Z.to_nat (y_shndx s))) eqn:N; [eauto|]. apply nth_error_None in N.
  unfold section_ok in H. lia.
Qed.

Lemma is_entry nm : is_ftrace_entry nm = true <-> tracing nm.
Proof.
  unfold is_ftrace_entry, tracing. cbn [existsb]. rewrite !orb_true_iff, !str_eqb_eq. intuition congruence.
Qed.

Lemma rev_cases {A} (l : list A) : l = [] \/ exists l' x, l = l' ++ [x].
Proof. destruct l using rev_ind; [auto|eauto]. Qed.
Lemma reg_ok f l2 : Forall (fun x => section_ok f (snd x) /\ sym_ok (snd x)) l2 -> forall l1 x, index_of f l1 (fst x) ->
  (match snd x with Some nm => traced l1 nm | None => forall nm, ~ traced l1 nm end) ->
  exists y, reg f l2 x = Some y /\ index_of f (l1 ++ l2) (fst y) /\ (match snd y with Some nm => traced (l1 ++ l2) nm | None => forall nm, ~ traced (l1 ++ l2) nm end).
Proof.
  induction 1 as [|(nm, s) l2 (So & Sy') F IH]; intros l1 x Ix Tx.
  - exists x. rewrite app_nil_r. auto.
  - cbn [snd] in *. cbn [reg]. unfold link_symbol. destruct (phdrs_ok f s So ltac:(destruct Sy' as (_ & _ & _ & H & _); lia)) as (ph & Eph). rewrite Eph.
    destruct (code_of nm s) as (k & Ek). rewrite Ek. assert (Hk : has_kind s k) by (apply (code_kind nm); exact Ek).
    assert (Hu : forall k', has_kind s k' -> k' = k) by (intros k' H'; apply (code_kind nm) in H'; apply code_inj; congruence).
    rewrite existsb_find. fold (find_kind (fst x) (code k) nm).
    assert (I2 : index_of f (l1 ++ [(nm, s)]) (match find_kind (fst x) (code k) nm with Some _ => fst x | None => fst x ++ [En nm (code k) s ph] end) /\
                 (match find_kind (fst x) (code k) nm with Some _ => False | None => True end -> forall y, In y l1 -> ~ (fst y = nm /\ has_kind (snd y) k)) /\
                 (match find_kind (fst x) (code k) nm with Some _ => True | None => False end -> exists y, In y l1 /\ fst y = nm /\ has_kind (snd y) k)).
    { split; [|split].
      - intros k' nm'. pose proof (Ix k' nm') as I'.
        destruct (find_kind (fst x) (code k) nm) as [e|] eqn:E.
        + destruct (find_kind (fst x) (code k') nm') as [e'|] eqn:E'.
          * destruct I' as (N' & (a & b & El & K' & Na) & P'). split; [exact N'|]. split; [|exact P'].
            exists a, (b ++ [(nm, s)]). rewrite El, <- app_assoc. auto.
          * intros y Iy. apply in_app_iff in Iy. destruct Iy as [Iy|[<-|[]]]; [apply I'; auto|]. cbn [fst snd]. intros (<- & K'). rewrite (Hu k' K') in E'. congruence.
        + pose proof (Ix k nm) as I0. rewrite E in I0. unfold find_kind. rewrite find_app. fold (find_kind (fst x) (code k') nm').
          destruct (find_kind (fst x) (code k') nm') as [e'|] eqn:E'.
          * destruct I' as (N' & (a & b & El & K' & Na) & P'). split; [exact N'|]. split; [|exact P'].
            exists a, (b ++ [(nm, s)]). rewrite El, <- app_assoc. auto.
          * cbn [find]. unfold same_entry. cbn [n_kind n_name]. destruct (Z.eqb_spec (code k) (code k')) as [Ec|Nc]; cbn [andb].
            -- apply code_inj in Ec. subst k'. destruct (str_eqb nm nm') eqn:En'.
               ++ apply str_eqb_eq in En'. subst nm'. cbn [n_name n_sym n_phdrs]. split; [reflexivity|]. split; [|exact Eph]. exists l1, []. split; [reflexivity|]. split; [exact Hk|exact I'].
               ++ intros y Iy. apply in_app_iff in Iy. destruct Iy as [Iy|[<-|[]]]; [apply I'; auto|]. cbn [fst snd]. intros (<- & _). rewrite str_eqb_refl in En'. discriminate.
            -- intros y Iy. apply in_app_iff in Iy. destruct Iy as [Iy|[<-|[]]]; [apply I'; auto|]. cbn [fst snd]. intros (_ & K'). apply Nc. rewrite (Hu k' K'). reflexivity.
      - intros H y Iy. pose proof (Ix k nm) as I0. destruct (find_kind (fst x) (code k) nm); [contradiction|]. apply I0; auto.
      - intros H. pose proof (Ix k nm) as I0. destruct (find_kind (fst x) (code k) nm) as [e|]; [|contradiction]. destruct I0 as (_ & (a & b & El & K' & _) & _).
        exists (nm, n_sym e). rewrite El, in_app_iff. split; [right; left; reflexivity|auto]. }
    destruct I2 as (I2 & NEW & OLD).
    assert (TR : forall nm', traced (l1 ++ [(nm, s)]) nm' <-> traced l1 nm' \/ (nm' = nm /\ tracing nm /\ st_type (y_info s) = 2 /\ forall y, In y l1 -> ~ (fst y = nm /\ has_kind (snd y) k))).
    { intros nm'. split.
      - intros (a & s' & b & k' & El & T & Ty & K' & Na). destruct (rev_cases b) as [->|(b' & z & ->)].
        + apply app_inj_tail in El. destruct El as (<- & El). injection El as <- <-. right. rewrite (Hu k' K') in Na. auto.
        + left. rewrite app_comm_cons, app_assoc in El. apply app_inj_tail in El. destruct El as (-> & _). exists a, s', b', k'. auto.
      - intros [(a & s' & b & k' & -> & H)|(-> & T & Ty & Na)].
        + exists a, s', (b ++ [(nm, s)]), k'. rewrite <- app_assoc. auto.
        + exists l1, s, [], k. auto. }
    assert (T2 : forall linked, linked = (match find_kind (fst x) (code k) nm with Some _ => false | None => true end) ->
       match (if linked && (st_type (y_info s) =? 2) && is_ftrace_entry nm then Some nm else snd x) with Some nm' => traced (l1 ++ [(nm, s)]) nm' | None => forall nm', ~ traced (l1 ++ [(nm, s)]) nm' end).
    { intros linked ->. destruct (find_kind (fst x) (code k) nm) as [e|] eqn:E.
      - cbn [andb]. destruct (OLD I) as (y & Iy & Hy). destruct (snd x) as [m|]; [apply TR; auto|]. intros nm' T. apply TR in T. destruct T as [T|(_ & _ & _ & T)]; [exact (Tx nm' T)|exact (T y Iy Hy)].
      - cbn [andb]. destruct ((st_type (y_info s) =? 2) && is_ftrace_entry nm) eqn:C.
        + apply andb_true_iff in C. destruct C as (C1 & C2). apply TR. right. split; [reflexivity|]. split; [apply is_entry; auto|]. split; [lia|exact (NEW I)].
        + destruct (snd x) as [m|]; [apply TR; auto|]. intros nm' T. apply TR in T. destruct T as [T|(_ & T1 & T2 & _)]; [exact (Tx nm' T)|].
          apply is_entry in T1. rewrite T1, andb_true_r in C. lia. }
    replace (l1 ++ (nm, s) :: l2) with ((l1 ++ [(nm, s)]) ++ l2) by (rewrite <- app_assoc; reflexivity).
    destruct (find_kind (fst x) (code k) nm) as [e|] eqn:E.
    + apply (IH (l1 ++ [(nm, s)]) (fst x, _)); [exact I2|]. exact (T2 false eq_refl).
    + apply (IH (l1 ++ [(nm, s)]) (fst x ++ [En nm (code k) s ph], _)); [exact I2|]. exact (T2 true eq_refl).
Qed.

(** ** Sections *)
Definition lastof (a : list shdr) (ty i : Z) : Prop :=
  (i = 0 /\ Forall (fun h => sh_type h <> ty) a) \/
  (exists a1 h b, a = a1 ++ h :: b /\ Z.of_nat (List.length a1) = i /\ sh_type h = ty /\ Forall (fun h => sh_type h <> ty) b).
Lemma lastof_skip a h ty i : sh_type h <> ty -> lastof a ty i -> lastof (a ++ [h]) ty i.
Proof.
  intros N [(E & F)|(a1 & h1 & b & -> & L & T & F)].
  - left. split; [auto|]. apply Forall_app. auto.
  - right. exists a1, h1, (b ++ [h]). rewrite <- app_assoc. split; [reflexivity|]. split; [auto|]. split; [auto|]. apply Forall_app. auto.
Qed.
Lemma lastof_here a h ty : sh_type h = ty -> lastof (a ++ [h]) ty (Z.of_nat (List.length a)).
Proof. intros T. right. exists a, h, []. auto. Qed.
Lemma last_unique (P : shdr -> Prop) a1 h1 b1 : forall a2 h2 b2, a1 ++ h1 :: b1 = a2 ++ h2 :: b2 -> P h1 -> P h2 -> Forall (fun h => ~ P h) b1 -> Forall (fun h => ~ P h) b2 ->
  List.length a1 = List.length a2.
Proof.
  induction a1 as [|x a1 IH]; intros [|y a2] h2 b2 E P1 P2 F1 F2; cbn [app List.length] in *.
  - reflexivity.
  - injection E as <- E. exfalso. rewrite E, Forall_forall in F1. apply (F1 h2); [apply in_app_iff; right; left; reflexivity|exact P2].
  - injection E as -> E. exfalso. rewrite <- E, Forall_forall in F2. apply (F2 h1); [apply in_app_iff; right; left; reflexivity|exact P1].
  - injection E as _ E. f_equal. eauto.
Qed.
Lemma lastof_section f ty i j : last_section f ty i -> lastof (f_shdrs f) ty j -> i = j.
Proof.
  intros [(E & F)|(P & a & h & b & E & L & T & F)] [(E' & F')|(a' & h' & b' & E' & L' & T' & F')].
  - congruence.
  - exfalso. rewrite E', Forall_forall in F. apply (F h'); [apply in_app_iff; right; left; reflexivity|exact T'].
  - exfalso. rewrite E, Forall_forall in F'. apply (F' h); [apply in_app_iff; right; left; reflexivity|exact T].
  - rewrite E in E'. rewrite <- L, <- L'. f_equal. apply (last_unique (fun h => sh_type h = ty) _ _ _ _ _ _ E'); auto.
Qed.

Definition notes_fine (f : efile) : Prop :=
  forall i h bid, nth_error (f_shdrs f) i = Some h -> sh_type h = 7 -> exists r b, handle_notes (f_data f (Z.of_nat i)) bid = Some (r, b).
Lemma loop_total f l : forall a x, f_shdrs f = a ++ l -> named f -> notes_fine f ->
  lastof a 2 (x_symtab x) -> lastof a 11 (x_dynsym x) ->
  exists x', sections_loop f l (Z.of_nat (List.length a)) x = Some (0, x') /\ lastof (f_shdrs f) 2 (x_symtab x') /\ lastof (f_shdrs f) 11 (x_dynsym x').
Proof.
  induction l as [|h l IH]; intros a x E N Q S D; cbn [sections_loop].
  - exists x. rewrite app_nil_r in E. rewrite E. auto.
  - assert (Nh : exists nm, string_at f (f_shstrndx f) (sh_name h) nm) by (unfold named in N; rewrite Forall_forall in N; apply N; rewrite E; apply in_app_iff; right; left; reflexivity).
    destruct Nh as (nm & Nm). rewrite (strptr_at _ _ _ _ Nm).
    assert (E' : f_shdrs f = (a ++ [h]) ++ l) by (rewrite <- app_assoc; exact E).
    assert (I' : Z.of_nat (List.length a) + 1 = Z.of_nat (List.length (a ++ [h]))) by (rewrite app_length; cbn [List.length]; lia).
    rewrite I'. unfold SHT_SYMTAB, SHT_NOTE.
    destruct (Z.eqb_spec (sh_type h) 1) as [T1|T1].
    { apply IH; auto; destruct (str_eqb nm (str ".plt")), (str_eqb nm (str ".got")); cbn [x_symtab x_dynsym]; apply lastof_skip; auto; lia. }
    destruct (Z.eqb_spec (sh_type h) 2) as [T2|T2].
    { apply IH; auto; cbn [x_symtab x_dynsym]; [apply lastof_here; auto|apply lastof_skip; auto; lia]. }
    destruct (Z.eqb_spec (sh_type h) 11) as [T3|T3].
    { apply IH; auto; cbn [x_symtab x_dynsym]; [apply lastof_skip; auto; lia|apply lastof_here; auto]. }
    destruct (Z.eqb_spec (sh_type h) 7) as [T4|T4].
    { destruct (Q (List.length a) h (x_bid x)) as (r & b & Eh); auto.
      { rewrite E, nth_error_app2, Nat.sub_diag by lia. reflexivity. }
      rewrite Eh. apply IH; auto; cbn [x_symtab x_dynsym]; apply lastof_skip; auto; lia. }
    apply IH; auto; apply lastof_skip; auto; lia.
Qed.

Lemma loop_id f nss : file_notes f nss -> forall l a na nl x r x', f_shdrs f = a ++ l -> nss = na ++ nl -> List.length na = List.length a ->
  sections_loop f l (Z.of_nat (List.length a)) x = Some (r, x') -> r = 0 -> id_after (concat nl) (x_bid x) (x_bid x').
Proof.
  intros (Ln & Hn). induction l as [|h l IH]; intros a na nl x r x' E En La R R0; cbn [sections_loop] in R.
  - injection R as _ <-. assert (nl = []) by (destruct nl; [reflexivity|]; rewrite E, En, !app_length in Ln; cbn [List.length] in Ln; lia).
    subst nl. left. split; [constructor|reflexivity].
  - destruct nl as [|ns nl]; [exfalso; rewrite E, En, !app_length in Ln; cbn [List.length] in Ln; lia|].
    assert (E' : f_shdrs f = (a ++ [h]) ++ l) by (rewrite <- app_assoc; exact E). assert (En' : nss = (na ++ [ns]) ++ nl) by (rewrite <- app_assoc; exact En).
    assert (La' : List.length (na ++ [ns]) = List.length (a ++ [h])) by (rewrite !app_length; cbn [List.length]; lia).
    assert (I' : Z.of_nat (List.length a) + 1 = Z.of_nat (List.length (a ++ [h]))) by (rewrite app_length; cbn [List.length]; lia).
    destruct (Hn (List.length a) h ns) as (H7 & Hx).
    { rewrite E, nth_error_app2, Nat.sub_diag by lia. reflexivity. }
    { rewrite En, nth_error_app2, La, Nat.sub_diag by lia. reflexivity. }
    destruct (strptr f (f_shstrndx f) (sh_name h)) as [nm|]; [|injection R as R _; unfold ENOENT in R; lia].
    rewrite I' in R. unfold SHT_SYMTAB, SHT_NOTE in R. cbn [concat].
    assert (SKIP : forall y, sh_type h <> 7 -> x_bid y = x_bid x -> sections_loop f l (Z.of_nat (List.length (a ++ [h]))) y = Some (r, x') -> id_after (ns ++ concat nl) (x_bid x) (x_bid x')).
    { intros y T B R'. rewrite (Hx T). cbn [app]. rewrite <- B. eapply IH; eauto. }
    destruct (Z.eqb_spec (sh_type h) 1) as [T1|T1]; [eapply SKIP; [lia| |exact R]; destruct (str_eqb nm (str ".plt")), (str_eqb nm (str ".got")); reflexivity|].
    destruct (Z.eqb_spec (sh_type h) 2) as [T2|T2]; [eapply SKIP; [lia| |exact R]; reflexivity|].
    destruct (Z.eqb_spec (sh_type h) 11) as [T3|T3]; [eapply SKIP; [lia| |exact R]; reflexivity|].
    destruct (Z.eqb_spec (sh_type h) 7) as [T4|T4]; [|eapply SKIP; [lia| |exact R]; reflexivity].
    destruct (H7 T4) as (bs & Ed & F2 & Ok). rewrite Ed in R. unfold handle_notes in R.
    destruct (notes_lines ns bs F2 Ok (S (List.length (concat bs))) (x_bid x) ltac:(lia)) as (b1 & E1 & A1). rewrite E1 in R.
    eapply id_after_app; [exact A1|]. eapply (IH _ _ _ (Sx _ _ _ _ b1)); eauto.
Qed.

Lemma index_nil f : index_of f [] [].
Proof. intros k nm. cbn. auto. Qed.
Lemma traced_nil nm : ~ traced [] nm.
Proof. intros (a & s & b & k & E & _). destruct a; discriminate. Qed.

Lemma sections_ok f st dy : named f -> notes_fine f -> symbols f 2 st -> symbols f 11 dy ->
  exists c, handle_sections f = Some (0, c) /\ sections_loop f (f_shdrs f) 0 (Sx 0 0 0 0 None) = Some (0, c_secs c) /\
    index_of f (st ++ dy) (c_tab c) /\ (match c_mcount c with Some nm => traced (st ++ dy) nm | None => forall nm, ~ traced (st ++ dy) nm end).
Proof.
  intros N Q (i & Li & Si) (j & Lj & Sj).
  destruct (loop_total f (f_shdrs f) [] (Sx 0 0 0 0 None) eq_refl N Q) as (x & Ex & L2 & L11); [left; cbn; auto|left; cbn; auto|].
  cbn [List.length] in Ex. change (Z.of_nat 0) with 0 in Ex.
  pose proof (lastof_section _ _ _ _ Li L2) as E2. pose proof (lastof_section _ _ _ _ Lj L11) as E11.
  unfold handle_sections. rewrite Ex. cbn [Z.eqb negb]. rewrite <- E2, <- E11.
  assert (STEP : forall i l l0 y, (i = 0 /\ l = [] \/ 0 < i /\ table f i l /\ Forall (fun x => section_ok f (snd x)) l) ->
    index_of f l0 (fst y) -> (match snd y with Some nm => traced l0 nm | None => forall nm, ~ traced l0 nm end) ->
    exists z, (if i =? 0 then Some y else handle_symtab f i y) = Some z /\ index_of f (l0 ++ l) (fst z) /\ (match snd z with Some nm => traced (l0 ++ l) nm | None => forall nm, ~ traced (l0 ++ l) nm end)).
  { intros i0 l l0 y [(-> & ->)|(P & T & S)] Iy Ty.
    - cbn [Z.eqb]. exists y. rewrite app_nil_r. auto.
    - destruct (Z.eqb_spec i0 0); [lia|]. rewrite (symtab_reg f i0 l y T). apply reg_ok; auto.
      destruct T as (ex & _ & _ & F). clear -S F. induction F as [|z l (Ok & _) F IH]; [constructor|]. inversion S; subst. constructor; auto. }
  destruct (STEP i st [] ([], None) Si (index_nil f) traced_nil) as (y & -> & Iy & Ty).
  destruct (STEP j dy st y Sj Iy Ty) as (z & -> & Iz & Tz). destruct z as (tab, mc). cbn [fst snd] in *.
  exists (Cx x tab mc). auto.
Qed.

Lemma fine_small f : small_notes f -> notes_fine f.
Proof.
  intros S i h bid Ni T. unfold handle_notes. destruct (f_data f (Z.of_nat i)) as [d|] eqn:E; [|eauto].
  destruct (S i h d Ni T E) as (F & L). destruct (notes_any (Datatypes.S (List.length d)) d bid F L ltac:(lia)) as (r & b & Eb & _). eauto.
Qed.
Lemma fine_notes f nss : file_notes f nss -> notes_fine f.
Proof.
  intros (L & H) i h bid Ni T. destruct (nth_error nss i) as [ns|] eqn:En.
  - destruct (H i h ns Ni En) as (H7 & _). destruct (H7 T) as (bs & -> & F2 & Ok). unfold handle_notes.
    destruct (notes_lines ns bs F2 Ok (S (List.length (concat bs))) bid ltac:(lia)) as (b & E & _). eauto.
  - apply nth_error_None in En. assert (i < List.length (f_shdrs f))%nat by (apply nth_error_Some; congruence). lia.
Qed.

(** ** Listings *)
Lemma split_at (c : Z) a b r s : ~ In c a -> ~ In c b -> a ++ c :: r = b ++ c :: s -> a = b /\ r = s.
Proof.
  revert b. induction a as [|x a IH]; intros [|y b] Na Nb E; cbn [app In] in *.
  - injection E as <-. auto.
  - injection E as -> E. exfalso. apply Nb. auto.
  - injection E as -> E. exfalso. apply Na. auto.
  - injection E as -> E. destruct (IH b) as (-> & ->); auto.
Qed.
Lemma app_len {A} (a b c d : list A) : List.length a = List.length b -> a ++ c = b ++ d -> a = b /\ c = d.
Proof.
  revert b. induction a as [|x a IH]; intros [|y b] L E; cbn [List.length app] in *; try lia; [auto|].
  injection E as <- E. destruct (IH b ltac:(lia) E) as (-> & ->). auto.
Qed.
Lemma padr_split n a b r s : ~ In 32 a -> ~ In 32 b -> padr n a ++ 32 :: r = padr n b ++ 32 :: s -> a = b /\ r = s.
Proof.
  intros Na Nb E. unfold padr in E. rewrite <- !app_assoc in E.
  assert (R : forall k t, exists t', repeat 32 k ++ 32 :: t = 32 :: t').
  { intros [|k] t; cbn [repeat app]; eauto. }
  assert (EQ : a = b).
  { destruct (R (n - List.length a)%nat r) as (t1 & E1), (R (n - List.length b)%nat s) as (t2 & E2). rewrite E1, E2 in E. apply split_at in E; tauto. }
  subst b. split; [auto|]. apply app_inv_head in E. apply app_inv_head in E. congruence.
Qed.
Lemma dec_chars v c : In c (dec v) -> c = 45 \/ 48 <= c <= 57.
Proof.
  assert (P : forall n, 0 <= n -> In c (dec_nat n) -> 48 <= c <= 57).
  { intros n H I. pose proof (PrProofs.dec_nat_chars n H) as F. rewrite Forall_forall in F. apply F in I. exact I. }
  unfold dec. destruct (Z.ltb_spec v 0); intros I; [destruct I as [I|I]; [lia|]|]; right; eapply P; try exact I; lia.
Qed.
Lemma dec_inj a b : dec a = dec b -> a = b.
Proof.
  intros E. assert (P : forall n, 0 <= n -> ~ exists t, dec_nat n = 45 :: t).
  { intros n H (t & Et). pose proof (PrProofs.dec_nat_chars n H) as F. rewrite Et in F. inversion F as [|? ? D _]; subst. unfold PrProofs.dchar in D. lia. }
  unfold dec in E. destruct (Z.ltb_spec a 0), (Z.ltb_spec b 0).
  - injection E as E. apply (f_equal (fun t => MiscModel.digits_val t 0)) in E. rewrite !PrProofs.dec_value in E by lia. lia.
  - exfalso. eapply (P b); [lia|]. eauto.
  - exfalso. eapply (P a); [lia|]. eauto.
  - apply (f_equal (fun t => MiscModel.digits_val t 0)) in E. rewrite !PrProofs.dec_value in E by lia. exact E.
Qed.
Lemma s64_inj a b : 0 <= a < 2 ^ 64 -> 0 <= b < 2 ^ 64 -> s64 a = s64 b -> a = b.
Proof.
  unfold s64, sgn. intros A B E. unfold wrap in E. rewrite !(Z.mod_small) in E by lia.
  destruct (Z.ltb_spec a (2 ^ (64 - 1))), (Z.ltb_spec b (2 ^ (64 - 1))); lia.
Qed.

Definition hexd (c : Z) : Z := if c <? 58 then c - 48 else c - 87.
Definition hval (l : list Z) (acc : Z) : Z := fold_left (fun a c => 16 * a + hexd c) l acc.
Lemma hexd_digit d : 0 <= d < 16 -> hexd (TextModel.hex_digit d) = d.
Proof. intros H. unfold hexd, TextModel.hex_digit. destruct (Z.ltb_spec d 10) as [L|L]; [destruct (Z.ltb_spec (48 + d) 58)|destruct (Z.ltb_spec (87 + d) 58)]; lia. Qed.
Lemma hval_app a b acc : hval (a ++ b) acc = hval b (hval a acc).
Proof. apply fold_left_app. Qed.
Lemma hval_zeros k : hval (repeat 48 k) 0 = 0.
Proof. induction k as [|k IH]; [reflexivity|]. cbn [repeat]. unfold hval. cbn [fold_left]. exact IH. Qed.
Lemma hval_digits f : forall n, 0 <= n < 2 ^ Z.of_nat f -> hval (map TextModel.hex_digit (digits f 16 n)) 0 = n.
Proof.
  induction f as [|f IH]; intros n H.
  - cbn [digits map]. change (Z.of_nat 0) with 0 in H. rewrite Z.pow_0_r in H. cbn. lia.
  - cbn [digits]. destruct (Z.ltb_spec n 16) as [L|L].
    + cbn [map]. unfold hval. cbn [fold_left]. rewrite hexd_digit by lia. lia.
    + rewrite map_app, hval_app. rewrite Nat2Z.inj_succ, Z.pow_succ_r in H by lia. rewrite IH.
      * cbn [map]. unfold hval. cbn [fold_left]. rewrite hexd_digit by (apply Z.mod_pos_bound; lia). pose proof (Z.div_mod n 16). lia.
      * split; [apply Z.div_pos; lia|]. apply Z.div_lt_upper_bound; [lia|]. lia.
Qed.
Lemma hexn_value n v : 0 <= v -> hval (hexn n v) 0 = v.
Proof.
  intros H. unfold hexn. rewrite hval_app, hval_zeros. apply hval_digits. split; [auto|].
  destruct (Z.eq_dec v 0) as [->|N]; [reflexivity|]. pose proof (Z.log2_spec v ltac:(lia)) as (_ & L). pose proof (Z.log2_nonneg v).
  rewrite Nat2Z.inj_succ, Z2Nat.id by lia. exact L.
Qed.
Lemma hexn_inj n a b : 0 <= a -> 0 <= b -> hexn n a = hexn n b -> a = b.
Proof. intros A B E. rewrite <- (hexn_value n a A), <- (hexn_value n b B), E. reflexivity. Qed.
Lemma hex_digit_range d : 0 <= d < 16 -> 48 <= TextModel.hex_digit d.
Proof. intros H. unfold TextModel.hex_digit. destruct (d <? 10); lia. Qed.
Lemma hexn_chars n v c : 0 <= v -> In c (hexn n v) -> 48 <= c.
Proof.
  intros H I. unfold hexn in I. apply in_app_iff in I. destruct I as [I|I]; [apply repeat_spec in I; lia|].
  apply in_map_iff in I. destruct I as (d & <- & I). pose proof (VmaProofs.digits_range (S (Z.to_nat (Z.log2 v))) 16 v ltac:(lia) H) as F.
  rewrite Forall_forall in F. apply hex_digit_range. apply F. exact I.
Qed.

Lemma alt18_len v : List.length (alt18 v) = 18%nat.
Proof. unfold alt18. destruct (v =? 0); reflexivity. Qed.
Lemma alt18_inj a b : 0 <= a < 2 ^ 64 -> 0 <= b < 2 ^ 64 -> alt18 a = alt18 b -> a = b.
Proof.
  intros A B E. unfold alt18 in E. destruct (Z.eqb_spec a 0) as [->|], (Z.eqb_spec b 0) as [->|]; [reflexivity|discriminate E|discriminate E|].
  apply MpProofs.hex16_inj; auto. apply app_inv_head in E. exact E.
Qed.

Lemma name_chars (l : list (Z * list Z)) d v c : In c (name_in l d v) -> In c d \/ In c (flat_map snd l).
Proof.
  unfold name_in. destruct (find (fun x => fst x =? v) l) as [x|] eqn:E; [|auto]. apply find_some in E. destruct E as (I & _). intros Ic. right.
  apply in_flat_map. eauto.
Qed.
(** Names in a table that are all different tell the number. *)
Lemma name_inj (l : list (Z * list Z)) d v w : (forall x y, In x l -> In y l -> snd x = snd y -> fst x = fst y) -> (forall x, In x l -> snd x <> d) ->
  In v (map fst l) -> name_in l d v = name_in l d w -> v = w.
Proof.
  intros I D V E. unfold name_in in E. destruct (find (fun x => fst x =? v) l) as [x|] eqn:F.
  - apply find_some in F. destruct F as (Ix & Fx). destruct (find (fun x => fst x =? w) l) as [y|] eqn:G.
    + apply find_some in G. destruct G as (Iy & Gy). pose proof (I x y Ix Iy E). lia.
    + exfalso. exact (D x Ix E).
  - exfalso. apply in_map_iff in V. destruct V as (x & <- & Ix). pose proof (find_none _ _ F x Ix) as H. cbv beta in H. lia.
Qed.
Definition diff_names (l : list (Z * list Z)) (d : list Z) : bool :=
  forallb (fun x => negb (str_eqb (snd x) d) && forallb (fun y => negb (str_eqb (snd x) (snd y)) || (fst x =? fst y)) l) l.
Lemma diff_names_inj l d : diff_names l d = true -> forall v w, In v (map fst l) -> name_in l d v = name_in l d w -> v = w.
Proof.
  intros H v w. unfold diff_names in H. rewrite forallb_forall in H. apply name_inj.
  - intros x y Ix Iy E. specialize (H x Ix). apply andb_true_iff in H. destruct H as (_ & H). rewrite forallb_forall in H. specialize (H y Iy).
    rewrite (proj2 (str_eqb_eq _ _) E) in H. cbn in H. lia.
  - intros x Ix E. specialize (H x Ix). apply andb_true_iff in H. destruct H as (H & _). rewrite (proj2 (str_eqb_eq _ _) E) in H. discriminate.
Qed.

Lemma type_named i : st_type_string i = name_in types_named (str "UNKNOWN") (st_type i).
Proof.
  unfold st_type_string, name_in, types_named. cbn [find fst snd].
  rewrite (Z.eqb_sym 0), (Z.eqb_sym 1), (Z.eqb_sym 2), (Z.eqb_sym 3), (Z.eqb_sym 4), (Z.eqb_sym 5), (Z.eqb_sym 6), (Z.eqb_sym 7), (Z.eqb_sym 10), (Z.eqb_sym 12), (Z.eqb_sym 13), (Z.eqb_sym 15).
  repeat match goal with |- (if ?b then _ else _) = _ => destruct b; [reflexivity|] end. reflexivity.
Qed.
Lemma bind_named i : st_bind_string i = name_in binds_named (str "UNKNOWN") (st_bind i).
Proof.
  unfold st_bind_string, name_in, binds_named. cbn [find fst snd].
  rewrite (Z.eqb_sym 0), (Z.eqb_sym 1), (Z.eqb_sym 2), (Z.eqb_sym 3), (Z.eqb_sym 10), (Z.eqb_sym 12), (Z.eqb_sym 13), (Z.eqb_sym 15).
  repeat match goal with |- (if ?b then _ else _) = _ => destruct b; [reflexivity|] end. reflexivity.
Qed.
Lemma not_in_chars (c : Z) l : forallb (fun x => negb (x =? c)) l = true -> ~ In c l.
Proof. intros H I. rewrite forallb_forall in H. apply H in I. lia. Qed.
Lemma name_no c l d v : forallb (fun x => negb (x =? c)) (d ++ flat_map snd l) = true -> ~ In c (name_in l d v).
Proof. intros H I. apply name_chars in I. revert I. rewrite <- in_app_iff. apply not_in_chars. exact H. Qed.
Lemma vis_no32 i : ~ In 32 (st_visibility_string i).
Proof.
  unfold st_visibility_string. repeat match goal with |- ~ In _ (if ?b then _ else _) => destruct b; [apply not_in_chars; reflexivity|] end. apply not_in_chars. reflexivity.
Qed.
Lemma dec_no32 v : ~ In 32 (dec v).
Proof. intros I. apply dec_chars in I. lia. Qed.

Lemma fprint_inj pre s t nm nt : sym_ok s -> sym_ok t -> fprint_sym pre s nm None = fprint_sym pre t nt None ->
  y_value s = y_value t /\ y_size s = y_size t /\ y_shndx s = y_shndx t /\ nm = nt /\
  st_type_string (y_info s) = st_type_string (y_info t) /\ st_bind_string (y_info s) = st_bind_string (y_info t).
Proof.
  intros (_ & _ & _ & Hx & Hv & Hs) (_ & _ & _ & Kx & Kv & Ks) E. unfold fprint_sym in E. apply app_inv_head in E. apply app_inv_head in E.
  apply app_len in E; [|rewrite !alt18_len; reflexivity]. destruct E as (Ev & E). apply app_inv_head in E. cbn [app] in E.
  apply padr_split in E; [|apply dec_no32|apply dec_no32]. destruct E as (Es & E).
  apply padr_split in E; [|rewrite type_named; apply name_no; reflexivity|rewrite type_named; apply name_no; reflexivity]. destruct E as (Et & E).
  apply padr_split in E; [|rewrite bind_named; apply name_no; reflexivity|rewrite bind_named; apply name_no; reflexivity]. destruct E as (Eb & E).
  apply padr_split in E; [|apply vis_no32|apply vis_no32]. destruct E as (_ & E).
  apply padr_split in E; [|apply dec_no32|apply dec_no32]. destruct E as (Ex & E).
  apply app_inj_tail in E. destruct E as (En & _).
  split; [apply alt18_inj; auto|]. split; [apply s64_inj; auto; apply dec_inj; auto|]. split; [apply dec_inj; auto|]. auto.
Qed.

Lemma phdr_flags_inj a b : phdr_flags_str a = phdr_flags_str b -> Z.testbit a 0 = Z.testbit b 0 /\ Z.testbit a 1 = Z.testbit b 1 /\ Z.testbit a 2 = Z.testbit b 2.
Proof.
  unfold phdr_flags_str. destruct (Z.testbit a 0), (Z.testbit a 1), (Z.testbit a 2), (Z.testbit b 0), (Z.testbit b 1), (Z.testbit b 2); intros E; try discriminate E; auto.
Qed.
Lemma phdr_type_len t : (List.length (phdr_type_str t) <= 16)%nat.
Proof.
  change (phdr_type_str t) with (name_in phdr_types (str "UNKNOWN") t). unfold name_in. destruct (find (fun x => fst x =? t) phdr_types) as [x|] eqn:E; [|cbn; lia].
  apply find_some in E. destruct E as (I & _).
  assert (H : forallb (fun x => Nat.leb (List.length (snd x)) 16) phdr_types = true) by reflexivity. rewrite forallb_forall in H. specialize (H x I). apply Nat.leb_le in H. exact H.
Qed.
Lemma cons_inj (c : Z) a b : c :: a = c :: b -> a = b.
Proof. congruence. Qed.
Lemma print_phdr_inj pre p q : phdr_ok p -> phdr_ok q -> print_phdr pre p = print_phdr pre q ->
  phdr_type_str (p_type p) = phdr_type_str (p_type q) /\ phdr_flags_str (p_flags p) = phdr_flags_str (p_flags q) /\
  p_offset p = p_offset q /\ p_vaddr p = p_vaddr q /\ p_paddr p = p_paddr q /\ p_filesz p = p_filesz q /\ p_memsz p = p_memsz q /\ p_align p = p_align q.
Proof.
  intros (_ & _ & P1 & P2 & P3 & P4 & P5 & P6) (_ & _ & Q1 & Q2 & Q3 & Q4 & Q5 & Q6) E. unfold print_phdr in E.
  apply app_inv_head in E. apply app_inv_head in E. cbn [app] in E.
  apply padr_split in E; [|apply (name_no 32 phdr_types (str "UNKNOWN")); reflexivity|apply (name_no 32 phdr_types (str "UNKNOWN")); reflexivity].
  destruct E as (Et & E).
  apply app_len in E; [|rewrite !alt18_len; reflexivity]. destruct E as (Eo & E). apply cons_inj in E.
  apply app_len in E; [|rewrite !alt18_len; reflexivity]. destruct E as (Ev & E). apply cons_inj in E.
  apply app_len in E; [|reflexivity]. destruct E as (Ep & E). apply cons_inj in E.
  apply app_inv_head in E. do 2 apply cons_inj in E. apply app_inv_head in E. apply cons_inj in E.
  apply app_len in E; [|rewrite !alt18_len; reflexivity]. destruct E as (Ef & E). apply cons_inj in E.
  apply app_len in E; [|rewrite !alt18_len; reflexivity]. destruct E as (Em & E). apply cons_inj in E.
  apply app_len in E; [|reflexivity]. destruct E as (El & E). apply cons_inj in E.
  apply app_inj_tail in E. destruct E as (Ea & _). unfold padr in El. apply app_len in El; [|reflexivity]. destruct El as (El & _).
  apply alt18_inj in Eo, Ev, Ef, Em; auto. apply MpProofs.hex16_inj in Ep; auto. apply hexn_inj in Ea; [|lia|lia]. repeat split; auto.
Qed.

Lemma hex2_inj a b : isbyte a -> isbyte b -> TextModel.hex2 a = TextModel.hex2 b -> a = b.
Proof.
  unfold isbyte, TextModel.hex2. intros A B E. injection E as E1 E2.
  apply MpProofs.hex_digit_inj in E1; [|lia|lia]. apply MpProofs.hex_digit_inj in E2; [|lia|lia]. lia.
Qed.
Lemma hex2_no10 u : isbyte u -> ~ In 10 (TextModel.hex2 u).
Proof.
  unfold isbyte, TextModel.hex2. intros H I. pose proof (hex_digit_range (u / 16) ltac:(lia)). pose proof (hex_digit_range (u mod 16) ltac:(lia)). cbn [In] in I. lia.
Qed.
Lemma magic_inj a : forall b, List.length a = List.length b -> Forall isbyte a -> Forall isbyte b ->
  flat_map (fun u => [32] ++ TextModel.hex2 u) a = flat_map (fun u => [32] ++ TextModel.hex2 u) b -> a = b.
Proof.
  induction a as [|x a IH]; intros [|y b] L Fa Fb E; cbn [List.length flat_map] in *; try lia; [reflexivity|].
  inversion Fa; inversion Fb; subst. apply app_len in E; [|reflexivity]. destruct E as (E1 & E2). f_equal; [|apply IH; auto].
  apply hex2_inj; auto. exact (cons_inj _ _ _ E1).
Qed.
Lemma magic_no10 a : Forall isbyte a -> ~ In 10 (flat_map (fun u => [32] ++ TextModel.hex2 u) a).
Proof.
  intros F I. apply in_flat_map in I. destruct I as (u & Iu & I). rewrite Forall_forall in F. destruct I as [I|I]; [discriminate|]. revert I. apply hex2_no10. auto.
Qed.
Lemma dec_no10 v : ~ In 10 (dec v).
Proof. intros I. apply dec_chars in I. lia. Qed.
Lemma hexn_no10 n v : 0 <= v -> ~ In 10 (hexn n v).
Proof. intros H I. apply hexn_chars in I; lia. Qed.
Lemma with_no10 a b : ~ In 10 a -> ~ In 10 b -> ~ In 10 (a ++ b).
Proof. rewrite in_app_iff. tauto. Qed.
Lemma split_line p a b r s : ~ In 10 a -> ~ In 10 b -> p ++ a ++ 10 :: r = p ++ b ++ 10 :: s -> a = b /\ r = s.
Proof. intros A B E. apply app_inv_head in E. apply split_at in E; auto. Qed.
Lemma split_line2 p x a b r s : ~ In 10 a -> ~ In 10 b -> ~ In 10 x -> p ++ a ++ x ++ 10 :: r = p ++ b ++ x ++ 10 :: s -> a = b /\ r = s.
Proof.
  intros A B X E. rewrite !(app_assoc _ x) in E. apply split_line in E; try (apply with_no10; auto). destruct E as (E & ->).
  apply app_inv_tail in E. auto.
Qed.

Lemma print_ehdr_inj g h : ehdr_ok g -> ehdr_ok h -> firstn 4 (e_ident g) = [127; 69; 76; 70] -> print_ehdr g = print_ehdr h ->
  e_ident g = e_ident h /\ e_type_string (e_type g) = e_type_string (e_type h) /\ e_machine_string (e_machine g) = e_machine_string (e_machine h) /\
  e_version g = e_version h /\ e_entry g = e_entry h /\ e_phoff g = e_phoff h /\ e_shoff g = e_shoff h /\ e_flags g = e_flags h /\
  e_ehsize g = e_ehsize h /\ e_phentsize g = e_phentsize h /\ e_phnum g = e_phnum h /\ e_shentsize g = e_shentsize h /\ e_shnum g = e_shnum h /\ e_shstrndx g = e_shstrndx h.
Proof.
  intros (L & F & _ & _ & V & En & Po & So & Fl) (L' & F' & _ & _ & V' & En' & Po' & So' & Fl') M E.
  unfold print_ehdr in E.
  replace ((nth 0 (e_ident g) 0 =? 127) && (nth 1 (e_ident g) 0 =? 69) && (nth 2 (e_ident g) 0 =? 76) && (nth 3 (e_ident g) 0 =? 70)) with true in E.
  2: { destruct (e_ident g) as [|a [|b [|c [|d l]]]]; cbn [firstn] in M; try discriminate M. injection M as -> -> -> ->. reflexivity. }
  destruct ((nth 0 (e_ident h) 0 =? 127) && (nth 1 (e_ident h) 0 =? 69) && (nth 2 (e_ident h) 0 =? 76) && (nth 3 (e_ident h) 0 =? 70)) eqn:M'.
  2: { cbv zeta in E. apply (f_equal fst) in E. unfold EINVAL in E. cbn [negb fst] in E. discriminate E. }
  cbn [negb] in E. apply (f_equal snd) in E. cbn [snd] in E. apply app_inv_head in E. cbn [app] in E. apply cons_inj in E.
  rewrite !firstn_all2 in E by lia.
  apply split_line in E; try (apply magic_no10; auto). destruct E as (E0 & E).
  apply split_line in E; try (apply name_no; reflexivity). destruct E as (_ & E).
  apply split_line in E; try (apply name_no; reflexivity). destruct E as (_ & E).
  apply app_inv_head in E. apply cons_inj in E.
  apply split_line in E; try (apply name_no; reflexivity). destruct E as (_ & E).
  apply split_line in E; try (apply dec_no10). destruct E as (_ & E).
  apply split_line in E; try (apply name_no; reflexivity). destruct E as (E1 & E).
  apply split_line in E; try (apply name_no; reflexivity). destruct E as (E2 & E).
  apply split_line in E; try (apply hexn_no10; lia). destruct E as (E3 & E).
  apply split_line in E; try (apply hexn_no10; lia). destruct E as (E4 & E).
  apply split_line2 in E; try apply dec_no10; try (apply not_in_chars; reflexivity). destruct E as (E5 & E).
  apply split_line2 in E; try apply dec_no10; try (apply not_in_chars; reflexivity). destruct E as (E6 & E).
  apply split_line in E; try (apply hexn_no10; lia). destruct E as (E7 & E).
  apply split_line2 in E; try apply dec_no10; try (apply not_in_chars; reflexivity). destruct E as (E8 & E).
  apply split_line2 in E; try apply dec_no10; try (apply not_in_chars; reflexivity). destruct E as (E9 & E).
  apply split_line in E; try apply dec_no10. destruct E as (E10 & E).
  apply split_line2 in E; try apply dec_no10; try (apply not_in_chars; reflexivity). destruct E as (E11 & E).
  apply split_line in E; try apply dec_no10. destruct E as (E12 & E).
  apply split_line in E; try apply dec_no10. destruct E as (E13 & _).
  apply hexn_inj in E3; [|lia|lia]. apply hexn_inj in E4; [|lia|lia]. apply hexn_inj in E7; [|lia|lia].
  apply dec_inj in E5, E6, E8, E9, E10, E11, E12, E13. apply s64_inj in E5, E6; auto.
  split; [apply magic_inj; auto; congruence|]. repeat split; auto.
Qed.
