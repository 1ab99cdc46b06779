From Coq Require Import ZArith String List Bool Lia ZifyBool ZifyNat.
From Verif Require Import Word WordLemmas Str TextModel TextSpec TextProofs.
Import ListNotations.
Open Scope Z_scope.

(** * C46 *)
Theorem C46_byte_text_round_trip : forall mem b buf_len sep out out_len,
  mem <> [] -> Forall byte mem -> sep <> 0 -> ~ number_char sep ->
  5 * Z.of_nat (List.length mem) <= buf_len -> Z.of_nat (List.length mem) <= out_len ->
  exists b' t, mem2strbytes mem b buf_len sep = Some b' /\ holds b' t /\
    forall fuel, (List.length t < fuel)%nat ->
    exists out', strbytes2mem fuel t out out_len sep = Some (S2m out' true (Some (Z.of_nat (List.length mem)))) /\
      (forall i, (i < List.length mem)%nat -> out' (Z.of_nat i) = nth i mem 0) /\
      only_within 0 (Z.of_nat (List.length mem)) out out'.
Proof.
  intros mem b buf_len sep out out_len N F S0 S L1 L2.
  destruct (mem2strbytes_text mem b buf_len sep N F S0 L1) as (b' & E & H & _).
  exists b', (text sep mem). split; auto. split; auto. intros fuel Hf.
  assert (P : 1 <= len mem) by (destruct mem; [congruence|rewrite len_cons; pose proof (len_nonneg mem); lia]).
  unfold strbytes2mem. destruct (Z.eqb_spec sep 0); [lia|]. fold (len mem) in *.
  destruct (Z.ltb_spec out_len 1); [lia|].
  rewrite check_text by (apply text_chars; auto). rewrite skip_sep_text by auto.
  destruct (s2m_text sep mem S fuel out 0 out_len N F ltac:(lia) ltac:(lia) Hf) as (o & R & O & C).
  exists o. split; [exact R|]. split; [intros i Hi; exact (C i Hi)|exact O].
Qed.
Print Assumptions C46_byte_text_round_trip.

Example C46_ex :
  exists b', mem2strbytes [0xff; 0x25; 0; 0x90] (fun _ => 1) 20 44 = Some b' /\ holds b' (str "0xff,0x25,0x00,0x90").
Proof.
  eexists. split; [reflexivity|]. split; [|split; [|reflexivity]].
  - vm_compute. intuition discriminate.
  - intros i Hi. cbn [List.length str] in Hi. vm_compute in Hi. do 19 (destruct i as [|i]; [reflexivity|]). exfalso. lia.
Qed.

(** * C47 *)
Theorem C47_strbytes2mem_bounds_refuted : exists fuel s b buf_len sep r,
  strbytes2mem fuel s b buf_len sep = Some r /\ ~ only_within 0 buf_len b (s2m_buf r).
Proof.
  exists 20%nat, (str "0x11,0x22"), (fun _ => 0), 1, 44. eexists. split; [reflexivity|].
  intros H. specialize (H 1). cbn [s2m_buf] in H. assert (1 < 1) by (apply H; vm_compute; discriminate). lia.
Qed.
Print Assumptions C47_strbytes2mem_bounds_refuted.

(** At most one byte too many is written, and only when the call fails; a call that
    succeeds stays inside the buffer and reports the number of bytes.  The call always ends. *)
Theorem C47_strbytes2mem_bounds_partial : forall s b buf_len sep, 0 <= buf_len ->
  (forall fuel, (List.length s < fuel)%nat -> exists r, strbytes2mem fuel s b buf_len sep = Some r) /\
  forall fuel r, strbytes2mem fuel s b buf_len sep = Some r ->
    only_within 0 (buf_len + 1) b (s2m_buf r) /\
    (s2m_ok r = true -> exists n, s2m_n r = Some n /\ 0 <= n <= buf_len /\ only_within 0 n b (s2m_buf r)).
Proof.
  intros s b buf_len sep Hb. unfold strbytes2mem. set (sp := if sep =? 0 then 44 else sep).
  destruct (Z.ltb_spec buf_len 1).
  - split; [eauto|]. intros _ r Eq. injection Eq as <-. cbn [s2m_buf s2m_ok]. split; [apply only_refl|discriminate].
  - destruct (strbytes2mem_check s sp).
    + split.
      * intros fuel Hf. apply s2m_loop_total. pose proof (skip_sep_len sp s). lia.
      * intros fuel r R. apply s2m_loop_bounds in R; [|lia]. tauto.
    + split; [eauto|]. intros _ r Eq. injection Eq as <-. cbn [s2m_buf s2m_ok]. split; [apply only_refl|discriminate].
Qed.
Print Assumptions C47_strbytes2mem_bounds_partial.

Example C47_ex : exists r, strbytes2mem 30 (str ",,0xff,,0x1") (fun _ => 7) 2 44 = Some r /\
  s2m_ok r = true /\ s2m_n r = Some 2 /\ s2m_buf r 0 = 255 /\ s2m_buf r 1 = 1 /\ s2m_buf r 2 = 7.
Proof. eexists. split; [reflexivity|]. repeat split; reflexivity. Qed.

(** * C48 *)
Theorem C48_comma_list : forall s,
  (exists pieces, pieces <> [] /\ Forall (fun p => ~ In 44 p) pieces /\ s = join pieces) /\
  forall pieces, pieces <> [] -> Forall (fun p => ~ In 44 p) pieces -> s = join pieces ->
  forall fuel, (List.length s < fuel)%nat -> exists r, parse_strstr fuel s = Some (filter nonempty pieces, r).
Proof.
  intros s. split; [apply pieces_exist|]. intros pieces N F -> fuel Hf. exists 0. unfold parse_strstr.
  rewrite parse_loop_join by auto. auto.
Qed.
Print Assumptions C48_comma_list.

Example C48_ex : parse_strstr 20 (str "a,bc,,d,,") = Some ([str "a"; str "bc"; str "d"], 0) /\
  str "a,bc,,d,," = join [str "a"; str "bc"; []; str "d"; []; []].
Proof. split; reflexivity. Qed.

(** * C79: the number of items is returned *)
Theorem C79_item_count_refuted : exists fuel s l r, parse_strstr fuel s = Some (l, r) /\ r <> Z.of_nat (List.length l).
Proof. exists 10%nat, (str "a,b"), [str "a"; str "b"], 0. split; [reflexivity|]. cbn. lia. Qed.
Print Assumptions C79_item_count_refuted.

(** The count is right exactly when there is no item. *)
Theorem C79_item_count_partial : forall fuel s l r, parse_strstr fuel s = Some (l, r) ->
  (r = Z.of_nat (List.length l) <-> l = []).
Proof.
  intros fuel s l r. unfold parse_strstr. destruct (parse_loop fuel s []) as [q|]; [|discriminate].
  intros Eq. injection Eq as <- <-. destruct q; cbn [List.length]; split; intros; try lia; try discriminate; auto.
Qed.
Print Assumptions C79_item_count_partial.
Example C79_ex : parse_strstr 10 (str ",,") = Some ([], 0).
Proof. reflexivity. Qed.

(** * C80: printing a byte sequence stays inside the buffer *)
Theorem C80_mem2strbytes_bounds : forall mem b buf_len sep b',
  mem2strbytes mem b buf_len sep = Some b' -> only_within 0 buf_len b b'.
Proof. exact mem2strbytes_bounds. Qed.
Print Assumptions C80_mem2strbytes_bounds.
Theorem C80_mem2strbytes_refuses : forall mem b buf_len sep,
  (mem = [] \/ buf_len < 5 * Z.of_nat (List.length mem)) <-> mem2strbytes mem b buf_len sep = None.
Proof.
  intros mem b buf_len sep. unfold mem2strbytes. fold (len mem). split.
  - intros [->|H]; [reflexivity|]. destruct ((len mem <? 1) || (buf_len <? 5)); auto. destruct (Z.ltb_spec buf_len (5 * len mem)); [auto|lia].
  - destruct (Z.ltb_spec (len mem) 1); cbn [orb].
    + intros _. left. destruct mem; auto. rewrite len_cons in H. pose proof (len_nonneg mem). lia.
    + destruct (Z.ltb_spec buf_len 5); cbn [orb]; [intros _; right; lia|]. destruct (Z.ltb_spec buf_len (5 * len mem)); [auto|discriminate].
Qed.
Print Assumptions C80_mem2strbytes_refuses.
Example C80_ex : mem2strbytes [1; 2; 3] (fun _ => 9) 14 44 = None /\
  exists b', mem2strbytes [1; 2; 3] (fun _ => 9) 15 44 = Some b' /\ b' 14 = 0 /\ b' 15 = 9.
Proof. split; [reflexivity|]. eexists. split; [reflexivity|]. split; reflexivity. Qed.

(** * C49 *)
Definition prints_build_id (f : list Z -> buffer -> Z -> option buffer) : Prop :=
  (forall bid b blen, 0 <= blen < 2 ^ 31 -> 2 * Z.of_nat (List.length bid) + 1 < 2 ^ 64 ->
     (f bid b blen = None <-> blen < 2 * Z.of_nat (List.length bid) + 1)) /\
  (forall bid b blen b', Forall byte bid -> 0 <= blen < 2 ^ 31 -> 2 * Z.of_nat (List.length bid) + 1 < 2 ^ 64 ->
     f bid b blen = Some b' ->
     only_within 0 (2 * Z.of_nat (List.length bid) + 1) b b' /\
     exists t, holds b' t /\ List.length t = (2 * List.length bid)%nat /\ hex_of bid t) /\
  (forall bid1 bid2 t, hex_of bid1 t -> hex_of bid2 t -> bid1 = bid2).

Lemma bid_text bid b : Forall byte bid ->
  only_within 0 (2 * Z.of_nat (List.length bid) + 1) b (bid_loop bid b 0) /\
  exists t, holds (bid_loop bid b 0) t /\ List.length t = (2 * List.length bid)%nat /\ hex_of bid t.
Proof.
  intros F. destruct (bid_loop_hexes bid b 0) as (O & C & Z0). fold (len bid). split; [exact O|].
  exists (hexes bid). pose proof (hexes_len bid) as HL. unfold len in HL. split; [|split; [lia|apply hexes_of; auto]].
  split; [|split].
  - intros I0. assert (G : forall l, Forall byte l -> ~ In 0 (hexes l)).
    { clear. induction 1 as [|u l Hu F IH]; [auto|]. cbn [hexes]. unfold hex2. pose proof (byte_split u Hu) as (A & B & _).
      apply hex_digit_pos in A, B. destruct A as [A _], B as [B _]. apply number_no0 in A, B. cbn [app In]. intuition. }
    apply (G bid F I0).
  - intros i Hi. exact (C i Hi).
  - replace (Z.of_nat (List.length (hexes bid))) with (0 + 2 * len bid) by (unfold len; lia). exact Z0.
Qed.

Lemma small_u64 x : 0 <= x < 2 ^ 64 -> u64 x = x.
Proof. intros H. apply wrap_id. auto. Qed.

Theorem C49_elf_build_id_text : prints_build_id elf_strbuildid.
Proof.
  split; [|split].
  - intros bid b blen Hb Hl. unfold elf_strbuildid. rewrite small_u64 by (unfold len; lia). unfold len.
    destruct (Z.ltb_spec blen (Z.of_nat (List.length bid) * 2 + 1)); split; intros; try lia; try discriminate; auto.
  - intros bid b blen b' F Hb Hl. unfold elf_strbuildid. destruct (blen <? u64 (len bid * 2 + 1)); [discriminate|].
    intros Eq. injection Eq as <-. apply bid_text; auto.
  - intros. eapply hex_of_inj; eauto.
Qed.
Print Assumptions C49_elf_build_id_text.

Theorem C49_bfd_build_id_text : prints_build_id bfd_strbid.
Proof.
  split; [|split].
  - intros bid b blen Hb Hl. unfold bfd_strbid. rewrite !small_u64 by (unfold len; lia). unfold len.
    destruct (Z.ltb_spec blen (Z.of_nat (List.length bid) * 2 + 1)); split; intros; try lia; try discriminate; auto.
  - intros bid b blen b' F Hb Hl. unfold bfd_strbid. rewrite !small_u64 by (unfold len; lia).
    destruct (Z.ltb_spec blen (len bid * 2 + 1)); [discriminate|].
    intros Eq. injection Eq as <-. rewrite bfd_loop_bid by lia. apply bid_text; auto.
  - intros. eapply hex_of_inj; eauto.
Qed.
Print Assumptions C49_bfd_build_id_text.

(** * C81: every length that is too small is refused.
    A negative length passes the check of bfd_strbid and the buffer is written. *)
Theorem C81_bfd_negative_length_refuted : exists bid b blen b',
  blen < 0 /\ bfd_strbid bid b blen = Some b' /\ ~ only_within 0 0 b b'.
Proof.
  exists [1; 2], (fun _ => 9), (-1). eexists. split; [lia|]. split; [reflexivity|].
  intros H. specialize (H 0). assert (0 < 0) by (apply H; vm_compute; discriminate). lia.
Qed.
Print Assumptions C81_bfd_negative_length_refuted.

(** Exactly the negative lengths are wrong: there the check is the opposite of what it should be. *)
Theorem C81_bfd_length_partial : forall bid b blen, - 2 ^ 31 <= blen < 2 ^ 31 -> 2 * Z.of_nat (List.length bid) + 1 < 2 ^ 63 ->
  (0 <= blen -> (bfd_strbid bid b blen = None <-> blen < 2 * Z.of_nat (List.length bid) + 1)) /\
  (blen < 0 -> bfd_strbid bid b blen <> None).
Proof.
  intros bid b blen Hb Hl. split.
  - intros H0. unfold bfd_strbid. rewrite !small_u64 by (unfold len; lia). unfold len.
    destruct (Z.ltb_spec blen (Z.of_nat (List.length bid) * 2 + 1)); split; intros; try lia; try discriminate; auto.
  - intros H0. unfold bfd_strbid. rewrite (small_u64 (len bid * 2 + 1)) by (unfold len; lia).
    replace (u64 blen) with (blen + 2 ^ 64) by (symmetry; rewrite <- (wrap_id 64 (blen + 2 ^ 64)) by lia; apply wrap_congr with (-1); lia).
    destruct (Z.ltb_spec (blen + 2 ^ 64) (len bid * 2 + 1)); [unfold len in *; lia|discriminate].
Qed.
Print Assumptions C81_bfd_length_partial.
Example C81_ex : bfd_strbid [1; 2] (fun _ => 9) 4 = None.
Proof. reflexivity. Qed.

Example C49_ex : exists b', elf_strbuildid [0xab; 0x0c] (fun _ => 9) 5 = Some b' /\
  map b' [0; 1; 2; 3; 4; 5] = str "ab0c" ++ [0; 9].
Proof. eexists. split; reflexivity. Qed.

(** * C50 *)

Lemma no_sub s c x : ~ In c s -> strstrb s (c :: x) = false.
Proof.
  intros N. destruct (strstrb s (c :: x)) eqn:Ex; auto. apply strstrb_iff in Ex. destruct Ex as (a & d & ->).
  exfalso. apply N. apply in_or_app. right. left. auto.
Qed.

Lemma dec_text_range base ds : base <= 10 -> Forall (fun d => 0 <= d < base) ds -> Forall (fun c => 48 <= c <= 57) (dec_text ds).
Proof. intros Hb. induction 1; cbn [dec_text map]; constructor; auto; lia. Qed.
Lemma hex_text_range ds cs : Forall (fun d => 0 <= d < 16) ds -> Forall2 hex_char ds cs -> Forall number_char cs.
Proof.
  intros F F2. revert F. induction F2 as [|d c ds cs H F2 IH]; intros F; constructor.
  - apply Forall_inv in F. unfold hex_char in H. unfold number_char. lia.
  - apply IH. apply Forall_inv_tail in F. auto.
Qed.

(** The suffixes and what they stand for. *)
Inductive suffix : list Z -> Z -> Prop :=
| suf_none : suffix [] 1
| suf_k : suffix (str "KB") 1024
| suf_m : suffix (str "MB") (1024 ^ 2)
| suf_g : suffix (str "GB") (1024 ^ 3).

Lemma suffix_scale s x k v : suffix x k -> Forall number_char s -> 0 <= v < 2 ^ 64 ->
  (if strstrb (s ++ x) (str "GB") then u64 (v * GB)
   else if strstrb (s ++ x) (str "MB") then u64 (v * MB)
   else if strstrb (s ++ x) (str "KB") then u64 (v * KB) else v) = (v * k) mod 2 ^ 64.
Proof.
  intros S F V. rewrite Forall_forall in F.
  assert (NG : ~ In 71 s) by (intros I; specialize (F 71 I); unfold number_char in F; lia).
  assert (NM : ~ In 77 s) by (intros I; specialize (F 77 I); unfold number_char in F; lia).
  assert (NK : ~ In 75 s) by (intros I; specialize (F 75 I); unfold number_char in F; lia).
  assert (G : str "GB" = 71 :: [66]) by reflexivity. assert (M : str "MB" = 77 :: [66]) by reflexivity.
  assert (K : str "KB" = 75 :: [66]) by reflexivity.
  assert (Has : forall x, strstrb (s ++ x) x = true).
  { intros y. apply strstrb_iff. exists s, []. rewrite app_nil_r. auto. }
  assert (Hno : forall c y, ~ In c s -> ~ In c y -> strstrb (s ++ y) (c :: [66]) = false).
  { intros c y H1 H2. apply no_sub. rewrite in_app_iff. tauto. }
  destruct S.
  - rewrite G, M, K. rewrite !Hno by auto. rewrite Z.mul_1_r, Z.mod_small by lia. auto.
  - rewrite G, M. rewrite (Hno 71), (Hno 77) by (auto; cbn; intuition discriminate). rewrite Has. auto.
  - rewrite G. rewrite (Hno 71) by (auto; cbn; intuition discriminate). rewrite Has. auto.
  - rewrite Has. auto.
Qed.

Lemma suffix_stops base x k : suffix x k -> base <= 16 -> stops base x.
Proof.
  intros S Hb. destruct S; [exact I| | |].
  - change (str "KB") with [75; 66]. change (stops base [75; 66]) with ((20 <? base) = false). lia.
  - change (str "MB") with [77; 66]. change (stops base [77; 66]) with ((22 <? base) = false). lia.
  - change (str "GB") with [71; 66]. change (stops base [71; 66]) with ((16 <? base) = false). lia.
Qed.

Theorem C50_decimal_size : forall ds x k, ds <> [] -> Forall (fun d => 0 <= d < 10) ds ->
  value 10 ds < 2 ^ 64 -> suffix x k ->
  str2size (dec_text ds ++ x) = (value 10 ds * k) mod 2 ^ 64.
Proof.
  intros ds x k N F V S. unfold str2size.
  assert (Hx : forall (A B : Z), match dec_text ds ++ x with 48 :: 120 :: _ => A | _ => B end = B).
  { intros A B. pose proof (dec_text_range 10 ds ltac:(lia) F) as R. destruct ds as [|d [|e ds]]; [congruence| |].
    - cbn [dec_text map app] in *. destruct S; cbn [app]; try reflexivity;
        (destruct (Z.eq_dec d 0) as [->|Nd]; [reflexivity|]; apply Forall_inv in F; cbv beta in F;
         assert (Q : d = 1 \/ d = 2 \/ d = 3 \/ d = 4 \/ d = 5 \/ d = 6 \/ d = 7 \/ d = 8 \/ d = 9) by lia;
         repeat (destruct Q as [->|Q]; [reflexivity|]); rewrite Q; reflexivity).
    - cbn [dec_text map app] in *. pose proof (Forall_inv F) as Fd. pose proof (Forall_inv (Forall_inv_tail F)) as Fe. cbv beta in Fd, Fe.
      assert (Q : d = 0 \/ d = 1 \/ d = 2 \/ d = 3 \/ d = 4 \/ d = 5 \/ d = 6 \/ d = 7 \/ d = 8 \/ d = 9) by lia.
      destruct Q as [->|Q].
      + assert (Q : e = 0 \/ e = 1 \/ e = 2 \/ e = 3 \/ e = 4 \/ e = 5 \/ e = 6 \/ e = 7 \/ e = 8 \/ e = 9) by lia.
        repeat (destruct Q as [->|Q]; [reflexivity|]); rewrite Q; reflexivity.
      + repeat (destruct Q as [->|Q]; [reflexivity|]); rewrite Q; reflexivity. }
  rewrite Hx. rewrite strtoull_dec by (auto; eapply suffix_stops; eauto; lia).
  apply suffix_scale; auto.
  - eapply Forall_impl; [|apply (dec_text_range 10 ds); auto; lia]. cbv beta. unfold number_char. lia.
  - split; auto. clear - F. induction F as [|d ds Hd F IH]; cbn [value]; [lia|].
    assert (0 <= 10 ^ Z.of_nat (List.length ds)) by (apply Z.pow_nonneg; lia). nia.
Qed.
Print Assumptions C50_decimal_size.

Lemma value_nonneg base ds : 0 <= base -> Forall (fun d => 0 <= d < base) ds -> 0 <= value base ds.
Proof.
  intros Hb. induction 1 as [|d ds Hd F IH]; cbn [value]; [lia|].
  assert (0 <= base ^ Z.of_nat (List.length ds)) by (apply Z.pow_nonneg; lia). nia.
Qed.

Theorem C50_hexadecimal_size : forall ds cs x k, ds <> [] -> Forall (fun d => 0 <= d < 16) ds -> Forall2 hex_char ds cs ->
  value 16 ds < 2 ^ 64 -> suffix x k ->
  str2size (str "0x" ++ cs ++ x) = (value 16 ds * k) mod 2 ^ 64.
Proof.
  intros ds cs x k N F F2 V S. change (str "0x" ++ cs ++ x) with (48 :: 120 :: cs ++ x). unfold str2size.
  rewrite (strtoull_hex ds) by (auto; eapply suffix_stops; eauto; lia).
  change (48 :: 120 :: cs ++ x) with ((48 :: 120 :: cs) ++ x). apply suffix_scale; auto.
  - constructor; [unfold number_char; lia|]. constructor; [unfold number_char; lia|]. apply hex_text_range with ds; auto.
  - split; auto. apply value_nonneg; auto. lia.
Qed.
Print Assumptions C50_hexadecimal_size.

(** Addresses: decimal (not starting with 0, or 0 itself), 0x hexadecimal, 0 octal. *)
Theorem C50_address : 
  (forall d ds, 0 < d < 10 -> Forall (fun d => 0 <= d < 10) ds -> value 10 (d :: ds) < 2 ^ 64 ->
     str2addr (dec_text (d :: ds)) = value 10 (d :: ds)) /\
  str2addr (str "0") = 0 /\
  (forall ds cs, ds <> [] -> Forall (fun d => 0 <= d < 16) ds -> Forall2 hex_char ds cs -> value 16 ds < 2 ^ 64 ->
     str2addr (str "0x" ++ cs) = value 16 ds) /\
  (forall ds, ds <> [] -> Forall (fun d => 0 <= d < 8) ds -> value 8 ds < 2 ^ 64 ->
     str2addr (str "0" ++ dec_text ds) = value 8 ds).
Proof.
  split; [|split; [reflexivity|split]].
  - intros d ds Hd F V.
    pose proof (strtoull_dec (d :: ds) [] 10 ltac:(discriminate) ltac:(auto) ltac:(constructor; [lia|auto]) I V) as G.
    rewrite app_nil_r in G. rewrite <- G. unfold str2addr. cbn [dec_text map].
    assert (Q : d = 1 \/ d = 2 \/ d = 3 \/ d = 4 \/ d = 5 \/ d = 6 \/ d = 7 \/ d = 8 \/ d = 9) by lia.
    repeat (destruct Q as [->|Q]; [reflexivity|]); rewrite Q; reflexivity.
  - intros ds cs N F F2 V. pose proof (strtoull_hex ds cs [] N F F2 I V) as G. rewrite app_nil_r in G. exact G.
  - intros ds N F V.
    pose proof (strtoull_dec (0 :: ds) [] 8 ltac:(discriminate) ltac:(auto) ltac:(constructor; [lia|auto])) as G.
    cbn [value] in G. specialize (G I ltac:(lia)). rewrite app_nil_r in G. rewrite Z.mul_0_l, Z.add_0_l in G. rewrite <- G. clear G.
    destruct ds as [|d ds]; [congruence|]. apply Forall_inv in F. cbv beta in F. change (str "0" ++ dec_text (d :: ds)) with (48 :: dec_text (d :: ds)).
    change (dec_text (0 :: d :: ds)) with (48 :: dec_text (d :: ds)). unfold str2addr. cbn [dec_text map].
    assert (Q : d = 0 \/ d = 1 \/ d = 2 \/ d = 3 \/ d = 4 \/ d = 5 \/ d = 6 \/ d = 7) by lia.
    repeat (destruct Q as [->|Q]; [reflexivity|]); rewrite Q; reflexivity.
Qed.
Print Assumptions C50_address.

Example C50_ex : str2size (str "12MB") = 12 * 1024 * 1024 /\ str2size (str "0x1FfKB") = 511 * 1024 /\
  str2addr (str "0x7fffF000") = 2147479552 /\ str2addr (str "017") = 15 /\ str2addr (str "4096") = 4096.
Proof. repeat split; reflexivity. Qed.

(** * C51 *)
Theorem C51_round_down : forall x k, 0 <= x < 2 ^ 64 -> 0 <= k < 64 ->
  greatest_below (2 ^ k) x (ROUND_DOWN x (2 ^ k)) /\
  greatest_below (2 ^ k) x (ALIGN_DOWN x (2 ^ k)) /\
  greatest_below (2 ^ k) x (PAGE_DOWN k x) /\
  greatest_below (2 ^ k) x (ELF_PAGESTART k x) /\
  ELF_PAGESTART k x + ELF_PAGEOFFSET k x = x /\ 0 <= ELF_PAGEOFFSET k x < 2 ^ k.
Proof.
  intros x k Hx Hk. assert (P : 0 < 2 ^ k) by (apply pow2_pos; lia). assert (Pk : 2 ^ k < 2 ^ 64) by (apply Z.pow_lt_mono_r; lia).
  assert (G : greatest_below (2 ^ k) x (Z.land x (u64 (Z.lnot (u64 (2 ^ k - 1)))))) by (rewrite mask_down by auto; apply down_spec; auto).
  assert (Of : ELF_PAGEOFFSET k x = x mod 2 ^ k).
  { unfold ELF_PAGEOFFSET. rewrite small_u64 by lia. replace (2 ^ k - 1) with (Z.ones k) by (rewrite Z.ones_equiv; lia).
    apply Z.land_ones. lia. }
  split; [exact G|]. split.
  - unfold ALIGN_DOWN, ALIGN.
    replace (u64 (u64 (x - u64 (2 ^ k - 1)) + u64 (2 ^ k - 1))) with x; [exact G|].
    unfold u64 at 1 2. rewrite wrap_add_l by lia. replace (x - u64 (2 ^ k - 1) + u64 (2 ^ k - 1)) with x by lia.
    symmetry. apply wrap_id. auto.
  - split; [exact G|]. split; [exact G|]. split.
    + unfold ELF_PAGESTART. rewrite mask_down by auto. rewrite Of. pose proof (Z.div_mod x (2 ^ k)). lia.
    + rewrite Of. apply Z.mod_pos_bound. auto.
Qed.
Print Assumptions C51_round_down.

Theorem C51_round_up : forall x k, 0 <= x < 2 ^ 64 -> 0 <= k < 64 ->
  (exists y, (2 ^ k | y) /\ x <= y < 2 ^ 64) ->
  least_above (2 ^ k) x (ROUND_UP x (2 ^ k)) /\
  least_above (2 ^ k) x (ALIGN x (2 ^ k)) /\
  least_above (2 ^ k) x (PAGE_UP k x) /\
  least_above (2 ^ k) x (ELF_PAGEALIGN k x).
Proof.
  intros x k Hx Hk Hy. assert (P : 0 < 2 ^ k) by (apply pow2_pos; lia). pose proof (up_no_wrap x k Hx Hk Hy) as W.
  destruct (round_up_eq x k Hx Hk W) as [E1 E2]. unfold PAGE_UP. change (ELF_PAGEALIGN k x) with (ROUND_UP x (2 ^ k)).
  rewrite E1, E2. pose proof (up_spec x (2 ^ k) P). auto.
Qed.
Print Assumptions C51_round_up.

Example C51_ex : ROUND_UP 4097 (2 ^ 12) = 8192 /\ ALIGN_DOWN 8191 (2 ^ 12) = 4096 /\
  (exists y, (2 ^ 12 | y) /\ 4097 <= y < 2 ^ 64) /\ PAGE_UP 12 4096 = 4096.
Proof.
  split; [reflexivity|]. split; [reflexivity|]. split; [|reflexivity]. exists 8192. split; [exists 2; reflexivity|lia].
Qed.

(** ** C99 *)

(** How often the letter v (118) was given; every option brings one itself. *)
Definition count_v (s : list Z) : Z := Z.of_nat (count_occ Z.eq_dec s 118).
Definition given_v (opts : list (option (list Z))) : Z :=
  fold_right (fun o n => 1 + match o with None => 0 | Some s => count_v s end + n) 0 opts.

Lemma verbose_count s : forall v, 0 <= v -> v + Z.of_nat (List.length s) < 2 ^ 31 -> verbose_loop s v = v + count_v s.
Proof.
  unfold count_v. induction s as [|c r IH]; intros v Hv L; cbn [verbose_loop count_occ List.length] in *; [lia|].
  destruct (Z.eqb_spec c 118) as [E|E], (Z.eq_dec c 118) as [E'|E']; try contradiction.
  - assert (S : s32 (v + 1) = v + 1).
    { unfold s32, sgn. rewrite Z.mod_small by lia. destruct (Z.ltb_spec (v + 1) (2 ^ (32 - 1))); lia. }
    rewrite S, IH by lia. lia.
  - apply IH; lia.
Qed.

(** -v -v is given twice but counts once. *)
Theorem C99_verbosity_refuted : exists opts, verbosity opts <> given_v opts.
Proof. exists [None; None]. vm_compute. discriminate. Qed.
Print Assumptions C99_verbosity_refuted.

(** What does hold: the letters of the last option count.  Missing: letters of earlier options. *)
Theorem C99_verbosity_partial : forall opts o, 
  match o with None => True | Some s => Z.of_nat (List.length s) < 2 ^ 31 - 1 end ->
  verbosity (opts ++ [o]) = given_v [o].
Proof.
  intros opts o H. unfold verbosity. rewrite fold_left_app. cbn [fold_left given_v fold_right].
  assert (S : forall x, 0 <= x < 2 ^ 31 -> s32 x = x).
  { intros x Hx. unfold s32, sgn. rewrite Z.mod_small by lia. destruct (Z.ltb_spec x (2 ^ (32 - 1))); lia. }
  destruct o as [s|]; [|reflexivity]. cbn [str2verbose].
  assert (C : 0 <= count_v s <= Z.of_nat (List.length s)).
  { unfold count_v. pose proof (count_occ_bound Z.eq_dec 118 s). lia. }
  unfold len. destruct (Z.eqb_spec (Z.of_nat (List.length s)) 0) as [L|L].
  - destruct s; [reflexivity|cbn [List.length] in L; lia].
  - rewrite verbose_count by lia. rewrite S by lia. lia.
Qed.
Print Assumptions C99_verbosity_partial.

Example C99_verbosity_ex : given_v [Some [118; 118]] = 3 /\ verbosity [None; Some [118; 118]] = 3.
Proof. split; reflexivity. Qed.
