From Coq Require Import ZArith String List Bool Lia ZifyBool ZifyNat.
From Verif Require Import Word WordLemmas Str TextModel TextSpec.
Import ListNotations.
Open Scope Z_scope.

Lemma len_cons a l : len (a :: l) = 1 + len l.
Proof. unfold len. cbn [List.length]. lia. Qed.
Lemma len_app a b : len (a ++ b) = len a + len b.
Proof. unfold len. rewrite app_length. lia. Qed.
Lemma len_nonneg l : 0 <= len l.
Proof. unfold len. lia. Qed.

Lemma put_in b off l x : off <= x < off + len l -> put b off l x = nth (Z.to_nat (x - off)) l 0.
Proof. intros H. unfold put. destruct (Z.leb_spec off x), (Z.ltb_spec x (off + len l)); cbn [andb]; try lia; auto. Qed.
Lemma put_out b off l x : x < off \/ off + len l <= x -> put b off l x = b x.
Proof. intros H. unfold put. destruct (Z.leb_spec off x), (Z.ltb_spec x (off + len l)); cbn [andb]; try lia; auto. Qed.

Lemma only_refl lo hi b : only_within lo hi b b.
Proof. intros x H. congruence. Qed.
Lemma only_trans lo hi b1 b2 b3 : only_within lo hi b1 b2 -> only_within lo hi b2 b3 -> only_within lo hi b1 b3.
Proof.
  intros H1 H2 x N. destruct (Z.eq_dec (b2 x) (b1 x)) as [e|n]; [apply H2; congruence|apply H1; auto].
Qed.
Lemma only_put lo hi b off l : lo <= off -> off + len l <= hi -> only_within lo hi b (put b off l).
Proof.
  intros H1 H2 x N. destruct (Z_lt_dec x off); [rewrite put_out in N by lia; congruence|].
  destruct (Z_lt_dec x (off + len l)); [lia|rewrite put_out in N by lia; congruence].
Qed.
Lemma only_widen lo hi lo' hi' b b' : lo' <= lo -> hi <= hi' -> only_within lo hi b b' -> only_within lo' hi' b b'.
Proof. intros H1 H2 H x N. specialize (H x N). lia. Qed.

(** ** Digits *)

Lemma digit_dec d : 0 <= d < 10 -> digit_val (48 + d) = Some d.
Proof.
  intros H. unfold digit_val. destruct (Z.leb_spec 48 (48 + d)); [|lia]. destruct (Z.leb_spec (48 + d) 57); [|lia].
  cbn [andb]. f_equal. lia.
Qed.
Lemma digit_hex d c : 0 <= d -> hex_char d c -> digit_val c = Some d.
Proof.
  intros H0 [[H1 ->]|[H1 [->| ->]]]; [apply digit_dec; lia| |]; unfold digit_val.
  - destruct (Z.leb_spec (97 + (d - 10)) 57); [lia|]. rewrite andb_false_r.
    destruct (Z.leb_spec 97 (97 + (d - 10))); [|lia]. destruct (Z.leb_spec (97 + (d - 10)) 122); [|lia]. cbn [andb]. f_equal. lia.
  - destruct (Z.leb_spec (65 + (d - 10)) 57); [lia|]. rewrite andb_false_r.
    destruct (Z.leb_spec 97 (65 + (d - 10))); [lia|]. cbn [andb].
    destruct (Z.leb_spec 65 (65 + (d - 10))); [|lia]. destruct (Z.leb_spec (65 + (d - 10)) 90); [|lia]. cbn [andb]. f_equal. lia.
Qed.

(** A character that ends a number. *)
Definition stops (base : Z) (rest : list Z) : Prop :=
  match rest with [] => True | c :: _ => is_digit base c = false end.

Lemma conv_stops base rest acc : stops base rest -> conv base rest acc = acc.
Proof.
  destruct rest as [|c r]; cbn [stops conv]; auto. unfold is_digit. destruct (digit_val c); auto. intros ->. auto.
Qed.

Lemma conv_digits base ds : forall cs rest acc,
  Forall2 (fun d c => digit_val c = Some d /\ 0 <= d < base) ds cs -> stops base rest ->
  conv base (cs ++ rest) acc = acc * base ^ len ds + value base ds.
Proof.
  induction ds as [|d ds IH]; intros cs rest acc F S; inversion F; subst.
  - cbn [app value]. rewrite conv_stops by auto. change (len []) with 0. change (base ^ 0) with 1. lia.
  - destruct H1 as [Hd Hr]. cbn [app conv value]. rewrite Hd. destruct (Z.ltb_spec d base); [|lia].
    rewrite IH by auto. rewrite len_cons. fold (len ds). rewrite Z.pow_add_r by (pose proof (len_nonneg ds); lia). rewrite Z.pow_1_r. lia.
Qed.

Lemma forall2_dec ds : Forall (fun d => 0 <= d < 10) ds ->
  Forall2 (fun d c => digit_val c = Some d /\ 0 <= d < 10) ds (dec_text ds).
Proof.
  induction 1; cbn [dec_text map]; constructor; auto. split; auto. apply digit_dec; auto.
Qed.

Lemma strtoull_dec ds rest base : ds <> [] -> (base = 10 \/ base = 8) ->
  Forall (fun d => 0 <= d < base) ds -> stops base rest -> value base ds < 2 ^ 64 ->
  strtoull (dec_text ds ++ rest) base = value base ds.
Proof.
  intros N Hb F S V.
  assert (F2 : Forall2 (fun d c => digit_val c = Some d /\ 0 <= d < base) ds (dec_text ds)).
  { clear - F Hb. induction F; cbn [dec_text map]; constructor; auto. split; auto. apply digit_dec; lia. }
  destruct ds as [|d ds]; [congruence|]. pose proof (Forall_inv F) as Hd. cbv beta in Hd.
  assert (E : conv base (dec_text (d :: ds) ++ rest) 0 = value base (d :: ds)) by (rewrite conv_digits with (ds := d :: ds); auto; lia).
  assert (Hs : skip_space (dec_text (d :: ds) ++ rest) = dec_text (d :: ds) ++ rest).
  { cbn [dec_text map app skip_space]. unfold is_space.
    destruct (Z.eqb_spec (48 + d) 32); [lia|]. destruct (Z.leb_spec (48 + d) 13); [lia|]. rewrite andb_false_r. auto. }
  unfold strtoull. rewrite Hs.
  assert (Hm : forall (A : Type) (x y z : A),
    match dec_text (d :: ds) ++ rest with 45 :: _ => x | 43 :: _ => y | _ => z end = z).
  { intros A x y z. cbn [dec_text map app].
    assert (Q : 48 + d = 48 \/ 48 + d = 49 \/ 48 + d = 50 \/ 48 + d = 51 \/ 48 + d = 52 \/ 48 + d = 53 \/ 48 + d = 54 \/ 48 + d = 55 \/ 48 + d = 56 \/ 48 + d = 57) by lia.
    repeat (destruct Q as [->|Q]; [reflexivity|]). rewrite Q. reflexivity. }
  assert (Hg : match dec_text (d :: ds) ++ rest with 45 :: r => (true, r) | 43 :: r => (false, r) | _ => (false, dec_text (d :: ds) ++ rest) end
    = (false, dec_text (d :: ds) ++ rest)).
  { cbn [dec_text map app].
    assert (Q : 48 + d = 48 \/ 48 + d = 49 \/ 48 + d = 50 \/ 48 + d = 51 \/ 48 + d = 52 \/ 48 + d = 53 \/ 48 + d = 54 \/ 48 + d = 55 \/ 48 + d = 56 \/ 48 + d = 57) by lia.
    repeat (destruct Q as [->|Q]; [reflexivity|]). rewrite Q. reflexivity. }
  rewrite Hg.
  assert (Hx : forall s : list Z, match s with
           | 48 :: x :: h :: r => if (base =? 16) && ((x =? 120) || (x =? 88)) && is_digit 16 h then h :: r else s
           | _ => s end = s).
  { intros s. replace (base =? 16) with false by lia. cbn [andb].
    destruct s as [|a [|b0 [|c s]]]; auto; repeat (match goal with |- context[match ?q with _ => _ end] => destruct q; auto end). }
  cbv zeta. rewrite Hx, E.
  destruct (Z.ltb_spec (2 ^ 64 - 1) (value base (d :: ds))); [lia|auto].
Qed.

Lemma strtoull_hex ds cs rest : ds <> [] -> Forall (fun d => 0 <= d < 16) ds -> Forall2 hex_char ds cs ->
  stops 16 rest -> value 16 ds < 2 ^ 64 -> strtoull (48 :: 120 :: cs ++ rest) 16 = value 16 ds.
Proof.
  intros N F Fc S V.
  assert (F2 : Forall2 (fun d c => digit_val c = Some d /\ 0 <= d < 16) ds cs).
  { clear - F Fc. revert F. induction Fc; intros F; constructor; auto.
    - pose proof (Forall_inv F). cbv beta in H0. split; auto. apply digit_hex; auto; lia.
    - apply IHFc. apply Forall_inv_tail in F. auto. }
  assert (E : conv 16 (cs ++ rest) 0 = value 16 ds) by (rewrite conv_digits with (ds := ds); auto; lia).
  destruct ds as [|d ds]; [congruence|]. inversion F2; subst. destruct H1 as [Hd Hr].
  unfold strtoull. change (skip_space (48 :: 120 :: (y :: l') ++ rest)) with (48 :: 120 :: y :: l' ++ rest).
  cbv iota beta zeta. change (16 =? 16) with true. change (120 =? 120) with true. cbn [orb andb].
  unfold is_digit. rewrite Hd. destruct (Z.ltb_spec d 16); [|lia]. cbn [app] in E. rewrite E.
  destruct (Z.ltb_spec (2 ^ 64 - 1) (value 16 (d :: ds))); [lia|auto].
Qed.

Lemma hex_digit_char d : 0 <= d < 16 -> hex_char d (hex_digit d).
Proof.
  intros H. unfold hex_digit, hex_char. destruct (Z.ltb_spec d 10); [left; lia|right; split; [lia|left; lia]].
Qed.

Lemma byte_split u : byte u -> 0 <= u / 16 < 16 /\ 0 <= u mod 16 < 16 /\ u = 16 * (u / 16) + u mod 16.
Proof.
  unfold byte. intros H. split; [|split].
  - split; [apply Z.div_pos; lia|apply Z.div_lt_upper_bound; lia].
  - apply Z.mod_pos_bound. lia.
  - apply Z.div_mod. lia.
Qed.

Lemma strtoull_byte u rest : byte u -> stops 16 rest -> strtoull ([48; 120] ++ hex2 u ++ rest) 16 = u.
Proof.
  intros Hu S. pose proof (byte_split u Hu) as (H1 & H2 & H3).
  pose proof (strtoull_hex [u / 16; u mod 16] (hex2 u) rest) as G.
  cbn [app] in *. rewrite G; clear G; auto; try discriminate.
  - unfold value. cbn [List.length]. change (16 ^ Z.of_nat 1) with 16. change (16 ^ Z.of_nat 0) with 1. lia.
  - unfold hex2. constructor; [apply hex_digit_char; auto|]. constructor; [apply hex_digit_char; auto|constructor].
  - unfold value. cbn [List.length]. change (16 ^ Z.of_nat 1) with 16. change (16 ^ Z.of_nat 0) with 1. unfold byte in Hu. lia.
Qed.

(** ** The textual form of a byte sequence *)

Fixpoint text (sep : Z) (l : list Z) : list Z :=
  match l with
  | [] => []
  | [u] => [48; 120] ++ hex2 u
  | u :: r => [48; 120] ++ hex2 u ++ sep :: text sep r
  end.

Lemma text_cons sep u v l : text sep (u :: v :: l) = [48; 120] ++ hex2 u ++ sep :: text sep (v :: l).
Proof. reflexivity. Qed.

Lemma text_len sep l : l <> [] -> len (text sep l) = 5 * len l - 1.
Proof.
  induction l as [|u [|v l] IH]; intros N; [congruence|reflexivity|].
  rewrite text_cons. rewrite !len_app, (len_cons sep), IH by discriminate. rewrite (len_cons u). unfold len, hex2. cbn [List.length]. lia.
Qed.

Lemma hex_digit_pos d : 0 <= d < 16 -> number_char (hex_digit d) /\ hex_digit d <> 120.
Proof. intros H. unfold hex_digit, number_char. destruct (Z.ltb_spec d 10); lia. Qed.

(** The bytes written by the loop. *)
Lemma m2s_loop_text l : forall b i mem_len sep, l <> [] -> 0 <= i -> mem_len = i + len l ->
  only_within (i * 5) (i * 5 + 5 * len l) b (m2s_loop l b i mem_len sep) /\
  forall j, 0 <= j <= 5 * len l - 1 -> m2s_loop l b i mem_len sep (i * 5 + j) = nth (Z.to_nat j) (text sep l ++ [0]) 0.
Proof.
  induction l as [|u [|v l] IH]; intros b i mem_len sep N Hi Hm; [congruence| |].
  - cbn [m2s_loop]. rewrite len_cons in *. change (len []) with 0 in *.
    destruct (Z.eqb_spec i (mem_len - 1)); [|lia]. split.
    + apply only_put; [lia|]. change (len ([48; 120] ++ hex2 u ++ [0])) with 5. lia.
    + intros j Hj. rewrite put_in by (change (len ([48; 120] ++ hex2 u ++ [0])) with 5; lia).
      replace (i * 5 + j - i * 5) with j by lia. reflexivity.
  - set (w := v :: l) in *. assert (Hw : w <> []) by discriminate. cbn [m2s_loop]. rewrite (len_cons u) in *.
    pose proof (len_nonneg l) as Hl. assert (Hw1 : 1 <= len w) by (unfold w; rewrite len_cons; lia).
    destruct (Z.eqb_spec i (mem_len - 1)); [lia|].
    set (b1 := put b (i * 5) ([48; 120] ++ hex2 u ++ [sep; 0])).
    destruct (IH b1 (i + 1) mem_len sep Hw ltac:(lia) ltac:(lia)) as [O C]. split.
    + apply only_trans with b1.
      * apply only_put; [lia|]. change (len ([48; 120] ++ hex2 u ++ [sep; 0])) with 6. lia.
      * eapply only_widen; [| |exact O]; lia.
    + intros j Hj. change (text sep (u :: w)) with ([48; 120] ++ hex2 u ++ sep :: text sep w).
      destruct (Z_lt_dec j 5) as [Hj5|Hj5].
      * assert (E : m2s_loop w b1 (i + 1) mem_len sep (i * 5 + j) = b1 (i * 5 + j)).
        { destruct (Z.eq_dec (m2s_loop w b1 (i + 1) mem_len sep (i * 5 + j)) (b1 (i * 5 + j))) as [e|ne]; auto.
          apply O in ne. lia. }
        rewrite E. unfold b1. rewrite put_in by (change (len ([48; 120] ++ hex2 u ++ [sep; 0])) with 6; lia).
        replace (i * 5 + j - i * 5) with j by lia.
        assert (Q : j = 0 \/ j = 1 \/ j = 2 \/ j = 3 \/ j = 4) by lia.
        destruct Q as [->|[->|[->|[->| ->]]]]; reflexivity.
      * specialize (C (j - 5) ltac:(lia)). replace ((i + 1) * 5 + (j - 5)) with (i * 5 + j) in C by lia. rewrite C.
        replace (Z.to_nat j) with (5 + Z.to_nat (j - 5))%nat by lia. reflexivity.
Qed.

Lemma number_no0 c : number_char c -> c <> 0.
Proof. unfold number_char. lia. Qed.

Lemma text_chars sep l : Forall byte l -> Forall (fun c => number_char c \/ c = sep) (text sep l).
Proof.
  assert (H2 : forall u, byte u -> Forall (fun c => number_char c \/ c = sep) ([48; 120] ++ hex2 u)).
  { intros u Hu. pose proof (byte_split u Hu) as (A & B & _). apply hex_digit_pos in A, B. unfold hex2. cbn [app].
    apply Forall_cons; [left; unfold number_char; lia|]. apply Forall_cons; [left; unfold number_char; lia|].
    apply Forall_cons; [left; tauto|]. apply Forall_cons; [left; tauto|constructor]. }
  induction l as [|u [|v l] IH]; intros F; [constructor| |].
  - apply H2. apply Forall_inv in F. auto.
  - rewrite text_cons, app_assoc. apply Forall_app. split; [apply H2; apply Forall_inv in F; auto|].
    constructor; [auto|]. apply IH. apply Forall_inv_tail in F. auto.
Qed.

Lemma mem2strbytes_text mem b buf_len sep :
  mem <> [] -> Forall byte mem -> sep <> 0 -> 5 * len mem <= buf_len ->
  exists b', mem2strbytes mem b buf_len sep = Some b' /\ holds b' (text sep mem) /\ only_within 0 buf_len b b'.
Proof.
  intros N F S L.
  assert (L1 : 1 <= len mem) by (destruct mem; [congruence|rewrite len_cons; pose proof (len_nonneg mem); lia]).
  unfold mem2strbytes. destruct (Z.ltb_spec (len mem) 1); [lia|]. destruct (Z.ltb_spec buf_len 5); [lia|]. cbn [orb].
  destruct (Z.ltb_spec buf_len (5 * len mem)); [lia|].
  destruct (m2s_loop_text mem (put b 0 [0]) 0 (len mem) sep N ltac:(lia) ltac:(lia)) as [O C].
  eexists. split; [reflexivity|]. split.
  - pose proof (text_len sep mem N) as TL. split; [|split].
    + intros I. pose proof (text_chars sep mem F) as T. rewrite Forall_forall in T. specialize (T 0 I). unfold number_char in T. lia.
    + intros i Hi. unfold len in TL at 1. specialize (C (Z.of_nat i)).
      replace (0 * 5 + Z.of_nat i) with (Z.of_nat i) in C by lia. rewrite C by lia.
      rewrite Nat2Z.id, app_nth1 by auto. auto.
    + unfold len in TL at 1. specialize (C (Z.of_nat (List.length (text sep mem)))).
      replace (0 * 5 + Z.of_nat (List.length (text sep mem))) with (Z.of_nat (List.length (text sep mem))) in C by lia. rewrite C by lia.
      rewrite Nat2Z.id, app_nth2 by auto. rewrite Nat.sub_diag. auto.
  - eapply only_trans; [|eapply only_widen; [| |exact O]; lia]. apply only_put; [lia|]. change (len [0]) with 1. lia.
Qed.

Lemma mem2strbytes_bounds mem b buf_len sep b' :
  mem2strbytes mem b buf_len sep = Some b' -> only_within 0 buf_len b b'.
Proof.
  unfold mem2strbytes. destruct (Z.ltb_spec (len mem) 1); [discriminate|]. destruct (Z.ltb_spec buf_len 5); [discriminate|]. cbn [orb].
  destruct (Z.ltb_spec buf_len (5 * len mem)); [discriminate|]. intros Eq. injection Eq as <-.
  assert (N : mem <> []) by (intros ->; unfold len in *; cbn in *; lia).
  destruct (m2s_loop_text mem (put b 0 [0]) 0 (len mem) sep N ltac:(lia) ltac:(lia)) as [O C].
  eapply only_trans; [|eapply only_widen; [| |exact O]; lia]. apply only_put; [lia|]. change (len [0]) with 1. lia.
Qed.

(** ** Parsing *)

Lemma check_text sep s : Forall (fun c => number_char c \/ c = sep) s -> strbytes2mem_check s sep = true.
Proof.
  induction 1 as [|c s H F IH]; cbn [strbytes2mem_check]; auto.
  replace (((48 <=? c) && (c <=? 57) || (97 <=? c) && (c <=? 102) || (65 <=? c) && (c <=? 70) || (c =? 120) || (c =? sep))) with true; auto.
  unfold number_char in H. lia.
Qed.

Lemma find_text sep u rest : byte u -> ~ number_char sep ->
  find_ch sep ([48; 120] ++ hex2 u ++ rest) = find_ch sep rest.
Proof.
  intros Hu S. pose proof (byte_split u Hu) as (A & B & _). apply hex_digit_pos in A, B. destruct A as [A _], B as [B _].
  unfold hex2. cbn [app find_ch].
  assert (48 =? sep = false) by (unfold number_char in *; lia). assert (120 =? sep = false) by (unfold number_char in *; lia).
  destruct (Z.eqb_spec (hex_digit (u / 16)) sep) as [e|_]; [rewrite e in A; contradiction|].
  destruct (Z.eqb_spec (hex_digit (u mod 16)) sep) as [e|_]; [rewrite e in B; contradiction|].
  rewrite H, H0. auto.
Qed.

Lemma stops_sep sep r : ~ number_char sep -> stops 16 (sep :: r).
Proof.
  intros S. cbn [stops]. unfold is_digit, digit_val. unfold number_char in S.
  destruct ((48 <=? sep) && (sep <=? 57)) eqn:E1; [lia|].
  destruct ((97 <=? sep) && (sep <=? 122)) eqn:E2; [lia|].
  destruct ((65 <=? sep) && (sep <=? 90)) eqn:E3; [lia|auto].
Qed.

Lemma s2m_text sep l : ~ number_char sep -> forall fuel b n buf_len,
  l <> [] -> Forall byte l -> 0 <= n -> n + len l <= buf_len -> (List.length (text sep l) < fuel)%nat ->
  exists b', s2m_loop fuel (text sep l) b n buf_len sep = Some (S2m b' true (Some (n + len l))) /\
    only_within n (n + len l) b b' /\ forall i, (i < List.length l)%nat -> b' (n + Z.of_nat i) = nth i l 0.
Proof.
  intros S. induction l as [|u [|v l] IH]; intros fuel b n buf_len N F Hn Hl Hf; [congruence| |].
  - pose proof (Forall_inv F) as Hu. destruct fuel as [|fuel]; [lia|].
    assert (V : strtoull (text sep [u]) 16 = u).
    { change (text sep [u]) with ([48; 120] ++ hex2 u). rewrite <- (app_nil_r (hex2 u)). apply strtoull_byte; auto. exact I. }
    assert (Fd : find_ch sep (text sep [u]) = None).
    { change (text sep [u]) with ([48; 120] ++ hex2 u). rewrite <- (app_nil_r (hex2 u)). rewrite find_text by auto. auto. }
    change (text sep [u]) with (48 :: 120 :: hex2 u) in *. cbn [s2m_loop]. rewrite V, Fd.
    assert (LL : len [u] = 1) by reflexivity. rewrite LL in *.
    destruct (Z.ltb_spec buf_len (n + 1)); [lia|].
    assert (U : u8 u = u) by (unfold u8; apply wrap_id; unfold byte in Hu; change (2 ^ 8) with 256; lia). rewrite U.
    eexists. split; [reflexivity|]. split; [apply only_put; [lia|change (len [u]) with 1; lia]|].
    intros i Hi. cbn [List.length] in Hi. assert (i = 0)%nat by lia. subst i. rewrite put_in by (change (len [u]) with 1; lia).
    replace (Z.to_nat (n + Z.of_nat 0 - n)) with 0%nat by lia. auto.
  - pose proof (Forall_inv F) as Hu. destruct fuel as [|fuel]; [lia|]. set (w := v :: l) in *.
    assert (V : strtoull (text sep (u :: w)) 16 = u).
    { change (text sep (u :: w)) with ([48; 120] ++ hex2 u ++ sep :: text sep w). apply strtoull_byte; auto. apply stops_sep; auto. }
    assert (Fd : find_ch sep (text sep (u :: w)) = Some (sep :: text sep w)).
    { change (text sep (u :: w)) with ([48; 120] ++ hex2 u ++ sep :: text sep w). rewrite find_text by auto. cbn [find_ch].
      rewrite Z.eqb_refl. auto. }
    assert (Sk : skip_sep sep (sep :: text sep w) = text sep w).
    { cbn [skip_sep]. rewrite Z.eqb_refl. unfold w.
      assert (E48 : (48 =? sep) = false) by (unfold number_char in S; lia).
      destruct l; cbn [text app skip_sep]; rewrite E48; auto. }
    change (text sep (u :: w)) with (48 :: 120 :: hex2 u ++ sep :: text sep w) in *. cbn [s2m_loop]. rewrite V, Fd, Sk.
    rewrite (len_cons u) in *. assert (W1 : 1 <= len w) by (unfold w; rewrite len_cons; pose proof (len_nonneg l); lia).
    destruct (Z.ltb_spec buf_len (n + 1)); [lia|].
    assert (U : u8 u = u) by (unfold u8; apply wrap_id; unfold byte in Hu; change (2 ^ 8) with 256; lia). rewrite U.
    destruct (IH fuel (put b n [u]) (n + 1) buf_len) as (b' & R & O & C); auto; try lia.
    { discriminate. } { apply Forall_inv_tail in F. auto. }
    { cbn [List.length app] in Hf. rewrite app_length in Hf. cbn [List.length] in Hf. lia. }
    exists b'. rewrite R. split; [do 3 f_equal; lia|]. split.
    + apply only_trans with (put b n [u]); [apply only_put; [lia|change (len [u]) with 1; lia]|].
      eapply only_widen; [| |exact O]; lia.
    + intros [|i] Hi.
      * assert (E0 : b' (n + Z.of_nat 0) = put b n [u] (n + Z.of_nat 0)).
        { destruct (Z.eq_dec (b' (n + Z.of_nat 0)) (put b n [u] (n + Z.of_nat 0))) as [e|ne]; auto. apply O in ne. lia. }
        rewrite E0. rewrite put_in by (change (len [u]) with 1; lia). replace (Z.to_nat (n + Z.of_nat 0 - n)) with 0%nat by lia. auto.
      * cbn [nth]. rewrite <- C by (cbn [List.length] in Hi; lia). f_equal. lia.
Qed.

Lemma skip_sep_text sep l : ~ number_char sep -> skip_sep sep (text sep l) = text sep l.
Proof.
  intros S. assert (E48 : (48 =? sep) = false) by (unfold number_char in S; lia).
  destruct l as [|u [|v l]]; cbn [text app skip_sep]; auto; rewrite E48; auto.
Qed.

Lemma skip_sep_len sep s : (List.length (skip_sep sep s) <= List.length s)%nat.
Proof. induction s as [|c s IH]; cbn [skip_sep]; auto. destruct (c =? sep); cbn [List.length]; lia. Qed.
Lemma find_ch_len c s s' : find_ch c s = Some s' -> (List.length s' <= List.length s)%nat /\ exists r, s' = c :: r.
Proof.
  induction s as [|x s IH]; cbn [find_ch]; [discriminate|]. destruct (Z.eqb_spec x c).
  - intros Eq. injection Eq as <-. subst. cbn [List.length]. split; [lia|eauto].
  - intros Eq. apply IH in Eq. cbn [List.length]. destruct Eq. split; [lia|auto].
Qed.

(** The shape of every run of the loop. *)
Lemma s2m_loop_bounds fuel : forall s b n buf_len sep r, 0 <= n <= buf_len ->
  s2m_loop fuel s b n buf_len sep = Some r ->
  only_within n (buf_len + 1) b (s2m_buf r) /\
  (s2m_ok r = true -> exists k, s2m_n r = Some k /\ n <= k <= buf_len /\ only_within n k b (s2m_buf r)) /\
  (s2m_ok r = false -> s2m_n r = Some 0).
Proof.
  induction fuel as [|fuel IH]; intros s b n buf_len sep r Hn; [discriminate|]. cbn [s2m_loop].
  assert (Fail : forall b0, only_within n (buf_len + 1) b b0 -> Some (S2m b0 false (Some 0)) = Some r ->
    only_within n (buf_len + 1) b (s2m_buf r) /\
    (s2m_ok r = true -> exists k, s2m_n r = Some k /\ n <= k <= buf_len /\ only_within n k b (s2m_buf r)) /\
    (s2m_ok r = false -> s2m_n r = Some 0)).
  { intros b0 O Eq. injection Eq as <-. cbn [s2m_buf s2m_ok s2m_n]. split; [auto|]. split; [discriminate|auto]. }
  assert (Main : forall s v, (if buf_len <? n + 1 then Some (S2m (put b n [v]) false (Some 0))
      else match find_ch sep s with
           | None => Some (S2m (put b n [v]) true (Some (n + 1)))
           | Some s => s2m_loop fuel (skip_sep sep s) (put b n [v]) (n + 1) buf_len sep
           end) = Some r ->
    only_within n (buf_len + 1) b (s2m_buf r) /\
    (s2m_ok r = true -> exists k, s2m_n r = Some k /\ n <= k <= buf_len /\ only_within n k b (s2m_buf r)) /\
    (s2m_ok r = false -> s2m_n r = Some 0)).
  { intros s0 v Eq.
    assert (P : only_within n (n + 1) b (put b n [v])) by (apply only_put; [lia|change (len [v]) with 1; lia]).
    destruct (Z.ltb_spec buf_len (n + 1)).
    - apply Fail with (put b n [v]); auto. eapply only_widen; [| |exact P]; lia.
    - destruct (find_ch sep s0) as [s1|].
      + apply IH in Eq; [|lia]. destruct Eq as (O & T & Fl). split; [|split; auto].
        * eapply only_trans; [eapply only_widen; [| |exact P]; lia|]. eapply only_widen; [| |exact O]; lia.
        * intros E. destruct (T E) as (k & K1 & K2 & K3). exists k. split; auto. split; [lia|].
          eapply only_trans; [eapply only_widen; [| |exact P]; lia|]. eapply only_widen; [| |exact K3]; lia.
      + injection Eq as <-. cbn [s2m_buf s2m_ok s2m_n]. split; [eapply only_widen; [| |exact P]; lia|].
        split; [|discriminate]. intros _. exists (n + 1). split; auto. split; [lia|auto]. }
  destruct s as [|c s].
  - intros Eq. injection Eq as <-. cbn [s2m_buf s2m_ok s2m_n]. split; [apply only_refl|]. split; [|discriminate].
    intros _. exists n. split; auto. split; [lia|apply only_refl].
  - destruct (Z.eq_dec c 48) as [->|Nc].
    + destruct s as [|d s]; [apply Fail; apply only_refl|]. destruct (Z.eq_dec d 120) as [->|Nd].
      * apply Main.
      * intros Eq. apply (Fail b (only_refl _ _ _)). rewrite <- Eq.
        destruct d as [|p|p]; auto. do 7 (destruct p as [p|p|]; auto). congruence.
    + intros Eq. apply (Fail b (only_refl _ _ _)). rewrite <- Eq.
      destruct c as [|p|p]; auto. do 6 (destruct p as [p|p|]; auto). congruence.
Qed.

Lemma s2m_loop_total fuel : forall s b n buf_len sep, (List.length s < fuel)%nat -> exists r, s2m_loop fuel s b n buf_len sep = Some r.
Proof.
  induction fuel as [|fuel IH]; intros s b n buf_len sep H; [lia|]. cbn [s2m_loop].
  assert (Main : forall v, exists r, (if buf_len <? n + 1 then Some (S2m (put b n [v]) false (Some 0))
      else match find_ch sep s with
           | None => Some (S2m (put b n [v]) true (Some (n + 1)))
           | Some s => s2m_loop fuel (skip_sep sep s) (put b n [v]) (n + 1) buf_len sep
           end) = Some r).
  { intros v. destruct (buf_len <? n + 1); [eauto|]. destruct (find_ch sep s) as [s1|] eqn:Ef; [|eauto].
    apply find_ch_len in Ef. destruct Ef as (L & rr & ->). apply IH. cbn [skip_sep]. rewrite Z.eqb_refl.
    pose proof (skip_sep_len sep rr). cbn [List.length] in L. lia. }
  destruct s as [|c s]; [eauto|].
  destruct (Z.eq_dec c 48) as [->|Nc].
  - destruct s as [|d s]; [eauto|]. destruct (Z.eq_dec d 120) as [->|Nd]; [apply Main|].
    exists (S2m b false (Some 0)). destruct d as [|p|p]; auto. do 7 (destruct p as [p|p|]; auto). congruence.
  - exists (S2m b false (Some 0)). destruct c as [|p|p]; auto. do 6 (destruct p as [p|p|]; auto). congruence.
Qed.

(** ** Comma lists *)

Lemma upto_comma_piece p rest : ~ In 44 p -> upto_comma (p ++ 44 :: rest) = (p, 44 :: rest).
Proof.
  induction p as [|c p IH]; intros N; [reflexivity|]. cbn [app upto_comma].
  destruct (Z.eqb_spec c 44) as [->|_]; [exfalso; apply N; left; auto|].
  rewrite IH by (intros I; apply N; right; auto). auto.
Qed.
Lemma upto_comma_last p : ~ In 44 p -> upto_comma p = (p, []).
Proof.
  induction p as [|c p IH]; intros N; [reflexivity|]. cbn [upto_comma].
  destruct (Z.eqb_spec c 44) as [->|_]; [exfalso; apply N; left; auto|].
  rewrite IH by (intros I; apply N; right; auto). auto.
Qed.

Lemma parse_loop_join pieces : pieces <> [] -> Forall (fun p => ~ In 44 p) pieces ->
  forall fuel acc, (List.length (join pieces) < fuel)%nat ->
  parse_loop fuel (join pieces) acc = Some (acc ++ filter nonempty pieces).
Proof.
  induction pieces as [|p [|q r] IH]; intros N F fuel acc Hf; [congruence| |].
  - cbn [join] in *. pose proof (Forall_inv F) as Np. destruct p as [|c p].
    + destruct fuel; [cbn in Hf; lia|]. cbn [parse_loop filter nonempty]. rewrite app_nil_r. auto.
    + destruct fuel as [|fuel]; [lia|]. cbn [parse_loop]. rewrite upto_comma_last by auto.
      cbn [List.length Nat.eqb filter nonempty]. destruct fuel; [cbn [List.length] in Hf; lia|]. cbn [parse_loop]. auto.
  - set (w := q :: r) in *. assert (Hw : w <> []) by discriminate. pose proof (Forall_inv F) as Np. apply Forall_inv_tail in F.
    change (join (p :: w)) with (p ++ 44 :: join w) in *.
    destruct fuel as [|fuel]; [lia|]. cbn [parse_loop].
    assert (E : exists x y, p ++ 44 :: join w = x :: y) by (destruct p; cbn [app]; eauto). destruct E as (x & y & Ex).
    destruct (p ++ 44 :: join w) as [|z0 z1] eqn:Ez; [congruence|]. rewrite <- Ez in *. rewrite upto_comma_piece by auto.
    rewrite app_length in Hf. cbn [List.length] in Hf.
    rewrite IH; auto; [|lia]. f_equal. destruct p; cbn [List.length Nat.eqb filter nonempty]; auto. rewrite <- app_assoc. auto.
Qed.

Lemma pieces_exist s : exists pieces, pieces <> [] /\ Forall (fun p => ~ In 44 p) pieces /\ s = join pieces.
Proof.
  induction s as [|c s (pieces & N & F & ->)].
  - exists [[]]. split; [discriminate|]. split; [repeat constructor; auto|auto].
  - destruct pieces as [|p r]; [congruence|]. destruct (Z.eq_dec c 44) as [->|Nc].
    + exists ([] :: p :: r). split; [discriminate|]. split; [constructor; auto|auto].
    + exists ((c :: p) :: r). split; [discriminate|]. split.
      * constructor; [|apply Forall_inv_tail in F; auto]. apply Forall_inv in F. intros [I|I]; [congruence|auto].
      * destruct r; auto.
Qed.

(** ** Build ids *)

Fixpoint hexes (l : list Z) : list Z := match l with [] => [] | u :: r => hex2 u ++ hexes r end.

Lemma hexes_len l : len (hexes l) = 2 * len l.
Proof. induction l as [|u l IH]; [reflexivity|]. cbn [hexes]. rewrite len_app, IH, len_cons. change (len (hex2 u)) with 2. lia. Qed.

Lemma hexes_of l : Forall byte l -> hex_of l (hexes l).
Proof.
  induction 1 as [|u l Hu F IH]; [constructor|]. pose proof (byte_split u Hu) as (A & B & C). cbn [hexes]. unfold hex2. cbn [app].
  apply hex_cons with (u / 16) (u mod 16); auto; unfold hex_val, hex_digit.
  - destruct (Z.ltb_spec (u / 16) 10); lia.
  - destruct (Z.ltb_spec (u mod 16) 10); lia.
Qed.

Lemma hex_val_inj c v1 v2 : hex_val c v1 -> hex_val c v2 -> v1 = v2.
Proof. unfold hex_val. lia. Qed.

Lemma hex_of_inj t : forall l1 l2, hex_of l1 t -> hex_of l2 t -> l1 = l2.
Proof.
  assert (G : forall l1 t0, hex_of l1 t0 -> forall l2, hex_of l2 t0 -> l1 = l2).
  { induction 1 as [|u l c1 c2 t0 h lo V1 V2 -> H IH]; intros l2 H2; inversion H2; subst; auto. f_equal; [|apply IH; auto].
    match goal with A : hex_val c1 ?a, B : hex_val c2 ?b |- _ = 16 * ?a + ?b =>
      rewrite (hex_val_inj _ _ _ V1 A), (hex_val_inj _ _ _ V2 B) end. auto. }
  eauto.
Qed.

Lemma bid_loop_hexes l : forall b p,
  only_within p (p + 2 * len l + 1) b (bid_loop l b p) /\
  (forall i, (i < List.length (hexes l))%nat -> bid_loop l b p (p + Z.of_nat i) = nth i (hexes l) 0) /\
  bid_loop l b p (p + 2 * len l) = 0.
Proof.
  induction l as [|u l IH]; intros b p; cbn [bid_loop hexes].
  - change (len []) with 0. split; [apply only_put; [lia|change (len [0]) with 1; lia]|]. split; [cbn; lia|].
    rewrite put_in by (change (len [0]) with 1; lia). replace (p + 2 * 0 - p) with 0 by lia. auto.
  - set (b1 := put b p (hex2 u ++ [0])). destruct (IH b1 (p + 2)) as (O & C & Z0). rewrite len_cons. pose proof (len_nonneg l) as Hl.
    split; [|split].
    + apply only_trans with b1; [apply only_put; [lia|change (len (hex2 u ++ [0])) with 3; lia]|].
      eapply only_widen; [| |exact O]; lia.
    + intros i Hi. rewrite app_length in Hi. change (List.length (hex2 u)) with 2%nat in Hi.
      destruct (Nat.lt_ge_cases i 2) as [Lt|Ge].
      * assert (E0 : bid_loop l b1 (p + 2) (p + Z.of_nat i) = b1 (p + Z.of_nat i)).
        { destruct (Z.eq_dec (bid_loop l b1 (p + 2) (p + Z.of_nat i)) (b1 (p + Z.of_nat i))) as [e|ne]; auto. apply O in ne. lia. }
        rewrite E0. unfold b1. rewrite put_in by (change (len (hex2 u ++ [0])) with 3; lia).
        replace (Z.to_nat (p + Z.of_nat i - p)) with i by lia.
        assert (Q : i = 0%nat \/ i = 1%nat) by lia. destruct Q as [->| ->]; reflexivity.
      * rewrite app_nth2 by auto. change (List.length (hex2 u)) with 2%nat. rewrite <- C by lia. f_equal. lia.
    + replace (p + 2 * (1 + len l)) with (p + 2 + 2 * len l) by lia. auto.
Qed.

Lemma bfd_loop_bid l : forall b i blen, 0 <= i -> 2 * i + 2 * len l + 1 <= blen -> bfd_loop l b i blen = bid_loop l b (i * 2).
Proof.
  induction l as [|u l IH]; intros b i blen Hi Hl; cbn [bfd_loop bid_loop]; auto.
  rewrite len_cons in Hl. pose proof (len_nonneg l). destruct (Z.ltb_spec (i * 2) blen); [|lia]. rewrite IH by lia. f_equal. lia.
Qed.

(** ** Rounding *)

Lemma mask_down x k : 0 <= x < 2 ^ 64 -> 0 <= k < 64 -> Z.land x (u64 (Z.lnot (u64 (2 ^ k - 1)))) = x / 2 ^ k * 2 ^ k.
Proof.
  intros Hx Hk. assert (P : 0 < 2 ^ k) by (apply pow2_pos; lia). assert (Pk : 2 ^ k < 2 ^ 64) by (apply Z.pow_lt_mono_r; lia).
  replace (u64 (2 ^ k - 1)) with (2 ^ k - 1) by (symmetry; apply wrap_id; lia).
  unfold u64, wrap. rewrite <- (Z.land_ones (Z.lnot (2 ^ k - 1)) 64) by lia.
  rewrite Z.land_assoc. rewrite Z.land_ones by lia.
  replace (2 ^ k - 1) with (Z.ones k) by (rewrite Z.ones_equiv; lia).
  change (Z.land x (Z.lnot (Z.ones k))) with (Z.land x (Z.lnot (Z.ones k))). rewrite <- Z.ldiff_land.
  rewrite Z.ldiff_ones_r by lia. rewrite Z.shiftl_mul_pow2, Z.shiftr_div_pow2 by lia.
  apply Z.mod_small. assert (0 <= x / 2 ^ k) by (apply Z.div_pos; lia). split; [nia|].
  pose proof (Z.mul_div_le x (2 ^ k) P). lia.
Qed.

Lemma down_spec x m : 0 < m -> greatest_below m x (x / m * m).
Proof.
  intros Hm. split; [exists (x / m); auto|]. split; [pose proof (Z.mul_div_le x m Hm); lia|].
  intros z [q ->] Hz. assert (q <= x / m) by (apply Z.div_le_lower_bound; lia). nia.
Qed.
Lemma up_spec x m : 0 < m -> least_above m x ((x + m - 1) / m * m).
Proof.
  intros Hm. pose proof (Z.div_mod (x + m - 1) m ltac:(lia)) as D. pose proof (Z.mod_pos_bound (x + m - 1) m Hm) as B.
  split; [exists ((x + m - 1) / m); auto|]. split; [lia|].
  intros z [q ->] Hz. assert ((x + m - 1) / m < q + 1) by (apply Z.div_lt_upper_bound; lia). nia.
Qed.

Lemma up_no_wrap x k : 0 <= x < 2 ^ 64 -> 0 <= k < 64 ->
  (exists y, (2 ^ k | y) /\ x <= y < 2 ^ 64) -> x + 2 ^ k - 1 < 2 ^ 64.
Proof.
  intros Hx Hk (y & [q ->] & Hy). assert (P : 0 < 2 ^ k) by (apply pow2_pos; lia).
  assert (E64 : 2 ^ 64 = 2 ^ (64 - k) * 2 ^ k) by (rewrite <- Z.pow_add_r by lia; f_equal; lia).
  rewrite E64 in *. assert (q < 2 ^ (64 - k)) by nia. nia.
Qed.

Lemma round_up_eq x k : 0 <= x < 2 ^ 64 -> 0 <= k < 64 -> x + 2 ^ k - 1 < 2 ^ 64 ->
  ROUND_UP x (2 ^ k) = (x + 2 ^ k - 1) / 2 ^ k * 2 ^ k /\ ALIGN x (2 ^ k) = (x + 2 ^ k - 1) / 2 ^ k * 2 ^ k.
Proof.
  intros Hx Hk H. assert (P : 0 < 2 ^ k) by (apply pow2_pos; lia). assert (Pk : 2 ^ k < 2 ^ 64) by (apply Z.pow_lt_mono_r; lia).
  assert (E1 : u64 (u64 (x + 2 ^ k) - 1) = x + 2 ^ k - 1).
  { unfold u64. rewrite wrap_sub_l by lia. apply wrap_id. lia. }
  assert (E2 : u64 (x + u64 (2 ^ k - 1)) = x + 2 ^ k - 1).
  { unfold u64. rewrite wrap_add_r by lia. replace (x + (2 ^ k - 1)) with (x + 2 ^ k - 1) by lia. apply wrap_id. lia. }
  unfold ROUND_UP, ALIGN. rewrite E1, E2, mask_down by lia. auto.
Qed.
