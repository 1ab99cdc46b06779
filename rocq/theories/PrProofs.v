From Coq Require Import ZArith String List Bool Lia ZifyBool ZifyNat.
From Verif Require Import Word WordLemmas Str VmaProofs FsModel PrModel PrSpec.
From Verif Require TextModel TextSpec MiscModel ShModel ShProofs.
Import ListNotations.
Open Scope Z_scope.

(** ** Decimal numbers *)

Definition dchar (c : Z) : Prop := 48 <= c <= 57.

Lemma digits_val_app l1 : forall l2 acc, Forall dchar l1 ->
  MiscModel.digits_val (l1 ++ l2) acc = MiscModel.digits_val l2 (MiscModel.digits_val l1 acc).
Proof.
  induction l1 as [|c l1 IH]; intros l2 acc F; [reflexivity|]. inversion F as [|x y D F']; subst. cbn [app MiscModel.digits_val].
  unfold MiscModel.is_digit. unfold dchar in D. destruct (Z.leb_spec 48 c), (Z.leb_spec c 57); try lia. cbn [andb]. apply IH. auto.
Qed.

Lemma dec_nat_chars n : 0 <= n -> Forall dchar (dec_nat n).
Proof.
  intros H. unfold dec_nat. rewrite Forall_map. eapply Forall_impl; [|apply digits_range; lia]. cbv beta. unfold dchar. intros a Ha. lia.
Qed.

Lemma digits_nonempty f base n : digits (S f) base n <> [].
Proof. cbn [digits]. destruct (n <? base); [discriminate|]. destruct (digits f base (n / base)); discriminate. Qed.

Lemma digits_value f : forall n, 0 <= n < 2 ^ Z.of_nat f ->
  MiscModel.digits_val (map (fun d => 48 + d) (digits f 10 n)) 0 = n.
Proof.
  induction f as [|f IH]; intros n H; [cbn [digits map MiscModel.digits_val]; change (Z.of_nat 0) with 0 in H; rewrite Z.pow_0_r in H; lia|].
  cbn [digits]. destruct (Z.ltb_spec n 10) as [L|L].
  - cbn [map MiscModel.digits_val]. unfold MiscModel.is_digit. destruct (Z.leb_spec 48 (48 + n)), (Z.leb_spec (48 + n) 57); try lia.
    cbn [andb]. lia.
  - rewrite map_app, digits_val_app.
    2: { rewrite Forall_map. eapply Forall_impl; [|apply digits_range; [lia|apply Z.div_pos; lia]]. cbv beta. unfold dchar. intros a Ha. lia. }
    rewrite IH.
    + cbn [map MiscModel.digits_val]. unfold MiscModel.is_digit. pose proof (Z.mod_pos_bound n 10 ltac:(lia)).
      destruct (Z.leb_spec 48 (48 + n mod 10)), (Z.leb_spec (48 + n mod 10) 57); try lia. cbn [andb].
      pose proof (Z.div_mod n 10 ltac:(lia)). lia.
    + split; [apply Z.div_pos; lia|]. apply Z.div_lt_upper_bound; [lia|]. replace (Z.of_nat (S f)) with (Z.of_nat f + 1) in H by lia.
      rewrite Z.pow_add_r in H by lia. change (2 ^ 1) with 2 in H. lia.
Qed.
Lemma dec_value n : 0 <= n -> MiscModel.digits_val (dec_nat n) 0 = n.
Proof.
  intros H. unfold dec_nat. apply digits_value. split; [auto|].
  destruct (Z.eq_dec n 0) as [->|]; [reflexivity|].
  pose proof (Z.log2_spec n ltac:(lia)) as [_ L]. pose proof (Z.log2_nonneg n).
  replace (Z.of_nat (S (Z.to_nat (Z.log2 n)))) with (Z.succ (Z.log2 n)) by lia. exact L.
Qed.

Lemma digits_len f : forall n k, 0 <= n < 10 ^ Z.of_nat k -> (0 < k)%nat -> (List.length (digits f 10 n) <= k)%nat.
Proof.
  induction f as [|f IH]; intros n k H K; cbn [digits]; [cbn [List.length]; lia|].
  destruct (Z.ltb_spec n 10) as [L|L]; [cbn [List.length]; lia|]. rewrite app_length. cbn [List.length].
  destruct k as [|[|k]]; [lia|change (10 ^ Z.of_nat 1) with 10 in H; lia|].
  assert (List.length (digits f 10 (n / 10)) <= S k)%nat; [|lia]. apply IH; [|lia].
  split; [apply Z.div_pos; lia|]. apply Z.div_lt_upper_bound; [lia|].
  replace (Z.of_nat (S (S k))) with (1 + Z.of_nat (S k)) in H by lia. rewrite Z.pow_add_r in H by lia. change (10 ^ 1) with 10 in H. lia.
Qed.

Lemma dec_pos n : 0 <= n -> dec n = dec_nat n.
Proof. intros H. unfold dec. destruct (Z.ltb_spec n 0); [lia|reflexivity]. Qed.
Lemma dec_cons n : 0 <= n -> exists c r, dec n = c :: r /\ dchar c.
Proof.
  intros H. rewrite dec_pos by auto. pose proof (dec_nat_chars n H) as F. unfold dec_nat in *.
  destruct (digits (S (Z.to_nat (Z.log2 n))) 10 n) as [|d l] eqn:E; [exfalso; eapply digits_nonempty; exact E|].
  cbn [map] in *. inversion F; subst. eauto.
Qed.
Lemma dec_len10 n : 0 <= n < 2 ^ 31 -> (List.length (dec n) <= 10)%nat.
Proof. intros H. rewrite dec_pos by lia. unfold dec_nat. rewrite map_length. apply digits_len; [|lia]. change (10 ^ Z.of_nat 10) with 10000000000. lia. Qed.

Lemma no_sign (A : Type) c r (f g h : A) : dchar c ->
  (match c :: r with 45 :: _ => f | 43 :: _ => g | _ => h end) = h.
Proof.
  intros D. unfold dchar in D.
  assert (c = 48 \/ c = 49 \/ c = 50 \/ c = 51 \/ c = 52 \/ c = 53 \/ c = 54 \/ c = 55 \/ c = 56 \/ c = 57) as E by lia.
  repeat (destruct E as [->|E]; [reflexivity|]). subst. reflexivity.
Qed.
Lemma no_sign2 c r : dchar c ->
  (match c :: r with 45 :: r => (true, r) | 43 :: r => (false, r) | _ => (false, c :: r) end) = (false, c :: r).
Proof.
  intros D. unfold dchar in D.
  assert (c = 48 \/ c = 49 \/ c = 50 \/ c = 51 \/ c = 52 \/ c = 53 \/ c = 54 \/ c = 55 \/ c = 56 \/ c = 57) as E by lia.
  repeat (destruct E as [->|E]; [reflexivity|]). subst. reflexivity.
Qed.
Lemma no_space c r : dchar c -> MiscModel.skip_space (c :: r) = c :: r.
Proof.
  intros D. unfold dchar in D. cbn [MiscModel.skip_space]. unfold MiscModel.is_space.
  destruct (Z.eqb_spec c 32); [lia|]. destruct (Z.leb_spec 9 c), (Z.leb_spec c 13); try lia; reflexivity.
Qed.

Lemma atoi_dec n : 0 <= n < 2 ^ 31 -> MiscModel.atoi (dec n) = n.
Proof.
  intros H. destruct (dec_cons n ltac:(lia)) as (c & r & E & D). unfold MiscModel.atoi. rewrite E, no_space, no_sign2 by auto.
  rewrite <- E, dec_pos, dec_value by lia. rewrite Z.min_r by lia. unfold s32. rewrite sgn_id by lia. reflexivity.
Qed.

Lemma span_digits_app l : forall r, Forall dchar l -> (forall c x, r = c :: x -> ~ dchar c) ->
  span_digits (l ++ r) = l /\ after_digits (l ++ r) = r.
Proof.
  induction l as [|c l IH]; intros r F N; cbn [app].
  - destruct r as [|c r]; [split; reflexivity|]. specialize (N c r eq_refl). cbn [span_digits after_digits].
    unfold MiscModel.is_digit, dchar in *. destruct (Z.leb_spec 48 c), (Z.leb_spec c 57); cbn [andb]; try lia; split; reflexivity.
  - inversion F as [|x y D F']; subst. cbn [span_digits after_digits]. unfold MiscModel.is_digit. unfold dchar in D.
    destruct (Z.leb_spec 48 c), (Z.leb_spec c 57); try lia. cbn [andb]. destruct (IH r F' N) as (-> & ->). split; reflexivity.
Qed.

Lemma scan_d_dec n r : 0 <= n < 2 ^ 32 -> (forall c x, r = c :: x -> ~ dchar c) -> scan_d (9 :: dec n ++ r) = Some (s32 n, r).
Proof.
  intros H N. destruct (dec_cons n ltac:(lia)) as (c & l & E & D). unfold scan_d, skip_space. cbn [MiscModel.skip_space].
  change (MiscModel.is_space 9) with true. cbv iota. rewrite E. cbn [app]. rewrite no_space, no_sign2 by auto.
  change (c :: l ++ r) with ((c :: l) ++ r). rewrite <- E.
  assert (F : Forall dchar (dec n)) by (rewrite dec_pos by lia; apply dec_nat_chars; lia).
  destruct (span_digits_app (dec n) r F N) as (-> & ->).
  assert (V : MiscModel.digits_val (dec n) 0 = n) by (rewrite dec_pos by lia; apply dec_value; lia).
  rewrite E in *. rewrite V. rewrite Z.min_r by lia. reflexivity.
Qed.

Lemma u32_s32 n : 0 <= n < 2 ^ 32 -> u32 (s32 n) = n.
Proof. intros H. unfold u32, s32. rewrite wrap_sgn by lia. apply wrap_id. lia. Qed.

(** ** The status file *)

Lemma scan_ids_line label a b c d o rest :
  (label = "Uid:" \/ label = "Gid:")%string -> valid_ids (a, b, c, d) -> (rest = [] \/ rest = [10]) ->
  scan_ids (id_line label (a, b, c, d) ++ rest) o = Some (Ids a b c d, 5).
Proof.
  intros L (Va & Vb & Vc & Vd) R. unfold valid_id in *.
  assert (T : forall x, 9 :: x = [9] ++ x) by reflexivity.
  assert (N9 : forall x c y, 9 :: x = c :: y -> ~ dchar c) by (intros x c0 y E; injection E as <- _; unfold dchar; lia).
  assert (NR : forall c y, rest = c :: y -> ~ dchar c).
  { intros c0 y E. destruct R as [->| ->]; [discriminate|]. injection E as <- _. unfold dchar; lia. }
  unfold scan_ids, id_line. rewrite <- !app_assoc.
  assert (S : forall t, scan_s 128 (str label ++ [9] ++ t) = Some (Some (str label, 9 :: t))).
  { intros t. destruct L as [->| ->]; unfold scan_s, skip_space; cbn; reflexivity. }
  rewrite S. cbn [app]. rewrite (scan_d_dec a) by (lia || (intros; eapply N9; eassumption)). cbn [app]. rewrite (scan_d_dec b) by (lia || (intros; eapply N9; eassumption)).
  rewrite (scan_d_dec c) by (lia || (intros; eapply N9; eassumption)). rewrite (scan_d_dec d) by (lia || assumption). cbn [i_r i_e i_s i_fs]. rewrite !u32_s32 by lia. reflexivity.
Qed.

Lemma fgets_line n : forall l r, ~ In 10 l -> (List.length l < n)%nat -> ShModel.fgets n (l ++ 10 :: r) = (l ++ [10], r).
Proof.
  induction n as [|n IH]; intros l r N H; [lia|]. destruct l as [|c l]; cbn [app ShModel.fgets]; [reflexivity|].
  cbn [In List.length] in *. destruct (Z.eqb_spec c 10); [subst; exfalso; auto|]. rewrite IH by (auto; lia). reflexivity.
Qed.
Lemma fgets_long n : forall l r, ~ In 10 l -> (n <= List.length l)%nat -> ShModel.fgets n (l ++ r) = (firstn n l, skipn n l ++ r).
Proof.
  induction n as [|n IH]; intros l r N H; [destruct l; reflexivity|]. destruct l as [|c l]; cbn [List.length] in H; [lia|].
  cbn [app ShModel.fgets firstn skipn]. cbn [In] in N. destruct (Z.eqb_spec c 10); [subst; exfalso; auto|]. rewrite IH by (auto; lia). reflexivity.
Qed.

Definition quiet (l : list Z) : Prop := prefixb (str "Uid:") l = false /\ prefixb (str "Gid:") l = false.
Lemma other_quiet l : other_line l -> quiet l.
Proof.
  intros (_ & U & G & _). split; [destruct (prefixb (str "Uid:") l) eqn:E|destruct (prefixb (str "Gid:") l) eqn:E]; auto;
  apply prefixb_iff in E; contradiction.
Qed.
Lemma prefixb_firstn p : forall n l, prefixb p (firstn n l) = true -> prefixb p l = true.
Proof.
  induction p as [|x p IH]; intros n l H; [reflexivity|]. destruct n; [discriminate|]. destruct l as [|y l]; [discriminate|].
  cbn [firstn prefixb] in *. apply andb_prop in H. destruct H as (A & B). rewrite A. cbn [andb]. eauto.
Qed.
Lemma quiet_firstn n l : quiet l -> quiet (firstn n l).
Proof.
  intros (U & G). split; match goal with |- ?b = false => destruct b eqn:E end; auto; apply prefixb_firstn in E; congruence.
Qed.
Lemma prefixb_nl p : ~ In 10 p -> forall l, prefixb p (l ++ [10]) = true -> prefixb p l = true.
Proof.
  induction p as [|x p IH]; intros N l H; [reflexivity|]. cbn [In] in N. destruct l as [|y l]; cbn [app prefixb] in *.
  - apply andb_prop in H. destruct H as (A & _). apply Z.eqb_eq in A. exfalso. auto.
  - apply andb_prop in H. destruct H as (A & B). rewrite A. cbn [andb]. auto.
Qed.
Lemma quiet_nl l : quiet l -> quiet (l ++ [10]).
Proof.
  intros (U & G). split; match goal with |- ?b = false => destruct b eqn:E end; auto; apply prefixb_nl in E; try congruence; cbn; lia.
Qed.

Lemma status_quiet fuel f errno u g line r : f <> [] -> ShModel.fgets (Z.to_nat 1023) f = (line, r) -> quiet line ->
  status_loop (S fuel) f errno u g = status_loop fuel r errno u g.
Proof.
  intros N E (U & G). cbn [status_loop]. destruct f as [|c f]; [congruence|]. rewrite E, U, G. reflexivity.
Qed.

Lemma other_tail l n : other_line l -> (1023 <= Z.of_nat n) -> other_line (skipn n l).
Proof.
  intros (N & U & G & C) H.
  assert (X : forall j, nth j (skipn n l) 0 <> 58).
  { intros j. rewrite <- (firstn_skipn n l) in C.
    destruct (le_lt_dec n (List.length l)) as [L|L].
    - specialize (C (n + j)%nat ltac:(lia)). rewrite app_nth2 in C; rewrite firstn_length_le in * by auto; [|lia].
      replace (n + j - n)%nat with j in C by lia. exact C.
    - rewrite skipn_all2 by lia. destruct j; discriminate. }
  split; [|split; [|split]].
  - intros I. apply N. rewrite <- (firstn_skipn n l). apply in_or_app. auto.
  - intros (r & E). apply (X 3%nat). rewrite E. reflexivity.
  - intros (r & E). apply (X 3%nat). rewrite E. reflexivity.
  - intros j _. apply X.
Qed.

Lemma status_other m : forall l, (List.length l <= m)%nat -> forall fuel r errno u g, other_line l ->
  (List.length (l ++ 10%Z :: r) < fuel)%nat ->
  exists fuel', (List.length r < fuel')%nat /\ status_loop fuel (l ++ 10 :: r) errno u g = status_loop fuel' r errno u g.
Proof.
  induction m as [|m IH]; intros l L fuel r errno u g O F; (destruct fuel as [|fuel]; [lia|]);
  pose proof O as (N & _); rewrite app_length in F; cbn [List.length] in F.
  - destruct l; [|cbn [List.length] in L; lia]. exists fuel. split; [cbn [List.length] in F; lia|].
    eapply status_quiet; [destruct r; discriminate|apply (fgets_line _ []); [auto|cbn [List.length]; lia]|]. split; reflexivity.
  - destruct (le_lt_dec (Z.to_nat 1023) (List.length l)) as [G|G].
    + destruct (IH (skipn (Z.to_nat 1023) l)) with (fuel := fuel) (r := r) (errno := errno) (u := u) (g := g) as (fu & A & B).
      { rewrite skipn_length. lia. }
      { apply other_tail; auto. lia. }
      { rewrite app_length, skipn_length. cbn [List.length]. lia. }
      exists fu. split; [auto|]. rewrite <- B. eapply status_quiet; [destruct l; discriminate| |].
      * apply (fgets_long _ l (10 :: r)); auto.
      * apply quiet_firstn, other_quiet. auto.
    + exists fuel. split; [lia|]. eapply status_quiet; [destruct l; discriminate|apply fgets_line; auto|].
      apply quiet_nl, other_quiet. auto.
Qed.

Lemma status_others ls : forall fuel r errno u g, Forall other_line ls -> (List.length (text_of ls ++ r) < fuel)%nat ->
  exists fuel', (List.length r < fuel')%nat /\ status_loop fuel (text_of ls ++ r) errno u g = status_loop fuel' r errno u g.
Proof.
  induction ls as [|l ls IH]; intros fuel r errno u g F H; cbn [text_of flat_map app] in *.
  - exists fuel. split; [exact H|reflexivity].
  - inversion F as [|x y O F']; subst. fold (text_of ls) in *.
    replace (((l ++ [10]) ++ text_of ls) ++ r) with (l ++ 10 :: (text_of ls ++ r)) in * by (rewrite <- !app_assoc; reflexivity).
    destruct (status_other (List.length l) l ltac:(lia) fuel (text_of ls ++ r) errno u g O H) as (f1 & A & ->). apply IH; auto.
Qed.

Lemma in_dec_no10 n : 0 <= n -> ~ In 10 (dec n).
Proof.
  intros H I. rewrite dec_pos in I by auto. pose proof (dec_nat_chars n H) as F. rewrite Forall_forall in F. specialize (F _ I). unfold dchar in F. lia.
Qed.
Lemma id_line_nonl label i : (label = "Uid:" \/ label = "Gid:")%string -> valid_ids i -> ~ In 10 (id_line label i).
Proof.
  destruct i as (((a & b) & c) & d). intros L (Va & Vb & Vc & Vd). unfold valid_id in *. unfold id_line. rewrite !in_app_iff.
  pose proof (in_dec_no10 a ltac:(lia)). pose proof (in_dec_no10 b ltac:(lia)).
  pose proof (in_dec_no10 c ltac:(lia)). pose proof (in_dec_no10 d ltac:(lia)).
  assert (~ In 10 (str label)) by (destruct L as [->| ->]; cbn; lia). cbn [In]. intuition lia.
Qed.
Lemma id_line_len label i : (label = "Uid:" \/ label = "Gid:")%string -> valid_ids i -> (List.length (id_line label i) < Z.to_nat 1023)%nat.
Proof.
  destruct i as (((a & b) & c) & d). intros L (Va & Vb & Vc & Vd). unfold valid_id in *. unfold id_line. rewrite !app_length.
  assert (G : forall n, 0 <= n < 2 ^ 32 - 1 -> (List.length (dec n) <= 10)%nat).
  { intros n H. rewrite dec_pos by lia. unfold dec_nat. rewrite map_length. apply digits_len; [|lia]. change (10 ^ Z.of_nat 10) with 10000000000. lia. }
  pose proof (G a Va). pose proof (G b Vb). pose proof (G c Vc). pose proof (G d Vd).
  assert (List.length (str label) = 4%nat) by (destruct L as [->| ->]; reflexivity). cbn [List.length]. lia.
Qed.

Definition ids_of (i : Z * Z * Z * Z) : ids := let '(a, b, c, d) := i in Ids a b c d.

Lemma status_uid fuel i r errno u g : valid_ids i ->
  status_loop (S fuel) (id_line "Uid:" i ++ 10 :: r) errno u g = status_loop fuel r errno (ids_of i) g.
Proof.
  intros V. cbn [status_loop]. rewrite fgets_line by (try apply id_line_nonl; try apply id_line_len; auto).
  destruct i as (((a & b) & c) & d). cbn [ids_of].
  replace (prefixb (str "Uid:") (id_line "Uid:" (a, b, c, d) ++ [10])) with true by reflexivity.
  rewrite scan_ids_line by auto. change (5 <=? 0) with false. cbv iota.
  replace (prefixb (str "Gid:") (id_line "Uid:" (a, b, c, d) ++ [10])) with false by reflexivity. reflexivity.
Qed.
Lemma status_gid fuel i r errno u g : valid_ids i ->
  status_loop (S fuel) (id_line "Gid:" i ++ 10 :: r) errno u g = status_loop fuel r errno u (ids_of i).
Proof.
  intros V. cbn [status_loop]. rewrite fgets_line by (try apply id_line_nonl; try apply id_line_len; auto).
  destruct i as (((a & b) & c) & d). cbn [ids_of].
  replace (prefixb (str "Uid:") (id_line "Gid:" (a, b, c, d) ++ [10])) with false by reflexivity. change (1 <=? 0) with false. cbv iota.
  replace (prefixb (str "Gid:") (id_line "Gid:" (a, b, c, d) ++ [10])) with true by reflexivity.
  rewrite scan_ids_line by auto. reflexivity.
Qed.

Lemma unset_valid i : valid_ids i -> unset (ids_of i) = false.
Proof.
  destruct i as (((a & b) & c) & d). intros (Va & Vb & Vc & Vd). unfold valid_id, unset, ids_of in *. cbn [i_r i_e i_s i_fs].
  change (u32 (-1)) with (2 ^ 32 - 1). lia.
Qed.
