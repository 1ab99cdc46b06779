(** Property C216, the rest: what the assembler makes of any text between the quotes. *)
From Coq Require Import ZArith String List Bool Lia.
From Verif Require Import Word Str MtModel.
Import ListNotations.
Open Scope Z_scope.

(** The escape sequences of the assembler (its manual, "Strings"; it takes 8 and 9 for octal digits too); independent
    of the functions of MtModel. *)
Definition named : list (Z * Z) := [(98, 8); (102, 12); (110, 10); (114, 13); (116, 9); (118, 11)].
Definition digit (c : Z) : Prop := 48 <= c <= 57.
Definition hexdigit (c d : Z) : Prop := (48 <= c <= 57 /\ d = c - 48) \/ (97 <= c <= 102 /\ d = 10 + (c - 97)) \/ (65 <= c <= 70 /\ d = 10 + (c - 65)).
Definition begins_with (P : Z -> Prop) (s : list Z) : Prop := exists c r, s = c :: r /\ P c.
(** The value of digits, most significant one first. *)
Inductive value (base : Z) : Z -> list Z -> Z -> Prop :=
| va_nil v : value base v [] v
| va_cons v d ds w : value base (base * v + d) ds w -> value base v (d :: ds) w.
Inductive reads : list Z -> list Z -> Prop :=
| rd_nil : reads [] []
| rd_plain c s b : c <> 34 -> c <> 92 -> reads s b -> reads (c :: s) (c :: b)
| rd_named c v s b : In (c, v) named -> reads s b -> reads (92 :: c :: s) (v :: b)
| rd_self c s b : ~ digit c -> c <> 120 -> c <> 88 -> ~ In c (map fst named) -> reads s b -> reads (92 :: c :: s) (c :: b)
| rd_octal cs v s b : cs <> [] -> Forall digit cs -> (List.length cs = 3%nat \/ (List.length cs < 3)%nat /\ ~ begins_with digit s) ->
    value 8 0 (map (fun c => c - 48) cs) v -> reads s b -> reads (92 :: cs ++ s) (v mod 256 :: b)
| rd_hex x cs ds v s b : x = 120 \/ x = 88 -> Forall2 hexdigit cs ds -> ~ begins_with (fun c => exists d, hexdigit c d) s ->
    value 16 0 ds v -> reads s b -> reads (92 :: x :: cs ++ s) (v mod 256 :: b).

Lemma digit_iff c : is_digit c = true <-> digit c.
Proof. unfold is_digit, digit. rewrite andb_true_iff, !Z.leb_le. reflexivity. Qed.
Lemma digit_no c : is_digit c = false <-> ~ digit c.
Proof. rewrite <- digit_iff. destruct (is_digit c); split; congruence. Qed.
Lemma hex_iff c d : hex_val c = Some d <-> hexdigit c d.
Proof.
  unfold hex_val, is_digit, hexdigit.
  destruct (Z.leb_spec 48 c), (Z.leb_spec c 57), (Z.leb_spec 97 c), (Z.leb_spec c 102), (Z.leb_spec 65 c), (Z.leb_spec c 70); cbn [andb];
  (split; [intros X; first [discriminate|injection X as <-; lia]|intros X; first [f_equal; lia|exfalso; lia]]).
Qed.
Lemma hex_none c : hex_val c = None <-> ~ exists d, hexdigit c d.
Proof.
  split.
  - intros N (d & D). apply hex_iff in D. congruence.
  - intros N. destruct (hex_val c) as [d|] eqn:E; auto. exfalso. apply N. exists d. apply hex_iff, E.
Qed.
Lemma named_esc c v : In (c, v) named -> esc_char c = v /\ is_digit c = false /\ (c =? 120) || (c =? 88) = false.
Proof. cbn. intros H. repeat (destruct H as [H|H]; [injection H as <- <-; auto|]). destruct H. Qed.
Lemma esc_self c : ~ In c (map fst named) -> esc_char c = c.
Proof.
  cbn. intros N. unfold esc_char.
  destruct (Z.eqb_spec c 98); [exfalso; lia|]. destruct (Z.eqb_spec c 102); [exfalso; lia|]. destruct (Z.eqb_spec c 110); [exfalso; lia|].
  destruct (Z.eqb_spec c 114); [exfalso; lia|]. destruct (Z.eqb_spec c 116); [exfalso; lia|]. destruct (Z.eqb_spec c 118); [exfalso; lia|]. reflexivity.
Qed.
Lemma esc_named c : In c (map fst named) \/ ~ In c (map fst named).
Proof. destruct (in_dec Z.eq_dec c (map fst named)); auto. Qed.
Lemma named_in c : In c (map fst named) -> In (c, esc_char c) named.
Proof. cbn. intros H. repeat (destruct H as [<-|H]; [vm_compute; auto 10|]). destruct H. Qed.

(** The text and what closes it. *)
Definition tail : list Z := [34; 32; 10].
Definition pushed (x : Z) (o : option (list Z * list Z)) : option (list Z * list Z) := match o with Some (l, rest) => Some (x :: l, rest) | None => None end.

(** ** The assembler follows the manual *)
Lemma oct_step k v c r : gas_chars (Oct k v) (c :: r) = if is_digit c && (k <? 3)%nat then gas_chars (Oct (S k) (8 * v + c - 48)) r else pushed (v mod 256) (gas_chars Normal (c :: r)).
Proof. reflexivity. Qed.
Lemma hex_step v c r : gas_chars (Hex v) (c :: r) = match hex_val c with Some d => gas_chars (Hex (16 * v + d)) r | None => pushed (v mod 256) (gas_chars Normal (c :: r)) end.
Proof. reflexivity. Qed.
Lemma tail_no_digit s : ~ begins_with digit s -> exists c r, s ++ tail = c :: r /\ is_digit c = false.
Proof.
  intros N. destruct s as [|c s]; [exists 34, [32; 10]; auto|]. exists c, (s ++ tail). split; auto. apply digit_no. intros D. apply N. exists c, s. auto.
Qed.
Lemma tail_no_hex s : ~ begins_with (fun c => exists d, hexdigit c d) s -> exists c r, s ++ tail = c :: r /\ hex_val c = None.
Proof.
  intros N. destruct s as [|c s]; [exists 34, [32; 10]; auto|]. exists c, (s ++ tail). split; auto. apply hex_none. intros D. apply N. exists c, s. auto.
Qed.
Lemma oct_run cs : forall k v w s, Forall digit cs -> (k + List.length cs = 3 \/ k + List.length cs < 3 /\ ~ begins_with digit s)%nat ->
  value 8 v (map (fun c => c - 48) cs) w -> gas_chars (Oct k v) (cs ++ s ++ tail) = pushed (w mod 256) (gas_chars Normal (s ++ tail)).
Proof.
  induction cs as [|c cs IH]; intros k v w s F L V; cbn [app map List.length] in *.
  - inversion V; subst. destruct L as [L|(L & N)].
    + assert (T : exists c r, s ++ tail = c :: r) by (destruct s as [|x s]; [exists 34, [32; 10]; reflexivity|exists x, (s ++ tail); reflexivity]). destruct T as (c & r & ->). rewrite oct_step.
      destruct (Nat.ltb_spec k 3); [exfalso; lia|]. rewrite andb_false_r. reflexivity.
    + destruct (tail_no_digit s N) as (c & r & -> & D). rewrite oct_step, D. reflexivity.
  - inversion F as [|? ? D F']; subst. inversion V; subst. rewrite oct_step, (proj2 (digit_iff c) D). assert (K : (k < 3)%nat) by (destruct L as [L|(L & _)]; lia). apply Nat.ltb_lt in K. rewrite K. cbn [andb].
    replace (8 * v + c - 48) with (8 * v + (c - 48)) by lia. apply IH; auto. destruct L as [L|(L & LN)]; [left; lia|right; split; [lia|exact LN]].
Qed.
Lemma hex_run cs : forall ds v w s, Forall2 hexdigit cs ds -> ~ begins_with (fun c => exists d, hexdigit c d) s -> value 16 v ds w ->
  gas_chars (Hex v) (cs ++ s ++ tail) = pushed (w mod 256) (gas_chars Normal (s ++ tail)).
Proof.
  induction cs as [|c cs IH]; intros ds v w s F N V.
  - inversion F; subst. inversion V; subst. destruct (tail_no_hex s N) as (c & r & E & D). cbn [app]. rewrite E, hex_step, D. reflexivity.
  - inversion F as [|? d ? ds' D F']; subst. inversion V; subst. cbn [app]. rewrite hex_step, (proj2 (hex_iff c d) D). eapply IH; eauto.
Qed.
Lemma reads_gas s b : reads s b -> gas_chars Normal (s ++ tail) = Some (b, [32; 10]).
Proof.
  intros H. induction H as [|c s b N1 N2 H IH|c v s b I H IH|c s b D X1 X2 N H IH|cs v s b NE F L V H IH|x cs ds v s b X F N V H IH]; cbn [app].
  - reflexivity.
  - cbn [gas_chars]. rewrite (proj2 (Z.eqb_neq c 34) N1), (proj2 (Z.eqb_neq c 92) N2), IH. reflexivity.
  - destruct (named_esc _ _ I) as (E & D & X). change (gas_chars Normal (92 :: c :: s ++ tail)) with (gas_chars Esc (c :: s ++ tail)). cbn [gas_chars]. rewrite D, X, IH, E. reflexivity.
  - change (gas_chars Normal (92 :: c :: s ++ tail)) with (gas_chars Esc (c :: s ++ tail)). cbn [gas_chars].
    rewrite (proj2 (digit_no c) D), (proj2 (Z.eqb_neq c 120) X1), (proj2 (Z.eqb_neq c 88) X2), IH, (esc_self _ N). reflexivity.
  - change (gas_chars Normal (92 :: (cs ++ s) ++ tail)) with (gas_chars Esc ((cs ++ s) ++ tail)). rewrite <- app_assoc. destruct cs as [|c cs]; [congruence|].
    inversion F as [|? ? D F']; subst. cbn [app gas_chars]. rewrite (proj2 (digit_iff c) D). cbn [map List.length] in *. inversion V; subst.
    change (8 * 0 + (c - 48)) with (0 + (c - 48)) in *. rewrite (oct_run cs 1 (c - 48) v s F'); [rewrite IH; reflexivity|destruct L as [L|(L & LN)]; [left; lia|right; split; [lia|exact LN]]|assumption].
  - change (gas_chars Normal (92 :: x :: (cs ++ s) ++ tail)) with (gas_chars Esc (x :: (cs ++ s) ++ tail)). rewrite <- app_assoc. cbn [gas_chars].
    assert (E : is_digit x = false /\ (x =? 120) || (x =? 88) = true) by (destruct X as [-> | -> ]; auto). destruct E as (-> & ->).
    rewrite (hex_run cs ds 0 v s F N V), IH. reflexivity.
Qed.

(** ** ... and accepts nothing else *)
Lemma pushed_some x o l rest : pushed x o = Some (l, rest) -> exists b, l = x :: b /\ o = Some (b, rest).
Proof. destruct o as [[b r]|]; cbn; [|discriminate]. intros H. injection H as <- <-. eauto. Qed.
Lemma gas_reads s : forall l,
  (gas_chars Normal (s ++ tail) = Some (l, [32; 10]) -> reads s l) /\
  (gas_chars Esc (s ++ tail) = Some (l, [32; 10]) -> reads (92 :: s) l) /\
  (forall k v, (1 <= k <= 3)%nat -> gas_chars (Oct k v) (s ++ tail) = Some (l, [32; 10]) ->
     exists cs s' w b, s = cs ++ s' /\ Forall digit cs /\ (k + List.length cs = 3 \/ k + List.length cs < 3 /\ ~ begins_with digit s')%nat /\
       value 8 v (map (fun c => c - 48) cs) w /\ reads s' b /\ l = w mod 256 :: b) /\
  (forall v, gas_chars (Hex v) (s ++ tail) = Some (l, [32; 10]) ->
     exists cs ds s' w b, s = cs ++ s' /\ Forall2 hexdigit cs ds /\ ~ begins_with (fun c => exists d, hexdigit c d) s' /\
       value 16 v ds w /\ reads s' b /\ l = w mod 256 :: b).
Proof.
  induction s as [|c s IH]; intros l.
  - cbn [app]. split; [|split; [|split]].
    + vm_compute. intros H. injection H as <-. constructor.
    + vm_compute. discriminate.
    + intros k v K. unfold tail. rewrite oct_step. replace (is_digit 34) with false by reflexivity. cbn [andb]. intros H. apply pushed_some in H. destruct H as (b & -> & H).
      vm_compute in H. injection H as <-. exists [], [], v, []. split; [reflexivity|]. split; [constructor|]. split; [|split; [constructor|split; [constructor|reflexivity]]].
      destruct (Nat.eq_dec k 3); [left; cbn; lia|right; split; [cbn; lia|]]. intros (c & r & E & _). discriminate.
    + intros v. unfold tail. rewrite hex_step. replace (hex_val 34) with (@None Z) by reflexivity. intros H. apply pushed_some in H. destruct H as (b & -> & H).
      vm_compute in H. injection H as <-. exists [], [], [], v, []. repeat split; auto; try constructor. intros (c & r & E & _). discriminate.
  - assert (NORM : forall l, gas_chars Normal ((c :: s) ++ tail) = Some (l, [32; 10]) -> reads (c :: s) l).
    { clear l. intros l. cbn [app gas_chars]. destruct (Z.eqb_spec c 34) as [->|N1].
      - intros H. injection H as _ H. exfalso. destruct s as [|x s]; [discriminate|]. apply (f_equal (@List.length Z)) in H. cbn in H. rewrite app_length in H. cbn in H. lia.
      - destruct (Z.eqb_spec c 92) as [->|N2]; [apply IH|]. intros H. apply (pushed_some c (gas_chars Normal (s ++ tail))) in H. destruct H as (b & -> & H). constructor; auto. apply IH, H. }
    split; [apply NORM|]. split; [|split].
    + cbn [app gas_chars]. destruct (is_digit c) eqn:D.
      * intros H. apply IH in H; [|lia]. destruct H as (cs & s' & w & b & -> & F & L & V & R & ->).
        apply (rd_octal (c :: cs) w s' b); [discriminate|constructor; [apply digit_iff, D|exact F]|cbn [List.length]; destruct L as [L|(L & LN)]; [left; lia|right; split; [lia|exact LN]]| |exact R]. constructor. exact V.
      * destruct ((c =? 120) || (c =? 88)) eqn:X.
        -- intros H. apply IH in H. destruct H as (cs & ds & s' & w & b & -> & F & N & V & R & ->). eapply rd_hex; eauto.
           apply orb_true_iff in X. rewrite !Z.eqb_eq in X. exact X.
        -- intros H. apply (pushed_some (esc_char c) (gas_chars Normal (s ++ tail))) in H. destruct H as (b & -> & H). apply IH in H.
           apply orb_false_iff in X. rewrite !Z.eqb_neq in X. destruct (esc_named c) as [I|I].
           ++ apply rd_named; [apply named_in, I|exact H].
           ++ rewrite (esc_self _ I). apply rd_self; [apply digit_no, D|tauto|tauto|exact I|exact H].
    + intros k v K. change ((c :: s) ++ tail) with (c :: s ++ tail). rewrite oct_step. destruct (is_digit c && (k <? 3)%nat) eqn:D.
      * apply andb_true_iff in D. destruct D as (D & K'). apply Nat.ltb_lt in K'. intros H. apply IH in H; [|lia]. destruct H as (cs & s' & w & b & -> & F & L & V & R & ->).
        exists (c :: cs), s', w, b. repeat split; auto; [constructor; [apply digit_iff, D|exact F]|cbn [List.length]; destruct L as [L|(L & LN)]; [left; lia|right; split; [lia|exact LN]]|].
        constructor. replace (8 * v + (c - 48)) with (8 * v + c - 48) by lia. exact V.
      * intros H. apply pushed_some in H. destruct H as (b & -> & H). apply NORM in H. exists [], (c :: s), v, b. split; [reflexivity|]. split; [constructor|]. split; [|split; [constructor|split; [exact H|reflexivity]]].
        apply andb_false_iff in D. destruct D as [D|D].
        -- destruct (Nat.eq_dec k 3); [left; cbn; lia|right; split; [cbn; lia|]]. intros (x & r & E & X). injection E as <- _. apply digit_no in D. contradiction.
        -- apply Nat.ltb_ge in D. left. cbn. lia.
    + intros v. change ((c :: s) ++ tail) with (c :: s ++ tail). rewrite hex_step. destruct (hex_val c) as [d|] eqn:D.
      * intros H. apply IH in H. destruct H as (cs & ds & s' & w & b & -> & F & N & V & R & ->). exists (c :: cs), (d :: ds), s', w, b. repeat split; auto.
        -- constructor; [apply hex_iff, D|exact F].
        -- constructor. exact V.
      * intros H. apply pushed_some in H. destruct H as (b & -> & H). apply NORM in H. exists [], [], (c :: s), v, b. repeat split; auto; try constructor.
        intros (x & r & E & X). injection E as <- _. apply hex_none in D. contradiction.
Qed.

(** The bytes of a text are those that the manual of the assembler says, and a text is accepted if
    and only if the manual gives it bytes. *)
Theorem C216_escapes s bytes : gas_string s = Some bytes <-> exists b, reads s b /\ bytes = b ++ [0].
Proof.
  unfold gas_string. change (str """ " ++ [10]) with tail. split.
  - destruct (gas_chars Normal (s ++ tail)) as [[l rest]|] eqn:E; [|discriminate]. intros H.
    assert (R : rest = [32; 10] /\ bytes = l ++ [0]).
    { destruct rest as [|r1 rest]; [discriminate|]. destruct (Z.eq_dec r1 32) as [->|N1].
      - destruct rest as [|r2 rest]; [discriminate|]. destruct (Z.eq_dec r2 10) as [->|N2].
        + destruct rest; [|discriminate]. injection H as <-. auto.
        + exfalso. destruct r2 as [|p|p]; try discriminate. do 4 (destruct p as [p|p|]; try discriminate). congruence.
      - exfalso. destruct r1 as [|p|p]; try discriminate. do 6 (destruct p as [p|p|]; try discriminate). congruence. }
    destruct R as (-> & ->). exists l. split; auto. apply gas_reads, E.
  - intros (b & R & ->). rewrite (reads_gas _ _ R). reflexivity.
Qed.
Print Assumptions C216_escapes.
(** \101\x4a\n\q1: A, J, a newline, q, 1; a text that ends with a backslash is refused. *)
Example C216_escapes_ex : gas_string [92; 49; 48; 49; 92; 120; 52; 97; 92; 110; 92; 113; 49] = Some [65; 74; 10; 113; 49; 0] /\ gas_string [97; 92] = None /\ gas_string [97; 34; 98] = None /\
  reads [92; 49; 48; 49; 92; 110] [65; 10].
Proof.
  split; [reflexivity|]. split; [reflexivity|]. split; [reflexivity|].
  apply (rd_octal [49; 48; 49] 65 [92; 110] [10]); [discriminate|repeat constructor; unfold digit; lia|left; reflexivity|repeat constructor|].
  apply rd_named; [cbn; auto|constructor].
Qed.
