(** Proofs about listings and disassembly. *)
From Coq Require Import ZArith String List Bool Lia Sorted.
From Verif Require TextModel ShModel ShProofs ShProps EcModel EcProofs.
From Verif Require Import Word WordLemmas RbModel RbSpec RbPure RbSep RbTop RbWalk Str SymModel SymSpec SymProofs ScModel CmdModel
  PrSpec MpSpec TextSpec RsModel RsProofs DsModel DsSpec.
Import ListNotations.
Open Scope Z_scope.

(** ** Numbers *)
Lemma hexn_hextext n v : 0 <= v -> hextext v (EcModel.hexn n v).
Proof.
  intros H. split; [|split].
  - unfold EcModel.hexn. intros E. apply app_eq_nil in E. destruct E as [_ E]. apply map_eq_nil in E. cbn [digits] in E.
    destruct (v <? 16); [discriminate|]. apply app_eq_nil in E. destruct E; discriminate.
  - unfold EcModel.hexn. apply Forall_app. split.
    + apply Forall_forall. intros c Hc. apply repeat_spec in Hc. subst c. left. lia.
    + apply Forall_forall. intros c Hc. apply in_map_iff in Hc. destruct Hc as (d & <- & Hd).
      pose proof (VmaProofs.digits_range (S (Z.to_nat (Z.log2 v))) 16 v ltac:(lia) H) as F. rewrite Forall_forall in F. specialize (F d Hd).
      unfold hexchar, TextModel.hex_digit. destruct (Z.ltb_spec d 10); lia.
  - rewrite <- (EcProofs.hexn_value n v H) at 2. reflexivity.
Qed.

Lemma alt16_ok v : 0 <= v -> exists p h, alt16 v = p ++ h /\ (p = [] \/ p = str "0x") /\ hextext v h.
Proof.
  intros H. unfold alt16. destruct (Z.eqb_spec v 0) as [->|N].
  - exists [], (repeat 48 16). split; [reflexivity|]. split; [auto|]. split; [discriminate|]. split; [|reflexivity].
    apply Forall_forall. intros c Hc. apply repeat_spec in Hc. subst c. left. lia.
  - exists (str "0x"), (EcModel.hexn 14 v). split; [reflexivity|]. split; [auto|]. apply hexn_hextext. auto.
Qed.

(** ** Symbols *)
Lemma print_ok wv wn file info x : 0 <= ts_addr (info x) -> 
  sym_line (file x, ts_name (info x), ts_addr (info x)) (print_tsym wv wn file info x).
Proof.
  intros H. destruct (alt16_ok _ H) as (p & h & E & P & Q). unfold sym_line, print_tsym, EcModel.padr.
  exists (wv - List.length (file x))%nat, (wn - List.length (ts_name (info x)))%nat, p, h. split; [|auto].
  assert (R : forall n l, repeat 32 n ++ [32] ++ l = repeat 32 (S n) ++ l).
  { intros n l. change (repeat 32 (S n)) with (32 :: repeat 32 n). rewrite repeat_cons, <- app_assoc. reflexivity. }
  rewrite E, <- !app_assoc, R, R. reflexivity.
Qed.

Lemma lines_map {A} (P : A -> list Z -> Prop) f l : (forall x, In x l -> P x (f x)) -> lines_of P l (concat (map f l)).
Proof.
  intros H. exists (map f l). split; [|reflexivity]. induction l as [|a l IH]; [constructor|]. cbn [map]. constructor.
  - apply H. left. auto.
  - apply IH. intros x Hx. apply H. right. auto.
Qed.

Lemma distinct_nodup same l : (forall a, In a l -> same a a = true) -> NoDup (distinct same l) /\
  ForallOrdPairs (fun a b => same a b = false) (distinct same l).
Proof.
  intros R. cut (ForallOrdPairs (fun a b => same a b = false) (distinct same l)).
  { intros F. split; [|exact F]. assert (R' : forall a, In a (distinct same l) -> same a a = true) by (intros a Ha; apply R; eapply distinct_in; eauto).
    clear R. induction F as [|a d Fa F IH]; [constructor|]. constructor.
    - intros Ha. rewrite Forall_forall in Fa. pose proof (Fa a Ha). rewrite R' in H by (left; auto). discriminate.
    - apply IH. intros b Hb. apply R'. right. auto. }
  induction l as [|a l IH]; [constructor|]. cbn [distinct]. constructor.
  - apply Forall_forall. intros b Hb. apply filter_In in Hb. destruct (same a b); [destruct Hb; discriminate|reflexivity].
  - assert (F : ForallOrdPairs (fun a b => same a b = false) (distinct same l)) by (apply IH; intros b Hb; apply R; right; auto).
    clear - F. induction F as [|b d Fb F IH]; [constructor|]. cbn [filter]. destruct (negb (same a b)); [|exact IH].
    constructor; [|exact IH]. rewrite Forall_forall in *. intros c Hc. apply filter_In in Hc. apply Fb. tauto.
Qed.

Lemma distinct_cover same l x : (forall a b c, same a b = true -> same b c = true -> same a c = true) -> (forall a, same a a = true) ->
  In x l -> exists y, In y (distinct same l) /\ same y x = true.
Proof.
  intros T R. induction l as [|a l IH]; intros H; [destruct H|]. cbn [distinct]. destruct H as [->|H].
  - exists x. split; [left|]; auto.
  - destruct (IH H) as (y & Hy & Hs). destruct (same a y) eqn:E.
    + exists a. split; [left; auto|]. eapply T; eauto.
    + exists y. split; [right; apply filter_In; rewrite E; auto|auto].
Qed.

Lemma before_strcmp a : forall b, pos_bytes a -> pos_bytes b -> 0 < strcmp a b -> before b a.
Proof.
  induction a as [|x a IH]; intros [|y b] Ha Hb H; cbn [strcmp] in H.
  - lia.
  - inversion Hb; subst. lia.
  - constructor.
  - inversion Ha; inversion Hb; subst. destruct (Z.eqb_spec x y) as [->|N].
    + apply before_rest. apply IH; auto.
    + apply before_byte. lia.
Qed.

(** The rows of the listing. *)
Definition listed (info : Z -> tinfo) (l heads : list Z) : Prop :=
  StronglySorted (fun a b => before (ts_name (info b)) (ts_name (info a))) heads /\
  (forall h, In h heads -> In h l /\ hd 0 (named info l (ts_name (info h))) = h) /\
  (forall x, In x l -> exists h, In h heads /\ ts_name (info h) = ts_name (info x)).

Lemma listing_ok info s l fuel file verbose : fresh_syms s l ->
  Forall (fun x => cstring (ts_name (info x))) l -> Forall (fun x => 0 <= ts_addr (info x)) l -> (List.length l < fuel)%nat ->
  exists s' heads text, link_all fuel info s l = Some s' /\ list_all_symbols fuel verbose file info s' = Some text /\ listed info l heads /\
    let rows := if verbose : bool then concat (map (fun h => named info l (ts_name (info h))) heads) else heads in
    lines_of (fun x => sym_line (file x, ts_name (info x), ts_addr (info x))) rows text.
Proof.
  intros F C A Hf. pose proof (names_pos _ _ C) as Pl.
  destruct (run_names info s l fuel F C Hf) as (s' & E1 & _ & Hinv & _ & _).
  destruct Hinv as (t & H & Hrb & Hs & Hc & Hx & Hz & Hl).
  pose proof (height_size t) as Hh. unfold size in Hh.
  destruct (walk_next (tb_rb (t_syms s')) t fuel fuel H ltac:(lia) ltac:(unfold size; lia)) as (a & W1 & W2).
  exists s', (inorder t). eexists. split; [exact E1|]. unfold list_all_symbols. rewrite W1, each_walk, W2. split; [reflexivity|].
  rewrite Forall_forall in Pl, A.
  assert (Hin : forall h, In h (inorder t) -> In h l) by (intros h Hh'; apply Hc; auto).
  assert (Nm : forall h, In h (inorder t) -> h :: tb_chain (t_syms s') h = named info l (ts_name (info h))).
  { intros h Hh'. destruct (Hc h Hh') as [_ E]. rewrite E. unfold named. f_equal. apply filter_ext_in. intros x Hx'. cbv beta.
    apply eq_true_iff_eq. rewrite Z.eqb_eq, str_eqb_eq, (strcmp_0 (ts_name (info h)) (ts_name (info x)) (Pl h (Hin h Hh')) (Pl x Hx')). split; auto. }
  split.
  { split; [|split].
    - assert (G : forall m, (forall h, In h m -> In h (inorder t)) -> StronglySorted (klt (list Z) (fun x => ts_name (info x)) strcmp) m ->
        StronglySorted (fun a b => before (ts_name (info b)) (ts_name (info a))) m).
      { intros m Hm S. induction S as [|x m S IH G]; constructor.
        - apply IH. intros h Hh'. apply Hm. right. auto.
        - rewrite Forall_forall in *. intros y Hy. specialize (G y Hy). unfold klt in G. apply before_strcmp; auto.
          + apply Pl. apply Hin. apply Hm. left. auto.
          + apply Pl. apply Hin. apply Hm. right. auto. }
      apply G; auto.
    - intros h Hh'. split; [auto|]. rewrite <- Nm by auto. reflexivity.
    - intros x Hx'. destruct (Hx x Hx') as (h & I1 & I2). exists h. split; [auto|]. apply (proj1 (strcmp_0 _ _ (Pl h (Hin h I1)) (Pl x Hx'))). exact I2. }
  set (pr := print_tsym _ _ file info).
  assert (Pr : forall x, In x l -> sym_line (file x, ts_name (info x), ts_addr (info x)) (pr x)) by (intros x Hx'; apply print_ok; auto).
  destruct verbose; cbv zeta.
  - match goal with |- lines_of _ _ ?T => replace T with (concat (map pr (concat (map (fun h => named info l (ts_name (info h))) (inorder t))))) end.
    + apply lines_map. intros x Hx'. apply Pr. apply in_concat in Hx'. destruct Hx' as (y & Hy & Hxy). apply in_map_iff in Hy.
      destruct Hy as (h & <- & Hh'). unfold named in Hxy. apply distinct_in in Hxy. apply filter_In in Hxy. tauto.
    + clear - Nm. assert (G : forall m, (forall h, In h m -> In h (inorder t)) ->
        concat (map pr (concat (map (fun h => named info l (ts_name (info h))) m))) =
        concat (map (fun x => pr x ++ concat (map pr (tb_chain (t_syms s') x))) m)).
      { induction m as [|h m IH]; intros Hm; [reflexivity|]. cbn [map concat]. rewrite map_app, concat_app, IH by (intros; apply Hm; right; auto).
        rewrite <- Nm by (apply Hm; left; auto). reflexivity. }
      apply G. auto.
  - match goal with |- lines_of _ _ ?T => replace T with (concat (map pr (inorder t))) end.
    + apply lines_map. auto.
    + f_equal. apply map_ext. intros x. rewrite app_nil_r. reflexivity.
Qed.

(** ** Disassembly *)
Lemma decoded_facts one : proper_decoder one -> forall code a l left, decoded one code a l left -> 0 <= a < 2 ^ 64 ->
  consecutive a l /\ code = concat (map i_bytes l) ++ left /\
  one left ((a + Z.of_nat (List.length code - List.length left)) mod 2 ^ 64) = None /\
  (forall i r, rev l = i :: r -> (i_addr i + Z.of_nat (List.length (i_bytes i))) mod 2 ^ 64 =
     (a + Z.of_nat (List.length code - List.length left)) mod 2 ^ 64).
Proof.
  intros Pd code a l left H. induction H as [code a N|b rest a i l left O B H IH]; intros Ha.
  - split; [exact I|]. split; [reflexivity|]. rewrite Nat.sub_diag, Z.add_0_r, Z.mod_small by auto. split; [exact N|]. discriminate.
  - destruct (Pd _ _ _ O) as (P1 & P2 & _). destruct (IH (Z.mod_pos_bound _ (2 ^ 64) eq_refl)) as (I1 & I2 & I3 & I4).
    assert (L : List.length rest = (List.length (concat (map i_bytes l)) + List.length left)%nat) by (rewrite I2 at 1; apply app_length).
    assert (S : (a + Z.of_nat (List.length (b ++ rest) - List.length left)) mod 2 ^ 64 =
                ((a + Z.of_nat (List.length b)) mod 2 ^ 64 + Z.of_nat (List.length rest - List.length left)) mod 2 ^ 64).
    { rewrite Zplus_mod_idemp_l. f_equal. rewrite app_length. lia. }
    split; [cbn [consecutive]; rewrite B; split; [auto|split; [congruence|auto]]|]. split; [cbn [map concat]; rewrite B, <- app_assoc, <- I2; reflexivity|].
    rewrite S. split; [exact I3|]. intros j r E. cbn [rev] in E. destruct (rev l) as [|k r'] eqn:R.
    + injection E as <- <-. assert (l = []) by (rewrite <- (rev_involutive l), R; reflexivity). subst l. cbn [map concat List.length] in L.
      rewrite P1, B, Zplus_mod_idemp_l. f_equal. lia.
    + injection E as <- <-. eapply I4. reflexivity.
Qed.

Lemma consecutive_addr l : forall a, 0 <= a < 2 ^ 64 -> consecutive a l -> forall i, In i l -> 0 <= i_addr i < 2 ^ 64.
Proof.
  induction l as [|j l IH]; intros a Ha H i Hi; [destruct Hi|]. destruct H as (E & _ & H). destruct Hi as [<-|Hi]; [lia|].
  eapply IH; [|exact H|exact Hi]. apply Z.mod_pos_bound. lia.
Qed.

Lemma insn_line_ok prefix w i : 0 <= i_addr i -> Forall byte (i_bytes i) -> insn_shown prefix i (insn_line prefix w i).
Proof.
  intros Ha Hb. unfold insn_line. destruct (ShProps.C119_print_bytes (i_bytes i) Hb) as (t & T1 & T2). rewrite T2.
  exists (EcModel.hexn 1 (i_addr i)), t, (Z.to_nat (w - Z.of_nat (List.length (ShProps.spaced t)))). split; [|split; [apply hexn_hextext; auto|auto]].
  set (k := Z.to_nat _). change (repeat 32 (S k)) with (32 :: repeat 32 k). rewrite repeat_cons, <- !app_assoc. reflexivity.
Qed.

Lemma fdisasm_ok one cs opened prefix base host code : proper_decoder one -> engine one cs -> Forall byte code ->
  0 <= base < 2 ^ 64 -> 0 <= host < 2 ^ 64 ->
  let a := if base =? 0 then host else base in
  (opened = true /\ one code a <> None /\ exists left, disassembly one prefix a code left (fst (fdisasm opened cs prefix base host code)) /\
     snd (fdisasm opened cs prefix base host code) = 0) \/
  ((opened = false \/ one code a = None) /\ fdisasm opened cs prefix base host code = ([], - EINVAL)).
Proof.
  intros Pd En Fb Hb Hh a. assert (Ha : 0 <= a < 2 ^ 64) by (unfold a; destruct (base =? 0); lia).
  unfold fdisasm. fold a. destruct opened; cbn [negb]; [|right; auto].
  destruct (En code a) as (left & D). destruct (decoded_facts one Pd code a _ left D Ha) as (D1 & D2 & D3 & D4).
  destruct (rev (cs code a)) as [|i r] eqn:R.
  - right. split; [|reflexivity]. right. assert (Z0 : cs code a = []) by (rewrite <- (rev_involutive (cs code a)), R; reflexivity).
    rewrite Z0 in D. inversion D. auto.
  - left. split; [reflexivity|].
    assert (Nn : cs code a <> []) by (intros Z0; rewrite Z0 in R; discriminate).
    split. { destruct D as [c0 a0 N|b rest a0 j l' lf O B D]; [congruence|]. rewrite O. discriminate. }
    exists left. cbn [fst snd]. split; [|reflexivity].
    assert (Hf : forall j, In j (cs code a) -> Forall byte (i_bytes j)).
    { intros j Hj. rewrite D2 in Fb. apply Forall_app in Fb. destruct Fb as [Fb _]. rewrite Forall_forall in *. intros c Hc. apply Fb.
      apply in_concat. exists (i_bytes j). split; [apply in_map; auto|auto]. }
    set (w := max_size (cs code a) * 3).
    exists (cs code a), (prefix ++ str "Disasm: code addr 0x" ++ EcModel.hexn 1 host ++ str ", size " ++
        dec (s64 (Z.of_nat (List.length code))) ++ str ", count " ++ dec (Z.of_nat (List.length (cs code a)))),
      (concat (map (insn_line prefix w) (cs code a))), (EcModel.hexn 1 (u64 (i_addr i + Z.of_nat (List.length (i_bytes i))))).
    split; [apply lines_map; intros j Hj; apply insn_line_ok; [apply (consecutive_addr _ a Ha D1 j Hj)|auto]|].
    split; [exact Nn|]. split; [exact D1|]. split; [exact D2|]. split; [exact D3|].
    split; [|split].
    + rewrite <- !app_assoc. reflexivity.
    + unfold u64. pose proof (D4 _ _ eq_refl) as D5. rewrite <- D5. apply hexn_hextext. apply Z.mod_pos_bound. lia.
    + eexists. reflexivity.
Qed.

Lemma hex_line_ok l : Forall byte l -> hex_line l (print_string_hex (str "Hex: ") l).
Proof.
  intros F. unfold hex_line, print_string_hex.
  assert (G : exists t, hex_of l t /\ concat (map (fun c => str "0x" ++ TextModel.hex2 c ++ [32]) l) = numbers t).
  { induction F as [|u l B F IH]; [exists []; split; [constructor|reflexivity]|]. destruct IH as (t & T1 & T2).
    destruct (ShProofs.hex2_vals u B) as (h & lo & H1 & H2 & H3). unfold TextModel.hex2 in H1, H2. cbn [nth] in H1, H2.
    exists (TextModel.hex_digit (u / 16) :: TextModel.hex_digit (u mod 16) :: t). split; [econstructor; eauto|].
    cbn [map concat]. rewrite T2. reflexivity. }
  destruct G as (t & T1 & T2). exists t. rewrite T2. auto.
Qed.
