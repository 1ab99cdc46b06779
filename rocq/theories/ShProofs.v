From Coq Require Import ZArith String List Bool Lia ZifyBool ZifyNat.
From Verif Require Import Word WordLemmas Str TextSpec ShModel ShSpec.
From Verif Require TextModel TextProofs.
Import ListNotations.
Open Scope Z_scope.

(** ** One line of memshow *)

Definition gap (i : Z) : list Z := if i =? 7 then [32; 32] else [32].
Definition hcell (d : Z -> Z) (n base i : Z) : list Z :=
  (if n <=? base + i then [32; 32] else hex2 (d (base + i))) ++ gap i.
Definition ccell (d : Z -> Z) (n base i : Z) : Z :=
  if n <=? base + i then 32 else if isprint (d (base + i)) then d (base + i) else 46.
Fixpoint iota (n : nat) (i : Z) : list Z := match n with O => [] | S n' => i :: iota n' (i + 1) end.
Definition hreads (n base : Z) (l : list Z) : list Z :=
  flat_map (fun i => if n <=? base + i then [] else [base + i]) l.

Lemma hex_cells_eq m : forall d n base i s,
  hex_cells m d n base i s =
  Shown (sh_out s ++ flat_map (hcell d n base) (iota m i)) (sh_reads s ++ hreads n base (iota m i)) (sh_len s).
Proof.
  induction m as [|m IH]; intros d n base i s; cbn [hex_cells iota flat_map hreads].
  - rewrite !app_nil_r. destruct s; reflexivity.
  - cbn [iota flat_map] in *. rewrite IH. unfold hcell at 2, gap, hreads. change (16 / 2 - 1) with 7.
    cbn [flat_map]. destruct (Z.leb_spec n (base + i)); unfold emit, reads; cbn [sh_out sh_reads sh_len];
    rewrite <- ?app_assoc; destruct (i =? 7); reflexivity.
Qed.
Lemma char_cells_eq m : forall d n base i s,
  char_cells m d n base i s =
  Shown (sh_out s ++ map (ccell d n base) (iota m i)) (sh_reads s ++ map (Z.add base) (iota m i)) (sh_len s).
Proof.
  induction m as [|m IH]; intros d n base i s; cbn [char_cells iota map].
  - rewrite !app_nil_r. destruct s; reflexivity.
  - rewrite IH. unfold ccell at 2. unfold emit, reads; cbn [sh_out sh_reads sh_len].
    destruct (n <=? base + i); rewrite <- ?app_assoc; reflexivity.
Qed.

Definition line (d : Z -> Z) (n base : Z) : list Z :=
  hex8 base ++ [32; 32] ++ flat_map (hcell d n base) (iota 16 0) ++ [32; 32; 124] ++ map (ccell d n base) (iota 16 0) ++ [124; 10].
Definition line_reads (n base : Z) : list Z := hreads n base (iota 16 0) ++ map (Z.add base) (iota 16 0).

Lemma memshow_line_eq d n base s :
  memshow_line d n base s = Shown (sh_out s ++ line d n base) (sh_reads s ++ line_reads n base) (sh_len s + 15).
Proof.
  unfold memshow_line. rewrite hex_cells_eq, char_cells_eq. unfold emit_len. cbn [sh_out sh_reads sh_len].
  unfold line, line_reads. rewrite <- !app_assoc. f_equal.
  rewrite app_length. unfold hex8. rewrite map_length. cbn [List.length]. lia.
Qed.

Fixpoint lines (d : Z -> Z) (n : Z) (m : nat) (k : Z) : list Z :=
  match m with O => [] | S m' => line d n (k * 16) ++ lines d n m' (k + 1) end.
Fixpoint all_reads (n : Z) (m : nat) (k : Z) : list Z :=
  match m with O => [] | S m' => line_reads n (k * 16) ++ all_reads n m' (k + 1) end.

Lemma memshow_loop_eq m : forall fuel d n k s, (m < fuel)%nat -> 0 <= k -> n <= 2 ^ 31 - 16 ->
  n <= (k + Z.of_nat m) * 16 < n + 16 ->
  memshow_loop fuel d n k s = Some (Shown (sh_out s ++ lines d n m k) (sh_reads s ++ all_reads n m k) (sh_len s + 15 * Z.of_nat m)).
Proof.
  induction m as [|m IH]; intros fuel d n k s F K N H; (destruct fuel as [|fuel]; [lia|]); cbn [memshow_loop].
  - destruct (Z.leb_spec (2 ^ 31) (k * 16)); [lia|]. destruct (Z.ltb_spec (k * 16) n); [lia|].
    cbn [lines all_reads]. rewrite !app_nil_r. destruct s as [o r l]; cbn [sh_out sh_reads sh_len]. do 2 f_equal. lia.
  - destruct (Z.leb_spec (2 ^ 31) (k * 16)); [lia|]. destruct (Z.ltb_spec (k * 16) n); [|lia].
    rewrite IH by lia. rewrite memshow_line_eq. cbn [sh_out sh_reads sh_len lines all_reads]. rewrite <- !app_assoc.
    do 2 f_equal. lia.
Qed.

Lemma gap_len i : i <> 7 -> gap i = [32].
Proof. unfold gap. destruct (Z.eqb_spec i 7); congruence. Qed.
Lemma hcell_two d n base i : exists a b, hcell d n base i = [a; b] ++ gap i /\
  [a; b] = (if n <=? base + i then [32; 32] else hex2 (d (base + i))).
Proof. unfold hcell. destruct (n <=? base + i); [exists 32, 32|unfold hex2; do 2 eexists]; split; reflexivity. Qed.

Lemma line_len d n base : List.length (line d n base) = 80%nat.
Proof.
  unfold line, hex8. rewrite !app_length, !map_length. cbn [iota flat_map]. rewrite !app_length.
  assert (H : forall i, List.length (hcell d n base i) = (2 + List.length (gap i))%nat).
  { intros i. destruct (hcell_two d n base i) as (a & b & E & _). rewrite E. reflexivity. }
  rewrite !H. reflexivity.
Qed.

Lemma lines_len d n m : forall k, List.length (lines d n m k) = (80 * m)%nat.
Proof. induction m; intros k; cbn [lines]; [reflexivity|]. rewrite app_length, line_len, IHm. lia. Qed.

Lemma nth_lines d n m : forall k q r, (q < m)%nat -> (r < 80)%nat ->
  nth (80 * q + r) (lines d n m k) 0 = nth r (line d n ((k + Z.of_nat q) * 16)) 0.
Proof.
  induction m as [|m IH]; intros k q r Q R; [lia|]. cbn [lines]. destruct q as [|q].
  - rewrite app_nth1 by (rewrite line_len; lia). replace (80 * 0 + r)%nat with r by lia. replace (k + Z.of_nat 0) with k by lia. reflexivity.
  - rewrite app_nth2 by (rewrite line_len; lia). rewrite line_len. replace (80 * S q + r - 80)%nat with (80 * q + r)%nat by lia.
    rewrite IH by lia. replace (k + 1 + Z.of_nat q) with (k + Z.of_nat (S q)) by lia. reflexivity.
Qed.

(** ** Inside a line *)

Lemma forall16 (P : Z -> Prop) : Forall P (iota 16 0) -> forall i, 0 <= i < 16 -> P i.
Proof.
  intros F i H. rewrite Forall_forall in F. apply F. cbn [iota In].
  change (0 + 1 + 1 + 1 + 1 + 1 + 1 + 1 + 1 + 1 + 1 + 1 + 1 + 1 + 1 + 1) with 15. lia.
Qed.

(** The hex cells. *)
Lemma nth_hex d n base : forall i, 0 <= i < 16 ->
  [nth (Z.to_nat (hex_col i)) (line d n base) 0; nth (S (Z.to_nat (hex_col i))) (line d n base) 0] =
  if n <=? base + i then [32; 32] else hex2 (d (base + i)).
Proof.
  apply forall16. unfold line, hex8. cbn [iota flat_map].
  repeat match goal with |- context [hcell d n base ?i] =>
    let a := fresh "a" in let b := fresh "b" in let E := fresh "E" in let V := fresh "V" in
    destruct (hcell_two d n base i) as (a & b & E & V); rewrite E in *; clear E; revert V end.
  intros. repeat (apply Forall_cons; [match goal with |- _ = (if n <=? base + ?i then _ else _) =>
    match goal with V : [_; _] = (if n <=? base + i then _ else _) |- _ => rewrite <- V end end; reflexivity|]).
  apply Forall_nil.
Qed.

(** The character cells. *)
Lemma nth_char d n base : forall i, 0 <= i < 16 -> nth (Z.to_nat (62 + i)) (line d n base) 0 = ccell d n base i.
Proof.
  apply forall16. unfold line, hex8. cbn [iota flat_map].
  repeat match goal with |- context [hcell d n base ?i] =>
    let a := fresh "a" in let b := fresh "b" in let E := fresh "E" in let V := fresh "V" in
    destruct (hcell_two d n base i) as (a & b & E & V); rewrite E in *; clear E V end.
  repeat (apply Forall_cons; [reflexivity|]). apply Forall_nil.
Qed.

Lemma nth_off d n base j : (j < 8)%nat -> nth j (line d n base) 0 = nth j (hex8 base) 0.
Proof. intros H. unfold line. apply app_nth1. unfold hex8. rewrite map_length. cbn [List.length]. lia. Qed.

Lemma hex8_digits v : 0 <= v < 2 ^ 32 -> exists ds, List.length ds = 8%nat /\ value 16 ds = v /\
  forall j, (j < 8)%nat -> hex_val (nth j (hex8 v) 0) (nth j ds 0).
Proof.
  intros H. exists (map (fun k => v / 16 ^ k mod 16) [7; 6; 5; 4; 3; 2; 1; 0]). split; [reflexivity|]. split.
  - cbn [map value List.length].
    change (16 ^ 0) with 1; change (16 ^ 1) with 16; change (16 ^ 2) with (16 * 16); change (16 ^ 3) with (16 * 16 * 16);
    change (16 ^ 4) with (16 * 16 * 16 * 16); change (16 ^ 5) with (16 * 16 * 16 * 16 * 16);
    change (16 ^ 6) with (16 * 16 * 16 * 16 * 16 * 16); change (16 ^ 7) with (16 * 16 * 16 * 16 * 16 * 16 * 16).
    change (Z.of_nat 7) with 7; change (Z.of_nat 6) with 6; change (Z.of_nat 5) with 5; change (Z.of_nat 4) with 4;
    change (Z.of_nat 3) with 3; change (Z.of_nat 2) with 2; change (Z.of_nat 1) with 1; change (Z.of_nat 0) with 0.
    change (16 ^ 0) with 1; change (16 ^ 1) with 16; change (16 ^ 2) with 256; change (16 ^ 3) with 4096;
    change (16 ^ 4) with 65536; change (16 ^ 5) with 1048576; change (16 ^ 6) with 16777216; change (16 ^ 7) with 268435456.
    rewrite <- !Z.div_div by lia. rewrite Z.div_1_r.
    assert (E : forall x, x = 16 * (x / 16) + x mod 16) by (intros x; apply Z.div_mod; lia).
    set (x1 := v / 16) in *. set (x2 := x1 / 16) in *. set (x3 := x2 / 16) in *. set (x4 := x3 / 16) in *.
    set (x5 := x4 / 16) in *. set (x6 := x5 / 16) in *. set (x7 := x6 / 16) in *.
    assert (x7 mod 16 = x7).
    { apply Z.mod_small. subst x1 x2 x3 x4 x5 x6 x7. rewrite !Z.div_div by lia. split; [apply Z.div_pos; lia|].
      apply Z.div_lt_upper_bound; lia. }
    pose proof (E v) as E0. pose proof (E x1) as E1. pose proof (E x2) as E2. pose proof (E x3) as E3. pose proof (E x4) as E4.
    pose proof (E x5) as E5. pose proof (E x6) as E6.
    fold x1 in E0. fold x2 in E1. fold x3 in E2. fold x4 in E3. fold x5 in E4. fold x6 in E5. fold x7 in E6.
    clear E H. clearbody x1 x2 x3 x4 x5 x6 x7. rewrite H0.
    set (m0 := v mod 16) in *. set (m1 := x1 mod 16) in *. set (m2 := x2 mod 16) in *. set (m3 := x3 mod 16) in *.
    set (m4 := x4 mod 16) in *. set (m5 := x5 mod 16) in *. set (m6 := x6 mod 16) in *.
    clearbody m0 m1 m2 m3 m4 m5 m6. clear H0. lia.
  - intros j Hj.
    assert (G : forall x, hex_val (hex_digit (x mod 16)) (x mod 16)).
    { intros x. pose proof (Z.mod_pos_bound x 16 ltac:(lia)). unfold hex_val, TextModel.hex_digit.
      set (y := x mod 16) in *. clearbody y. destruct (Z.ltb_spec y 10); lia. }
    unfold hex8. do 8 (destruct j as [|j]; [cbn [map nth]; apply G|]). lia.
Qed.

Lemma hex2_vals u : byte u -> exists h l, hex_val (nth 0 (hex2 u) 0) h /\ hex_val (nth 1 (hex2 u) 0) l /\ u = 16 * h + l.
Proof.
  intros B. destruct (TextProofs.byte_split u B) as (H & L & E). exists (u / 16), (u mod 16). unfold hex2. cbn [nth].
  set (a := u / 16) in *. set (b := u mod 16) in *. clearbody a b.
  unfold hex_val, TextModel.hex_digit. destruct (Z.ltb_spec a 10), (Z.ltb_spec b 10); lia.
Qed.

(** ** Newlines *)

Lemma hex_digit_nonl d : 0 <= d < 16 -> hex_digit d <> 10.
Proof. intros H. unfold TextModel.hex_digit. destruct (Z.ltb_spec d 10); lia. Qed.
Lemma hex2_nonl u : byte u -> Forall (fun c => c <> 10) (hex2 u).
Proof.
  intros B. destruct (TextProofs.byte_split u B) as (H & L & E). unfold hex2. repeat constructor; apply hex_digit_nonl; auto.
Qed.

Lemma line_split d n base : (forall i, 0 <= i < n -> byte (d i)) -> 0 <= base ->
  exists body, line d n base = body ++ [10] /\ Forall (fun c => c <> 10) body.
Proof.
  intros B Hb. unfold line. rewrite !app_assoc. change [124; 10] with ([124] ++ [10]). rewrite app_assoc.
  eexists. split; [reflexivity|]. rewrite <- !app_assoc.
  assert (P : Forall (fun i => 0 <= i < 16) (iota 16 0)) by (cbn [iota]; repeat constructor; lia).
  apply Forall_app. split.
  { unfold hex8. rewrite Forall_map. apply Forall_forall. intros k _. apply hex_digit_nonl.
    apply Z.mod_pos_bound. lia. }
  apply Forall_app. split; [repeat constructor; lia|].
  apply Forall_app. split.
  { apply Forall_flat_map. eapply Forall_impl; [|exact P]. cbv beta. intros i Hi. unfold hcell, gap.
    apply Forall_app. split; [|destruct (i =? 7); repeat constructor; lia].
    destruct (Z.leb_spec n (base + i)); [repeat constructor; lia|]. apply hex2_nonl. apply B. lia. }
  apply Forall_app. split; [repeat constructor; lia|].
  apply Forall_app. split; [|repeat constructor; lia].
  rewrite Forall_map. eapply Forall_impl; [|exact P]. cbv beta. intros i Hi. unfold ccell, isprint.
  destruct (n <=? base + i); [lia|]. destruct (Z.leb_spec 32 (d (base + i))), (Z.leb_spec (d (base + i)) 126); cbn [andb]; lia.
Qed.

Lemma line_newline d n base r : (forall i, 0 <= i < n -> byte (d i)) -> 0 <= base -> (r < 80)%nat ->
  nth r (line d n base) 0 = 10 <-> r = 79%nat.
Proof.
  intros B Hb R. destruct (line_split d n base B Hb) as (body & E & F). pose proof (line_len d n base) as L.
  rewrite E in *. rewrite app_length in L. cbn [List.length] in L. split.
  - intros H. destruct (Nat.eq_dec r 79) as [|N]; auto. rewrite app_nth1 in H by lia.
    rewrite Forall_forall in F. exfalso. apply (F 10); auto. rewrite <- H. apply nth_In. lia.
  - intros ->. rewrite app_nth2 by lia. replace (79 - List.length body)%nat with 0%nat by lia. reflexivity.
Qed.

(** ** The reads of memshow *)

Lemma in_iota m : forall i x, In x (iota m i) <-> i <= x < i + Z.of_nat m.
Proof. induction m; intros i x; cbn [iota In]; [lia|]. rewrite IHm. lia. Qed.
Lemma in_line_reads n base x : In x (line_reads n base) -> base <= x < base + 16.
Proof.
  unfold line_reads, hreads. rewrite in_app_iff, in_flat_map, in_map_iff. intros [(i & I & H)|(i & <- & I)]; apply in_iota in I.
  - destruct (n <=? base + i); cbn [In] in H; [contradiction|]. destruct H as [<-|[]]. lia.
  - lia.
Qed.
Lemma in_all_reads n m : forall k x, In x (all_reads n m k) -> k * 16 <= x < (k + Z.of_nat m) * 16.
Proof.
  induction m; intros k x; cbn [all_reads In]; [contradiction|]. rewrite in_app_iff. intros [H|H].
  - apply in_line_reads in H. lia.
  - apply IHm in H. lia.
Qed.
Lemma all_reads_in n m : forall k x, k * 16 <= x < (k + Z.of_nat m) * 16 -> In x (all_reads n m k).
Proof.
  induction m; intros k x H; cbn [all_reads In]; [lia|]. rewrite in_app_iff.
  destruct (Z_lt_dec x (k * 16 + 16)); [left|right; apply IHm; lia].
  unfold line_reads. rewrite in_app_iff. right. apply in_map_iff. exists (x - k * 16). split; [lia|]. apply in_iota. lia.
Qed.

(** ** fmembytes and files *)

Lemma fmembytes_text l : forall i n, n = i + Z.of_nat (List.length l) -> fmembytes_loop l i n = TextProofs.text 44 l.
Proof.
  induction l as [|u l IH]; intros i n H; [reflexivity|]. cbn [fmembytes_loop]. destruct l as [|v l].
  - cbn [fmembytes_loop]. cbn [List.length] in H. destruct (Z.ltb_spec i (n - 1)); [lia|].
    cbn [TextProofs.text]. reflexivity.
  - rewrite (IH (i + 1) n) by (cbn [List.length] in *; lia). cbn [List.length] in H. destruct (Z.ltb_spec i (n - 1)); [|lia].
    rewrite TextProofs.text_cons. reflexivity.
Qed.

Lemma fgets_split n : forall f t r, fgets n f = (t, r) -> f = t ++ r.
Proof.
  induction n as [|n IH]; intros f t r H; cbn [fgets] in H; [injection H as <- <-; reflexivity|].
  destruct f as [|c f]; [injection H as <- <-; reflexivity|]. destruct (c =? 10); [injection H as <- <-; reflexivity|].
  destruct (fgets n f) as [t' r'] eqn:G. injection H as <- <-. rewrite (IH _ _ _ G). reflexivity.
Qed.
Lemma cstr_nonul l : ~ In 0 l -> cstr l = l.
Proof.
  induction l as [|c l IH]; intros H; [reflexivity|]. cbn [cstr In] in *. destruct (Z.eqb_spec c 0); [subst; exfalso; auto|].
  f_equal. apply IH. auto.
Qed.
Lemma fgets_nonempty n c f t r : fgets (S n) (c :: f) = (t, r) -> (List.length r < List.length (c :: f))%nat.
Proof.
  intros H. pose proof (fgets_split _ _ _ _ H) as E. cbn [fgets] in H.
  destruct (c =? 10); [injection H as <- <-; cbn; lia|]. destruct (fgets n f). injection H as <- <-.
  rewrite E. cbn [app List.length]. rewrite app_length. lia.
Qed.
Lemma fprint_file_total fuel : forall f, (List.length f < fuel)%nat -> exists r, fprint_file fuel f = Some r.
Proof.
  induction fuel as [|fuel IH]; intros f H; [lia|]. cbn [fprint_file]. destruct f as [|c f]; [eauto|].
  destruct (fgets 31 (c :: f)) as [t r] eqn:G. pose proof (fgets_nonempty _ _ _ _ _ G).
  destruct (IH r ltac:(lia)) as ((o & n) & E). rewrite E. eauto.
Qed.
Lemma fprint_file_exact fuel : forall f o n, ~ In 0 f -> fprint_file fuel f = Some (o, n) -> o = f /\ n = Z.of_nat (List.length f).
Proof.
  induction fuel as [|fuel IH]; intros f o n N H; [discriminate|]. cbn [fprint_file] in H.
  destruct f as [|c f]; [injection H as <- <-; auto|]. destruct (fgets 31 (c :: f)) as [t r] eqn:G.
  apply fgets_split in G. rewrite G in N. rewrite in_app_iff in N.
  destruct (fprint_file fuel r) as [[o' n']|] eqn:R; [|discriminate]. injection H as <- <-.
  destruct (IH r o' n' ltac:(auto) R) as (-> & ->). rewrite G, cstr_nonul, app_length by auto. split; [auto|lia].
Qed.
