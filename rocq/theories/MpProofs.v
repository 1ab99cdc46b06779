(** Lemmas about the text of a memory map. *)
From Coq Require Import ZArith String List Bool Lia ZifyBool ZifyNat.
From Verif Require Import Word WordLemmas Str VmaModel PrModel PrSpec PrProofs MpModel MpSpec.
From Verif Require TextModel MiscModel ShModel.
Import ListNotations.
Open Scope Z_scope.

Lemma hexval_char c : hexchar c -> hexval c = Some (if c <? 58 then c - 48 else c - 87).
Proof.
  intros H. unfold hexchar in H. unfold hexval. destruct (Z.ltb_spec c 58).
  - destruct (Z.leb_spec 48 c), (Z.leb_spec c 57); cbn [andb]; try lia. reflexivity.
  - destruct (Z.leb_spec 48 c), (Z.leb_spec c 57); cbn [andb]; try lia. destruct (Z.leb_spec 97 c), (Z.leb_spec c 102); cbn [andb]; try lia. reflexivity.
Qed.

Lemma hex_run_text t : Forall hexchar t -> forall r acc, (forall c x, r = c :: x -> hexval c = None) ->
  hex_run (t ++ r) acc = (fold_left (fun a c => 16 * a + (if c <? 58 then c - 48 else c - 87)) t acc, match t with [] => false | _ => true end, r).
Proof.
  intros F. induction F as [|c t H F IH]; intros r acc N; cbn [app fold_left].
  - destruct r as [|c r]; [reflexivity|]. cbn [hex_run]. rewrite (N c r eq_refl). reflexivity.
  - cbn [hex_run]. rewrite hexval_char by auto. rewrite IH by auto. reflexivity.
Qed.

Definition sep (c : Z) : Prop := c = 45 \/ c = 32 \/ c = 58 \/ c = 10.
Lemma sep_hexval c : sep c -> hexval c = None.
Proof. intros [->|[->|[->| ->]]]; reflexivity. Qed.

Lemma hex_space c r : hexchar c -> skip_space (c :: r) = c :: r.
Proof.
  intros H. unfold hexchar in H. unfold skip_space. cbn [MiscModel.skip_space]. unfold MiscModel.is_space.
  destruct (Z.eqb_spec c 32); [lia|]. destruct (Z.leb_spec 9 c), (Z.leb_spec c 13); cbn [andb orb]; try lia; reflexivity.
Qed.

Lemma hex_sign c r : hexchar c ->
  (match c :: r with 45 :: r => (true, r) | 43 :: r => (false, r) | _ => (false, c :: r) end) = (false, c :: r).
Proof.
  intros H. unfold hexchar in H.
  assert (c = 48 \/ c = 49 \/ c = 50 \/ c = 51 \/ c = 52 \/ c = 53 \/ c = 54 \/ c = 55 \/ c = 56 \/ c = 57 \/
          c = 97 \/ c = 98 \/ c = 99 \/ c = 100 \/ c = 101 \/ c = 102) as E by lia.
  repeat (destruct E as [->|E]; [reflexivity|]). subst. reflexivity.
Qed.

Lemma hex_prefix c r : hexchar c -> (forall d x, r = d :: x -> d <> 120 /\ d <> 88) ->
  (match c :: r with 48 :: d :: x => if (d =? 120) || (d =? 88) then (true, x) else (false, c :: r) | _ => (false, c :: r) end) = (false, c :: r).
Proof.
  intros H N. destruct (Z.eq_dec c 48) as [->|Nc].
  - destruct r as [|d x]; [reflexivity|]. destruct (N d x eq_refl). destruct (Z.eqb_spec d 120), (Z.eqb_spec d 88); try contradiction. reflexivity.
  - unfold hexchar in H. assert (c = 49 \/ c = 50 \/ c = 51 \/ c = 52 \/ c = 53 \/ c = 54 \/ c = 55 \/ c = 56 \/ c = 57 \/
          c = 97 \/ c = 98 \/ c = 99 \/ c = 100 \/ c = 101 \/ c = 102) as E by lia.
    repeat (destruct E as [->|E]; [reflexivity|]). subst. reflexivity.
Qed.

Lemma scan_lx_text v t r : hextext v t -> v < 2 ^ 64 -> (exists c x, r = c :: x /\ sep c) -> scan_lx (t ++ r) = Some (v, r).
Proof.
  intros (Ne & F & V) L (s & x & -> & S). destruct t as [|c t]; [congruence|]. inversion F as [|? ? Hc Ft]; subst.
  unfold scan_lx. cbn [app]. rewrite hex_space by auto. rewrite hex_sign by auto. 
  rewrite hex_prefix; [|auto|].
  - change (c :: t ++ s :: x) with ((c :: t) ++ s :: x). rewrite hex_run_text by (auto; intros ? ? E; injection E as <- <-; apply sep_hexval; auto).
    cbv beta iota zeta. cbn [orb]. change (fold_left _ (c :: t) 0) with (hexvalue (c :: t)).
    destruct (Z.leb_spec (2 ^ 64) (hexvalue (c :: t))); [lia|reflexivity].
  - intros d y E. destruct t as [|c' t]; cbn [app] in E; injection E as -> _.
    + unfold sep in S. lia.
    + inversion Ft as [|? ? H' _]; subst. unfold hexchar in H'. lia.
Qed.
Lemma scan_lx_space s : scan_lx (32 :: s) = scan_lx s.
Proof. reflexivity. Qed.

Lemma scan_x_text v t r : hextext v t -> 0 <= v < 2 ^ 32 -> (exists c x, r = c :: x /\ sep c) -> scan_x (t ++ r) = Some (v, r).
Proof.
  intros H V S. unfold scan_x. rewrite (scan_lx_text v t r H ltac:(lia) S). unfold u32. rewrite wrap_id by lia. reflexivity.
Qed.

Lemma scan_ld_dec n r : 0 <= n -> (forall c x, r = c :: x -> ~ dchar c) -> scan_ld (32 :: dec n ++ r) = Some (Z.min (2 ^ 63 - 1) n, r).
Proof.
  intros H N. destruct (dec_cons n H) as (c & l & E & D). unfold scan_ld, skip_space. cbn [MiscModel.skip_space].
  change (MiscModel.is_space 32) with true. cbv iota. rewrite E. cbn [app]. rewrite no_space, no_sign2 by auto.
  change (c :: l ++ r) with ((c :: l) ++ r). rewrite <- E.
  assert (F : Forall dchar (dec n)) by (rewrite dec_pos by lia; apply dec_nat_chars; lia).
  destruct (span_digits_app (dec n) r F N) as (-> & ->).
  assert (V : MiscModel.digits_val (dec n) 0 = n) by (rewrite dec_pos by lia; apply dec_value; lia).
  rewrite E in *. rewrite V. unfold u64. rewrite wrap_id; [reflexivity|]. lia.
Qed.

Lemma blank_is c : blank c <-> MiscModel.is_space c = true.
Proof. unfold blank, MiscModel.is_space. lia. Qed.
Lemma skip_blanks l t : Forall blank l -> (forall c x, t = c :: x -> ~ blank c) -> skip_space (l ++ t) = t.
Proof.
  intros F N. unfold skip_space. induction F as [|c l B F IH]; cbn [app].
  - destruct t as [|c t]; [reflexivity|]. cbn [MiscModel.skip_space]. destruct (MiscModel.is_space c) eqn:E; [|reflexivity].
    exfalso. apply (N c t eq_refl). apply blank_is. auto.
  - cbn [MiscModel.skip_space]. rewrite (proj1 (blank_is c) B). auto.
Qed.
Lemma word_first t w : first_word t w -> word t = w.
Proof.
  intros (F & H). assert (G : forall r, (r = [] \/ exists c x, r = c :: x /\ blank c) -> word (w ++ r) = w).
  { intros r R. clear H. induction F as [|c w N F IH]; cbn [app].
    - destruct R as [->|(c & x & -> & B)]; [reflexivity|]. cbn [word]. unfold is_space. rewrite (proj1 (blank_is c) B). reflexivity.
    - cbn [word]. unfold is_space. destruct (MiscModel.is_space c) eqn:E; [exfalso; apply N, blank_is; auto|]. rewrite IH. reflexivity. }
  destruct H as [->|(c & r & -> & B)]; [rewrite <- (app_nil_r w) at 1; apply G; auto|apply G; eauto].
Qed.
Lemma first_word_nl t w : first_word t w -> first_word (t ++ [10]) w.
Proof.
  intros (F & H). split; [auto|]. right. destruct H as [->|(c & r & -> & B)].
  - exists 10, []. split; [reflexivity|]. unfold blank. lia.
  - exists c, (r ++ [10]). split; [rewrite <- app_assoc; reflexivity|auto].
Qed.
Lemma first_word_exists t : exists w, first_word t w.
Proof.
  exists (word t). induction t as [|c t (F & H)]; cbn [word]; [split; [constructor|left; reflexivity]|].
  unfold is_space. destruct (MiscModel.is_space c) eqn:E.
  - split; [constructor|]. right. exists c, t. split; [reflexivity|apply blank_is; auto].
  - split; [constructor; [intros B; apply blank_is in B; congruence|auto]|]. destruct H as [E'|(d & r & E' & B)]; [left; f_equal; exact E'|right; exists d, r].
    split; [cbn [app]; f_equal; exact E'|exact B].
Qed.
Lemma first_word_len t w : first_word t w -> (List.length w <= List.length t)%nat.
Proof. intros (_ & [->|(c & r & -> & _)]); [lia|rewrite app_length; lia]. Qed.

Lemma perms_word m s : scan_s 5 (32 :: perms_of m ++ 32 :: s) = Some (Some (perms_of m, 32 :: s)).
Proof. unfold perms_of, flag. destruct (p_r m), (p_w m), (p_x m), (p_shared m); reflexivity. Qed.

(** A line, with its newline. *)
Lemma scan_line_text m l w : valid m -> line_of m l -> first_word (p_path m) w ->
  exists r, scan_line (l ++ [10]) = Some (r, Mr (p_start m) (p_end m) (perms_of m) (p_off m) (p_major m) (p_minor m) (Z.min (2 ^ 63 - 1) (p_inode m))
    (firstn (Z.to_nat 255) w)) /\ 7 <= r.
Proof.
  intros (V1 & V2 & V3 & V4 & V5 & V6 & _ & _ & NB) (a & b & o & j & n & k & Ha & Hb & Ho & Hj & Hn & ->) W.
  change (str "-") with [45]. change (str " ") with [32]. change (str ":") with [58]. do 20 (rewrite <- ?app_assoc; cbn [app]).
  unfold scan_line.
  rewrite (scan_lx_text (p_start m) a) by first [assumption | lia | (do 2 eexists; split; [reflexivity|unfold sep; auto])]. cbv iota beta.
  rewrite (scan_lx_text (p_end m) b) by first [assumption | lia | (do 2 eexists; split; [reflexivity|unfold sep; auto])]. cbv iota beta.
  rewrite perms_word. rewrite scan_lx_space.
  rewrite (scan_lx_text (p_off m) o) by first [assumption | lia | (do 2 eexists; split; [reflexivity|unfold sep; auto])]. cbv iota beta.
  change (scan_x (32 :: ?s)) with (scan_x s).
  replace (scan_x (32 :: j ++ 58 :: n ++ 32 :: dec (p_inode m) ++ repeat 32 (S k) ++ p_path m ++ [10]))
     with (scan_x (j ++ 58 :: n ++ 32 :: dec (p_inode m) ++ repeat 32 (S k) ++ p_path m ++ [10])) by (unfold scan_x; rewrite scan_lx_space; reflexivity).
  rewrite (scan_x_text (p_major m) j) by first [assumption | lia | (do 2 eexists; split; [reflexivity|unfold sep; auto])]. cbv iota beta.
  rewrite (scan_x_text (p_minor m) n) by first [assumption | lia | (do 2 eexists; split; [reflexivity|unfold sep; auto])]. cbv iota beta.
  rewrite scan_ld_dec; [|lia|intros c x E; cbn [repeat app] in E; injection E as <- _; unfold dchar; lia].
  assert (RB : Forall blank (repeat 32 (S k))) by (apply Forall_forall; intros c I; apply repeat_spec in I; subst; unfold blank; auto).
  destruct (p_path m) as [|c p] eqn:EP.
  - assert (w = []) as ->. { destruct W as (_ & [<-|(c & r & E & _)]); [reflexivity|]. destruct w; discriminate. }
    replace (skip_space (repeat 32 (S k) ++ [] ++ [10])) with (@nil Z).
    + eexists. split; [rewrite firstn_nil; reflexivity|lia].
    + change ([] ++ [10]) with [10]. rewrite <- (app_nil_r (repeat 32 (S k) ++ [10])). rewrite skip_blanks; [reflexivity| |discriminate].
      apply Forall_app. split; [auto|constructor; [unfold blank; lia|constructor]].
  - rewrite skip_blanks; [|auto|intros x y E; cbn [app] in E; injection E as <- <-; apply (NB c p eq_refl)].
    cbn [app]. change (c :: p ++ [10]) with ((c :: p) ++ [10]). rewrite (word_first _ w) by (apply first_word_nl; auto).
    eexists. split; [reflexivity|lia].
Qed.

Lemma hextext_no_nl v t : hextext v t -> ~ In 10 t.
Proof. intros (_ & F & _) I. rewrite Forall_forall in F. specialize (F 10 I). unfold hexchar in F. lia. Qed.
Lemma dec_no_nl n : 0 <= n -> ~ In 10 (dec n).
Proof. intros H I. rewrite dec_pos in I by auto. pose proof (dec_nat_chars n H) as F. rewrite Forall_forall in F. specialize (F 10 I). unfold dchar in F. lia. Qed.
Lemma perms_no_nl m : ~ In 10 (perms_of m).
Proof. unfold perms_of, flag. destruct (p_r m), (p_w m), (p_x m), (p_shared m); vm_compute; intuition discriminate. Qed.
Lemma line_no_nl m l : valid m -> line_of m l -> ~ In 10 l.
Proof.
  intros (_ & _ & _ & _ & _ & V6 & N & _) (a & b & o & j & n & k & Ha & Hb & Ho & Hj & Hn & ->) I.
  rewrite !in_app_iff in I. 
  assert (NS : forall s, (s = "-" \/ s = " " \/ s = ":")%string -> ~ In 10 (str s)) by (intros s [->|[->| ->]]; vm_compute; intuition discriminate).
  repeat match type of I with _ \/ _ => destruct I as [I|I] end;
  try (eapply hextext_no_nl; [|exact I]; eassumption); try (revert I; apply NS; auto); try (eapply perms_no_nl; exact I); try (eapply dec_no_nl; [|exact I]; lia); auto.
  apply repeat_spec in I. discriminate.
Qed.

(** ** Fixed width hexadecimal *)
Lemma hex_digit_inj a b : 0 <= a < 16 -> 0 <= b < 16 -> TextModel.hex_digit a = TextModel.hex_digit b -> a = b.
Proof. intros A B. unfold TextModel.hex_digit. destruct (Z.ltb_spec a 10), (Z.ltb_spec b 10); lia. Qed.
Lemma hex16_len v : List.length (hex16 v) = 16%nat.
Proof. reflexivity. Qed.
Lemma hex16_inj a b : 0 <= a < 2 ^ 64 -> 0 <= b < 2 ^ 64 -> hex16 a = hex16 b -> a = b.
Proof.
  intros A B E.
  assert (K : forall k, In k [15; 14; 13; 12; 11; 10; 9; 8; 7; 6; 5; 4; 3; 2; 1; 0] -> a / 16 ^ k mod 16 = b / 16 ^ k mod 16).
  { intros k I. unfold hex16 in E.
    assert (G : forall l, map (fun k => TextModel.hex_digit (a / 16 ^ k mod 16)) l = map (fun k => TextModel.hex_digit (b / 16 ^ k mod 16)) l -> In k l -> a / 16 ^ k mod 16 = b / 16 ^ k mod 16).
    { clear. induction l as [|x l IH]; intros E [].
      - subst. cbn [map] in E. injection E as E _. apply hex_digit_inj in E; auto; apply Z.mod_pos_bound; lia.
      - cbn [map] in E. injection E as _ E. auto. }
    eapply G; eauto. }
  clear E.
  assert (ST : forall k, 0 <= k -> a / 16 ^ (k + 1) = b / 16 ^ (k + 1) -> a / 16 ^ k mod 16 = b / 16 ^ k mod 16 -> a / 16 ^ k = b / 16 ^ k).
  { clear -A B. intros k H E M. rewrite Z.pow_add_r, <- !Z.div_div in E by lia. change (16 ^ 1) with 16 in E.
    rewrite (Z.div_mod (a / 16 ^ k) 16), (Z.div_mod (b / 16 ^ k) 16) by lia. rewrite E, M. reflexivity. }
  assert (T : a / 16 ^ 16 = b / 16 ^ 16) by (rewrite !Z.div_small by (change (16 ^ 16) with (2 ^ 64); lia); reflexivity).
  do 16 match goal with T : a / 16 ^ ?k = b / 16 ^ ?k |- _ =>
    let j := eval vm_compute in (k - 1) in
    assert (a / 16 ^ j = b / 16 ^ j) by (apply ST; [lia|exact T|apply K; cbn; tauto]); clear T end.
  rewrite Z.pow_0_r, !Z.div_1_r in *. assumption.
Qed.
