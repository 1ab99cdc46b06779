(** The listing of the auxiliary vector: C205. *)
From Coq Require Import ZArith String List Bool Lia.
From Verif Require Import Word WordLemmas Str ScModel MiscModel MiscSpec MiscProofs MiscProps MpSpec EcModel EcProofs AxModel.
Import ListNotations.
Open Scope Z_scope.

(** A line that gives the value of an entry of the vector: the name, spaces, the value in
    hexadecimal with its prefix, and nothing but spaces up to the end of the line. *)
Definition value_line (name : list Z) (v : Z) (line : list Z) : Prop :=
  exists k h m, hextext v h /\ line = name ++ repeat 32 (S k) ++ str "0x" ++ h ++ repeat 32 m ++ [10].

(** A line that gives it in decimal (for values that fit a signed word) and, in brackets, in
    hexadecimal. *)
Definition number_line (name : list Z) (v : Z) (line : list Z) : Prop :=
  exists k d h, hextext v h /\ (v < 2 ^ 63 -> d = dec v) /\ Forall (fun c => c = 45 \/ 48 <= c <= 57) d /\
    line = name ++ repeat 32 (S k) ++ d ++ str " (0x" ++ h ++ str ")" ++ [10].

Lemma hexn_text n v : 0 <= v -> hextext v (hexn (S n) v).
Proof.
  intros H. split; [|split].
  - unfold hexn. set (t := map _ _). destruct t as [|c t]; [|destruct (repeat 48 _); discriminate]. cbn. discriminate.
  - apply Forall_forall. intros c I. unfold hexn in I. apply in_app_iff in I.
    destruct I as [I|I]; [apply repeat_spec in I; subst; left; lia|].
    apply in_map_iff in I. destruct I as (d & <- & I).
    pose proof (VmaProofs.digits_range (S (Z.to_nat (Z.log2 v))) 16 v ltac:(lia) H) as F.
    rewrite Forall_forall in F. specialize (F d I). unfold TextModel.hex_digit. destruct (Z.ltb_spec d 10); [left|right]; lia.
  - exact (hexn_value (S n) v H).
Qed.

Lemma wide_ok name v : (List.length name <= 8)%nat -> 0 < v -> value_line name v (wide_line name v).
Proof.
  intros L H. exists (8 - List.length name)%nat, (hexn 1 v), (16 - List.length (alt v))%nat.
  split; [apply hexn_text; lia|]. unfold wide_line, padr, alt. destruct (Z.eqb_spec v 0) as [->|_]; [lia|].
  rewrite <- !app_assoc. f_equal.
  rewrite (app_assoc (repeat 32 _) [32]). change [32] with (repeat 32 1). rewrite <- repeat_app.
  replace (8 - List.length name + 1)%nat with (S (8 - List.length name)) by lia. reflexivity.
Qed.

Lemma both_ok name v : (List.length name <= 8)%nat -> 0 < v -> number_line name v (both_line name v).
Proof.
  intros L H. exists (8 - List.length name)%nat, (dec (s64 v)), (hexn 1 v).
  split; [apply hexn_text; lia|]. split.
  { intros B. unfold s64. rewrite sgn_id by lia. reflexivity. }
  split; [apply Forall_forall; intros c Hc; eapply dec_chars; eauto|].
  unfold both_line, padr, alt. destruct (Z.eqb_spec v 0) as [->|_]; [lia|].
  rewrite <- !app_assoc. f_equal.
  rewrite (app_assoc (repeat 32 _) [32]). change [32] with (repeat 32 1) at 1. rewrite <- repeat_app.
  replace (8 - List.length name + 1)%nat with (S (8 - List.length name)) by lia.
  reflexivity.
Qed.

(** ** C205 *)

Lemma given_bound f l t v : byte_mem f -> vector_file f l -> last_given l t v -> 0 <= v < 2 ^ 64.
Proof.
  intros Hb H [(L & R & -> & _)|[_ ->]]; [|lia].
  specialize (H (List.length L) t v). rewrite nth_error_app2, Nat.sub_diag in H by lia. destruct (H eq_refl) as [_ <-].
  pose proof (ld_range 8 f (16 * Z.of_nat (List.length L) + 8) Hb) as Q. exact Q.
Qed.

(** A process opened for its vector shows, after a head line, the values the kernel gave. *)
Theorem C205_listing : forall rd f l x junk fuel p,
  byte_mem f -> vector_file f (l ++ [(0, x)]) -> reads_all rd (16 * (Z.of_nat (List.length l) + 1)) -> (List.length l + 1 < fuel)%nat ->
  load_task_auxv fuel None rd f junk = Some (0, p) ->
  exists head l1 l2 l3 l4 l5 phdr phent phnum base entry,
    print_task_auxv true p = (0, head ++ l1 ++ l2 ++ l3 ++ l4 ++ l5) /\
    (exists h, head = h ++ [10] /\ ~ In 10 h) /\
    last_given l 3 phdr /\ last_given l 4 phent /\ last_given l 5 phnum /\ last_given l 7 base /\ last_given l 9 entry /\
    value_line (str "AT_PHDR") phdr l1 /\ number_line (str "AT_PHENT") phent l2 /\ number_line (str "AT_PHNUM") phnum l3 /\
    value_line (str "AT_BASE") base l4 /\ value_line (str "AT_ENTRY") entry l5.
Proof.
  intros rd f l x junk fuel p Hb Hf Hr Hl E.
  destruct (C57_auxv rd f l x junk fuel Hf Hr Hl) as (ret & p' & E' & B1 & B2 & B3 & B4 & B5 & B).
  rewrite E in E'. assert (ret = 0) by congruence. assert (p' = p) by congruence. subst ret p'.
  destruct B as [[_ B]|[B _]]; [|vm_compute in B; discriminate].
  assert (Hf' : vector_file f l).
  { intros k t v Hk. apply Hf. rewrite nth_error_app1; auto. apply nth_error_Some. congruence. }
  assert (P : forall t v, last_given l t v -> v <> 0 -> 0 < v).
  { intros t v G N. pose proof (given_bound f l t v Hb Hf' G). lia. }
  exists (padr 8 (str "TYPE") ++ [32] ++ padr 16 (str "VALUE") ++ [10]), (wide_line (str "AT_PHDR") (av_phdr p)),
    (both_line (str "AT_PHENT") (av_phent p)), (both_line (str "AT_PHNUM") (av_phnum p)), (wide_line (str "AT_BASE") (av_interp p)),
    (wide_line (str "AT_ENTRY") (av_entry p)), (av_phdr p), (av_phent p), (av_phnum p), (av_interp p), (av_entry p).
  split; [unfold print_task_auxv; cbn [negb]; rewrite <- !app_assoc; reflexivity|].
  split; [exists (padr 8 (str "TYPE") ++ [32] ++ padr 16 (str "VALUE")); split; [rewrite <- !app_assoc; reflexivity|]; apply not_in_chars; reflexivity|].
  do 5 (split; [assumption|]).
  split; [apply wide_ok; [cbn; lia|eapply P; [exact B1|apply B; cbn [In]; auto]]|].
  split; [apply both_ok; [cbn; lia|eapply P; [exact B2|apply B; cbn [In]; auto]]|].
  split; [apply both_ok; [cbn; lia|eapply P; [exact B3|apply B; cbn [In]; auto]]|].
  split; [apply wide_ok; [cbn; lia|eapply P; [exact B4|apply B; cbn [In]; auto]]|].
  apply wide_ok; [cbn; lia|eapply P; [exact B5|apply B; cbn [In]; auto 6]].
Qed.
Print Assumptions C205_listing.

(** A process not opened for its vector shows nothing and reports so. *)
Theorem C205_not_asked : forall asked p, (asked = false <-> fst (print_task_auxv asked p) < 0) /\
  (fst (print_task_auxv asked p) < 0 -> snd (print_task_auxv asked p) = []).
Proof.
  intros [] p; cbn [print_task_auxv negb fst snd]; unfold EINVAL; (split; [split|]); intros; try discriminate; try lia; reflexivity.
Qed.
Print Assumptions C205_not_asked.

Example C205_listing_ex :
  byte_mem ex_file /\ vector_file ex_file (ex_vec ++ [(0, 0)]) /\ reads_all (ex_rd 112) (16 * (Z.of_nat (List.length ex_vec) + 1)) /\
  exists p, load_task_auxv 10 None (ex_rd 112) ex_file (3, 5) = Some (0, p) /\
    snd (print_task_auxv true p) =
      str "TYPE     VALUE           " ++ [10] ++ str "AT_PHDR  0x40            " ++ [10] ++ str "AT_PHENT 56 (0x38)" ++ [10] ++
      str "AT_PHNUM 13 (0xd)" ++ [10] ++ str "AT_BASE  0x1000          " ++ [10] ++ str "AT_ENTRY 0x10000         " ++ [10].
Proof.
  destruct C57_auxv_ex as (A & B & C & _).
  split; [intros a; unfold ex_file, words_file; destruct (a <? 0); [lia|apply Z.mod_pos_bound; lia]|]. split; [exact A|]. split; [exact B|]. eexists. split; [exact C|]. vm_compute. reflexivity.
Qed.
