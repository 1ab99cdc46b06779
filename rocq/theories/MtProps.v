(** The macros that describe a patch: C216, C217. *)
From Coq Require Import ZArith String List Bool Lia.
From Verif Require UiModel TextModel.
From Verif Require Import Word WordLemmas RbModel Str LdModel LdSpec LdProofs LdMore LdProps MtModel MtSpec.
Import ListNotations.
Open Scope Z_scope.


Lemma gas_plain s : ~ In 34 s -> ~ In 92 s -> forall rest, gas_chars Normal (s ++ 34 :: rest) = Some (s, rest).
Proof.
  induction s as [|c s IH]; intros N1 N2 rest; cbn [app gas_chars]; [reflexivity|].
  destruct (Z.eqb_spec c 34) as [->|]; [exfalso; apply N1; left; reflexivity|]. destruct (Z.eqb_spec c 92) as [->|]; [exfalso; apply N2; left; reflexivity|].
  rewrite IH; [reflexivity| |]; intros H; [apply N1|apply N2]; right; exact H.
Qed.
Lemma gas_string_plain s : plain s -> gas_string s = Some (s ++ [0]).
Proof.
  intros (N1 & N2 & _). unfold gas_string. change (str """ " ++ [10]) with (34 :: [32; 10]). rewrite gas_plain by assumption. reflexivity.
Qed.

Lemma put_grows m s s' : put_macro m s = Some s' ->
  (exists a, x_strtab s' = x_strtab s ++ a) /\ (exists a, x_info s' = x_info s ++ a) /\ (exists a, x_author s' = x_author s ++ a) /\ (exists a, x_license s' = x_license s ++ a).
Proof.
  destruct m as [src dst|t|t]; cbn [put_macro]; intros H.
  - destruct (gas_string SEC_MAGIC) as [a|]; [|discriminate]. destruct (gas_string src) as [b|]; [|discriminate]. destruct (gas_string dst) as [c|]; [|discriminate].
    apply some_inj in H. subst s'. cbn. split; [eexists; reflexivity|]. split; [eexists; reflexivity|]. split; exists []; rewrite app_nil_r; reflexivity.
  - destruct (gas_string t) as [a|]; [|discriminate]. apply some_inj in H. subst s'. cbn. repeat split; try (exists []; rewrite app_nil_r; reflexivity). eexists; reflexivity.
  - destruct (gas_string t) as [a|]; [|discriminate]. apply some_inj in H. subst s'. cbn. repeat split; try (exists []; rewrite app_nil_r; reflexivity). eexists; reflexivity.
Qed.
Lemma assemble_grows ms : forall s s', assemble ms s = Some s' ->
  (exists a, x_strtab s' = x_strtab s ++ a) /\ (exists a, x_info s' = x_info s ++ a) /\ (exists a, x_author s' = x_author s ++ a) /\ (exists a, x_license s' = x_license s ++ a).
Proof.
  induction ms as [|m ms IH]; intros s s' H; cbn [assemble] in H.
  - apply some_inj in H. subst s'. repeat split; exists []; rewrite app_nil_r; reflexivity.
  - destruct (put_macro m s) as [s1|] eqn:E; [|discriminate]. apply put_grows in E. apply IH in H.
    destruct E as ((a1 & A1) & (a2 & A2) & (a3 & A3) & (a4 & A4)), H as ((b1 & B1) & (b2 & B2) & (b3 & B3) & (b4 & B4)).
    rewrite B1, B2, B3, B4, A1, A2, A3, A4, <- !app_assoc. repeat split; eexists; reflexivity.
Qed.

Lemma author_begins t ms : first_author t ms -> plain t -> forall s s', assemble ms s = Some s' -> exists rest, x_author s' = x_author s ++ t ++ [0] ++ rest.
Proof.
  intros F P. induction F as [r|m r N F IH]; intros s s' H; cbn [assemble] in H.
  - cbn [put_macro] in H. rewrite gas_string_plain in H by exact P. apply assemble_grows in H. destruct H as (_ & _ & (a & A) & _). exists a. rewrite A. cbn [x_author]. rewrite <- !app_assoc. reflexivity.
  - destruct (put_macro m s) as [s1|] eqn:E; [|discriminate]. destruct (IH s1 s' H) as (rest & R). exists rest. rewrite R. f_equal. clear - E N.
    destruct m as [src dst|a|a]; cbn [put_macro] in E; [|exfalso; apply (N a); reflexivity|].
    + destruct (gas_string SEC_MAGIC); [|discriminate]. destruct (gas_string src); [|discriminate]. destruct (gas_string dst); [|discriminate]. apply some_inj in E. subst s1. reflexivity.
    + destruct (gas_string a); [|discriminate]. apply some_inj in E. subst s1. reflexivity.
Qed.
Lemma license_begins t ms : first_license t ms -> plain t -> forall s s', assemble ms s = Some s' -> exists rest, x_license s' = x_license s ++ t ++ [0] ++ rest.
Proof.
  intros F P. induction F as [r|m r N F IH]; intros s s' H; cbn [assemble] in H.
  - cbn [put_macro] in H. rewrite gas_string_plain in H by exact P. apply assemble_grows in H. destruct H as (_ & _ & _ & (a & A)). exists a. rewrite A. cbn [x_license]. rewrite <- !app_assoc. reflexivity.
  - destruct (put_macro m s) as [s1|] eqn:E; [|discriminate]. destruct (IH s1 s' H) as (rest & R). exists rest. rewrite R. f_equal. clear - E N.
    destruct m as [src dst|a|a]; cbn [put_macro] in E; [| |exfalso; apply (N a); reflexivity].
    + destruct (gas_string SEC_MAGIC); [|discriminate]. destruct (gas_string src); [|discriminate]. destruct (gas_string dst); [|discriminate]. apply some_inj in E. subst s1. reflexivity.
    + destruct (gas_string a); [|discriminate]. apply some_inj in E. subst s1. reflexivity.
Qed.
Lemma magic_plain : plain SEC_MAGIC.
Proof. repeat split; intros H; vm_compute in H; intuition discriminate. Qed.
Lemma info_begins src dst ms : first_info src dst ms -> plain src -> plain dst -> forall s s', assemble ms s = Some s' ->
  exists r1 r2, x_strtab s' = x_strtab s ++ strtab_bytes src dst ++ r1 /\ x_info s' = x_info s ++ info_bytes ++ r2.
Proof.
  intros F P1 P2. induction F as [r|m r N F IH]; intros s s' H; cbn [assemble] in H.
  - cbn [put_macro] in H. rewrite (gas_string_plain _ magic_plain), (gas_string_plain _ P1), (gas_string_plain _ P2) in H. apply assemble_grows in H.
    destruct H as ((a & A) & (b & B) & _). exists a, b. rewrite A, B. cbn [x_strtab x_info]. unfold strtab_bytes. rewrite <- !app_assoc. split; reflexivity.
  - destruct (put_macro m s) as [s1|] eqn:E; [|discriminate]. destruct (IH s1 s' H) as (r1 & r2 & R1 & R2). exists r1, r2. rewrite R1, R2. clear - E N.
    destruct m as [a b|a|a]; cbn [put_macro] in E; [exfalso; apply (N a b); reflexivity| |];
      (destruct (gas_string a); [|discriminate]; apply some_inj in E; subst s1; split; reflexivity).
Qed.

Lemma shown_text img len p t rest : plain t -> at_offset img len p (t ++ [0] ++ rest) -> cstr img len p = Some t.
Proof.
  intros (_ & _ & N) (P & L & F). rewrite !app_length in L. cbn [List.length] in L.
  assert (F' : forall i, (i < List.length t + 1)%nat -> img (p + Z.of_nat i) = nth i (t ++ [0] ++ rest) 0) by (intros i Hi; apply F; rewrite !app_length; cbn [List.length]; lia).
  apply cstr_ok; [|exact P|lia]. split; [exact N|]. split.
  - intros i Hi. rewrite F' by lia. apply app_nth1. exact Hi.
  - rewrite F' by lia. rewrite app_nth2 by lia. rewrite Nat.sub_diag. reflexivity.
Qed.

(** C216.  The claim is what C216_text_partial says, for all texts of printable characters.  A
    backslash is taken for the beginning of an escape sequence: the author CORP\tom. *)
Definition corp_tom : list Z := [67; 79; 82; 80; 92; 116; 111; 109].
Theorem C216_text_refuted : exists t ms secs shown, Forall (fun c => 32 <= c < 127) t /\ first_author t ms /\ assemble ms no_sections = Some secs /\
  UiModel.print_ulp_author (of_bytes (x_author secs)) (TextModel.len (x_author secs)) [9] 0 = Some ([9] ++ str "Author     : " ++ shown ++ [10]) /\ shown <> t.
Proof.
  exists corp_tom, [MAuthor corp_tom], (Sx [] [] [67; 79; 82; 80; 9; 111; 109; 0] []), [67; 79; 82; 80; 9; 111; 109].
  split; [repeat constructor; lia|]. split; [constructor|]. split; [vm_compute; reflexivity|]. split; [vm_compute; reflexivity|]. discriminate.
Qed.
Print Assumptions C216_text_refuted.

(** Texts without quotes and backslashes are shown as they were written: the first author and
    the first license of the source, whatever else it contains.  Such texts are accepted. *)
Theorem C216_text_partial : forall ms a l secs img len pa pl pfx, first_author a ms -> first_license l ms -> plain a -> plain l ->
  assemble ms no_sections = Some secs -> at_offset img len pa (x_author secs) -> at_offset img len pl (x_license secs) ->
  UiModel.print_ulp_author img len pfx pa = Some (pfx ++ str "Author     : " ++ a ++ [10]) /\
  UiModel.print_ulp_license img len pfx pl = Some (pfx ++ str "License    : " ++ l ++ [10]).
Proof.
  intros ms a l secs img len pa pl pfx Fa Fl Pa Pl H Aa Al.
  destruct (author_begins a ms Fa Pa _ _ H) as (r1 & R1), (license_begins l ms Fl Pl _ _ H) as (r2 & R2). cbn [no_sections x_author x_license app] in R1, R2.
  rewrite R1 in Aa. rewrite R2 in Al. unfold UiModel.print_ulp_author, UiModel.print_ulp_license.
  rewrite (shown_text img len pa a r1 Pa Aa), (shown_text img len pl l r2 Pl Al). split; reflexivity.
Qed.
Print Assumptions C216_text_partial.
Theorem C216_accepted : forall ms s, (forall m, In m ms -> match m with MInfo a b => plain a /\ plain b | MAuthor t => plain t | MLicense t => plain t end) ->
  exists secs, assemble ms s = Some secs.
Proof.
  induction ms as [|m ms IH]; intros s H; cbn [assemble]; [eexists; reflexivity|]. pose proof (H m (or_introl eq_refl)) as Hm.
  assert (E : exists s1, put_macro m s = Some s1).
  { destruct m as [a b|t|t]; cbn [put_macro].
    - destruct Hm as [Ha Hb]. rewrite (gas_string_plain _ magic_plain), (gas_string_plain _ Ha), (gas_string_plain _ Hb). eexists; reflexivity.
    - rewrite (gas_string_plain _ Hm). eexists; reflexivity.
    - rewrite (gas_string_plain _ Hm). eexists; reflexivity. }
  destruct E as (s1 & E). rewrite E. apply IH. intros x Hx. apply H. right. exact Hx.
Qed.
Print Assumptions C216_accepted.

(** C217.  The claim: each replacement that a patch names is made, or the patch is refused.
    Of two, the second is passed over. *)
Definition two_infos : list macro := [MInfo (str "new_a") (str "old_a"); MInfo (str "new_b") (str "old_b")].
Theorem C217_all_refuted : exists ms src dst secs, In (MInfo src dst) ms /\ assemble ms no_sections = Some secs /\
  exists a b s d, parse_ulpatch_strtab (of_bytes (x_strtab secs)) (TextModel.len (x_strtab secs)) 0 = Some (0, a, b) /\
    string_at (of_bytes (x_strtab secs)) a s /\ string_at (of_bytes (x_strtab secs)) b d /\ s <> src /\ d <> dst /\
    ld 4 (of_bytes (x_info secs)) ui_version = ULPATCH_FILE_VERSION.
Proof.
  exists two_infos, (str "new_b"), (str "old_b"). destruct (assemble two_infos no_sections) as [secs|] eqn:E; [|vm_compute in E; discriminate E].
  exists secs. split; [right; left; reflexivity|]. split; [reflexivity|]. vm_compute in E. apply some_inj in E. subst secs.
  exists 9, 15, (str "new_a"), (str "old_a"). split; [vm_compute; reflexivity|].
  split; [eapply proj1, (cstr_inv _ 42); vm_compute; reflexivity|]. split; [eapply proj1, (cstr_inv _ 42); vm_compute; reflexivity|].
  split; [discriminate|]. split; [discriminate|]. vm_compute. reflexivity.
Qed.
Print Assumptions C217_all_refuted.

(** What holds: the first is found, as it was written, with a record of the right version that
    says that the patch was never applied, whatever else the source contains. *)
Theorem C217_first_partial : forall ms src dst secs img l p q, first_info src dst ms -> plain src -> plain dst ->
  assemble ms no_sections = Some secs -> at_offset img l p (x_strtab secs) -> at_offset img l q (x_info secs) ->
  (exists a b, parse_ulpatch_strtab img l p = Some (0, a, b) /\ string_at img a src /\ string_at img b dst) /\
  ld 4 img (q + ui_version) = ULPATCH_FILE_VERSION /\ ld 4 img (q + ui_id) = 0 /\ bytes_at img (q + ui_orig) 16 = repeat 0 16 /\ ld 4 img (q + ui_flags) = 0.
Proof.
  intros ms src dst secs img l p q F P1 P2 H Ap Aq. destruct (info_begins src dst ms F P1 P2 _ _ H) as (r1 & r2 & R1 & R2). cbn [no_sections x_strtab x_info app] in R1, R2.
  rewrite R1 in Ap. rewrite R2 in Aq. destruct Ap as (A1 & A2 & A3), Aq as (B1 & B2 & B3). rewrite app_length in A2, B2. split.
  - apply (C39_strings img l p src dst (proj2 (proj2 P1)) (proj2 (proj2 P2))); [|exact A1|lia]. intros i Hi. rewrite A3 by (rewrite app_length; lia). apply app_nth1. exact Hi.
  - assert (B : forall i, (i < 64)%nat -> img (q + Z.of_nat i) = nth i info_bytes 0).
    { intros i Hi. rewrite B3 by (rewrite app_length; change (List.length info_bytes) with 64%nat; lia). apply app_nth1. exact Hi. }
    assert (Bz : forall k, 0 <= k < 64 -> img (q + k) = nth (Z.to_nat k) info_bytes 0) by (intros k Hk; rewrite <- B by lia; f_equal; lia).
    unfold ui_version, ui_id, ui_orig, ui_flags. cbn [ld bytes_at repeat].
    rewrite <- !Z.add_assoc. repeat match goal with |- context [img (q + ?k)] => let k' := eval vm_compute in k in change (img (q + k)) with (img (q + k')); rewrite (Bz k') by lia end. vm_compute. repeat split; reflexivity.
Qed.
Print Assumptions C217_first_partial.

Example C217_ex : first_info (str "new_a") (str "old_a") (MAuthor (str "Rong Tao") :: two_infos) /\ first_author (str "Rong Tao") (MAuthor (str "Rong Tao") :: two_infos) /\
  plain (str "Rong Tao") /\ plain (str "new_a") /\ plain (str "old_a") /\
  match assemble (MAuthor (str "Rong Tao") :: two_infos ++ [MLicense (str "GPL-2.0")]) no_sections with
  | Some s => x_author s = str "Rong Tao" ++ [0] /\ x_license s = str "GPL-2.0" ++ [0] /\ TextModel.len (x_info s) = 128 /\ gas_string [92; 120; 52; 49; 98; 92; 49; 48; 49; 49; 92; 110] = Some [0x1b; 65; 49; 10; 0]
  | None => False
  end.
Proof.
  split; [constructor; [discriminate|constructor]|]. split; [constructor|].
  split; [repeat split; intros H; vm_compute in H; intuition discriminate|]. split; [repeat split; intros H; vm_compute in H; intuition discriminate|].
  split; [repeat split; intros H; vm_compute in H; intuition discriminate|]. vm_compute. repeat split; reflexivity.
Qed.
