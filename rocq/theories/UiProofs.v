(** Lemmas about what is shown of a patch file. *)
From Coq Require Import ZArith String List Bool Lia.
From Verif Require EcModel LiProps.
From Verif Require Import Word WordLemmas Str ElfDefs TextModel TextSpec TextProofs LdModel LdSpec LdProofs LdSyms LdMore PaSpec PaRead PaLoad MpSpec DsSpec DsModel DsProofs LiProofs UiModel UiSpec.
Import ListNotations.
Open Scope Z_scope.

Lemma flat_hexes l : flat_map hex2 l = hexes l.
Proof. induction l as [|u l IH]; [reflexivity|]. cbn [flat_map hexes]. rewrite IH. reflexivity. Qed.

Lemma more_facts m l li : byte_mem m -> setup_load_info m l = Some (inr li) ->
  first_named m ".ulpatch.author" (li_author li) /\ first_named m ".ulpatch.license" (li_license li) /\
  exists o, first_named m ".note.gnu.build-id" o /\
    ((ld 4 m (o + 8) = 3 /\ exists t, li_bid li = Some t /\ hex_of (bytes_at m (o + 12 + ld 4 m o) (Z.to_nat (ld 4 m (o + 4)))) t) \/
     (ld 4 m (o + 8) <> 3 /\ li_bid li = None)).
Proof.
  intros Hb H. unfold setup_load_info, e_shoff, e_shstrndx in H. cbv zeta in H.
  ob H. apply rd_inv in E. destruct E as (-> & _).
  ob H. apply rd_inv in E. destruct E as (-> & _).
  ob H. apply rd_inv in E. destruct E as (-> & _).
  change (ld 8 m (sec (ld 8 m 40) (ld 2 m 62) + 24)) with (sh_offset (section m (ld 8 m 40) (ld 2 m 62))) in H.
  assert (FS : forall name r, ~ In 0 (str name) -> find_sec m l (ld 8 m 40) (sh_offset (section m (ld 8 m 40) (ld 2 m 62))) (str name) = Some r ->
               r <> 0 -> first_named m name (ld 8 m (sec (ld 8 m 40) r + 24))).
  { intros name q N E Nr. destruct (find_sec_spec m l _ _ (str name) q N E) as [B C].
    assert (X0 : ~ string_at m (sh_offset (section m (ld 8 m 40) (ld 2 m 62)) + sh_name (section m (ld 8 m 40) 0)) (str name)) by (intros X; apply Nr, B, X).
    destruct (C X0) as [D _]. destruct (D Nr) as (F & G & K). exists q. split; [lia|]. split; [exact G|]. split; [exact K|reflexivity]. }
  ob H. clear E. destruct (Z.eqb_spec z 0) as [|Zi]; [discriminate|].
  ob H. apply rd_inv in E. destruct E as (-> & _). ob H. clear E. destruct (negb (z0 =? ULPATCH_FILE_VERSION)); [discriminate|].
  ob H. clear E. destruct (Z.eqb_spec z1 0) as [|Zs]; [discriminate|].
  ob H. apply rd_inv in E. destruct E as (-> & _).
  ob H. pose proof (FS ".ulpatch.author"%string _ ltac:(no0) E) as Pa. clear E. destruct (Z.eqb_spec z2 0) as [|Za]; [discriminate|]. specialize (Pa Za).
  ob H. apply rd_inv in E. destruct E as (-> & _).
  ob H. pose proof (FS ".ulpatch.license"%string _ ltac:(no0) E) as Pl. clear E. destruct (Z.eqb_spec z3 0) as [|Zl]; [discriminate|]. specialize (Pl Zl).
  ob H. apply rd_inv in E. destruct E as (-> & _).
  ob H. pose proof (FS ".note.gnu.build-id"%string _ ltac:(no0) E) as Pb. clear E. destruct (Z.eqb_spec z4 0) as [|Zb]; [discriminate|]. specialize (Pb Zb).
  ob H. clear E. destruct (negb (z5 =? SHT_NOTE)); [discriminate|].
  ob H. apply rd_inv in E. destruct E as (-> & _).
  ob H. apply rd_inv in E. destruct E as (-> & _).
  ob H. rename E into Eb.
  ob H. destruct p as [[err src] dst]. clear E. destruct (negb (err =? 0)); [discriminate|].
  ob H. clear E. ob H. clear E. destruct o0 as [[sym strtab]|]; [|discriminate].
  apply some_inj in H. assert (Hl : li_author li = ld 8 m (sec (ld 8 m 40) z2 + 24) /\ li_license li = ld 8 m (sec (ld 8 m 40) z3 + 24) /\ li_bid li = o)
    by (assert (EL := f_equal (fun s => match s with inl _ => li | inr x => x end) H); cbv beta iota in EL; rewrite <- EL; split; [reflexivity|split; reflexivity]).
  destruct Hl as (-> & -> & ->). clear H.
  split; [exact Pa|]. split; [exact Pl|]. eexists. split; [exact Pb|]. set (no := ld 8 m (sec (ld 8 m 40) z4 + 24)) in *.
  destruct (Z.eqb_spec (ld 4 m (no + 8)) NT_GNU_BUILD_ID) as [Y|N].
  - left. split; [exact Y|]. ob Eb. apply rd_inv in E. destruct E as (-> & _). ob Eb. apply rd_inv in E. destruct E as (-> & _). cbv zeta in Eb.
    destruct (inb l _ _); [|discriminate]. injection Eb as <-. eexists. split; [reflexivity|]. unfold bid_text. rewrite flat_hexes. apply hexes_of. apply LiProps.bytes_bytes. exact Hb.
  - right. split; [exact N|]. injection Eb as <-. reflexivity.
Qed.

Lemma alt16_hexnum v : 0 <= v -> hexnum v (alt16 v). Proof. exact (alt16_ok v). Qed.
Lemma alt8_hexnum v : 0 <= v -> hexnum v (alt8 v).
Proof.
  intros H. unfold alt8. destruct (Z.eqb_spec v 0) as [->|N].
  - exists [], (repeat 48 8). split; [reflexivity|]. split; [auto|]. split; [discriminate|]. split; [|reflexivity].
    apply Forall_forall. intros c Hc. apply repeat_spec in Hc. subst c. left. lia.
  - exists (str "0x"), (EcModel.hexn 6 v). split; [reflexivity|]. split; [auto|]. apply hexn_hextext. auto.
Qed.
Lemma char_ok signed c : byte c -> pad_value signed c (char_val signed c).
Proof.
  unfold byte, pad_value, char_val. intros H. destruct signed; cbn [andb]; [|reflexivity]. destruct (Z.leb_spec 128 c).
  - split; [lia|]. replace (c - 256) with (c + (-1) * 256) by lia. rewrite Z_mod_plus_full. apply Z.mod_small. lia.
  - split; [lia|]. apply Z.mod_small. lia.
Qed.

Section Show.
Variable one : decoder.
Variable cs : list Z -> Z -> list insn.
Hypothesis Pd : proper_decoder one.
Hypothesis En : engine one cs.

Lemma orig_ok opened host pfx target code : Forall byte code -> 0 <= target < 2 ^ 64 -> 0 <= host < 2 ^ 64 -> Forall (fun c => c = 9 \/ c = 32) pfx ->
  orig_shown one target code
    (if forallb (fun c => c =? 0) code then [] else put pfx "----- orig code ------" [] ++ fst (fdisasm opened cs pfx target host code)).
Proof.
  intros Fb Ht Hh Hp. destruct (forallb _ code) eqn:F.
  - left. split; [|reflexivity]. apply Forall_forall. intros c Hc. rewrite forallb_forall in F. specialize (F c Hc). lia.
  - right. split. { intros G. assert (X : forallb (fun c => c =? 0) code = true); [|congruence]. apply forallb_forall. intros c Hc. rewrite Forall_forall in G. rewrite (G c Hc). reflexivity. }
    exists pfx, (fst (fdisasm opened cs pfx target host code)). unfold put. split; [rewrite <- !app_assoc; reflexivity|]. split; [exact Hp|].
    destruct (fdisasm_ok one cs opened pfx target host _ Pd En Fb Ht Hh) as [(_ & _ & lf & D & _)|(_ & Q)].
    + right. eexists _, lf. split; [|exact D]. intros N. replace (target =? 0) with false by lia. reflexivity.
    + left. rewrite Q. reflexivity.
Qed.

Variable signed : bool.
Variable date : Z -> option (list Z).

Lemma shown_ok opened host file m len text : byte_mem m -> 0 <= host < 2 ^ 64 ->
  (forall info, info_at m info -> ld 4 m info < 2 ^ 31) ->
  show_file_patch_info signed date opened cs host file m len = Some (0, text) -> file_shown one signed date file m text.
Proof.
  intros Hb Hh Hid H. unfold show_file_patch_info in H. ob H. destruct s as [e|li].
  { apply setup_err in E. apply some_inj in H. congruence. }
  destruct (setup_facts _ _ _ Hb E) as (_ & (F2 & F3 & F4 & F5) & _ & j & src & J1 & J2 & J3 & S1 & S2 & S3 & S4).
  destruct (more_facts _ _ _ Hb E) as (A1 & A2 & o & O1 & O2).
  assert (Ia : info_at m (li_info li)) by (exists (li_info_idx li); split; [lia|auto]).
  specialize (Hid _ Ia). set (inf := li_info li) in *. cbv zeta in S1, S2, S3, S4.
  ob H. unfold print_ulp_strtab in E0. ob E0. apply cstr_inv in E1. destruct E1 as (E1 & _). ob E0. apply cstr_inv in E2. destruct E2 as (E2 & _). ob E0. apply cstr_inv in E3. destruct E3 as (E3 & _).
  apply some_inj in E0. rewrite <- E0 in H. clear E0.
  rewrite S3 in E1, E2. replace (sh_offset (section m (ld 8 m 40) j) + 9 - 9) with (sh_offset (section m (ld 8 m 40) j)) in E1 by lia.
  rewrite (string_at_fun _ _ _ _ E1 S1) in *. pose proof (string_at_fun _ _ _ _ E2 S2) as ->. rewrite S4 in E3.
  ob H. unfold print_ulp_author in E0. ob E0. apply cstr_inv in E4. destruct E4 as (E4 & _). apply some_inj in E0. rewrite <- E0 in H. clear E0.
  ob H. unfold print_ulp_license in E0. ob E0. apply cstr_inv in E5. destruct E5 as (E5 & _). apply some_inj in E0. rewrite <- E0 in H. clear E0.
  ob H. unfold print_ulp_info in E0. destruct (negb _); [discriminate|]. cbv zeta in E0. ob E0. apply some_inj in E0. apply some_inj in H. apply (f_equal snd) in H. unfold snd at 1 2 in H. rewrite <- E0 in H. rewrite <- H. clear H E0.
  assert (R8 : forall q, 0 <= ld 8 m q < 2 ^ 64) by (intros q; exact (ld_range 8 m q Hb)).
  assert (R4 : forall q, 0 <= ld 4 m q < 2 ^ 32) by (intros q; exact (ld_range 4 m q Hb)).
  unfold ui_id, ui_target, ui_patch, ui_virtual, ui_orig, ui_time, ui_flags, ui_version, ui_pad in *. rewrite !Z.add_0_r.
  assert (s32 (ld 4 m inf) = ld 4 m inf) as ->. { clear - R4 Hid. specialize (R4 inf). apply sgn_id; lia. }
  replace (inf + (28 + 8)) with (inf + 36) by lia. replace (inf + 60 + 1) with (inf + 61) by lia. replace (inf + 60 + 2) with (inf + 62) by lia. replace (inf + 60 + 3) with (inf + 63) by lia.
  eexists inf, _, _, _, _, (alt16 (ld 8 m (inf + 4))), (alt16 (ld 8 m (inf + 12))), (alt16 (ld 8 m (inf + 20))), (alt16 (ld 8 m (inf + 28))), (alt16 (ld 8 m (inf + 36))).
  eexists _, (alt16 (ld 8 m (inf + 44))), _, (alt8 (ld 4 m (inf + 52))), (alt8 (ld 4 m (inf + 56))).
  exists (char_val signed (m (inf + 60))), (char_val signed (m (inf + 61))), (char_val signed (m (inf + 62))), (char_val signed (m (inf + 63))).
  exists (match li_bid li with Some b => b | None => str "(null)" end).
  split; [exact Ia|]. split; [exists j; split; [lia|]; split; [exact J2|]; split; [exact J3|]; cbv zeta; split; [exact S1|]; split; [exact S2|exact E3]|].
  split; [exists (li_author li); split; [exact A1|exact E4]|]. split; [exists (li_license li); split; [exact A2|exact E5]|].
  split. { exists o. split; [exact O1|]. destruct O2 as [(X & t & -> & T)|(X & ->)]; [left|right]; auto. }
  do 5 (split; [apply alt16_hexnum, R8|]).
  split; [apply orig_ok with (opened := opened) (host := host) (pfx := firstn 62 ([9] ++ repeat 32 13));
    [apply LiProps.bytes_bytes; exact Hb|apply R8|exact Hh|cbn [repeat app firstn]; repeat (constructor; [first [left; reflexivity|right; reflexivity]|]); constructor]|].
  split; [apply alt16_hexnum, R8|]. split; [exact E6|]. do 2 (split; [apply alt8_hexnum, R4|]). do 4 (split; [apply char_ok, Hb|]).
  unfold put. change SEC_MAGIC with (str ".ULPATCH"). rewrite <- !app_assoc. reflexivity.
Qed.

(** ** When there is a text *)
Lemma string_in m len o z : m z = 0 -> 0 <= o -> o <= z < len -> exists s, cstr m len o = Some s.
Proof.
  intros Hz Ho L. destruct (string_ends m (S (Z.to_nat (z - o))) o z Hz ltac:(lia) ltac:(lia)) as (s & S1 & S2). exists s. apply cstr_ok; auto. lia.
Qed.

Lemma first_ge m name o : byte_mem m -> first_named m name o -> 0 <= o.
Proof. intros Hb (j & _ & _ & _ & ->). apply (ld_range 8 m _ Hb). Qed.

Lemma answers opened host file m len li : byte_mem m -> setup_load_info m len = Some (inr li) -> shown_inside m len ->
  (forall info, info_at m info -> date (s64 (ld 8 m (info + 44))) <> None) ->
  exists text, show_file_patch_info signed date opened cs host file m len = Some (0, text).
Proof.
  intros Hb E (I1 & I2 & I3 & I4) Hd. unfold show_file_patch_info. rewrite E.
  destruct (setup_facts _ _ _ Hb E) as (_ & (F2 & F3 & F4 & F5) & _ & j & src & J1 & J2 & J3 & S1 & S2 & S3 & S4).
  destruct (more_facts _ _ _ Hb E) as (A1 & A2 & _). cbv zeta in S1, S2, S3, S4.
  assert (Ia : info_at m (li_info li)) by (exists (li_info_idx li); split; [lia|auto]).
  assert (Fi : first_named m ".ulpatch.info" (li_info li)) by exact Ia.
  assert (Fs : first_named m ".ulpatch.strtab" (sh_offset (section m (ld 8 m 40) j))) by (exists j; split; [lia|auto]).
  pose proof (first_ge _ _ _ Hb Fs) as Ho. destruct (I2 _ Fs) as (z1 & z2 & z3 & Z1 & Z2 & Z3 & L1 & L2 & L3).
  set (o := sh_offset (section m (ld 8 m 40) j)) in *.
  pose proof (string_end _ _ _ _ S1 Z1 L1) as B1. change (Z.of_nat (List.length LdModel.SEC_MAGIC)) with 8 in B1.
  pose proof (string_end _ _ _ _ S2 Z2 ltac:(lia)) as B2.
  unfold print_ulp_strtab. rewrite S3, S4. replace (o + 9 - 9) with o by lia.
  rewrite (cstr_ok _ _ _ _ S1) by (change (Z.of_nat (List.length LdModel.SEC_MAGIC)) with 8; lia). rewrite (cstr_ok _ _ _ _ S2) by lia.
  destruct (string_in m len (o + 9 + Z.of_nat (List.length src) + 1) z3 Z3 ltac:(lia) ltac:(lia)) as (dst & ->).
  unfold print_ulp_author, print_ulp_license.
  destruct (I3 _ A1) as (za & X1 & X2). destruct (string_in m len _ za X1 (first_ge _ _ _ Hb A1) X2) as (au & ->).
  destruct (I4 _ A2) as (zl & Y1 & Y2). destruct (string_in m len _ zl Y1 (first_ge _ _ _ Hb A2) Y2) as (lc & ->).
  unfold print_ulp_info, inb. pose proof (first_ge _ _ _ Hb Fi) as Hi. pose proof (I1 _ Fi) as Hi2.
  replace (0 <=? li_info li) with true by lia. replace (li_info li + Z.of_nat 64 <=? len) with true by lia. cbn [andb negb]. cbv zeta.
  specialize (Hd _ Ia). change ui_time with 44. destruct (date _); [|congruence]. eexists. reflexivity.
Qed.
End Show.
