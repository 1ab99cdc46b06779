(** Which replacement addresses the patches present in a target record, and that the
    functions jump there. *)
From Coq Require Import ZArith String List Bool Lia ZifyBool ZifyNat Permutation.
From Verif Require Import Word WordLemmas Str ElfDefs TextModel LdModel LdSpec LdProofs LdSyms LdMore ScModel ScSpec ScProofs PaModel PaSpec PaRead PaProofs PaMore PaKick PaLoad PaSess PaHist RnSpec RnProofs.
Import ListNotations.
Open Scope Z_scope.

(** The patch mapped at [h] records that the function at [f] is replaced by the one at [t]. *)
Definition recorded (m : mem) (h f t : Z) : Prop :=
  exists info, info_at (fun x => m (h + x)) info /\ ld 8 m (h + info + 20) = f /\ ld 8 m (h + info + 12) = t.

Lemma nth_in_nz (s : list Z) i : ~ In 0 s -> (i < List.length s)%nat -> nth i s 0 <> 0.
Proof. intros N H E. apply N. rewrite <- E. apply nth_In. exact H. Qed.

Lemma string_agree f g p s : (forall x, in_string f p x -> g x = f x) -> string_at f p s <-> string_at g p s.
Proof.
  intros A. split; intros (N & B & Z0).
  - assert (C : forall i, (i <= List.length s)%nat -> in_string f p (p + Z.of_nat i)).
    { intros i Hi. split; [lia|]. intros z Hz. replace z with (p + Z.of_nat (Z.to_nat (z - p))) by lia. rewrite B by lia. apply nth_in_nz; [auto|lia]. }
    split; [auto|]. split; [intros i Hi; rewrite A by (apply C; lia); auto|rewrite A by (apply C; lia); auto].
  - assert (C : forall i, (i <= List.length s)%nat -> in_string f p (p + Z.of_nat i)).
    { induction i as [|i IH]; intros Hi.
      - split; [lia|]. intros z Hz. lia.
      - specialize (IH ltac:(lia)). split; [lia|]. intros z Hz. destruct (Z.eq_dec z (p + Z.of_nat i)) as [->|Ne]; [|apply IH; lia].
        rewrite <- A by exact IH. rewrite B by lia. apply nth_in_nz; [auto|lia]. }
    split; [auto|]. split; [intros i Hi; rewrite <- A by (apply C; lia); auto|rewrite <- A by (apply C; lia); auto].
Qed.

Lemma info_agree f g info : byte_mem f -> ld 2 f 62 < ld 2 f 60 -> (forall x, meta_byte f x -> g x = f x) -> info_at f info -> info_at g info.
Proof.
  intros Hb Hx A (j & Hj & N & F & E).
  assert (E1 : ld 8 g 40 = ld 8 f 40) by (apply ld_ext; intros x Hx0; apply A; left; lia).
  assert (E2 : ld 2 g 60 = ld 2 f 60) by (apply ld_ext; intros x Hx0; apply A; left; lia).
  assert (E3 : ld 2 g 62 = ld 2 f 62) by (apply ld_ext; intros x Hx0; apply A; left; lia).
  set (t := ld 8 f 40) in *.
  assert (So : forall k, 0 <= k < ld 2 f 60 -> sh_offset (section g t k) = sh_offset (section f t k) /\ sh_name (section g t k) = sh_name (section f t k)).
  { intros k Hk. unfold section. cbn [sh_offset sh_name]. split; apply ld_ext; intros x Hx0; apply A; right; exists k; (split; [auto|]); left; fold t; lia. }
  assert (Hs : 0 <= ld 2 f 62 < ld 2 f 60) by (pose proof (ld_range 2 f 62 Hb); lia).
  assert (Sn : forall k, 0 <= k < ld 2 f 60 -> sec_named f ".ulpatch.info" k <-> sec_named g ".ulpatch.info" k).
  { intros k Hk. unfold sec_named. rewrite E1, E3. fold t. destruct (So k Hk) as [_ ->]. destruct (So _ Hs) as [-> _]. apply string_agree.
    intros x Hx0. apply A. right. exists k. split; [auto|]. right. left. exact Hx0. }
  exists j. rewrite E1, E2. split; [auto|]. split; [apply Sn; auto|]. split; [intros i Hi; rewrite <- Sn by lia; auto|]. rewrite (proj1 (So j Hj)). exact E.
Qed.

Section Hist.
Variable K : Z -> Prop.

Definition recs (m : mem) (ps : list (applied * Z * Z)) : Prop :=
  Forall (fun q => forall info, info_at (p_file (pa q)) info -> snd q = ld 8 m (p_start (pa q) + info + 12)) ps.

Lemma info_in m p info : present m p -> info_at (p_file p) info -> 0 <= info /\ info + 64 <= p_len p /\ p_start p + p_len p <= p_stop p.
Proof.
  intros (F & _) Hi. pose proof F as (Hb & T & _ & L & _). destruct Hi as (j & J1 & J2 & J3 & ->).
  split; [apply (ld_range 8); auto|]. split; [apply (wf_info _ _ (proj1 T)); auto|lia].
Qed.

Lemma recs_ext m m' vs ps : Permutation vs (map (fun q => p_range (pa q)) ps) -> (forall x, in_vmas vs x -> m' x = m x) ->
  Forall (present m) (map pa ps) -> recs m ps -> recs m' ps.
Proof.
  intros P A F H. unfold recs in *. rewrite Forall_forall in *. intros q Hq info Hi. rewrite (H q Hq info Hi). symmetry. apply ld_ext. intros x Hx. apply A.
  destruct (info_in m (pa q) info (F (pa q) (in_map pa ps q Hq)) Hi) as (X1 & X2 & X3).
  apply (in_vmas_perm _ _ _ (Permutation_sym P)). exists (p_range (pa q)). split; [apply (in_map (fun q => p_range (pa q))); auto|unfold p_range; cbn [fst snd]; lia].
Qed.

Lemma step_recs m0 st ev st' ps : Z.of_nat (List.length ps) < 2 ^ 32 - 1 -> inv K m0 st ps -> recs (fst st) ps -> step K st ev st' ->
  exists ps', inv K m0 st' ps' /\ recs (fst st') ps' /\ (List.length ps' <= S (List.length ps))%nat /\
    (forall es, stack_after (ev :: es) (map triple ps) = stack_after es (map triple ps')).
Proof.
  intros Bd I Rc H. destruct (step_more K m0 st ev st' ps Bd I H) as (ps' & I' & Ln & Sk & Ev & Sm).
  exists ps'. split; [auto|]. split; [|auto].
  destruct I as (P & F & _ & _). destruct I' as (P' & F' & _ & _).
  assert (Keep : forall l, (forall q, In q l -> In q ps) -> (forall q, In q l -> In q ps') -> recs (fst st) l -> recs (fst st') l).
  { intros l H1 H2 HR. unfold recs in *. rewrite Forall_forall in *. intros q Hq info Hi. rewrite (HR q Hq info Hi). symmetry. apply ld_ext. intros x Hx.
    destruct (info_in (fst st) (pa q) info (F (pa q) (in_map pa ps q (H1 q Hq))) Hi) as (X1 & X2 & X3).
    assert (Iv : forall vs l', Permutation vs (map (fun q => p_range (pa q)) l') -> In q l' -> in_vmas vs x).
    { intros vs l' Pv Hl. apply (in_vmas_perm _ _ _ (Permutation_sym Pv)). exists (p_range (pa q)). split; [apply (in_map (fun q => p_range (pa q))); auto|unfold p_range; cbn [fst snd]; lia]. }
    apply Sm; [apply (Iv _ ps); auto|apply (Iv _ ps'); auto]. }
  destruct ev as [|hdr fn jmp| |hdr].
  - subst ps'. apply Keep; auto.
  - destruct Ev as (q & -> & Hq). constructor; [exact Hq|]. apply Keep; auto. intros q' Hq'. right. exact Hq'.
  - subst ps'. apply Keep; auto.
  - destruct Ev as (q & ->). apply Keep; auto; [intros q' Hq'; right; exact Hq'|]. inversion Rc; auto.
Qed.

Lemma steps_recs m0 st es st' ps : steps K st es st' -> Z.of_nat (List.length ps) + Z.of_nat (List.length es) < 2 ^ 32 - 1 -> inv K m0 st ps -> recs (fst st) ps ->
  exists ps', inv K m0 st' ps' /\ recs (fst st') ps' /\ stack_after es (map triple ps) = Some (map triple ps').
Proof.
  intros H. revert ps. induction H as [s|s1 e s2 es s3 H1 H2 IH]; intros ps Bd I Rc.
  - exists ps. auto.
  - cbn [List.length] in Bd. destruct (step_recs m0 s1 e s2 ps ltac:(lia) I Rc H1) as (ps1 & I1 & R1 & L1 & X).
    destruct (IH ps1 ltac:(lia) I1 R1) as (ps2 & I2 & R2 & Y). exists ps2. split; [auto|]. split; [auto|]. rewrite X. exact Y.
Qed.

(** The recorded replacements. *)
Lemma recs_recorded m ps : Forall (present m) (map pa ps) -> recs m ps ->
  Forall2 (fun p r => fst r = snd (fst p) /\ recorded m (fst (fst p)) (fst r) (snd r)) (map triple ps) (map (fun q => (p_fun (pa q), snd q)) ps).
Proof.
  induction ps as [|q ps IH]; intros F H; cbn [map]; constructor.
  - unfold triple. cbn [fst snd]. split; [reflexivity|]. apply Forall_inv in F. apply Forall_inv in H.
    destruct F as (FO & S1 & S2). destruct FO as (Hb & T & _ & _ & _ & li & SU & _).
    destruct (info_is _ _ _ Hb SU) as (IA & _). exists (li_info li). split; [|split].
    + apply (info_agree (p_file (pa q))); auto. apply (wf_strndx _ _ (proj1 T)).
    + apply (S2 _ IA).
    + symmetry. apply (H _ IA).
  - apply IH; [exact (Forall_inv_tail F)|exact (Forall_inv_tail H)].
Qed.

(** If the functions are apart, each newest patch's jump is there. *)
Lemma over_jump m0 ps j : (forall h v j', In (h, v, j') (map triple ps) -> j' = j) ->
  apart (map (fun q => (p_fun (pa q), snd q)) ps) ->
  forall f t, replaced (map (fun q => (p_fun (pa q), snd q)) ps) f = Some t -> forall i, 0 <= i < 16 -> over m0 ps (f + i) = nth (Z.to_nat i) (le_bytes 8 j ++ le_bytes 8 t) 0.
Proof.
  induction ps as [|[[p j'] tg] ps IH]; intros Hj Ap f t Hr i Hi; [discriminate Hr|]. cbn [map replaced over] in *. unfold pa in *. cbn [fst snd] in *.
  destruct (Z.eqb_spec f (p_fun p)) as [->|Ne].
  - replace (inside (p_fun p) 16 (p_fun p + i)) with true by (unfold inside; lia). replace (p_fun p + i - p_fun p) with i by lia.
    assert (tg = t) by congruence. subst tg. rewrite (Hj (p_start p) (p_fun p) j') by (left; reflexivity). reflexivity.
  - assert (Hin : In (f, t) (map (fun q => (p_fun (fst (fst q)), snd q)) ps)) by (apply replaced_in; exact Hr).
    destruct (Ap (p_fun p) tg f t (or_introl eq_refl) (or_intror Hin)) as [Ea|Ea]; [congruence|].
    replace (inside (p_fun p) 16 (f + i)) with false by (unfold inside; lia). apply IH; auto.
    + intros h v j0 H0. apply (Hj h v j0). right. exact H0.
    + intros f1 t1 f2 t2 H1 H2. apply (Ap f1 t1 f2 t2); right; assumption.
Qed.
End Hist.
