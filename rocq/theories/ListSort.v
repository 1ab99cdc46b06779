From Coq Require Import ZArith List Bool Lia Permutation Sorted.
From Verif Require Import Word ListModel ListSpec ListProofs.
Import ListNotations.
Open Scope Z_scope.

Section S.
Variable cmp : Z -> Z -> Z.
Hypothesis Hcmp : total_preorder cmp.

(** ** Merging sequences *)

Fixpoint merge_l (xs ys : list Z) : list Z :=
  match xs with
  | [] => ys
  | x :: xs' =>
      (fix m (ys : list Z) : list Z :=
         match ys with
         | [] => xs
         | y :: ys' => if cmp x y <=? 0 then x :: merge_l xs' ys else y :: m ys'
         end) ys
  end.
Lemma merge_nil xs : merge_l xs [] = xs.
Proof. destruct xs; reflexivity. Qed.
Lemma merge_cons x xs y ys :
  merge_l (x :: xs) (y :: ys) = if cmp x y <=? 0 then x :: merge_l xs (y :: ys) else y :: merge_l (x :: xs) ys.
Proof. reflexivity. Qed.

Definition le (a b : Z) : Prop := cmp a b <= 0.
Notation sorted := (StronglySorted le).

Lemma merge_perm xs : forall ys, Permutation (xs ++ ys) (merge_l xs ys).
Proof.
  induction xs as [|x xs IH]; intros ys; [reflexivity|].
  induction ys as [|y ys IHy]; [rewrite app_nil_r; reflexivity|]. rewrite merge_cons.
  destruct (cmp x y <=? 0).
  - cbn [app]. constructor. apply IH.
  - rewrite <- IHy. symmetry. apply Permutation_middle.
Qed.
Lemma merge_in z xs ys : In z (merge_l xs ys) <-> In z xs \/ In z ys.
Proof.
  rewrite <- in_app_iff. split; apply Permutation_in; [symmetry|]; apply merge_perm.
Qed.
Lemma merge_sorted xs : forall ys, sorted xs -> sorted ys -> sorted (merge_l xs ys).
Proof.
  destruct Hcmp as [Tot Tr].
  induction xs as [|x xs IH]; intros ys Sx Sy; [exact Sy|].
  induction ys as [|y ys IHy]; [exact Sx|]. rewrite merge_cons.
  apply StronglySorted_inv in Sx as Sx'. apply StronglySorted_inv in Sy as Sy'.
  destruct Sx' as [Sx1 Sx2], Sy' as [Sy1 Sy2]. rewrite Forall_forall in *.
  destruct (Z.leb_spec (cmp x y) 0) as [L|L].
  - constructor; [apply IH; auto|]. apply Forall_forall. intros z Hz. apply merge_in in Hz.
    destruct Hz as [Hz|[<-|Hz]]; auto. apply (Tr x y z); auto. apply Sy2; auto.
  - assert (L' : cmp y x <= 0) by (destruct (Tot x y); lia).
    constructor; [apply IHy; auto|]. apply Forall_forall. intros z Hz. apply merge_in in Hz.
    destruct Hz as [[<-|Hz]|Hz]; auto. apply (Tr y x z); auto. apply Sx2; auto.
Qed.

(** Entries with a larger key do not pass the filter. *)
Lemma filter_none k l : (forall z, In z l -> same_key cmp k z = false) -> filter (same_key cmp k) l = [].
Proof.
  induction l as [|a l IH]; intros H; cbn [filter]; [reflexivity|]. rewrite H by (cbn; auto).
  apply IH. intros; apply H; cbn; auto.
Qed.
Lemma merge_stable k xs : forall ys, sorted xs -> sorted ys ->
  filter (same_key cmp k) (merge_l xs ys) = filter (same_key cmp k) xs ++ filter (same_key cmp k) ys.
Proof.
  destruct Hcmp as [Tot Tr].
  induction xs as [|x xs IH]; intros ys Sx Sy; [reflexivity|].
  induction ys as [|y ys IHy]; [rewrite merge_nil; cbn [filter]; rewrite app_nil_r; reflexivity|]. rewrite merge_cons.
  apply StronglySorted_inv in Sx as Sx'. apply StronglySorted_inv in Sy as Sy'.
  destruct Sx' as [Sx1 Sx2], Sy' as [Sy1 Sy2]. rewrite Forall_forall in *.
  destruct (Z.leb_spec (cmp x y) 0) as [L|L].
  - cbn [filter]. rewrite IH by auto. cbn [filter]. destruct (same_key cmp k x); reflexivity.
  - cbn [filter]. rewrite IHy by auto. destruct (same_key cmp k y) eqn:Ey; [|reflexivity].
    (* y has the key, so nothing in x :: xs has it *)
    assert (E : filter (same_key cmp k) (x :: xs) = []).
    { apply filter_none. intros z Hz. apply not_true_iff_false. intros Ez.
      apply andb_true_iff in Ey. apply andb_true_iff in Ez. rewrite !Z.leb_le in *.
      assert (Hxz : cmp x z <= 0) by (destruct Hz as [<-|Hz]; [destruct (Tot x x); auto|apply Sx2; auto]).
      assert (cmp x y <= 0); [|lia]. apply (Tr x z y); auto. apply (Tr z k y); tauto. }
    rewrite E. cbn [filter] in E. rewrite E. reflexivity.
Qed.

(** Same entries, equal ones in the same order. *)
Definition eqv (l l' : list Z) : Prop :=
  Permutation l l' /\ forall k, filter (same_key cmp k) l' = filter (same_key cmp k) l.
Lemma eqv_refl l : eqv l l. Proof. split; auto. Qed.
Lemma eqv_trans a b c : eqv a b -> eqv b c -> eqv a c.
Proof. intros [H1 H2] [H3 H4]. split; [etransitivity; eauto|]. intros k. rewrite H4. apply H2. Qed.
Lemma eqv_app a b c d : eqv a b -> eqv c d -> eqv (a ++ c) (b ++ d).
Proof.
  intros [H1 H2] [H3 H4]. split; [apply Permutation_app; auto|]. intros k. rewrite !filter_app, H2, H4. reflexivity.
Qed.
Lemma eqv_merge xs ys : sorted xs -> sorted ys -> eqv (xs ++ ys) (merge_l xs ys).
Proof. intros Sx Sy. split; [apply merge_perm|]. intros k. rewrite merge_stable, filter_app; auto. Qed.
Lemma eqv_nodup a b : eqv a b -> NoDup a -> NoDup b.
Proof. intros [H _]. apply Permutation_NoDup. exact H. Qed.

(** ** Null-terminated lists *)

Fixpoint sll (h : lheap) (a : Z) (xs : list Z) : Prop :=
  match xs with
  | [] => a = 0
  | x :: xs => a = x /\ live h x = true /\ x <> 0 /\ sll h (nx h x) xs
  end.

Lemma sll_cons h x xs : live h x = true -> x <> 0 -> sll h (nx h x) xs -> sll h x (x :: xs).
Proof. cbn [sll]. auto. Qed.
Lemma sll_ext h h' xs : forall a, sll h a xs ->
  (forall z, live h' z = live h z) -> (forall z, In z xs -> nx h' z = nx h z) -> sll h' a xs.
Proof.
  induction xs as [|x xs IH]; intros a H L N; cbn [sll] in *; auto.
  destruct H as (E & L1 & Z1 & H). rewrite L, N by (cbn; auto).
  repeat split; auto. apply IH; auto. intros; apply N; cbn; auto.
Qed.
Lemma sll_hd h a xs : sll h a xs -> a = hd 0 xs.
Proof. destruct xs; cbn; tauto. Qed.
Lemma sll_end h a xs : sll h a xs -> a = 0 -> xs = [].
Proof. destruct xs; cbn; [auto|]. intros (-> & _ & ? & _) ?. contradiction. Qed.
Lemma sll_live h a xs z : sll h a xs -> In z xs -> live h z = true /\ z <> 0.
Proof.
  revert a. induction xs as [|x xs IH]; intros a H I; [destruct I|]. cbn [sll] in H.
  destruct H as (_ & L & Z & H). destruct I as [<-|I]; eauto.
Qed.

Definition pv_same (h h' : lheap) : Prop := forall z, pv h' z = pv h z.
Definition live_same (h h' : lheap) : Prop := forall z, live h' z = live h z.

Definition tail_ok (h : lheap) (tail : ploc) (zs : list Z) : Prop :=
  match tail with Local => True | NextOf t => live h t = true /\ ~ In t zs | PrevOf _ => False end.

Lemma merge_loop_ok fuel : forall h head tail a b xs ys,
  sll h a xs -> sll h b ys -> xs <> [] -> ys <> [] -> NoDup (xs ++ ys) ->
  tail_ok h tail (xs ++ ys) -> (length xs + length ys <= fuel)%nat ->
  exists h' head', merge_loop cmp fuel h head tail a b = Some (h', head') /\
    sll h' (hd 0 (merge_l xs ys)) (merge_l xs ys) /\ live_same h h' /\ pv_same h h' /\
    (forall z, ~ In z (xs ++ ys) -> tail <> NextOf z -> nx h' z = nx h z) /\
    match tail with
    | Local => head' = hd 0 (merge_l xs ys)
    | NextOf t => head' = head /\ nx h' t = hd 0 (merge_l xs ys)
    | PrevOf _ => True
    end.
Proof.
  induction fuel as [|fuel IH]; intros h head tail a b xs ys Ha Hb Nx Ny Nd Tk Fu.
  { destruct xs; [contradiction|]. cbn [length] in Fu. lia. }
  destruct xs as [|x xs]; [contradiction|]. destruct ys as [|y ys]; [contradiction|].
  pose proof Ha as Ha'. pose proof Hb as Hb'. cbn [sll] in Ha', Hb'.
  destruct Ha' as (-> & Lx & Zx & Hxs), Hb' as (-> & Ly & Zy & Hys).
  assert (Dxy : forall z, In z (x :: xs) -> In z (y :: ys) -> False) by (apply nodup_app in Nd; tauto).
  assert (Nx1 : NoDup (x :: xs)) by (apply nodup_app in Nd; tauto).
  assert (Ny1 : NoDup (y :: ys)) by (apply nodup_app in Nd; tauto).
  (* one step, generic in the taken entry *)
  assert (St : forall v, exists h1 head1, pstore h head tail v = Some (h1, head1) /\
     live_same h h1 /\ pv_same h h1 /\
     (forall z, In z ((x :: xs) ++ y :: ys) -> nx h1 z = nx h z) /\
     (forall z, tail <> NextOf z -> nx h1 z = nx h z) /\
     match tail with Local => head1 = v | NextOf t => head1 = head /\ nx h1 t = v | PrevOf _ => True end).
  { intros v. destruct tail as [|t|t]; cbn [pstore tail_ok] in *; [| |contradiction].
    - exists h, v. repeat split; auto.
    - destruct Tk as [Lt It]. rewrite set_next_live by auto. eexists _, _. split; [reflexivity|].
      cbn [live nx pv]. repeat split; auto.
      + intros z Hz. apply set_other. intros ->. auto.
      + intros z Hz. apply set_other. intros ->. auto.
      + apply set_same. }
  cbn [merge_loop]. rewrite merge_cons. destruct (Z.leb_spec (cmp x y) 0) as [C|C].
  - destruct (St x) as (h1 & head1 & E1 & L1 & P1 & N1 & N1' & T1). rewrite E1.
    rewrite get_next_live by (rewrite L1; auto). rewrite N1 by (cbn; auto).
    destruct (Z.eqb_spec (nx h x) 0) as [E0|E0].
    + assert (xs = []) by (eapply sll_end; eauto). subst xs. cbn [merge_l hd pstore].
      rewrite set_next_live by (rewrite L1; auto). eexists _, _. split; [reflexivity|].
      set (h2 := Lh _ _ _).
      assert (X : sll h2 y (y :: ys)).
      { apply (sll_ext h); auto. intros z Hz. cbn [nx h2]. rewrite set_other; [apply N1, in_app_iff; auto|].
        intros ->. apply (Dxy x); cbn; auto. }
      split; [|split; [|split; [|split]]].
      * apply sll_cons; auto. { cbn [live h2]. rewrite L1; auto. }
        cbn [nx h2]. rewrite set_same. exact X.
      * exact L1.
      * exact P1.
      * intros z Hz Hd. cbn [nx h2]. rewrite set_other; [apply N1'; auto|]. intros ->. apply Hz. cbn; auto.
      * destruct tail as [|t|t]; auto. cbn [tail_ok] in Tk. cbn [nx h2].
        rewrite set_other; auto. intros ->. apply (proj2 Tk). cbn; auto.
    + assert (Hne : xs <> []) by (intros ->; cbn in Hxs; contradiction).
      destruct (IH h1 head1 (NextOf x) (nx h x) y xs (y :: ys)) as (h2 & head2 & E2 & G1 & G2 & G3 & G4 & G5); auto.
      * apply (sll_ext h); auto. intros z Hz. apply N1. cbn; rewrite in_app_iff; auto.
      * apply (sll_ext h); auto. intros z Hz. apply N1. apply in_app_iff; auto.
      * cbn [app] in Nd. apply NoDup_cons_iff in Nd. tauto.
      * split; [rewrite L1; auto|]. cbn [app] in Nd. apply NoDup_cons_iff in Nd. tauto.
      * cbn [length] in *. lia.
      * destruct G5 as [-> G5]. exists h2, head1. split; [exact E2|]. cbn [hd].
        assert (Lx2 : live h2 x = true) by (rewrite G2, L1; auto).
        split; [apply sll_cons; auto; rewrite G5; auto|]. split; [intros z; rewrite G2; apply L1|].
        split; [intros z; rewrite G3; apply P1|]. split.
        -- intros z Hz Hd. rewrite G4; auto; [cbn in Hz; tauto|]. intros E. injection E as ->. apply Hz. cbn; auto.
        -- destruct tail as [|t|t]; auto. destruct T1 as [-> T1]. split; auto. rewrite G4; auto.
           ++ cbn [tail_ok] in Tk. cbn in Tk. tauto.
           ++ intros E. injection E as ->. cbn [tail_ok] in Tk. cbn in Tk. tauto.
  - destruct (St y) as (h1 & head1 & E1 & L1 & P1 & N1 & N1' & T1). rewrite E1.
    assert (Iy : In y ((x :: xs) ++ y :: ys)) by (apply in_app_iff; cbn; auto).
    rewrite get_next_live by (rewrite L1; auto). rewrite N1 by auto.
    destruct (Z.eqb_spec (nx h y) 0) as [E0|E0].
    + assert (ys = []) by (eapply sll_end; eauto). subst ys. rewrite merge_nil. cbn [hd pstore].
      rewrite set_next_live by (rewrite L1; auto). eexists _, _. split; [reflexivity|].
      set (h2 := Lh _ _ _).
      assert (X : sll h2 x (x :: xs)).
      { apply (sll_ext h); auto. intros z Hz. cbn [nx h2]. rewrite set_other; [apply N1, in_app_iff; auto|].
        intros ->. apply (Dxy y); cbn; auto. }
      split; [|split; [|split; [|split]]].
      * apply sll_cons; auto. { cbn [live h2]. rewrite L1; auto. }
        cbn [nx h2]. rewrite set_same. exact X.
      * exact L1.
      * exact P1.
      * intros z Hz Hd. cbn [nx h2]. rewrite set_other; [apply N1'; auto|]. intros ->. auto.
      * destruct tail as [|t|t]; auto. cbn [tail_ok] in Tk. cbn [nx h2].
        rewrite set_other; auto. intros ->. apply (proj2 Tk). auto.
    + assert (Hne : ys <> []) by (intros ->; cbn in Hys; contradiction).
      assert (Ndm : ~ In y ((x :: xs) ++ ys) /\ NoDup ((x :: xs) ++ ys)) by (apply nodup_mid; auto).
      destruct (IH h1 head1 (NextOf y) x (nx h y) (x :: xs) ys) as (h2 & head2 & E2 & G1 & G2 & G3 & G4 & G5); auto.
      * apply (sll_ext h); auto. intros z Hz. apply N1. apply in_app_iff; auto.
      * apply (sll_ext h); auto. intros z Hz. apply N1. apply in_app_iff; cbn; auto.
      * tauto.
      * split; [rewrite L1; auto|tauto].
      * cbn [length] in *. lia.
      * destruct G5 as [-> G5]. exists h2, head1. split; [exact E2|]. cbn [hd].
        assert (Ly2 : live h2 y = true) by (rewrite G2, L1; auto).
        split; [apply sll_cons; auto; rewrite G5; auto|]. split; [intros z; rewrite G2; apply L1|].
        split; [intros z; rewrite G3; apply P1|]. split.
        -- intros z Hz Hd. rewrite in_mid in Hz. rewrite G4; auto. intros E. injection E as ->. auto.
        -- destruct tail as [|t|t]; auto. destruct T1 as [-> T1]. split; auto.
           cbn [tail_ok] in Tk. rewrite in_mid in Tk. rewrite G4; auto; [tauto|].
           intros E. injection E as ->. tauto.
Qed.

Lemma merge_ok fuel h a b xs ys :
  sll h a xs -> sll h b ys -> xs <> [] -> ys <> [] -> NoDup (xs ++ ys) ->
  (length xs + length ys <= fuel)%nat ->
  exists h', merge cmp fuel h a b = Some (h', hd 0 (merge_l xs ys)) /\
    sll h' (hd 0 (merge_l xs ys)) (merge_l xs ys) /\ live_same h h' /\ pv_same h h' /\
    (forall z, ~ In z (xs ++ ys) -> nx h' z = nx h z).
Proof.
  intros Ha Hb Nx Ny Nd F.
  destruct (merge_loop_ok fuel h 0 Local a b xs ys) as (h' & hd' & A & B & C & D & E & G); auto; [exact I|].
  subst hd'. exists h'. repeat split; auto. intros z Hz. apply E; auto. discriminate.
Qed.

(** ** The stack of pending lists *)

Fixpoint stk (h : lheap) (p : Z) (ls : list (list Z)) : Prop :=
  match ls with
  | [] => p = 0
  | xs :: ls => xs <> [] /\ sll h p xs /\ stk h (pv h p) ls
  end.

Lemma stk_ext h h' ls : forall p, stk h p ls -> live_same h h' ->
  (forall z, In z (concat ls) -> nx h' z = nx h z /\ pv h' z = pv h z) -> stk h' p ls.
Proof.
  induction ls as [|xs ls IH]; intros p H L N; cbn [stk concat] in *; auto.
  destruct H as (H1 & H2 & H3). split; auto. split.
  - apply (sll_ext h); auto. intros z Hz. apply N, in_app_iff; auto.
  - assert (E : pv h' p = pv h p).
    { apply N. apply in_app_iff. left. rewrite (sll_hd _ _ _ H2). destruct xs; [contradiction|cbn; auto]. }
    rewrite E. apply IH; auto. intros z Hz. apply N, in_app_iff; auto.
Qed.
Lemma stk_live h ls : forall p z, stk h p ls -> In z (concat ls) -> live h z = true /\ z <> 0.
Proof.
  induction ls as [|xs ls IH]; intros p z H I; cbn [stk concat] in *; [destruct I|].
  destruct H as (H1 & H2 & H3). apply in_app_iff in I. destruct I; [eapply sll_live; eauto|eapply IH; eauto].
Qed.
Lemma stk_hd_in h p xs ls : stk h p (xs :: ls) -> In p xs.
Proof.
  intros (H1 & H2 & _). rewrite (sll_hd _ _ _ H2). destruct xs; [contradiction|cbn; auto].
Qed.

(** The location that holds the pointer to what follows the lists [front]. *)
Fixpoint loc_at (h : lheap) (p : Z) (front : list (list Z)) (loc : ploc) : ploc :=
  match front with [] => loc | _ :: fs => loc_at h (pv h p) fs (PrevOf p) end.

Definition nbits (n : Z) : nat := if n =? 0 then 0%nat else S (Z.to_nat (Z.log2 n)).

Lemma nbits_odd m : 0 <= m -> nbits (2 * m + 1) = S (nbits m).
Proof.
  intros H. unfold nbits. destruct (Z.eqb_spec (2 * m + 1) 0); [lia|].
  destruct (Z.eqb_spec m 0) as [->|]; [reflexivity|]. rewrite Z.log2_succ_double by lia.
  rewrite Z2Nat.inj_succ by apply Z.log2_nonneg. reflexivity.
Qed.
Lemma nbits_even m : 0 < m -> nbits (2 * m) = S (nbits m).
Proof.
  intros H. unfold nbits. destruct (Z.eqb_spec (2 * m) 0); [lia|].
  destruct (Z.eqb_spec m 0); [lia|]. rewrite Z.log2_double by lia.
  rewrite Z2Nat.inj_succ by apply Z.log2_nonneg. reflexivity.
Qed.

Lemma odd_cases b : 0 <= b -> (Z.land b 1 = 0 /\ exists m, b = 2 * m /\ 0 <= m) \/
  (Z.land b 1 = 1 /\ exists m, b = 2 * m + 1 /\ Z.shiftr b 1 = m /\ 0 <= m).
Proof.
  intros H. assert (E1 : Z.land b 1 = b mod 2) by (change 1 with (Z.ones 1); rewrite Z.land_ones; [reflexivity|lia]).
  rewrite E1, <- Z.div2_spec, Z.div2_div.
  pose proof (Z.div_mod b 2). pose proof (Z.mod_pos_bound b 2).
  assert (b mod 2 = 0 \/ b mod 2 = 1) as [E|E] by lia; [left|right]; split; auto; exists (b / 2).
  - split; [lia|]. try (apply Z.div_pos; lia).
  - repeat split; try lia.
Qed.

Lemma find_clear_ok h var fuel : forall bits q tail ls,
  0 <= bits -> pload h var tail = Some q -> stk h q ls -> length ls = nbits bits -> (nbits bits < fuel)%nat ->
  exists front back bits', find_clear fuel h var bits tail = Some (bits', loc_at h q front tail) /\
    ls = front ++ back /\
    ((bits' = 0 /\ back = [] /\ nbits (bits + 1) = S (nbits bits)) \/
     (bits' <> 0 /\ (exists la lb back', back = la :: lb :: back') /\ nbits (bits + 1) = nbits bits)).
Proof.
  induction fuel as [|fuel IH]; intros bits q tail ls B Q St Ln Fu; [lia|]. cbn [find_clear].
  destruct (odd_cases bits B) as [(E & m & Em & Hm)|(E & m & Em & Es & Hm)]; rewrite E; cbn [Z.eqb].
  - exists [], ls, bits. cbn [loc_at app]. split; auto. split; auto.
    destruct (Z.eq_dec m 0) as [->|Nm].
    + left. subst bits. cbn in Ln. destruct ls; [|discriminate]. auto.
    + right. subst bits. split; [lia|]. rewrite nbits_odd, nbits_even by lia. split; auto.
      rewrite nbits_even in Ln by lia. unfold nbits in Ln. destruct (Z.eqb_spec m 0); [lia|].
      destruct ls as [|la [|lb ls]]; cbn [length] in Ln; try lia. eauto.
  - rewrite Q, Es. change (1 =? 0) with false. cbv iota. rewrite Em in Ln, Fu. rewrite nbits_odd in Ln, Fu by auto.
    destruct ls as [|xs ls]; cbn [length] in Ln; [lia|].
    pose proof (stk_hd_in _ _ _ _ St) as Iq. pose proof St as (S1 & S2 & S3).
    destruct (IH m (pv h q) (PrevOf q) ls) as (front & back & bits' & A & Eq & D); auto; [|lia|].
    { cbn [pload]. apply get_prev_live. eapply sll_live; eauto. }
    exists (xs :: front), back, bits'. cbn [loc_at app]. rewrite A, Eq. split; auto. split; auto.
    assert (X : nbits (bits + 1) = S (nbits (m + 1))).
    { replace (bits + 1) with (2 * (m + 1)) by lia. apply nbits_even. lia. }
    rewrite X, Em, nbits_odd by auto. destruct D as [(D1 & D2 & D3)|(D1 & D2 & D3)]; [left|right]; auto.
Qed.

(** Reading and writing through the location. *)
Lemma loc_at_load h var front : forall q tail back, pload h var tail = Some q -> stk h q (front ++ back) ->
  exists p, pload h var (loc_at h q front tail) = Some p /\ stk h p back.
Proof.
  induction front as [|f front IH]; intros q tail back Q St; cbn [loc_at app] in *.
  - eauto.
  - pose proof (stk_hd_in _ _ _ _ St) as Iq. destruct St as (S1 & S2 & S3).
    apply IH; auto. cbn [pload]. apply get_prev_live. eapply sll_live; eauto.
Qed.

Lemma loc_at_store h h1 var v back back' f front : forall q tail,
  stk h q ((f :: front) ++ back) -> live_same h h1 ->
  (forall z, In z (concat (f :: front)) -> nx h1 z = nx h z /\ pv h1 z = pv h z) ->
  stk h1 v back' -> NoDup (concat ((f :: front) ++ back')) ->
  exists h2, pstore h1 var (loc_at h q (f :: front) tail) v = Some (h2, var) /\
    stk h2 q ((f :: front) ++ back') /\ live_same h1 h2 /\
    (forall z, nx h2 z = nx h1 z) /\ (forall z, ~ In z (concat (f :: front)) -> pv h2 z = pv h1 z).
Proof.
  revert f. induction front as [|g front IH]; intros f q tail St L N Sv Nd.
  - cbn [loc_at pstore]. pose proof (stk_hd_in _ _ _ _ St) as Iq. cbn [app stk] in St.
    destruct St as (S1 & S2 & S3). cbn [concat app] in N, Nd. 
    rewrite set_prev_live by (rewrite L; eapply sll_live; eauto). eexists. split; [reflexivity|].
    set (h2 := Lh _ _ _). cbn [app stk].
    assert (Dq : forall z, In z (concat back') -> z <> q).
    { intros z Hz ->. apply nodup_app in Nd. destruct Nd as (_ & _ & D). eauto. }
    split; [|split; [|split]].
    + split; auto. split.
      * apply (sll_ext h); auto. intros z Hz. cbn [nx h2]. apply N. rewrite app_nil_r. auto.
      * cbn [pv h2]. rewrite set_same. apply (stk_ext h1); auto; [intros z; reflexivity|].
        intros z Hz. cbn [nx pv h2]. rewrite set_other by auto. auto.
    + intros z; reflexivity.
    + intros z; reflexivity.
    + intros z Hz. cbn [pv h2]. apply set_other. intros ->. apply Hz. cbn [concat]. apply in_app_iff; auto.
  - cbn [loc_at]. pose proof (stk_hd_in _ _ _ _ St) as Iq. cbn [app stk] in St.
    destruct St as (S1 & S2 & S3). cbn [app concat] in Nd. pose proof Nd as Nd0.
    apply nodup_app in Nd. destruct Nd as (Nf & Ng & Nfg).
    destruct (IH g (pv h q) (PrevOf q)) as (h2 & A & B & C & D & E); auto.
    { intros z Hz. apply N. cbn [concat] in *. rewrite in_app_iff. auto. }
    cbn [loc_at] in A. exists h2. split; [exact A|]. cbn [app stk]. 
    assert (Nq : forall z, In z f -> ~ In z (concat (g :: front))).
    { intros z Hz Hz'. apply (Nfg z); auto. cbn [concat] in Hz'. rewrite concat_app. rewrite !in_app_iff in *. tauto. }
    split; [|split; [|split]]; auto.
    + split; auto. split.
      * apply (sll_ext h); auto; [intros z; rewrite C; apply L|]. intros z Hz. rewrite D. apply N.
        cbn [concat]. apply in_app_iff; auto.
      * rewrite E by (apply Nq; auto). assert (X : pv h1 q = pv h q) by (apply N; cbn [concat]; apply in_app_iff; auto).
        rewrite X. exact B.
    + intros z Hz. apply E. intros Hz'. apply Hz. cbn [concat] in *. rewrite !in_app_iff in *. tauto.
Qed.

(** Oldest first. *)
Definition flat (ls : list (list Z)) : list Z := concat (rev ls).
Lemma flat_app a b : flat (a ++ b) = flat b ++ flat a.
Proof. unfold flat. rewrite rev_app_distr, concat_app. reflexivity. Qed.
Lemma flat_cons a b : flat (a :: b) = flat b ++ a.
Proof. unfold flat. cbn [rev]. rewrite concat_app. cbn [concat]. rewrite app_nil_r. reflexivity. Qed.
Lemma flat_perm ls : Permutation (flat ls) (concat ls).
Proof.
  induction ls as [|a ls IH]; [reflexivity|]. rewrite flat_cons. cbn [concat].
  rewrite Permutation_app_comm. apply Permutation_app_head. exact IH.
Qed.

Lemma concat_len (ls : list (list Z)) : (forall xs, In xs ls -> xs <> []) -> (length ls <= length (concat ls))%nat.
Proof.
  induction ls as [|xs ls IH]; intros H; cbn [length concat]; [lia|].
  rewrite app_length. assert (xs <> []) by (apply H; cbn; auto). destruct xs; [contradiction|]. cbn [length].
  specialize (IH ltac:(intros; apply H; cbn; auto)). lia.
Qed.
Lemma stk_nonempty h ls : forall p xs, stk h p ls -> In xs ls -> xs <> [].
Proof.
  induction ls as [|y ls IH]; intros p xs H I; [destruct I|]. destruct H as (H1 & H2 & H3).
  destruct I as [<-|I]; eauto.
Qed.

(** One merge of the loop. *)
Definition first_of (front : list (list Z)) (q m : Z) : Z := match front with [] => m | _ => q end.
Lemma merge_step_ok fuel h q front la lb back :
  stk h q (front ++ la :: lb :: back) -> NoDup (concat (front ++ la :: lb :: back)) ->
  (length la + length lb <= fuel)%nat ->
  exists a b h1 h2, let m := hd 0 (merge_l lb la) in 
    pload h q (loc_at h q front Local) = Some a /\ get_prev h a = Some b /\
    merge cmp fuel h b a = Some (h1, m) /\
    (bp <- get_prev h1 b ;; h2 <- set_prev h1 m bp ;;
       pstore h2 q (loc_at h q front Local) m) = Some (h2, first_of front q m) /\
    stk h2 (first_of front q m) (front ++ merge_l lb la :: back) /\
    live_same h h2 /\
    (forall z, ~ In z (concat (front ++ la :: lb :: back)) -> nx h2 z = nx h z /\ pv h2 z = pv h z).
Proof.
  intros St Nd Fu. destruct (loc_at_load h q front q Local _ eq_refl St) as (a & Ea & (S1 & S2 & S3)).
  set (b := pv h a) in *. destruct S3 as (S3 & S4 & S5).
  assert (La : live h a = true).
  { apply (sll_live h a la); auto. rewrite (sll_hd _ _ _ S2). destruct la; [contradiction|cbn; auto]. }
  assert (Ib : In b lb). { rewrite (sll_hd _ _ _ S4). destruct lb; [contradiction|cbn; auto]. }
  assert (Lb : live h b = true) by (eapply sll_live; eauto).
  pose proof Nd as Nd0. rewrite concat_app in Nd. apply nodup_app in Nd. destruct Nd as (Nf & Nb & Nfb).
  cbn [concat] in Nb, Nfb. rewrite app_assoc in Nb. apply nodup_app in Nb. destruct Nb as (Nab & Nback & Nabk).
  assert (Nba : NoDup (lb ++ la)) by (eapply Permutation_NoDup; [apply Permutation_app_comm|exact Nab]).
  destruct (merge_ok fuel h b a lb la) as (h1 & M1 & M2 & M3 & M4 & M5); auto; [lia|].
  set (ml := merge_l lb la) in *. set (m := hd 0 ml) in *.
  assert (Nml : ml <> []).
  { intros E. assert (In b ml) by (apply merge_in; auto). rewrite E in H. destruct H. }
  assert (Im : In m ml) by (subst m; destruct ml; [contradiction|cbn; auto]).
  assert (Im' : In m la \/ In m lb) by (apply merge_in in Im; tauto).
  assert (Lm : live h1 m = true) by (eapply sll_live; eauto).
  assert (Ga : get_prev h a = Some b) by (apply get_prev_live; auto).
  set (h2 := Lh (live h1) (nx h1) (set (pv h1) m (pv h b))).
  assert (Lv2 : live_same h h2) by (intros z; cbn [live h2]; apply M3).
  assert (Hm2 : sll h2 m ml) by (apply (sll_ext h1); auto).
  assert (Sk2 : stk h2 m (ml :: back)).
  { cbn [stk]. split; auto. split; auto. cbn [pv h2]. rewrite set_same.
    apply (stk_ext h); auto. intros z Hz. cbn [nx pv h2]. rewrite M5, set_other, M4; auto.
    - intros ->. apply (Nabk m); auto. apply in_app_iff; tauto.
    - intros H. apply (Nabk z); auto. rewrite in_app_iff in *. tauto. }
  assert (Fr : forall z, In z (concat front) -> nx h2 z = nx h z /\ pv h2 z = pv h z).
  { intros z Hz. cbn [nx pv h2]. rewrite M5, set_other, M4; auto.
    - intros ->. apply (Nfb m); auto. rewrite !in_app_iff. tauto.
    - intros H. apply (Nfb z); auto. rewrite !in_app_iff in *. tauto. }
  assert (Out : forall z, ~ In z (la ++ lb) -> nx h2 z = nx h z /\ pv h2 z = pv h z).
  { intros z Hz. cbn [nx pv h2]. rewrite in_app_iff in Hz. rewrite M5, set_other, M4; auto.
    - intros ->. tauto.
    - rewrite in_app_iff. tauto. }
  assert (E2 : forall k : lheap -> option (lheap * Z),
     (bp <- get_prev h1 b ;; h2 <- set_prev h1 m bp ;; k h2) = k h2).
  { intros k. rewrite get_prev_live by (rewrite M3; auto). rewrite M4. rewrite set_prev_live by auto. reflexivity. }
  rewrite concat_app in Nd0. cbn [concat] in Nd0.
  destruct front as [|f front].
  - exists a, b, h1, h2. cbv zeta. split; auto. split; auto. split; auto. rewrite E2. cbn [loc_at pstore first_of app].
    split; auto. split; auto. split; auto. intros z Hz. apply Out. cbn [concat] in Hz. rewrite !in_app_iff in *. tauto.
  - assert (Ndm : NoDup (concat ((f :: front) ++ ml :: back))).
    { rewrite concat_app. cbn [concat]. eapply Permutation_NoDup; [|exact Nd0].
      cbn [concat]. apply Permutation_app_head. rewrite app_assoc. apply Permutation_app_tail.
      rewrite Permutation_app_comm. apply merge_perm. }
    destruct (loc_at_store h h2 q m (la :: lb :: back) (ml :: back) f front q Local) as (h3 & A & B & C & D & E); auto.
    exists a, b, h1, h3. cbv zeta. split; auto. split; auto. split; auto. rewrite E2. cbn [first_of].
    split; auto. split; auto. split; [intros z; rewrite C; apply Lv2|].
    intros z Hz. rewrite concat_app in Hz. cbn [concat] in *. rewrite !in_app_iff in Hz.
    rewrite D, E by (rewrite in_app_iff; tauto). apply Out. rewrite in_app_iff. tauto.
Qed.

Lemma sort_loop_ok xs : forall fuel h lst pending count ls,
  sll h lst xs -> xs <> [] -> stk h pending ls -> NoDup (concat ls ++ xs) ->
  length ls = nbits count -> 0 <= count -> count + Z.of_nat (length xs) < 2 ^ 64 ->
  Forall sorted ls -> (length (concat ls) + length xs + length xs <= fuel)%nat ->
  exists h' p' ls', sort_loop cmp fuel h lst pending count = Some (h', p') /\
    stk h' p' ls' /\ Forall sorted ls' /\ eqv (flat ls ++ xs) (flat ls') /\
    length ls' = nbits (count + Z.of_nat (length xs)) /\
    live_same h h' /\ (forall z, ~ In z (concat ls ++ xs) -> nx h' z = nx h z /\ pv h' z = pv h z).
Proof.
  induction xs as [|x xs IH]; intros fuel h lst pending count ls Hx Nx St Nd Ln C0 Cb Fs Fu; [contradiction|].
  destruct fuel as [|fuel]; [cbn [length] in Fu; lia|]. cbn [sort_loop]. clear Nx.
  pose proof (concat_len ls (fun xs H => stk_nonempty h ls pending xs St H)) as Lc.
  destruct (find_clear_ok h pending (S fuel) count pending Local ls) as (front & back & bits' & A & Els & D); auto.
  { cbn [length] in Fu. rewrite <- Ln. lia. }
  rewrite A.
  cbn [length] in *.
  apply nodup_app in Nd as Nd'. destruct Nd' as (Nl & Nxx & Nlx).
  apply NoDup_cons_iff in Nxx. destruct Nxx as [Nx1 Nx2].
  destruct Hx as (-> & Lx & Zx & Hxs).
  (* after the optional merge *)
  assert (Mg : exists h1 p1 ls1,
    (if bits' =? 0 then Some (h, pending) else
       a <- pload h pending (loc_at h pending front Local) ;;
       b <- get_prev h a ;;
       m <- merge cmp (S fuel) h b a ;; let '(hm, am) := m in
       bp <- get_prev hm b ;; h0 <- set_prev hm am bp ;;
       pstore h0 pending (loc_at h pending front Local) am) = Some (h1, p1) /\
    stk h1 p1 ls1 /\ Forall sorted ls1 /\ eqv (flat ls) (flat ls1) /\ S (length ls1) = nbits (count + 1) /\
    live_same h h1 /\ (forall z, ~ In z (concat ls) -> nx h1 z = nx h z /\ pv h1 z = pv h z)).
  { destruct D as [(-> & -> & D)|(Nb & (la & lb & back' & ->) & D)].
    - cbn [Z.eqb]. exists h, pending, ls. split; auto. split; auto. split; auto. split; [apply eqv_refl|].
      split; [lia|]. split; [intros z; auto|auto].
    - destruct (Z.eqb_spec bits' 0); [contradiction|]. rewrite Els in St, Nl, Ln, Fs, Fu.
      rewrite concat_app in Fu. cbn [concat] in Fu. rewrite !app_length in Fu. 
      destruct (merge_step_ok (S fuel) h pending front la lb back') as (a & b & h1 & h2 & M1 & M2 & M3 & M4 & M5 & M6 & M7); auto; [lia|].
      eexists h2, _, _. rewrite M1, M2, M3. split; [exact M4|]. split; [exact M5|].
      apply Forall_app in Fs. destruct Fs as [F1 F2]. apply Forall_cons_iff in F2. destruct F2 as [F2 F3].
      apply Forall_cons_iff in F3. destruct F3 as [F3 F4].
      split; [apply Forall_app; split; auto; constructor; auto; apply merge_sorted; auto|].
      split.
      { rewrite Els, !flat_app, !flat_cons. rewrite <- !app_assoc. apply eqv_app; [apply eqv_refl|].
        rewrite app_assoc. apply eqv_app; [|apply eqv_refl]. apply eqv_merge; auto. }
      split; [rewrite D, <- Ln, !app_length; cbn [length]; lia|]. split; auto.
      intros z Hz. apply M7. rewrite <- Els. exact Hz. }
  destruct Mg as (h1 & p1 & ls1 & -> & M1 & M2 & M3 & M4 & M5 & M6).
  assert (P1 : Permutation (concat ls) (concat ls1)).
  { rewrite <- (flat_perm ls), <- (flat_perm ls1). apply M3. }
  assert (Ixl : forall z, In z (x :: xs) -> ~ In z (concat ls)) by (intros z Hz Hz'; eauto).
  assert (Nx1l : ~ In x (concat ls1)).
  { intros H. apply (Ixl x); [cbn; auto|]. eapply Permutation_in; [symmetry; exact P1|auto]. }
  rewrite set_prev_live by (rewrite M5; auto). rewrite get_next_live by (cbn [live]; rewrite M5; auto). cbn [nx].
  rewrite set_next_live by (cbn [live]; rewrite M5; auto). cbn [live nx pv].
  set (h2 := Lh (live h1) (set (nx h1) x 0) (set (pv h1) x p1)).
  assert (Lv : live_same h h2) by (intros z; apply M5).
  assert (E1 : nx h1 x = nx h x) by (apply M6, Ixl; cbn; auto). rewrite E1.
  assert (S2 : stk h2 x ([x] :: ls1)).
  { cbn [stk sll]. split; [discriminate|]. split.
    - cbn [live nx h2]. rewrite set_same, M5. auto.
    - cbn [pv h2]. rewrite set_same. apply (stk_ext h1); auto; [intros z; reflexivity|].
      intros z Hz. cbn [nx pv h2]. rewrite !set_other; auto; intros ->; contradiction. }
  assert (Hu : u64 (count + 1) = count + 1) by (unfold u64, wrap; apply Z.mod_small; lia). rewrite Hu.
  assert (Fs2 : Forall sorted ([x] :: ls1)) by (constructor; auto; repeat constructor).
  assert (Ev2 : eqv (flat ls ++ [x]) (flat ([x] :: ls1))).
  { rewrite flat_cons. apply eqv_app; [exact M3|apply eqv_refl]. }
  assert (Out : forall z, ~ In z (concat ls ++ x :: xs) -> nx h2 z = nx h z /\ pv h2 z = pv h z).
  { intros z Hz. rewrite in_app_iff in Hz. cbn [nx pv h2]. rewrite !set_other by (intros ->; cbn in Hz; tauto).
    apply M6. tauto. }
  destruct (Z.eqb_spec (nx h x) 0) as [E0|E0].
  - assert (xs = []) by (eapply sll_end; eauto). subst xs.
    exists h2, x, ([x] :: ls1). split; auto. split; auto.
  - assert (Hne : xs <> []) by (intros ->; cbn in Hxs; contradiction).
    assert (Hin : forall z, In z (concat ([x] :: ls1) ++ xs) <-> In z (concat ls ++ x :: xs)).
    { intros z. cbn [concat app In]. rewrite !in_app_iff. cbn.
      assert (In z (concat ls1) <-> In z (concat ls)); [|tauto].
      split; apply Permutation_in; [symmetry|]; exact P1. }
    destruct (IH fuel h2 (nx h x) x (count + 1) ([x] :: ls1)) as (h3 & p3 & ls3 & G1 & G2 & G3 & G4 & G5 & G6 & G7); auto.
    + apply (sll_ext h); auto. intros z Hz. cbn [nx h2]. rewrite set_other by (intros ->; contradiction).
      apply M6, Ixl. cbn; auto.
    + cbn [concat app]. eapply Permutation_NoDup; [|exact Nd].
      rewrite <- Permutation_middle. constructor. apply Permutation_app_tail. exact P1.
    + lia.
    + lia.
    + cbn [concat app length]. rewrite <- (Permutation_length P1). lia.
    + exists h3, p3, ls3. split; auto. split; auto. split; auto. split.
      { eapply eqv_trans; [|exact G4]. change (x :: xs) with ([x] ++ xs). rewrite app_assoc.
        apply eqv_app; [exact Ev2|apply eqv_refl]. }
      split; [rewrite G5; f_equal; lia|]. split; [intros z; rewrite G6; apply Lv|].
      intros z Hz. destruct (G7 z) as [G8 G9]; [rewrite Hin; auto|]. rewrite G8, G9. apply Out. exact Hz.
Qed.

Lemma collect_ok ls : forall fuel h lst pending xs,
  sll h lst xs -> xs <> [] -> stk h pending ls -> ls <> [] -> NoDup (concat ls ++ xs) ->
  sorted xs -> Forall sorted ls -> (length (concat ls) + length xs + length ls <= fuel)%nat ->
  exists h' l' p' ys zs, collect cmp fuel h lst pending = Some (h', l', p') /\
    sll h' l' ys /\ sll h' p' zs /\ ys <> [] /\ zs <> [] /\ sorted ys /\ sorted zs /\
    eqv (flat ls ++ xs) (zs ++ ys) /\
    live_same h h' /\ (forall z, ~ In z (concat ls ++ xs) -> nx h' z = nx h z /\ pv h' z = pv h z).
Proof.
  induction ls as [|la ls IH]; intros fuel h lst pending xs Hx Nx St Nl Nd Sx Sl Fu; [contradiction|].
  destruct fuel as [|fuel]; [cbn [length] in Fu; lia|]. cbn [collect].
  pose proof (stk_hd_in _ _ _ _ St) as Ip. destruct St as (S1 & S2 & S3).
  rewrite get_prev_live by (eapply sll_live; eauto). apply Forall_cons_iff in Sl. destruct Sl as [Sa Sl].
  destruct (Z.eqb_spec (pv h pending) 0) as [E0|E0].
  - assert (ls = []).
    { destruct ls as [|lb ls]; auto. destruct S3 as (N3 & S3 & _). rewrite E0 in S3. apply sll_end in S3; auto. contradiction. }
    subst ls. exists h, lst, pending, xs, la. split; auto. repeat (split; auto).
    + cbn [flat rev concat app]. rewrite app_nil_r. reflexivity.
    + intros k. cbn [flat rev concat app]. rewrite app_nil_r. reflexivity.
  - assert (Hne : ls <> []) by (intros ->; cbn in S3; contradiction).
    cbn [concat length] in *. rewrite app_length in Fu.
    assert (Nd' : NoDup (la ++ xs) /\ (forall z, In z (concat ls) -> ~ In z (la ++ xs)) /\ NoDup (concat ls)).
    { rewrite <- app_assoc in Nd. apply nodup_app in Nd. destruct Nd as (D1 & D2 & D3).
      apply nodup_app in D2. destruct D2 as (D2 & D4 & D5). split; [|split; auto].
      - apply nodup_app. repeat split; auto. intros z Hz Hz'. apply (D3 z); auto. apply in_app_iff; auto.
      - intros z Hz Hz'. apply in_app_iff in Hz'. destruct Hz'; eauto. apply (D3 z); auto. apply in_app_iff; auto. }
    destruct Nd' as (Na & Nb & Nc).
    destruct (merge_ok (S fuel) h pending lst la xs) as (h1 & M1 & M2 & M3 & M4 & M5); auto; [lia|].
    rewrite M1. assert (Pm := merge_perm la xs).
    destruct (IH fuel h1 (hd 0 (merge_l la xs)) (pv h pending) (merge_l la xs)) as (h' & l' & p' & ys & zs & G1 & G2 & G3 & G4 & G5 & G6 & G7 & G8 & G9 & G10); auto.
    + intros E. rewrite E in Pm. apply Permutation_sym, Permutation_nil in Pm. apply app_eq_nil in Pm. tauto.
    + apply (stk_ext h); auto.
    + apply nodup_app. split; auto. split; [eapply Permutation_NoDup; eauto|].
      intros z Hz Hz'. apply (Nb z Hz). eapply Permutation_in; [symmetry; exact Pm|exact Hz'].
    + apply merge_sorted; auto.
    + rewrite <- (Permutation_length Pm), app_length. lia.
    + exists h', l', p', ys, zs. split; auto. repeat (split; [assumption|]). split; [|split].
      * eapply eqv_trans; [|exact G8]. rewrite flat_cons, <- app_assoc. apply eqv_app; [apply eqv_refl|apply eqv_merge; auto].
      * intros z. rewrite G9. apply M3.
      * intros z Hz. rewrite !in_app_iff in Hz. destruct (G10 z) as [E1 E2].
        { rewrite in_app_iff, merge_in. tauto. }
        rewrite E1, E2, M4, M5; [auto|]. rewrite in_app_iff. tauto.
Qed.

(** ** The last merge *)

(** Linked in both directions, starting behind [a]. *)
Fixpoint half (h : lheap) (a : Z) (xs : list Z) : Prop :=
  match xs with [] => True | x :: xs => nx h a = x /\ pv h x = a /\ half h x xs end.
Lemma half_path h a xs b : half h a xs -> nx h (lst a xs) = b -> pv h b = lst a xs -> path h a xs b.
Proof.
  revert a. induction xs as [|x xs IH]; intros a H E1 E2; cbn [half path lst] in *; auto.
  destruct H as (H1 & H2 & H3). auto.
Qed.
Lemma half_app h a xs ys : half h a (xs ++ ys) <-> half h a xs /\ half h (lst a xs) ys.
Proof. revert a. induction xs as [|x xs IH]; intros a; cbn [half app lst]; [tauto|]. rewrite IH. tauto. Qed.
Lemma half_ext h h' a xs : half h a xs -> NoDup (a :: xs) ->
  (forall z, In z (a :: xs) -> z <> lst a xs -> nx h' z = nx h z) ->
  (forall z, In z xs -> pv h' z = pv h z) -> half h' a xs.
Proof.
  revert a. induction xs as [|x xs IH]; intros a H D N P; cbn [half lst] in *; auto.
  destruct H as (H1 & H2 & H3). apply NoDup_cons_iff in D. destruct D as [D1 D2].
  rewrite N, P; [|cbn; auto|cbn; auto|].
  - split; auto. split; auto. apply IH; auto; intros; [apply N|apply P]; cbn; auto.
  - intros E. apply D1. rewrite E. apply lst_in.
Qed.

Lemma mf_loop_ok fuel : forall h t a b xs ys,
  sll h a xs -> sll h b ys -> xs <> [] -> ys <> [] -> NoDup (t :: xs ++ ys) -> live h t = true ->
  (length xs + length ys <= fuel)%nat ->
  exists h' t' r pre rest, mf_loop cmp fuel h t a b = Some (h', t', r) /\
    merge_l xs ys = pre ++ rest /\ rest <> [] /\ half h' t pre /\ t' = lst t pre /\ live h' t' = true /\
    sll h' r rest /\ live_same h h' /\
    (forall z, ~ In z (t :: xs ++ ys) -> nx h' z = nx h z) /\ (forall z, ~ In z (xs ++ ys) -> pv h' z = pv h z).
Proof.
  induction fuel as [|fuel IH]; intros h t a b xs ys Ha Hb Nx Ny Nd Lt Fu.
  { destruct xs; [contradiction|]. cbn [length] in Fu. lia. }
  destruct xs as [|x xs]; [contradiction|]. destruct ys as [|y ys]; [contradiction|].
  pose proof Ha as Ha'. pose proof Hb as Hb'. cbn [sll] in Ha', Hb'.
  destruct Ha' as (-> & Lx & Zx & Hxs), Hb' as (-> & Ly & Zy & Hys).
  apply NoDup_cons_iff in Nd. destruct Nd as [Nt Nd].
  assert (Dxy : forall z, In z (x :: xs) -> In z (y :: ys) -> False) by (apply nodup_app in Nd; tauto).
  assert (Htx : t <> x) by (intros ->; apply Nt; cbn; auto).
  assert (Hty : t <> y) by (intros ->; apply Nt; apply in_app_iff; cbn; auto).
  cbn [mf_loop]. rewrite merge_cons. destruct (Z.leb_spec (cmp x y) 0) as [C|C].
  - rewrite set_next_live by auto. rewrite set_prev_live by auto. rewrite get_next_live by auto. cbn [live nx pv].
    set (h1 := Lh (live h) (set (nx h) t x) (set (pv h) x t)). rewrite set_other by auto.
    assert (N1 : forall z, In z ((x :: xs) ++ y :: ys) -> nx h1 z = nx h z).
    { intros z Hz. cbn [nx h1]. apply set_other. intros ->. auto. }
    destruct (Z.eqb_spec (nx h x) 0) as [E0|E0].
    + assert (xs = []) by (eapply sll_end; eauto). subst xs. cbn [merge_l].
      exists h1, x, y, [x], (y :: ys). split; auto. split; auto. split; [discriminate|].
      split; [cbn [half nx pv h1]; rewrite !set_same; auto|]. split; auto. split; auto.
      split; [apply (sll_ext h); auto; intros; apply N1, in_app_iff; auto|]. split; [intros z; auto|].
      split; intros z Hz; cbn [nx pv h1]; apply set_other; intros ->; apply Hz; cbn; auto.
    + assert (Hne : xs <> []) by (intros ->; cbn in Hxs; contradiction).
      cbn [app] in Nd. apply NoDup_cons_iff in Nd as Nd'.
      destruct (IH h1 x (nx h x) y xs (y :: ys)) as (h2 & t2 & r & pre & rest & G1 & G2 & G3 & G4 & G5 & G6 & G7 & G8 & G9 & G10); auto.
      * apply (sll_ext h); auto. intros; apply N1. cbn. rewrite in_app_iff; auto.
      * apply (sll_ext h); auto. intros; apply N1. apply in_app_iff; auto.
      * cbn [length] in *. lia.
      * exists h2, t2, r, (x :: pre), rest. split; auto. split; [cbn [app]; f_equal; auto|]. split; auto.
        split. { cbn [half]. rewrite G9, G10; [|tauto|]. - cbn [nx pv h1]. rewrite !set_same. auto.
                 - intros H. apply Nt. cbn in *. tauto. }
        split; auto. split; auto. split; auto. split; [intros z; rewrite G8; reflexivity|]. split.
        -- intros z Hz. cbn in Hz. rewrite G9 by (cbn; tauto). cbn [nx h1]. apply set_other. intros ->; tauto.
        -- intros z Hz. cbn in Hz. rewrite G10 by (cbn; tauto). cbn [pv h1]. apply set_other. intros ->; tauto.
  - rewrite set_next_live by auto. rewrite set_prev_live by auto. rewrite get_next_live by auto. cbn [live nx pv].
    set (h1 := Lh (live h) (set (nx h) t y) (set (pv h) y t)). rewrite set_other by auto.
    assert (N1 : forall z, In z ((x :: xs) ++ y :: ys) -> nx h1 z = nx h z).
    { intros z Hz. cbn [nx h1]. apply set_other. intros ->. auto. }
    destruct (Z.eqb_spec (nx h y) 0) as [E0|E0].
    + assert (ys = []) by (eapply sll_end; eauto). subst ys. rewrite merge_nil.
      exists h1, y, x, [y], (x :: xs). split; auto. split; auto. split; [discriminate|].
      split; [cbn [half nx pv h1]; rewrite !set_same; auto|]. split; auto. split; auto.
      split; [apply (sll_ext h); auto; intros; apply N1, in_app_iff; auto|]. split; [intros z; auto|].
      split; intros z Hz; cbn [nx pv h1]; apply set_other; intros ->; apply Hz.
      * cbn; auto.
      * apply in_app_iff; cbn; auto.
    + assert (Hne : ys <> []) by (intros ->; cbn in Hys; contradiction).
      apply nodup_mid in Nd as Nd'. destruct Nd' as [Nd1 Nd2]. rewrite in_mid in Nt.
      destruct (IH h1 y x (nx h y) (x :: xs) ys) as (h2 & t2 & r & pre & rest & G1 & G2 & G3 & G4 & G5 & G6 & G7 & G8 & G9 & G10); auto.
      * apply (sll_ext h); auto. intros; apply N1. apply in_app_iff; auto.
      * apply (sll_ext h); auto. intros; apply N1. apply in_app_iff; cbn; auto.
      * apply NoDup_cons_iff. auto.
      * cbn [length] in *. lia.
      * exists h2, t2, r, (y :: pre), rest. split; auto. split; [cbn [app]; f_equal; auto|]. split; auto.
        split. { cbn [half]. rewrite G9, G10; [|tauto|].
                 - cbn [nx pv h1]. rewrite !set_same. auto.
                 - intros [H|H]; [apply Hty; auto|apply Nt; auto]. }
        split; auto. split; auto. split; auto. split; [intros z; rewrite G8; reflexivity|]. split.
        -- intros z Hz. cbn [In] in Hz. rewrite in_mid in Hz. rewrite G9.
           ++ cbn [nx h1]. apply set_other. intros ->; tauto.
           ++ intros [<-|H]; tauto.
        -- intros z Hz. rewrite in_mid in Hz. rewrite G10 by tauto. cbn [pv h1]. apply set_other. intros ->; tauto.
Qed.

Lemma mf_rest_ok fuel : forall h t b xs, sll h b xs -> xs <> [] -> nx h t = b -> NoDup (t :: xs) ->
  (length xs <= fuel)%nat ->
  exists h', mf_rest fuel h t b = Some (h', lst t xs) /\ half h' t xs /\ live_same h h' /\
    (forall z, nx h' z = nx h z) /\ (forall z, ~ In z xs -> pv h' z = pv h z).
Proof.
  induction fuel as [|fuel IH]; intros h t b xs Hb Nx E Nd Fu.
  { destruct xs; [contradiction|]. cbn [length] in Fu. lia. }
  destruct xs as [|x xs]; [contradiction|]. destruct Hb as (-> & Lx & Zx & Hxs). cbn [mf_rest].
  rewrite set_prev_live by auto. rewrite get_next_live by auto. cbn [nx].
  set (h1 := Lh (live h) (nx h) (set (pv h) x t)).
  apply NoDup_cons_iff in Nd. destruct Nd as [Nt Nd]. apply NoDup_cons_iff in Nd as Nd'.
  destruct (Z.eqb_spec (nx h x) 0) as [E0|E0].
  - assert (xs = []) by (eapply sll_end; eauto). subst xs. exists h1. cbn [lst half].
    repeat split; auto.
    + cbn [pv h1]. apply set_same.
    + intros z Hz. cbn [pv h1]. apply set_other. intros ->. apply Hz. cbn; auto.
  - assert (Hne : xs <> []) by (intros ->; cbn in Hxs; contradiction).
    destruct (IH h1 x (nx h x) xs) as (h2 & G1 & G2 & G3 & G4 & G5); auto.
    + apply (sll_ext h); auto.
    + cbn [length] in Fu. lia.
    + exists h2. cbn [lst half]. rewrite G4, (G5 x) by tauto. cbn [nx pv h1]. rewrite set_same.
      repeat split; auto. intros z Hz. cbn in Hz. rewrite G5 by tauto. cbn [pv h1]. apply set_other. intros ->; tauto.
Qed.

Lemma merge_final_ok fuel h head a b xs ys :
  sll h a xs -> sll h b ys -> xs <> [] -> ys <> [] -> NoDup (head :: xs ++ ys) ->
  live h head = true -> head <> 0 -> (length xs + length ys <= fuel)%nat ->
  exists h', merge_final cmp fuel h head a b = Some h' /\ ring h' head (merge_l xs ys) /\
    live_same h h' /\ (forall z, ~ In z (head :: xs ++ ys) -> nx h' z = nx h z /\ pv h' z = pv h z).
Proof.
  intros Ha Hb Nx Ny Nd Lh Zh Fu. unfold merge_final. pose proof (merge_perm xs ys) as Pm.
  assert (Ndm : NoDup (head :: merge_l xs ys)).
  { eapply Permutation_NoDup; [|exact Nd]. constructor. exact Pm. }
  assert (Lv : forall z, In z (merge_l xs ys) -> live h z = true /\ z <> 0).
  { intros z Hz. apply merge_in in Hz. destruct Hz as [Hz|Hz]; [apply (sll_live h a xs)|apply (sll_live h b ys)]; auto. }
  destruct (mf_loop_ok fuel h head a b xs ys) as (h1 & t & r & pre & rest & -> & E & Nr & H1 & -> & Lt & Hr & L1 & N1 & P1); auto.
  rewrite set_next_live by auto. cbn [live nx pv].
  set (h2 := ListModel.Lh (live h1) (set (nx h1) (lst head pre) r) (pv h1)).
  rewrite E in Ndm. apply (nodup_app (head :: pre) rest) in Ndm as Nd2. destruct Nd2 as (D1 & D2 & D3).
  assert (Itr : ~ In (lst head pre) rest) by (intros H; apply (D3 _ (lst_in head pre) H)).
  destruct (mf_rest_ok fuel h2 (lst head pre) r rest) as (h3 & -> & H3 & L3 & N3 & P3); auto.
  { apply (sll_ext h1); auto. intros z Hz. cbn [nx h2]. apply set_other. intros ->. auto. }
  { cbn [nx h2]. apply set_same. }
  { apply NoDup_cons_iff. auto. }
  { assert (length (merge_l xs ys) = (length xs + length ys)%nat) by (rewrite <- (Permutation_length Pm), app_length; auto).
    rewrite E, app_length in H. lia. }
  set (t := lst (lst head pre) rest).
  assert (Et : t = lst head (pre ++ rest)).
  { subst t. destruct rest; [contradiction|]. rewrite lst_app. reflexivity. }
  assert (It : In t rest). { subst t. destruct rest as [|r0 rest]; [contradiction|]. cbn [lst]. apply lst_in. }
  assert (Ls : forall z, live h3 z = live h z) by (intros z; rewrite L3; apply L1).
  assert (Lt3 : live h3 t = true).
  { rewrite Ls. apply Lv. rewrite E, in_app_iff. auto. }
  assert (Lh3 : live h3 head = true) by (rewrite Ls; auto).
  rewrite set_next_live by auto. rewrite set_prev_live by auto. cbn [live nx pv].
  set (h4 := ListModel.Lh _ _ _). eexists. split; [reflexivity|].
  assert (Hp : half h3 head (pre ++ rest)).
  { apply half_app. split; auto. apply (half_ext h1); auto.
    - intros z Hz Hd. rewrite N3. cbn [nx h2]. apply set_other; auto.
    - intros z Hz. rewrite P3; auto. intros H. apply (D3 z); cbn; auto. }
  assert (Nh : ~ In head (pre ++ rest)) by (apply NoDup_cons_iff in Ndm; tauto).
  split; [split; [|split]|split].
  - rewrite E. apply half_path.
    + apply (half_ext h3); auto; cbn [nx pv h4].
      * intros z Hz Hd. apply set_other. rewrite <- Et in Hd. exact Hd.
      * intros z Hz. apply set_other. intros ->. auto.
    + rewrite <- Et. cbn [nx h4]. apply set_same.
    + rewrite <- Et. cbn [pv h4]. apply set_same.
  - rewrite E. exact Ndm.
  - constructor; [split; auto|]. apply Forall_forall. intros z Hz. cbn [live h4]. rewrite Ls. auto.
  - intros z. cbn [live h4]. apply Ls.
  - intros z Hz. assert (Hm : ~ In z (head :: merge_l xs ys)).
    { intros H. apply Hz. cbn in *. rewrite in_app_iff. rewrite merge_in in H. tauto. }
    rewrite E in Hm. assert (z <> head /\ ~ In z (xs ++ ys)) as [Z1 Z2] by (split; intros H; apply Hz; cbn; auto).
    cbn [nx pv h4]. rewrite set_other by (intros ->; apply Hm; right; apply in_app_iff; auto).
    rewrite set_other by auto. rewrite N3, P3 by (intros H; apply Hm; right; apply in_app_iff; auto).
    cbn [nx pv h2]. rewrite set_other by (intros ->; apply Hm; pose proof (lst_in head pre) as X; cbn in *; rewrite in_app_iff; tauto).
    rewrite N1, P1; auto.
Qed.

Lemma path_sll h a xs head : path h a xs head -> xs <> [] -> NoDup (a :: xs) ->
  Forall (fun x => live h x = true /\ x <> 0) xs ->
  forall h', live_same h h' -> (forall z, In z xs -> z <> lst a xs -> nx h' z = nx h z) -> nx h' (lst a xs) = 0 ->
  sll h' (hd 0 xs) xs.
Proof.
  revert a. induction xs as [|x xs IH]; intros a P N Nd F h' L E Z; [contradiction|].
  cbn [hd sll path lst] in *. destruct P as (_ & _ & P). apply Forall_cons_iff in F. destruct F as [[F1 F2] F].
  rewrite L. repeat split; auto. apply NoDup_cons_iff in Nd. destruct Nd as [_ Nd].
  destruct xs as [|y xs]; [cbn in *; auto|].
  assert (X : nx h' x = y).
  { rewrite E; [cbn [path] in P; tauto|cbn; auto|]. intros H. apply NoDup_cons_iff in Nd. apply (proj1 Nd). rewrite H. cbn [lst]. apply lst_in. }
  rewrite X. change y with (hd 0 (y :: xs)) at 1. apply (IH x); auto; [discriminate|].
  intros z Hz. apply E. cbn in *; auto.
Qed.

Lemma nbits_ge2 n : 2 <= n -> (2 <= nbits n)%nat.
Proof.
  intros H. unfold nbits. destruct (Z.eqb_spec n 0); [lia|].
  assert (1 <= Z.log2 n). { change 1 with (Z.log2 2). apply Z.log2_le_mono. lia. } lia.
Qed.

Lemma list_sort_ok h head l fuel : ring h head l -> Z.of_nat (length l) < 2 ^ 64 -> (3 * length l < fuel)%nat ->
  exists h' l', list_sort cmp fuel h head = Some h' /\ ring h' head l' /\ stable_sort_of cmp l l' /\
    only_changes h h' (head :: l).
Proof.
  intros R Lb Fu. pose proof R as (P & N & F). apply Forall_cons_iff in F. destruct F as [[Lh Zh] F].
  unfold list_sort. rewrite get_next_live, get_prev_live by auto.
  rewrite (path_first _ _ _ _ P), (path_last _ _ _ _ P).
  apply NoDup_cons_iff in N as N'. destruct N' as [Nh Nl].
  destruct l as [|x [|y l]].
  - cbn [hd lst]. rewrite Z.eqb_refl. exists h, []. split; auto. split; auto.
    split; [|split; auto]. split; [constructor|]. split; [constructor|auto].
  - cbn [hd lst]. rewrite Z.eqb_refl. exists h, [x]. split; auto. split; auto.
    split; [|split; auto]. split; [repeat constructor|]. split; [repeat constructor|auto].
  - set (xs := x :: y :: l) in *. cbn [hd]. 
    assert (Ix : In (lst head xs) xs) by (cbn [lst xs]; right; apply lst_in).
    destruct (Z.eqb_spec (hd head xs) (lst head xs)) as [E|_].
    { exfalso. cbn [hd lst xs] in E. apply NoDup_cons_iff in Nl. apply (proj1 Nl). rewrite E. apply lst_in. }
    assert (Lx : live h (lst head xs) = true) by (rewrite Forall_forall in F; apply F; auto).
    rewrite set_next_live by auto. set (h1 := ListModel.Lh _ _ _).
    assert (S1 : sll h1 (hd 0 xs) xs).
    { apply (path_sll h head xs head); auto; [discriminate|intros z; auto| |].
      - intros z Hz Hd. cbn [nx h1]. apply set_other. auto.
      - cbn [nx h1]. apply set_same. }
    change (hd head xs) with (hd 0 xs).
    destruct (sort_loop_ok xs fuel h1 (hd 0 xs) 0 0 []) as (h2 & p & ls & -> & G1 & G2 & G3 & G4 & G5 & G6); auto.
    all: try discriminate; try reflexivity; try (cbn [concat length]; lia).
    cbn [app flat rev concat] in G3, G6. cbn [app] in *.
    assert (Ll : (2 <= length ls)%nat).
    { rewrite G4. apply nbits_ge2. cbn [length xs]. lia. }
    destruct ls as [|la ls]; [cbn in Ll; lia|]. destruct ls as [|lb ls]; [cbn in Ll; lia|].
    pose proof (stk_hd_in _ _ _ _ G1) as Ip. destruct G1 as (Na & Sa & Sr).
    rewrite get_prev_live by (eapply sll_live; eauto).
    apply Forall_cons_iff in G2. destruct G2 as [Oa Or].
    rewrite flat_cons in G3.
    assert (Pc : Permutation xs (concat (lb :: ls) ++ la)).
    { rewrite <- flat_perm. apply G3. }
    assert (Hlen : (length (concat (lb :: ls)) + length la = length xs)%nat).
    { rewrite <- app_length. symmetry. apply Permutation_length. exact Pc. }
    assert (Hl2 : (length (lb :: ls) <= length (concat (lb :: ls)))%nat).
    { apply concat_len. intros zs Hz. eapply stk_nonempty; eauto. }
    destruct (collect_ok (lb :: ls) fuel h2 p (pv h2 p) la) as (h3 & l3 & p3 & ys & zs & -> & K1 & K2 & K3 & K4 & K5 & K6 & K7 & K8 & K9); auto.
    { discriminate. } { eapply Permutation_NoDup; [exact Pc|exact Nl]. } { lia. }
    assert (Ev : eqv xs (zs ++ ys)) by (eapply eqv_trans; eauto).
    assert (Pz : Permutation xs (zs ++ ys)) by apply Ev.
    assert (Lh3 : live h3 head = true) by (rewrite K8, G5; auto).
    destruct (merge_final_ok fuel h3 head p3 l3 zs ys) as (h4 & Q1 & Q2 & Q3 & Q4); auto.
    { eapply Permutation_NoDup; [|exact N]. constructor. exact Pz. }
    { rewrite <- app_length. rewrite <- (Permutation_length Pz). lia. }
    exists h4, (merge_l zs ys). split; auto. split; auto. split.
    + assert (E2 : eqv xs (merge_l zs ys)) by (eapply eqv_trans; [exact Ev|apply eqv_merge; auto]).
      split; [apply E2|]. split; [apply merge_sorted; auto|apply E2].
    + split; [intros z; rewrite Q3, K8, G5; reflexivity|].
      intros z Hz. cbn [In] in Hz.
      destruct (Q4 z) as [-> ->].
      { intros [H|H]; [tauto|]. apply Hz. right. eapply Permutation_in; [symmetry; exact Pz|exact H]. }
      destruct (K9 z) as [-> ->]. { intros H. apply Hz. right. eapply Permutation_in; [symmetry; exact Pc|exact H]. }
      destruct (G6 z) as [-> ->]; [tauto|]. cbn [nx pv h1]. split; auto. apply set_other. intros ->. tauto.
Qed.
End S.
