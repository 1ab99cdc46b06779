From Coq Require Import ZArith String List Bool Lia.
From Verif Require Import Word WordLemmas Str.
From Verif Require TextModel MiscModel.
From Verif Require Import ArModel ArSpec.
Import ListNotations.
Open Scope Z_scope.

(** ** Long options *)

Lemma upto_eq_none n : ~ In 61 n -> upto_eq n = (n, None).
Proof.
  induction n as [|c n IH]; intros H; [reflexivity|]. cbn. destruct (Z.eqb_spec c 61) as [->|E].
  - exfalso. apply H. left. reflexivity.
  - rewrite IH by (intros X; apply H; right; exact X). reflexivity.
Qed.
Lemma upto_eq_some n v : ~ In 61 n -> upto_eq (n ++ 61 :: v) = (n, Some v).
Proof.
  induction n as [|c n IH]; intros H; [reflexivity|]. cbn. destruct (Z.eqb_spec c 61) as [->|E].
  - exfalso. apply H. left. reflexivity.
  - rewrite IH by (intros X; apply H; right; exact X). reflexivity.
Qed.
Lemma upto_eq_inv s : ~ In 61 (fst (upto_eq s)) /\ s = fst (upto_eq s) ++ match snd (upto_eq s) with None => [] | Some v => 61 :: v end.
Proof.
  induction s as [|c s [IH1 IH2]]; [split; [intros []|reflexivity]|]. cbn. destruct (Z.eqb_spec c 61) as [->|E].
  - cbn. split; [intros []|reflexivity].
  - destruct (upto_eq s) as [n v]. cbn in *. split.
    + intros [X|X]; [congruence|auto].
    + rewrite IH2 at 1. reflexivity.
Qed.

Lemma NoDup_map_inj {A B} (f : A -> B) l x y : NoDup (map f l) -> In x l -> In y l -> f x = f y -> x = y.
Proof.
  induction l as [|z l IH]; intros N X Y E; [destruct X|]. cbn in N. inversion N as [|? ? N1 N2]; subst.
  destruct X as [->|X], Y as [->|Y]; auto.
  - exfalso. apply N1. rewrite E. apply in_map, Y.
  - exfalso. apply N1. rewrite <- E. apply in_map, X.
Qed.
Lemma begins_prefixb n s : begins n s <-> prefixb n s = true.
Proof. symmetry. apply prefixb_iff. Qed.

(** What find_long finds, up to argument and value. *)
Lemma find_long_names tab n o : distinct_long tab -> names tab n o ->
  exists o', find_long tab n = Some o' /\ l_arg o' = l_arg o /\ l_val o' = l_val o.
Proof.
  intros D (N & I & [E|(X & B & A)]); unfold find_long.
  - destruct (find (fun o => str_eqb (l_name o) n) tab) as [o'|] eqn:F.
    + apply find_some in F. destruct F as [F1 F2]. apply str_eqb_eq in F2. exists o'. split; auto.
      assert (o' = o) by (eapply (NoDup_map_inj l_name); eauto; congruence). subst. auto.
    + exfalso. pose proof (find_none _ _ F _ I) as G. cbn in G. rewrite E, str_eqb_refl in G. discriminate.
  - destruct (find (fun o => str_eqb (l_name o) n) tab) as [o'|] eqn:F.
    + exfalso. apply find_some in F. destruct F as [F1 F2]. apply str_eqb_eq in F2. exact (X _ F1 F2).
    + destruct (filter (fun o => prefixb n (l_name o)) tab) as [|o' r] eqn:G.
      * exfalso. assert (In o []) by (rewrite <- G; apply filter_In; split; auto; apply begins_prefixb, B). auto.
      * assert (K : forall x, In x (o' :: r) -> l_arg x = l_arg o /\ l_val x = l_val o).
        { intros x Hx. rewrite <- G in Hx. apply filter_In in Hx. destruct Hx as [H1 H2]. apply A; auto. apply begins_prefixb, H2. }
        destruct (K o' (or_introl eq_refl)) as [K1 K2].
        replace (forallb _ r) with true.
        { exists o'. auto. }
        symmetry. apply forallb_forall. intros x Hx. destruct (K x (or_intror Hx)) as [K3 K4].
        rewrite K1, K2, K3, K4, Z.eqb_refl, Bool.eqb_reflx. reflexivity.
Qed.
Lemma find_long_some tab n o : ~ In 61 n -> find_long tab n = Some o -> names tab n o.
Proof.
  intros N H. unfold find_long in H. split; auto.
  destruct (find (fun o => str_eqb (l_name o) n) tab) as [o'|] eqn:F.
  - injection H as ->. apply find_some in F. destruct F as [F1 F2]. apply str_eqb_eq in F2. auto.
  - destruct (filter (fun o => prefixb n (l_name o)) tab) as [|o' r] eqn:G; [discriminate|].
    destruct (forallb _ r) eqn:A; [|discriminate]. injection H as ->.
    assert (I : In o (filter (fun o => prefixb n (l_name o)) tab)) by (rewrite G; left; reflexivity).
    apply filter_In in I. destruct I as [I1 I2]. split; auto. right. split; [|split].
    + intros o' H E. pose proof (find_none _ _ F _ H) as K. cbn in K. rewrite E, str_eqb_refl in K. discriminate.
    + apply begins_prefixb, I2.
    + intros o' H B. assert (K : In o' (o :: r)) by (rewrite <- G; apply filter_In; split; auto; apply begins_prefixb, B).
      destruct K as [->|K]; auto. rewrite forallb_forall in A. specialize (A _ K). apply andb_true_iff in A.
      destruct A as [A1 A2]. apply eqb_prop in A1. apply Z.eqb_eq in A2. auto.
Qed.

(** ** Short options *)

Lemma find_short stab k c : distinct_short stab -> is_short stab k c -> find (fun o => s_char o =? c) stab = Some (So c k).
Proof.
  intros D H. destruct (find (fun o => s_char o =? c) stab) as [o|] eqn:F.
  - apply find_some in F. destruct F as [F1 F2]. apply Z.eqb_eq in F2. f_equal.
    apply (NoDup_map_inj s_char stab); auto.
  - exfalso. pose proof (find_none _ _ F _ H) as G. cbn in G. rewrite Z.eqb_refl in G. discriminate.
Qed.
Lemma find_short_some stab c o : find (fun o => s_char o =? c) stab = Some o -> is_short stab (s_arg o) c.
Proof.
  intros F. apply find_some in F. destruct F as [F1 F2]. apply Z.eqb_eq in F2. unfold is_short. destruct o as [x k]. cbn in *. subst. exact F1.
Qed.

Lemma cluster_flags stab fs tl : distinct_short stab -> Forall (is_short stab NoArg) fs ->
  cluster stab (fs ++ tl) = (map flag fs ++ fst (cluster stab tl), snd (cluster stab tl)).
Proof.
  intros D. induction fs as [|c fs IH]; intros F; cbn [app map]; [destruct (cluster stab tl); reflexivity|].
  inversion F as [|? ? F1 F2]; subst. cbn [cluster]. rewrite (find_short _ _ _ D F1). cbn [s_arg]. rewrite (IH F2). reflexivity.
Qed.
Lemma cluster_required stab c v : distinct_short stab -> is_short stab Required c ->
  cluster stab (c :: v) = match v with [] => ([], Some c) | _ => ([Opt c (Some v)], None) end.
Proof. intros D H. cbn [cluster]. rewrite (find_short _ _ _ D H). reflexivity. Qed.
Lemma cluster_optional stab c v : distinct_short stab -> is_short stab Optional c ->
  cluster stab (c :: v) = ([Opt c (match v with [] => None | _ => Some v end)], None).
Proof. intros D H. cbn [cluster]. rewrite (find_short _ _ _ D H). reflexivity. Qed.

(** The ways a cluster can be read. *)
Lemma cluster_inv stab cs : exists fs tl, cs = fs ++ tl /\ Forall (is_short stab NoArg) fs /\
  ((tl = [] /\ cluster stab cs = (map flag fs, None)) \/
   (exists c, tl = [c] /\ is_short stab Required c /\ cluster stab cs = (map flag fs, Some c)) \/
   (exists c v, tl = c :: v /\ v <> [] /\ is_short stab Required c /\ cluster stab cs = (map flag fs ++ [Opt c (Some v)], None)) \/
   (exists c v, tl = c :: v /\ is_short stab Optional c /\ cluster stab cs = (map flag fs ++ [Opt c (match v with [] => None | _ => Some v end)], None)) \/
   (In Unknown (fst (cluster stab cs)))).
Proof.
  induction cs as [|c cs IH].
  - exists [], []. repeat split; auto.
  - cbn [cluster]. destruct (find (fun o => s_char o =? c) stab) as [o|] eqn:F.
    + apply find_short_some in F. destruct (s_arg o) eqn:A.
      * destruct IH as (fs & tl & -> & G & H). exists (c :: fs), tl. split; [reflexivity|]. split; [constructor; auto|].
        destruct (cluster stab (fs ++ tl)) as [es p].
        destruct H as [(-> & E)|[(d & -> & K & E)|[(d & v & -> & V & K & E)|[(d & v & -> & K & E)|E]]]].
        -- left. injection E as -> ->. auto.
        -- right; left. exists d. injection E as -> ->. auto.
        -- right; right; left. exists d, v. injection E as -> ->. auto.
        -- right; right; right; left. exists d, v. split; [reflexivity|]. split; [exact K|]. apply pair_equal_spec in E. destruct E as [-> ->]. reflexivity.
        -- right; right; right; right. cbn in *. auto.
      * exists [], (c :: cs). split; [reflexivity|]. split; [constructor|]. destruct cs as [|d cs].
        -- right; left. exists c. auto.
        -- right; right; left. exists c, (d :: cs). repeat split; auto. discriminate.
      * exists [], (c :: cs). split; [reflexivity|]. split; [constructor|]. right; right; right; left. exists c, cs. auto.
    + exists [], (c :: cs). split; [reflexivity|]. split; [constructor|]. right; right; right; right. left. reflexivity.
Qed.

(** ** The whole line *)

Lemma scan_says tab stab ws es : distinct_long tab -> distinct_short stab -> says tab stab ws es -> scan tab stab ws = es.
Proof.
  intros D DS H. unfold dash in *. induction H as [|ws|w ws es W H IH|n o ws es N0 N A H IH|n o v ws es N A H IH|n o v ws es N0 N A H IH
                               |fs ws es F0 F1 F H IH|fs c v ws es F1 F R V H IH|fs c v ws es F1 F R H IH|fs c v ws es F1 F R H IH].
  - reflexivity.
  - reflexivity.
  - destruct W as [->|[->|(c & r & -> & C)]]; cbn [scan]; auto. destruct r as [|c2 r]; auto.
    destruct (Z.eqb_spec c 45); [contradiction|auto].
  - destruct (find_long_names _ _ _ D N) as (o' & E1 & E2 & E3). destruct N as (N & _).
    cbn [app scan]. destruct n as [|x n]; [contradiction|]. unfold dash in *; rewrite ?Z.eqb_refl. rewrite (upto_eq_none _ N), E1, E2, E3, A, IH. reflexivity.
  - destruct (find_long_names _ _ _ D N) as (o' & E1 & E2 & E3). destruct N as (N & _).
    pose proof (upto_eq_some n v N) as U. change (n ++ [61] ++ v) with (n ++ 61 :: v). cbn [app scan].
    destruct (n ++ 61 :: v) as [|x y] eqn:Q; [destruct n; discriminate|]. unfold dash in *; rewrite ?Z.eqb_refl.
    rewrite U, E1, E2, E3, A, IH. reflexivity.
  - destruct (find_long_names _ _ _ D N) as (o' & E1 & E2 & E3). destruct N as (N & _).
    cbn [app scan]. destruct n as [|x n]; [contradiction|]. unfold dash in *; rewrite ?Z.eqb_refl. rewrite (upto_eq_none _ N), E1, E2, E3, A, IH. reflexivity.
  - destruct fs as [|c fs]; [contradiction|]. cbn [app scan]. cbn [hd] in F1. unfold dash in *; rewrite ?Z.eqb_refl.
    destruct (Z.eqb_spec c 45); [contradiction|]. pose proof (cluster_flags _ _ [] DS F) as K. change (cluster stab []) with (@nil event, @None Z) in K. cbn [fst snd] in K.
    rewrite !app_nil_r in K. rewrite K, IH. reflexivity.
  - change ([c] ++ v) with (c :: v). pose proof (cluster_flags _ _ (c :: v) DS F) as K. rewrite (cluster_required _ _ _ DS R) in K.
    destruct v as [|v0 v]; [contradiction|]. cbn [fst snd] in K.
    destruct fs as [|f fs]; cbn [app hd scan] in *.
    + unfold dash in *; rewrite ?Z.eqb_refl. destruct (Z.eqb_spec c 45); [contradiction|]. rewrite K, IH. reflexivity.
    + unfold dash in *; rewrite ?Z.eqb_refl. destruct (Z.eqb_spec f 45); [contradiction|]. rewrite K, IH. cbn [map app]. rewrite <- app_assoc. reflexivity.
  - pose proof (cluster_flags _ _ [c] DS F) as K. rewrite (cluster_required _ _ _ DS R) in K. cbn [fst snd] in K. rewrite app_nil_r in K.
    destruct fs as [|f fs]; cbn [app hd scan] in *.
    + unfold dash in *; rewrite ?Z.eqb_refl. destruct (Z.eqb_spec c 45); [contradiction|]. rewrite K, IH. reflexivity.
    + unfold dash in *; rewrite ?Z.eqb_refl. destruct (Z.eqb_spec f 45); [contradiction|]. rewrite K, IH. reflexivity.
  - change ([c] ++ v) with (c :: v). pose proof (cluster_flags _ _ (c :: v) DS F) as K. rewrite (cluster_optional _ _ _ DS R) in K. cbn [fst snd] in K.
    destruct fs as [|f fs]; cbn [app hd scan] in *.
    + unfold dash in *; rewrite ?Z.eqb_refl. destruct (Z.eqb_spec c 45); [contradiction|]. rewrite K, IH. reflexivity.
    + unfold dash in *; rewrite ?Z.eqb_refl. destruct (Z.eqb_spec f 45); [contradiction|]. rewrite K, IH. cbn [map app]. rewrite <- app_assoc. reflexivity.
Qed.

Lemma says_scan tab stab ws : ~ In Unknown (scan tab stab ws) -> says tab stab ws (scan tab stab ws).
Proof.
  remember (List.length ws) as k eqn:K. assert (L : (List.length ws <= k)%nat) by lia. clear K. revert ws L.
  induction k as [|k IH]; intros ws L U.
  - destruct ws; [constructor|cbn in L; lia].
  - destruct ws as [|w ws]; [constructor|]. cbn in L. assert (L' : (List.length ws <= k)%nat) by lia.
    destruct w as [|c1 w]; [cbn [scan] in U |- *; apply says_word; [left; reflexivity|apply IH; auto]|].
    destruct w as [|c2 rest].
    { cbn [scan] in U |- *. apply says_word; [|apply IH; auto]. destruct (Z.eq_dec c1 45) as [->|N]; [right; left; reflexivity|right; right; exists c1, []; auto]. }
    cbn [scan] in U |- *. destruct (Z.eqb_spec c1 45) as [->|N].
    2:{ apply says_word; [|apply IH; auto]. right; right. exists c1, (c2 :: rest). auto. }
    destruct (Z.eqb_spec c2 45) as [->|N].
    + destruct rest as [|c3 rest]; [apply says_end|].
      destruct (upto_eq_inv (c3 :: rest)) as [E1 E2]. destruct (upto_eq (c3 :: rest)) as [n v]. cbn [fst snd] in E1, E2.
      destruct (find_long tab n) as [o|] eqn:F; [|exfalso; apply U; left; reflexivity].
      apply find_long_some in F; auto. destruct v as [x|].
      * destruct (l_arg o) eqn:A; [|exfalso; apply U; left; reflexivity]. rewrite E2.
        apply (says_long_eq tab stab n o x ws); auto. apply IH; auto. intros X. apply U. right. exact X.
      * rewrite app_nil_r in E2. rewrite E2. assert (n <> []) by (destruct n; [discriminate|discriminate]).
        destruct (l_arg o) eqn:A.
        -- destruct ws as [|x ws]; [exfalso; apply U; left; reflexivity|].
           apply (says_long_sep tab stab n o x ws); auto. apply IH; [cbn in L'; lia|]. intros X. apply U. right. exact X.
        -- apply (says_long tab stab n o ws); auto. apply IH; auto. intros X. apply U. right. exact X.
    + destruct (cluster_inv stab (c2 :: rest)) as (fs & tl & E & G & H). 
      assert (Hd : hd 0 (fs ++ tl) <> dash) by (rewrite <- E; exact N).
      destruct (cluster stab (c2 :: rest)) as [es p].
      destruct H as [(-> & Q)|[(d & -> & R & Q)|[(d & v & -> & V & R & Q)|[(d & v & -> & R & Q)|Q]]]].
      * apply pair_equal_spec in Q. destruct Q as [-> ->]. rewrite E. rewrite app_nil_r in *.
        apply (says_flags tab stab fs ws (scan tab stab ws)); auto.
        { intros ->. discriminate. } 
        apply IH; auto. intros X. apply U. apply in_or_app. right. exact X.
      * apply pair_equal_spec in Q. destruct Q as [-> ->]. rewrite E. destruct ws as [|x ws].
        { exfalso. apply U. apply in_or_app. right. left. reflexivity. }
        apply (says_sep tab stab fs d x ws (scan tab stab ws)); auto. apply IH; [cbn in L'; lia|]. intros X. apply U. apply in_or_app. right. right. exact X.
      * apply pair_equal_spec in Q. destruct Q as [-> ->]. rewrite E. rewrite <- app_assoc in *.
        apply (says_glued tab stab fs d v ws (scan tab stab ws)); auto.
        { destruct fs; exact Hd. } 
        apply IH; auto. intros X. apply U. apply in_or_app. right. right. exact X.
      * apply pair_equal_spec in Q. destruct Q as [-> ->]. rewrite E. rewrite <- app_assoc in *.
        apply (says_optional tab stab fs d v ws (scan tab stab ws)); auto.
        { destruct fs; exact Hd. } 
        apply IH; auto. intros X. apply U. apply in_or_app. right. right. exact X.
      * exfalso. cbn [fst] in Q. apply U. destruct p; [destruct ws|]; apply in_or_app; left; exact Q.
Qed.
Lemma says_known tab stab ws es : says tab stab ws es -> ~ In Unknown es.
Proof.
  assert (FL : forall fs es, ~ In Unknown es -> ~ In Unknown (map flag fs ++ es)).
  { intros fs es' H X. apply in_app_or in X. destruct X as [X|X]; auto. apply in_map_iff in X. destruct X as (c & X & _). discriminate. }
  intros H. induction H; auto; try (intros []; fail); try (apply FL); auto; intros [X|X]; try discriminate; auto.
Qed.

(** ** The values of the options *)

Definition val_of (tab : list lopt) (stab : list sopt) (v : Z) : Prop :=
  (exists o, In o tab /\ l_val o = v) \/ (exists o, In o stab /\ s_char o = v).
Lemma find_long_in tab n o : find_long tab n = Some o -> In o tab.
Proof.
  unfold find_long. destruct (find _ tab) as [x|] eqn:F; [intros H; injection H as ->; apply find_some in F; tauto|].
  destruct (filter _ tab) as [|x r] eqn:G; [discriminate|]. destruct (forallb _ r); [|discriminate]. intros H. injection H as ->.
  assert (I : In o (filter (fun o => prefixb n (l_name o)) tab)) by (rewrite G; left; reflexivity). apply filter_In in I. tauto.
Qed.
Lemma cluster_vals tab stab cs v a : In (Opt v a) (fst (cluster stab cs)) -> val_of tab stab v.
Proof.
  induction cs as [|c cs IH]; [intros []|]. cbn [cluster]. destruct (find (fun o => s_char o =? c) stab) as [o|] eqn:F.
  - apply find_some in F. destruct F as [F1 F2]. apply Z.eqb_eq in F2.
    assert (G : val_of tab stab c) by (right; exists o; auto).
    destruct (s_arg o).
    + destruct (cluster stab cs) as [es p]. cbn [fst]. intros [H|H]; [injection H as -> _; exact G|apply IH; exact H].
    + destruct cs; cbn [fst]; [intros []|intros [H|[]]]. injection H as -> _. exact G.
    + cbn [fst]. intros [H|[]]. injection H as -> _. exact G.
  - cbn [fst]. intros [H|[]]. discriminate.
Qed.
Lemma cluster_pending tab stab cs c : snd (cluster stab cs) = Some c -> val_of tab stab c.
Proof.
  induction cs as [|d cs IH]; [discriminate|]. cbn [cluster]. destruct (find (fun o => s_char o =? d) stab) as [o|] eqn:F; [|discriminate].
  apply find_some in F. destruct F as [F1 F2]. apply Z.eqb_eq in F2.
  destruct (s_arg o).
  - destruct (cluster stab cs) as [es p]. exact IH.
  - destruct cs; cbn [snd]; [|discriminate]. intros H. injection H as <-. right. exists o. auto.
  - discriminate.
Qed.
Lemma scan_vals tab stab ws v a : In (Opt v a) (scan tab stab ws) -> val_of tab stab v.
Proof.
  remember (List.length ws) as k eqn:K. assert (L : (List.length ws <= k)%nat) by lia. clear K. revert ws L.
  induction k as [|k IH]; intros ws L H.
  - destruct ws; [destruct H|cbn in L; lia].
  - destruct ws as [|w ws]; [destruct H|]. cbn in L. assert (L' : (List.length ws <= k)%nat) by lia.
    destruct w as [|c1 [|c2 rest]]; try (apply (IH ws L' H); fail). cbn [scan] in H.
    destruct (c1 =? 45); [|apply (IH ws L' H)]. destruct (c2 =? 45).
    + destruct rest as [|c3 rest]; [destruct H|]. destruct (upto_eq (c3 :: rest)) as [n x].
      destruct (find_long tab n) as [o|] eqn:F; [|destruct H as [H|[]]; discriminate]. apply find_long_in in F.
      assert (G : val_of tab stab (l_val o)) by (left; exists o; auto).
      destruct x as [x|]; destruct (l_arg o).
      * destruct H as [H|H]; [injection H as <- _; exact G|apply (IH ws L' H)].
      * destruct H as [H|[]]; discriminate.
      * destruct ws as [|y ws]; [destruct H as [H|[]]; discriminate|]. destruct H as [H|H]; [injection H as <- _; exact G|].
        apply (IH ws); [cbn in L'; lia|exact H].
      * destruct H as [H|H]; [injection H as <- _; exact G|apply (IH ws L' H)].
    + pose proof (cluster_vals tab stab (c2 :: rest) v a) as CV. pose proof (cluster_pending tab stab (c2 :: rest)) as CP.
      destruct (cluster stab (c2 :: rest)) as [es p]. cbn [fst snd] in CV, CP. destruct p as [c|].
      * destruct ws as [|y ws]; apply in_app_or in H; destruct H as [H|H]; auto.
        -- destruct H as [H|[]]; discriminate.
        -- destruct H as [H|H]; [injection H as <- _; apply CP; reflexivity|]. apply (IH ws); [cbn in L'; lia|exact H].
      * apply in_app_or in H. destruct H as [H|H]; auto. apply (IH ws L' H).
Qed.

(** ** Runs *)

Lemma run_exit {A} (f : A -> event -> step A) es : forall x k, run f x es = Exit k -> exists y e, In e es /\ f y e = Exit k.
Proof.
  induction es as [|e es IH]; intros x k H; [discriminate|]. cbn in H. destruct (f x e) as [y| |] eqn:F.
  - destruct (IH y k H) as (z & e' & H1 & H2). exists z, e'. cbn. auto.
  - injection H as ->. exists x, e. cbn. auto.
  - discriminate.
Qed.
Lemma run_crash {A} (f : A -> event -> step A) es : forall x, run f x es = Crash -> exists y e, In e es /\ f y e = Crash.
Proof.
  induction es as [|e es IH]; intros x H; [discriminate|]. cbn in H. destruct (f x e) as [y| |] eqn:F.
  - destruct (IH y H) as (z & e' & H1 & H2). exists z, e'. cbn. auto.
  - discriminate.
  - exists x, e. cbn. auto.
Qed.
Lemma run_known {A} (f : A -> event -> step A) es : (forall x, f x Unknown = Exit 1) -> forall x y, run f x es = Next y -> ~ In Unknown es.
Proof.
  intros U. induction es as [|e es IH]; intros x y H; [intros []|]. cbn in H. destruct (f x e) as [z| |] eqn:F; try discriminate.
  intros [E|E]; [subst e; rewrite U in F; discriminate|]. exact (IH z y H E).
Qed.
Lemma run_proj {A B} (f : A -> event -> step A) (p : A -> B) (u : event -> B -> B) es :
  (forall x e y, f x e = Next y -> p y = u e (p x)) -> forall x y, run f x es = Next y -> p y = fold_left (fun b e => u e b) es (p x).
Proof.
  intros U. induction es as [|e es IH]; intros x y H; [injection H as ->; reflexivity|]. cbn in H |- *.
  destruct (f x e) as [z| |] eqn:F; try discriminate. rewrite (IH z y H), (U _ _ _ F). reflexivity.
Qed.
(** An invariant of runs. *)
Lemma run_inv {A} (f : A -> event -> step A) (I : A -> list event -> Prop) :
  (forall x es e y, I x es -> f x e = Next y -> I y (es ++ [e])) -> forall es x y pre, I x pre -> run f x es = Next y -> I y (pre ++ es).
Proof.
  intros U. induction es as [|e es IH]; intros x y pre H R; [injection R as <-; rewrite app_nil_r; exact H|]. cbn in R.
  destruct (f x e) as [z| |] eqn:F; try discriminate. change (e :: es) with ([e] ++ es). rewrite app_assoc. apply (IH z y); auto. eapply U; eauto.
Qed.
Definition on_val {B} (v : Z) (h : option (list Z) -> B) (e : event) (b : B) : B :=
  match e with Opt w a => if w =? v then h a else b | Unknown => b end.
Lemma fold_last {B} v (h : option (list Z) -> B) es : forall b, fold_left (fun b e => on_val v h e b) es b = match last_arg v es with Some a => h a | None => b end.
Proof.
  induction es as [|e es IH]; intros b; [reflexivity|]. cbn [fold_left last_arg]. rewrite IH.
  destruct (last_arg v es) as [a|]; [reflexivity|]. destruct e as [w a|]; cbn; [|reflexivity]. destruct (w =? v); reflexivity.
Qed.
Lemma last_arg_in v es a : last_arg v es = Some a -> In (Opt v a) es.
Proof.
  induction es as [|e es IH]; [discriminate|]. cbn. destruct (last_arg v es) as [b|]; [intros H; right; apply IH, H|].
  destruct e as [w b|]; [|discriminate]. destruct (Z.eqb_spec w v) as [->|]; [|discriminate]. intros H. injection H as ->. auto.
Qed.
Lemma last_arg_none v es : last_arg v es = None <-> ~ given v es.
Proof.
  induction es as [|e es IH]; cbn; [split; auto; intros _ [a []]|]. destruct (last_arg v es) as [b|] eqn:L.
  - split; [discriminate|]. intros H. exfalso. apply H. exists b. right. apply last_arg_in, L.
  - destruct IH as [IH _]. specialize (IH eq_refl). destruct e as [w a|].
    + destruct (Z.eqb_spec w v) as [->|N].
      * split; [discriminate|]. intros H. exfalso. apply H. exists a. left. reflexivity.
      * split; auto. intros _ [x [H|H]]; [congruence|]. apply IH. exists x. exact H.
    + split; auto. intros _ [x [H|H]]; [discriminate|]. apply IH. exists x. exact H.
Qed.

(** Case analysis on everything a step tests. *)
Ltac tests H :=
  repeat match type of H with
  | context [if ?b then _ else _] => destruct b eqn:?
  | context [match ?b with Next _ => _ | Exit _ => _ | Crash => _ end] => destruct b eqn:?
  end.
Lemma and_then_next {A B} (s : step A) (k : A -> step B) y : and_then s k = Next y -> exists x, s = Next x /\ k x = Next y.
Proof. destruct s; try discriminate. intros H. exists a. auto. Qed.
Lemma and_then_exit {A B} (s : step A) (k : A -> step B) c : and_then s k = Exit c -> s = Exit c \/ exists x, s = Next x /\ k x = Exit c.
Proof. destruct s; cbn; intros H; try discriminate; [right; eauto|left; congruence]. Qed.
Lemma and_then_crash {A B} (s : step A) (k : A -> step B) : and_then s k = Crash -> s = Crash \/ exists x, s = Next x /\ k x = Crash.
Proof. destruct s; cbn; intros H; try discriminate; [right; eauto|left; congruence]. Qed.

(** ** Texts of sub-options *)

Lemma toks_app a s cur : ~ In 44 a -> toks (a ++ s) cur = toks s (cur ++ a).
Proof.
  revert cur. induction a as [|c a IH]; intros cur H; [rewrite app_nil_r; reflexivity|]. cbn.
  destruct (Z.eqb_spec c 44) as [->|N]; [exfalso; apply H; left; reflexivity|]. rewrite IH by (intros X; apply H; right; exact X).
  rewrite <- app_assoc. reflexivity.
Qed.
Lemma sub_text_ok u : sub_ok u -> sub_text u <> [] /\ ~ In 44 (sub_text u) /\ upto_eq (sub_text u) = (u_name u, u_val u).
Proof.
  intros (A & B & C & D). unfold sub_text. destruct (u_val u) as [v|].
  - repeat split.
    + destruct (u_name u); [contradiction|discriminate].
    + intros X. apply in_app_or in X. destruct X as [X|[X|X]]; auto. discriminate.
    + apply upto_eq_some, B.
  - rewrite app_nil_r. repeat split; auto. apply upto_eq_none, B.
Qed.
Lemma toks_joined us : Forall sub_ok us -> toks (joined us) [] = map sub_text us.
Proof.
  induction us as [|u us IH]; intros F; [reflexivity|]. inversion F as [|? ? F1 F2]; subst. destruct (sub_text_ok u F1) as (A & B & C).
  destruct us as [|w us].
  - cbn [joined map]. rewrite <- (app_nil_r (sub_text u)) at 1. rewrite toks_app by exact B. cbn [toks app]. destruct (sub_text u); [contradiction|reflexivity].
  - change (joined (u :: w :: us)) with (sub_text u ++ 44 :: joined (w :: us)). rewrite toks_app by exact B. cbn [toks app]. 
    change (44 =? 44) with true. cbn iota. rewrite (IH F2). reflexivity.
Qed.

Lemma last_sub_cons n u us : last_sub n (u :: us) = match last_sub n us with Some a => Some a | None => if str_eqb (u_name u) n then Some (u_val u) else None end.
Proof. reflexivity. Qed.
Lemma num_of_cons n u us f b : num_of n (u :: us) f b = num_of n us f (if str_eqb (u_name u) (str n) then match u_val u with Some v => f v | None => 0 end else b).
Proof.
  unfold num_of. rewrite last_sub_cons. destruct (last_sub (str n) us) as [a|]; [reflexivity|]. destruct (str_eqb (u_name u) (str n)); reflexivity.
Qed.
Lemma is_tok_sub u n : sub_ok u -> is_tok (sub_text u) n = str_eqb (u_name u) (str n).
Proof. intros H. unfold is_tok. destruct (sub_text_ok u H) as (_ & _ & E). rewrite E. reflexivity. Qed.
Lemma val_sub u : sub_ok u -> snd (upto_eq (sub_text u)) = u_val u.
Proof. intros H. destruct (sub_text_ok u H) as (_ & _ & E). rewrite E. reflexivity. Qed.

(** The words of --mprotect. *)
Definition prot_words : list string := ["addr"; "len"; "none"; "read"; "write"; "exec"]%string.
Definition bits3 (r w x : bool) : Z := b2 r 1 + b2 w 2 + b2 x 4.
Lemma each_prot us : Forall sub_ok us -> forall p r w x, r_prot p = bits3 r w x ->
  (only prot_words us -> each prot_tok p (map sub_text us) =
     Next (Rc (num_of "addr" us TextModel.str2addr (r_addr p)) (num_of "len" us TextModel.str2addr (r_len p))
              (bits3 (r || hasb "read" us) (w || hasb "write" us) (x || hasb "exec" us)) (r_none p || hasb "none" us))) /\
  (~ only prot_words us -> each prot_tok p (map sub_text us) = Exit 1).
Proof.
  induction us as [|u us IH]; intros F p r w x E.
  - split; [|intros H; exfalso; apply H; constructor]. intros _. cbn. rewrite !orb_false_r, <- E. destruct p. reflexivity.
  - pose proof (Forall_inv F) as F1. pose proof (Forall_inv_tail F) as F2. specialize (IH F2). cbn [map each]. unfold prot_tok at 1 3. rewrite (val_sub u F1), !(is_tok_sub u _ F1).
    rewrite !num_of_cons. unfold hasb in *. cbn [existsb].
    destruct (str_eqb (u_name u) (str "addr")) eqn:E1; [|destruct (str_eqb (u_name u) (str "len")) eqn:E2;
      [|destruct (str_eqb (u_name u) (str "none")) eqn:E3; [|destruct (str_eqb (u_name u) (str "read")) eqn:E4;
        [|destruct (str_eqb (u_name u) (str "write")) eqn:E5; [|destruct (str_eqb (u_name u) (str "exec")) eqn:E6]]]]].
    7:{ split; [|reflexivity]. intros O. exfalso. apply Forall_inv in O. destruct O as (n & N1 & N2). rewrite N2 in *. cbn in N1. repeat destruct N1 as [<-|N1]; try discriminate. exact N1. }
    all: match goal with H : str_eqb (u_name _) (str ?n) = true |- _ => apply str_eqb_eq in H; rename H into Q; rewrite Q in *;
      assert (O : only prot_words (u :: us) <-> only prot_words us) by
        (unfold only; split; [intros O; inversion O; auto|intros O; constructor; auto; exists n; split; auto; unfold prot_words; cbn; tauto]) end; rewrite O.
    all: cbv beta iota zeta.
    all: match goal with |- context [each prot_tok ?q _] => first
      [ destruct (IH q r w x E) as [K1 K2]
      | destruct (IH q true w x ltac:(cbn [r_prot]; rewrite E; destruct r, w, x; reflexivity)) as [K1 K2]
      | destruct (IH q r true x ltac:(cbn [r_prot]; rewrite E; destruct r, w, x; reflexivity)) as [K1 K2]
      | destruct (IH q r w true ltac:(cbn [r_prot]; rewrite E; destruct r, w, x; reflexivity)) as [K1 K2] ] end.
    all: split; [intros W; rewrite (K1 W); cbn [r_addr r_len r_none]|exact K2].
    all: cbv [str_eqb str map Ascii.N_of_ascii Z.of_N list_ascii_of_string]; cbn; rewrite ?orb_true_r, ?orb_true_l; reflexivity.
Qed.
