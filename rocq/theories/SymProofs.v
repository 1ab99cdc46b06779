(** Proofs about the symbol tables. *)
From Coq Require Import ZArith String List Bool Lia Sorted Permutation.
From Verif Require Import Word WordLemmas RbModel RbSpec RbPure RbSep RbTop RbErase RbWalk RbSeq Str SymModel SymSpec.
Import ListNotations.
Open Scope Z_scope.

Lemma sorted_sgn_monotone (cmp : Z -> Z) l :
  StronglySorted (fun a b => (0 < cmp b -> 0 < cmp a) /\ (cmp b = 0 -> 0 < cmp a \/ cmp a = 0)) l -> monotone cmp l.
Proof.
  induction 1 as [|a l H IH F].
  - exists [], [], []. repeat split; constructor.
  - destruct IH as (L & M & R & -> & HL & HM & HR).
    destruct (Ztrichotomy (cmp a) 0) as [Ha|[Ha|Ha]].
    + assert (L = []).
      { destruct L as [|x L]; auto. exfalso. apply Forall_inv in HL. cbn [app] in F. apply Forall_inv in F. lia. }
      assert (M = []).
      { subst L. cbn [app] in *. destruct M as [|x M]; auto. exfalso. apply Forall_inv in HM. apply Forall_inv in F. lia. }
      subst. exists [], [], (a :: R). cbn in *. repeat split; auto.
    + assert (L = []).
      { destruct L as [|x L]; auto. exfalso. apply Forall_inv in HL. cbn [app] in F. apply Forall_inv in F. lia. }
      subst. exists [], (a :: M), R. cbn in *. repeat split; auto.
    + exists (a :: L), M, R. cbn. repeat split; auto. constructor; auto. lia.
Qed.

Lemma holds_live' s t : holds s t -> forall x, In x (inorder t) -> hp s x <> None.
Proof. intros (A & B & C & D) x Hx. eapply rep_live; eauto. Qed.

Lemma holds_nz s t : holds s t -> forall x, In x (inorder t) -> x <> 0.
Proof. intros (_ & _ & _ & F) x Hx. rewrite Forall_forall in F. destruct (F x Hx). lia. Qed.

Lemma filter_none {A} (f : A -> bool) l : (forall x, In x l -> f x = false) -> filter f l = [].
Proof.
  induction l as [|a l IH]; intros H; cbn; auto. rewrite (H a (or_introl eq_refl)). apply IH. intros x Hx. apply H. right; auto.
Qed.

Lemma filter_filter {A} (f g : A -> bool) l : filter f (filter g l) = filter (fun x => g x && f x) l.
Proof.
  induction l as [|a l IH]; cbn; auto. destruct (g a); cbn [filter andb]; auto. destruct (f a); congruence.
Qed.

Lemma distinct_in same l x : In x (distinct same l) -> In x l.
Proof.
  revert x. induction l as [|a l IH]; intros x; cbn; auto. intros [->|H]; auto. apply filter_In in H. right. apply IH. tauto.
Qed.

Lemma distinct_snoc same l n :
  (forall a b c, same a b = true -> same b c = true -> same a c = true) ->
  distinct same (l ++ [n]) =
  if existsb (fun a => same a n) (distinct same l) then distinct same l else distinct same l ++ [n].
Proof.
  intros T. induction l as [|a l IH]; [reflexivity|]. cbn [app distinct existsb]. rewrite IH.
  destruct (existsb (fun b => same b n) (distinct same l)) eqn:E.
  - assert (G : same a n || existsb (fun b => same b n) (filter (fun b => negb (same a b)) (distinct same l)) = true).
    { apply existsb_exists in E. destruct E as (b & B1 & B2). destruct (same a b) eqn:Eb.
      - rewrite (T a b n Eb B2). reflexivity.
      - apply orb_true_iff. right. apply existsb_exists. exists b. split; auto. apply filter_In. rewrite Eb. auto. }
    rewrite G. reflexivity.
  - assert (G : existsb (fun b => same b n) (filter (fun b => negb (same a b)) (distinct same l)) = false).
    { destruct (existsb (fun b => same b n) (filter _ _)) eqn:E2; auto. apply existsb_exists in E2. destruct E2 as (b & B1 & B2).
      apply filter_In in B1. rewrite <- E. symmetry. apply existsb_exists. exists b. tauto. }
    rewrite G, orb_false_r, filter_app. cbn [filter]. destruct (same a n); cbn [negb]; [rewrite app_nil_r|]; reflexivity.
Qed.

(** ** A table ordered by a key *)
Section Keyed.
Variable K : Type.
Variable key : Z -> K.
Variable cmpk : K -> K -> Z.
Variable D : K -> Prop.
Hypothesis C1 : forall a b, D a -> D b -> (cmpk a b < 0 <-> 0 < cmpk b a).
Hypothesis C2 : forall a b d, D a -> D b -> D d -> cmpk a b <= 0 -> cmpk b d <= 0 -> cmpk a d <= 0.
Variable same : Z -> Z -> bool.
Hypothesis Ht : forall a b c, same a b = true -> same b c = true -> same a c = true.

Lemma k_sym a b : D a -> D b -> cmpk a b = 0 -> cmpk b a = 0.
Proof. intros Da Db H. pose proof (C1 a b Da Db). pose proof (C1 b a Db Da). lia. Qed.

Lemma k_refl a : D a -> cmpk a a = 0.
Proof. intros Da. pose proof (C1 a a Da Da). lia. Qed.

Lemma k_trans a b d : D a -> D b -> D d -> cmpk a b = 0 -> cmpk b d = 0 -> cmpk a d = 0.
Proof.
  intros Da Db Dd H1 H2. pose proof (C2 a b d Da Db Dd ltac:(lia) ltac:(lia)).
  pose proof (C2 d b a Dd Db Da). pose proof (k_sym a b Da Db H1). pose proof (k_sym b d Db Dd H2).
  pose proof (C1 a d Da Dd). lia.
Qed.

Lemma k_gt_trans a b d : D a -> D b -> D d -> 0 < cmpk a b -> 0 <= cmpk b d -> 0 < cmpk a d.
Proof.
  intros Da Db Dd H1 H2.
  destruct (Z_lt_ge_dec 0 (cmpk a d)) as [|N]; auto. exfalso.
  assert (cmpk b a < 0) by (apply C1; auto).
  assert (L1 : cmpk d b <= 0). { pose proof (C1 d b Dd Db). pose proof (C1 b d Db Dd). lia. }
  pose proof (C2 a d b Da Dd Db ltac:(lia) L1). lia.
Qed.

Definition klt a b := 0 < cmpk (key a) (key b).

Lemma k_monotone l k : D k -> Forall (fun x => D (key x)) l -> StronglySorted klt l ->
  monotone (fun n => cmpk (key n) k) l.
Proof.
  intros Dk Dl S. apply sorted_sgn_monotone. induction S as [|a l S IH F]; constructor; inversion Dl; subst; auto.
  rewrite Forall_forall in *. intros b Hb. specialize (F b Hb). unfold klt in F. cbv beta. split.
  - intros G. apply (k_gt_trans (key a) (key b) k); auto. lia.
  - intros G. left. apply (k_gt_trans (key a) (key b) k); auto. lia.
Qed.

Definition kinv (tb : table) (hist : list Z) : Prop :=
  exists t, holds (tb_rb tb) t /\ red_black t /\ StronglySorted klt (inorder t) /\
    (forall h, In h (inorder t) -> In h hist /\
       h :: tb_chain tb h = distinct same (filter (fun x => cmpk (key h) (key x) =? 0) hist)) /\
    (forall x, In x hist -> exists h, In h (inorder t) /\ cmpk (key h) (key x) = 0) /\
    (forall x, ~ In x (inorder t) -> tb_chain tb x = []) /\
    (List.length (inorder t) <= List.length hist)%nat.

Lemma klt_ne l a b : StronglySorted klt l -> In a l -> In b l -> D (key a) -> D (key b) -> cmpk (key a) (key b) = 0 -> a = b.
Proof.
  induction 1 as [|x l S IH F]; intros Ha Hb Da Db E; [destruct Ha|]. rewrite Forall_forall in F. unfold klt in F.
  destruct Ha as [->|Ha], Hb as [->|Hb]; auto.
  - specialize (F b Hb). lia.
  - specialize (F a Ha). pose proof (k_sym _ _ Da Db E). lia.
Qed.

Lemma kinv_step tb hist rc new fuel :
  kinv tb hist -> Forall (fun x => D (key x)) hist -> D (key new) -> ~ In new hist ->
  node_addr new -> hp (tb_rb tb) new <> None -> (List.length hist < fuel)%nat ->
  exists tb' rc', link_in fuel tb rc (fun n => cmpk (key n) (key new)) (fun n => same n new) new = Some (tb', rc') /\
    kinv tb' (hist ++ [new]) /\ (forall x, hp (tb_rb tb) x <> None -> hp (tb_rb tb') x <> None).
Proof.
  intros (t & H & Hrb & Hs & Hc & Hx & Hz & Hl) Dh Dn Hn Na Lv Hf.
  destruct (hp (tb_rb tb) new) as [nd|] eqn:En; [clear Lv|contradiction].
  assert (Hin : forall h, In h (inorder t) -> In h hist) by (intros h Hh; apply Hc; auto).
  assert (Dt : Forall (fun x => D (key x)) (inorder t)).
  { rewrite Forall_forall in *. auto. }
  pose proof (height_size t) as Hh. unfold size in Hh.
  unfold link_in.
  destruct (rb_insert_ok (tb_rb tb) t (fun n => cmpk (key n) (key new)) new nd fuel H Hrb (k_monotone _ _ Dn Dt Hs)
              ltac:(lia) Na En ltac:(auto))
    as [(a & E1 & E2 & E3)|(s' & t' & L & R & E1 & E2 & E3 & E4 & E5 & E6 & E7 & E8 & E9)]; rewrite E1.
  - destruct (Z.eqb_spec a 0) as [->|_]; [exfalso; eapply holds_nz; eauto|].
    rewrite Forall_forall in Dt, Dh.
    assert (Ho : forall h, In h (inorder t) -> h <> a -> (cmpk (key h) (key new) =? 0) = false).
    { intros h Hh' N. apply Z.eqb_neq. intros Ez. apply N. apply (klt_ne (inorder t)); auto.
      apply (k_trans (key h) (key new) (key a)); auto. apply k_sym; auto. }
    destruct (Hc a E2) as [_ Ca].
    assert (Ea : distinct same (filter (fun x => cmpk (key a) (key x) =? 0) (hist ++ [new])) =
                 if same a new || existsb (fun b => same b new) (tb_chain tb a) then a :: tb_chain tb a
                 else a :: tb_chain tb a ++ [new]).
    { rewrite filter_app. cbn [filter]. rewrite E3, Z.eqb_refl, distinct_snoc by auto. rewrite <- Ca. cbn [existsb].
      destruct (_ || _); reflexivity. }
    assert (Ev : forall h, In h (inorder t) -> h <> a ->
       distinct same (filter (fun x => cmpk (key h) (key x) =? 0) (hist ++ [new])) = h :: tb_chain tb h).
    { intros h Hh' N. rewrite filter_app. cbn [filter]. rewrite (Ho h Hh' N), app_nil_r. symmetry. apply Hc; auto. }
    assert (Hx' : forall x, In x (hist ++ [new]) -> exists h, In h (inorder t) /\ cmpk (key h) (key x) = 0).
    { intros x G. apply in_app_iff in G. destruct G as [G|[<-|[]]]; eauto. }
    destruct (same a new) eqn:Es; [|destruct (existsb (fun n => same n new) (tb_chain tb a)) eqn:Ex].
    + eexists. eexists. split; [reflexivity|]. split; auto.
      exists t. cbn [tb_rb tb_chain]. split; auto. split; auto. split; auto. split.
      { intros h Hh'. split; [apply in_app_iff; auto|]. destruct (Z.eq_dec h a) as [->|N]; [rewrite Ea; reflexivity|rewrite Ev; auto]. }
      split; auto. split; auto. rewrite app_length. cbn. lia.
    + eexists. eexists. split; [reflexivity|]. split; auto.
      exists t. cbn [tb_rb tb_chain]. split; auto. split; auto. split; auto. split.
      { intros h Hh'. split; [apply in_app_iff; auto|]. destruct (Z.eq_dec h a) as [->|N]; [rewrite Ea; reflexivity|rewrite Ev; auto]. }
      split; auto. split; auto. rewrite app_length. cbn. lia.
    + eexists. eexists. split; [reflexivity|]. split; auto.
      exists t. cbn [tb_rb tb_chain]. split; auto. split; auto. split; auto. split.
      { intros h Hh'. split; [apply in_app_iff; auto|]. unfold setf. destruct (Z.eqb_spec h a) as [->|N].
        - rewrite Ea. reflexivity.
        - rewrite Ev; auto. }
      split; auto. split.
      { intros x Hx0. unfold setf. destruct (Z.eqb_spec x a) as [->|N]; auto. contradiction. }
      rewrite app_length. cbn. lia.
  - cbn [Z.eqb]. eexists. eexists. split; [reflexivity|]. split.
    + exists t'. cbn [tb_rb tb_chain]. split; auto. split; auto.
      rewrite Forall_forall in Dt, Dh, E2, E4, E5.
      assert (It : forall h, In h (inorder t') <-> h = new \/ In h (inorder t)).
      { intros h. rewrite E8, E3, !in_app_iff. cbn [In]. intuition. }
      assert (Hnone : forall x, In x hist -> cmpk (key new) (key x) =? 0 = false).
      { intros x Hx0. apply Z.eqb_neq. intros Ez. destruct (Hx x Hx0) as (h & H1 & H2). apply (E2 h H1).
        apply (k_trans (key h) (key x) (key new)); auto. apply k_sym; auto. }
      split.
      { rewrite E8. rewrite E3 in Hs. clear - Hs E4 E5 C1 Dt Dn E3.
        assert (Dl : forall x, In x (L ++ R) -> D (key x)) by (intros x Hx; apply Dt; rewrite E3; auto). clear Dt E3.
        induction L as [|a L IH]; cbn [app] in *.
        - constructor; auto. apply Forall_forall. intros b Hb. unfold klt. apply C1; auto.
        - inversion Hs; subst. constructor.
          + apply IH; auto.
            * intros x Hx. apply E4. right; auto.
            * intros x Hx. apply Dl. right; auto.
          + rewrite Forall_app in *. destruct H2. split; auto. constructor; auto. unfold klt. apply E4. left; auto. }
      split.
      { intros h Hh'. apply It in Hh'. destruct Hh' as [->|Hh'].
        - split; [apply in_app_iff; right; left; auto|].
          rewrite filter_app. rewrite filter_none by auto. cbn [filter app]. rewrite k_refl by auto. cbn.
          rewrite Hz; auto.
        - destruct (Hc h Hh') as [I1 I2]. split; [apply in_app_iff; auto|].
          rewrite filter_app. cbn [filter]. rewrite (proj2 (Z.eqb_neq _ _) (E2 h Hh')), app_nil_r. auto. }
      split.
      { intros x G. apply in_app_iff in G. destruct G as [G|[<-|[]]].
        - destruct (Hx x G) as (h & A1 & A2). exists h. split; auto. apply It. auto.
        - exists new. split; [apply It; auto|apply k_refl; auto]. }
      split.
      { intros x Hx0. apply Hz. intros G. apply Hx0. apply It. auto. }
      { rewrite E8. rewrite E3 in Hl. rewrite !app_length in *. cbn [List.length]. lia. }
    + intros x Hx0. cbn [tb_rb]. destruct (in_dec Z.eq_dec x (inorder t')) as [I|I].
      * eapply holds_live'; eauto.
      * rewrite E9; auto.
Qed.

Lemma kinv_run tb hist rc new fuel tb' rc' :
  kinv tb hist -> Forall (fun x => D (key x)) hist -> D (key new) -> ~ In new hist ->
  node_addr new -> hp (tb_rb tb) new <> None -> (List.length hist < fuel)%nat ->
  link_in fuel tb rc (fun n => cmpk (key n) (key new)) (fun n => same n new) new = Some (tb', rc') ->
  kinv tb' (hist ++ [new]).
Proof.
  intros I Dh Dn Hn Na Lv Hf E.
  destruct (kinv_step tb hist rc new fuel I Dh Dn Hn Na Lv Hf) as (tb1 & rc1 & E1 & I1 & _).
  rewrite E1 in E. injection E as <- <-. exact I1.
Qed.

Lemma kinv_find tb hist k fuel : kinv tb hist -> Forall (fun x => D (key x)) hist -> D k -> (List.length hist < fuel)%nat ->
  exists a c, rb_search_node fuel (tb_rb tb) (fun n => cmpk (key n) k) = Some (a, c) /\
    ((a = 0 /\ filter (fun x => cmpk (key x) k =? 0) hist = []) \/
     (a <> 0 /\ In a hist /\ cmpk (key a) k = 0 /\
      a :: tb_chain tb a = distinct same (filter (fun x => cmpk (key x) k =? 0) hist))).
Proof.
  intros (t & H & Hrb & Hs & Hc & Hx & Hz & Hl) Dh Dk Hf.
  assert (Dt : Forall (fun x => D (key x)) (inorder t)).
  { rewrite Forall_forall in *. intros x Hx0. apply Dh. apply Hc. auto. }
  pose proof (height_size t) as Hh. unfold size in Hh.
  destruct (rb_search_ok (tb_rb tb) t _ fuel H (k_monotone _ _ Dk Dt Hs) ltac:(lia)) as (a & c & E1 & _ & E2).
  exists a, c. split; auto. rewrite Forall_forall in Dh, Dt. destruct E2 as [[-> E2]|[E2 E3]].
  - left. split; auto. apply filter_none. intros x Hx0. apply Z.eqb_neq. intros Ez.
    destruct (Hx x Hx0) as (h & A1 & A2). rewrite Forall_forall in E2. apply (E2 h A1).
    apply (k_trans (key h) (key x) k); auto.
  - right. split; [eapply holds_nz; eauto|]. destruct (Hc a E2) as [I1 I2]. split; auto. split; auto.
    rewrite I2. f_equal. apply filter_ext_in. intros x Hx0. apply eq_true_iff_eq. rewrite !Z.eqb_eq. split; intros G.
    + apply (k_trans (key x) (key a) k); auto. apply k_sym; auto.
    + apply (k_trans (key a) k (key x)); auto. apply k_sym; auto.
Qed.

Lemma kinv_empty tb : empty_table tb -> kinv tb [].
Proof.
  intros (A & B & _). destruct (empty_holds (tb_rb tb) A) as [E1 E2]. exists E.
  split; [exact E1|]. split; [exact E2|]. split; [constructor|]. split; [intros h []|]. split; [intros h []|]. split; auto.
Qed.
End Keyed.

(** ** The two orders *)
Definition pos_bytes (s : list Z) : Prop := Forall (fun c => 0 < c) s.

Lemma strcmp_antisym a b : strcmp a b = - strcmp b a.
Proof.
  revert b. induction a as [|x a IH]; intros [|y b]; cbn [strcmp]; try lia.
  destruct (Z.eqb_spec x y) as [->|N].
  - rewrite Z.eqb_refl. auto.
  - destruct (Z.eqb_spec y x); [congruence|lia].
Qed.

Lemma strcmp_trans a : forall b d, pos_bytes a -> pos_bytes b -> pos_bytes d ->
  strcmp a b <= 0 -> strcmp b d <= 0 -> strcmp a d <= 0.
Proof.
  induction a as [|x a IH]; intros b d Pa Pb Pd H1 H2.
  - destruct d as [|z d]; cbn; [lia|]. inversion Pd; subst. lia.
  - destruct b as [|y b]; [cbn in H1; inversion Pa; subst; lia|].
    destruct d as [|z d]; [cbn in H2; inversion Pb; subst; lia|].
    inversion Pa; inversion Pb; inversion Pd; subst. cbn [strcmp] in *.
    destruct (Z.eqb_spec x y) as [->|N1].
    + destruct (Z.eqb_spec y z) as [->|N2]; [eauto|lia].
    + destruct (Z.eqb_spec y z) as [->|N2].
      * destruct (Z.eqb_spec x z); lia.
      * destruct (Z.eqb_spec x z); lia.
Qed.

Lemma s32_small x : - 2 ^ 31 <= x < 2 ^ 31 -> s32 x = x.
Proof.
  intros H. unfold s32, sgn. destruct (Z_lt_ge_dec x 0) as [L|L].
  - replace (x mod 2 ^ 32) with (x + 2 ^ 32).
    + destruct (Z.ltb_spec (x + 2 ^ 32) (2 ^ (32 - 1))); [|lia]. change (2 ^ (32 - 1)) with (2 ^ 31) in *. lia.
    + apply Z.mod_unique with (-1); lia.
  - rewrite Z.mod_small by lia. destruct (Z.ltb_spec x (2 ^ (32 - 1))); [auto|]. change (2 ^ (32 - 1)) with (2 ^ 31) in *. lia.
Qed.

Section Tables.
Variable info : Z -> tinfo.

Definition name_inv (s : tsyms) (hist : list Z) : Prop :=
  kinv (list Z) (fun x => ts_name (info x)) strcmp
    (fun a b => ts_addr (info a) =? ts_addr (info b)) (t_syms s) hist.

Definition addr_inv (s : tsyms) (hist : list Z) : Prop :=
  kinv Z (fun x => ts_addr (info x)) cmp_task_addr
    (fun a b => str_eqb (ts_name (info a)) (ts_name (info b))) (t_addrs s) hist.

Definition pool_ok (s : tsyms) (l : list Z) : Prop :=
  Forall (fun x => node_addr x /\ hp (tb_rb (t_syms s)) x <> None /\ hp (tb_rb (t_addrs s)) x <> None) l.

End Tables.

(** ** Structure without any assumption on the comparison *)

Definition mem (tb : table) (t : tree) : list Z := flat_map (fun h => h :: tb_chain tb h) (inorder t).

Definition sinv (tb : table) (t : tree) (hist : list Z) : Prop :=
  holds (tb_rb tb) t /\ red_black t /\ NoDup (mem tb t) /\ incl (mem tb t) hist /\
  (forall h, In h (inorder t) -> tb_head tb h = true) /\
  (forall x, ~ In x (inorder t) -> tb_chain tb x = []).

Definition uses (tb : table) (t : tree) (x : Z) : Z :=
  Z.of_nat (count_occ Z.eq_dec (mem tb t) x) + Z.of_nat (List.length (tb_chain tb x)).

Lemma mem_in tb t x : In x (mem tb t) <-> reachable tb t x.
Proof.
  unfold mem, reachable. rewrite in_flat_map. split; intros (h & A & B); exists h; split; auto; cbn in *; intuition.
Qed.

Lemma count_perm (l l' : list Z) x : Permutation l l' -> count_occ Z.eq_dec l x = count_occ Z.eq_dec l' x.
Proof. intros P. apply (proj1 (Permutation_count_occ Z.eq_dec l l')). auto. Qed.

Lemma flat_ext (f g : Z -> list Z) l : (forall x, In x l -> f x = g x) -> flat_map f l = flat_map g l.
Proof.
  induction l as [|a l IH]; intros H; cbn; auto. rewrite (H a (or_introl eq_refl)), IH; auto. intros x Hx. apply H. right; auto.
Qed.

Lemma mem_len tb t : (List.length (inorder t) <= List.length (mem tb t))%nat.
Proof.
  unfold mem. induction (inorder t) as [|a l IH]; cbn; auto. rewrite app_length. lia.
Qed.

Lemma sinv_step tb t hist rc cmp same new fuel :
  sinv tb t hist -> ~ In new hist -> node_addr new -> hp (tb_rb tb) new <> None -> (List.length hist < fuel)%nat ->
  exists tb' t' rc', link_in fuel tb rc cmp same new = Some (tb', rc') /\ sinv tb' t' (hist ++ [new]) /\
    (forall x, hp (tb_rb tb) x <> None -> hp (tb_rb tb') x <> None) /\
    (forall x, rc' x - rc x = uses tb' t' x - uses tb t x).
Proof.
  intros (H & Hrb & Hnd & Hi & Hh & Hz) Hn Na Lv Hf.
  destruct (hp (tb_rb tb) new) as [nd|] eqn:En; [clear Lv|contradiction].
  assert (Hin : forall h, In h (inorder t) -> In h hist).
  { intros h Hh'. apply Hi. apply mem_in. exists h. auto. }
  assert (Hlen : (List.length (inorder t) <= List.length hist)%nat).
  { pose proof (mem_len tb t). pose proof (NoDup_incl_length Hnd Hi). lia. }
  pose proof (height_size t) as Hs. unfold size in Hs.
  assert (Hnm : ~ In new (mem tb t)) by (intros G; apply Hn, Hi, G).
  unfold link_in.
  destruct (rb_insert_any_ok (tb_rb tb) t cmp new nd fuel H Hrb ltac:(lia) Na En ltac:(auto))
    as [(a & E1 & E2 & E3)|(s' & t' & L & R & E1 & E3 & E6 & E7 & E8 & E9)]; rewrite E1.
  - destruct (Z.eqb_spec a 0) as [->|_]; [exfalso; eapply holds_nz; eauto|].
    assert (Same : sinv (Tb (tb_rb tb) (tb_chain tb) (tb_head tb)) t (hist ++ [new])).
    { split; auto. split; auto. split; auto. split; [|split; auto]. intros x Hx. apply in_app_iff. left. apply Hi. auto. }
    assert (Su : forall x, uses (Tb (tb_rb tb) (tb_chain tb) (tb_head tb)) t x = uses tb t x) by reflexivity.
    destruct (same a); [|destruct (existsb same (tb_chain tb a))].
    + eexists. exists t. eexists. split; [reflexivity|]. split; auto. split; auto. intros x. rewrite Su. lia.
    + eexists. exists t. eexists. split; [reflexivity|]. split; auto. split; auto. intros x. rewrite Su. lia.
    + eexists. exists t. eexists. split; [reflexivity|].
      set (tb' := Tb (tb_rb tb) (setf (tb_chain tb) a (tb_chain tb a ++ [new])) (tb_head tb)).
      assert (P : Permutation (new :: mem tb t) (mem tb' t)).
      { apply in_split in E2. destruct E2 as (L & R & EL). unfold mem. rewrite EL, !flat_map_app. cbn [flat_map].
        assert (Nd : NoDup (inorder t)) by apply H. rewrite EL in Nd. pose proof (NoDup_remove_2 _ _ _ Nd) as N2.
        rewrite in_app_iff in N2.
        rewrite (flat_ext (fun h => h :: tb_chain tb' h) (fun h => h :: tb_chain tb h) L).
        2: { intros x Hx. cbn. unfold setf. destruct (Z.eqb_spec x a) as [->|]; tauto. }
        rewrite (flat_ext (fun h => h :: tb_chain tb' h) (fun h => h :: tb_chain tb h) R).
        2: { intros x Hx. cbn. unfold setf. destruct (Z.eqb_spec x a) as [->|]; tauto. }
        cbn [tb' tb_chain]. unfold setf. rewrite Z.eqb_refl.
        rewrite <- !app_comm_cons, <- !app_assoc. cbn [app].
        etransitivity; [apply Permutation_middle|]. apply Permutation_app_head.
        etransitivity; [apply perm_swap|]. constructor. apply Permutation_middle. }
      split; [|split; auto].
      * split; auto. split; auto. split; [|split; [|split; auto]].
        -- eapply Permutation_NoDup; [exact P|]. constructor; auto.
        -- intros x Hx. apply (Permutation_in _ (Permutation_sym P)) in Hx. apply in_app_iff.
           destruct Hx as [<-|Hx]; [right; left; auto|left; apply Hi; auto].
        -- intros x Hx. cbn. unfold setf. destruct (Z.eqb_spec x a) as [->|]; auto. contradiction.
      * intros x. unfold uses. rewrite <- (count_perm _ _ x P). cbn [count_occ tb' tb_chain]. unfold setf.
        assert (Na' : new <> a) by (intros ->; auto).
        destruct (Z.eq_dec new x) as [->|N1]; destruct (Z.eqb_spec x a) as [->|N2]; try congruence.
        -- rewrite Z.eqb_refl. lia.
        -- destruct (Z.eqb_spec a new); [congruence|]. rewrite app_length. cbn [List.length]. lia.
        -- destruct (Z.eqb_spec x new); [congruence|]. lia.
  - cbn [Z.eqb]. eexists. exists t'. eexists. split; [reflexivity|].
    set (tb' := Tb s' (tb_chain tb) (setf (tb_head tb) new true)).
    assert (P : Permutation (new :: mem tb t) (mem tb' t')).
    { unfold mem. rewrite E3, E8, !flat_map_app. cbn [flat_map tb' tb_chain].
      rewrite (Hz new) by auto. apply Permutation_middle. }
    assert (It : forall h, In h (inorder t') <-> h = new \/ In h (inorder t)).
    { intros h. rewrite E8, E3, !in_app_iff. cbn [In]. intuition. }
    split; [|split].
    + split; auto. split; auto. split; [|split; [|split]].
      * eapply Permutation_NoDup; [exact P|]. constructor; auto.
      * intros x Hx. apply (Permutation_in _ (Permutation_sym P)) in Hx. apply in_app_iff.
        destruct Hx as [<-|Hx]; [right; left; auto|left; apply Hi; auto].
      * intros h Hh'. apply It in Hh'. cbn. unfold setf. destruct (Z.eqb_spec h new); auto. destruct Hh'; [contradiction|auto].
      * intros x Hx. cbn. apply Hz. intros G. apply Hx. apply It. auto.
    + intros x Hx. cbn. destruct (in_dec Z.eq_dec x (inorder t')) as [I|I].
      * eapply holds_live'; eauto.
      * rewrite E9; auto.
    + intros x. unfold uses. rewrite <- (count_perm _ _ x P). cbn [count_occ tb' tb_chain]. unfold setf.
      destruct (Z.eq_dec new x) as [->|N1].
      * rewrite Z.eqb_refl. lia.
      * destruct (Z.eqb_spec x new); [congruence|]. lia.
Qed.

Lemma sinv_empty tb : empty_table tb -> sinv tb E [] /\ (forall x, uses tb E x = 0).
Proof.
  intros (A & B & C). destruct (empty_holds (tb_rb tb) A) as [E1 E2]. split.
  - split; [exact E1|]. split; [exact E2|]. split; [constructor|]. split; [intros x []|]. split; [intros h []|auto].
  - intros x. unfold uses. rewrite B. reflexivity.
Qed.

(** ** Registering *)
Definition regst (P : Z -> Prop) (s : tsyms) (hist : list Z) : Prop :=
  exists tn ta, sinv (t_syms s) tn hist /\ sinv (t_addrs s) ta hist /\
    forall x, P x -> refc s x = uses (t_syms s) tn x + uses (t_addrs s) ta x.

Lemma link_step P info s hist new fuel :
  regst P s hist -> ~ In new hist -> node_addr new ->
  hp (tb_rb (t_syms s)) new <> None -> hp (tb_rb (t_addrs s)) new <> None -> (List.length hist < fuel)%nat ->
  exists s', link_task_sym fuel info s new = Some s' /\ regst P s' (hist ++ [new]) /\
    (forall x, hp (tb_rb (t_syms s)) x <> None -> hp (tb_rb (t_syms s')) x <> None) /\
    (forall x, hp (tb_rb (t_addrs s)) x <> None -> hp (tb_rb (t_addrs s')) x <> None) /\
    alive s' = alive s /\ freed s' = freed s.
Proof.
  intros (tn & ta & S1 & S2 & Rc) Hn Na L1 L2 Hf. unfold link_task_sym, link_task_sym_name.
  destruct (sinv_step _ _ _ (refc s) (fun n => cmp_task_sym (ts_name (info n)) (ts_name (info new)))
         (fun n => ts_addr (info n) =? ts_addr (info new)) _ _ S1 Hn Na L1 Hf) as (tb1 & t1 & rc1 & A1 & A2 & A3 & A4).
  rewrite A1. cbn [fst snd]. unfold link_task_sym_addr. cbn [t_addrs refc t_syms alive freed].
  destruct (sinv_step _ _ _ rc1 (fun n => cmp_task_addr (ts_addr (info n)) (ts_addr (info new)))
         (fun n => str_eqb (ts_name (info n)) (ts_name (info new))) _ _ S2 Hn Na L2 Hf) as (tb2 & t2 & rc2 & B1 & B2 & B3 & B4).
  rewrite B1. cbn [fst snd]. eexists. split; [reflexivity|]. cbn [t_addrs refc t_syms alive freed]. split.
  - exists t1, t2. cbn [t_addrs refc t_syms]. split; auto. split; auto. intros x Px.
    specialize (A4 x). specialize (B4 x). specialize (Rc x Px). lia.
  - auto.
Qed.

Lemma link_all_reg P info l : forall s hist fuel,
  regst P s hist -> NoDup l -> (forall x, In x l -> ~ In x hist) -> pool_ok s l ->
  (List.length hist + List.length l <= fuel)%nat ->
  exists s', link_all fuel info s l = Some s' /\ regst P s' (hist ++ l) /\ alive s' = alive s /\ freed s' = freed s.
Proof.
  induction l as [|a l IH]; intros s hist fuel Hr Nd Hd Hp Hf.
  - exists s. cbn. rewrite app_nil_r. auto.
  - cbn [link_all]. apply NoDup_cons_iff in Nd. destruct Nd as [Na Nd]. apply Forall_cons_iff in Hp.
    destruct Hp as [(P1 & P2 & P3) Hp]. cbn [List.length] in Hf.
    destruct (link_step P info s hist a fuel Hr (Hd a (or_introl eq_refl)) P1 P2 P3 ltac:(lia)) as (s1 & E1 & E2 & E3 & E4 & E5 & E6).
    rewrite E1. destruct (IH s1 (hist ++ [a]) fuel E2 Nd) as (s' & F1 & F2 & F3 & F4).
    + intros x Hx G. apply in_app_iff in G. destruct G as [G|[->|[]]]; auto. apply (Hd x (or_intror Hx)). auto.
    + unfold pool_ok in *. rewrite Forall_forall in *. intros x Hx. destruct (Hp x Hx) as (Q1 & Q2 & Q3). auto.
    + rewrite app_length. cbn. lia.
    + exists s'. rewrite <- app_assoc in F2. split; auto. split; auto. split; congruence.
Qed.

Lemma fresh_regst s l : fresh_syms s l -> regst (fun x => In x l) s [].
Proof.
  intros (A & B & _ & C). destruct (sinv_empty _ A) as [A1 A2], (sinv_empty _ B) as [B1 B2].
  exists E, E. split; auto. split; auto. intros x Hx. rewrite A2, B2. rewrite Forall_forall in C. destruct (C x Hx) as (_ & _ & _ & D & _). auto.
Qed.

(** ** Freeing *)
Definition cnt1 (x y : Z) : Z := if x =? y then 1 else 0.

Lemma free_members_ok ms : forall f h,
  NoDup ms -> ~ In h ms -> f_alive f h = true -> (forall m, In m ms -> f_alive f m = true) ->
  exists f', free_members f h ms = Some f' /\
    (forall y, f_rc f' y = f_rc f y - (if in_dec Z.eq_dec y ms then 1 else 0) - (if y =? h then Z.of_nat (List.length ms) else 0)) /\
    (forall y, f_alive f' y = f_alive f y && negb ((if in_dec Z.eq_dec y ms then true else false) && (f_rc f' y =? 0))) /\
    f_log f' = f_log f ++ filter (fun y => f_rc f' y =? 0) ms.
Proof.
  induction ms as [|m ms IH]; intros f h Nd Nh Ah Am.
  - exists f. cbn. split; auto. split; [intros y; destruct (y =? h); lia|]. split; [intros y; rewrite andb_true_r; auto|].
    rewrite app_nil_r. auto.
  - cbn [free_members]. apply NoDup_cons_iff in Nd. destruct Nd as [Nm Nd].
    assert (Nhm : h <> m) by (intros ->; apply Nh; left; auto).
    rewrite Ah, (Am m (or_introl eq_refl)). cbn [andb]. unfold free_task_sym. cbn [f_alive f_rc f_log].
    rewrite (Am m (or_introl eq_refl)).
    assert (Em : setf (f_rc f) h (f_rc f h - 1) m = f_rc f m).
    { unfold setf. destruct (Z.eqb_spec m h); [congruence|auto]. }
    rewrite Em.
    assert (G : forall al lg, al h = true -> (forall x, In x ms -> al x = true) ->
      (forall y, y <> m -> al y = f_alive f y) -> al m = negb (f_rc f m - 1 =? 0) ->
      lg = f_log f ++ (if f_rc f m - 1 =? 0 then [m] else []) ->
      exists f', free_members (Fs (setf (setf (f_rc f) h (f_rc f h - 1)) m (f_rc f m - 1)) al lg) h ms = Some f' /\
       (forall y, f_rc f' y = f_rc f y - (if in_dec Z.eq_dec y (m :: ms) then 1 else 0) -
            (if y =? h then Z.of_nat (List.length (m :: ms)) else 0)) /\
       (forall y, f_alive f' y = f_alive f y && negb ((if in_dec Z.eq_dec y (m :: ms) then true else false) && (f_rc f' y =? 0))) /\
       f_log f' = f_log f ++ filter (fun y => f_rc f' y =? 0) (m :: ms)).
    { intros al lg G1 G2 G3 G4 G5.
      destruct (IH (Fs (setf (setf (f_rc f) h (f_rc f h - 1)) m (f_rc f m - 1)) al lg) h Nd ltac:(intros G; apply Nh; right; auto) G1 G2)
        as (f' & F1 & F2 & F3 & F4). cbn [f_rc f_alive f_log] in *.
      assert (Rm : f_rc f' m = f_rc f m - 1).
      { rewrite F2. unfold setf. rewrite Z.eqb_refl. destruct (in_dec Z.eq_dec m ms); [contradiction|].
        destruct (Z.eqb_spec m h); [congruence|]. lia. }
      exists f'. split; auto. split; [|split].
      - intros y. rewrite F2. unfold setf. cbn [List.length].
        destruct (Z.eqb_spec y m) as [->|Ny].
        + destruct (in_dec Z.eq_dec m ms); [contradiction|].
          destruct (in_dec Z.eq_dec m (m :: ms)) as [_|C]; [|exfalso; apply C; left; auto].
          destruct (Z.eqb_spec m h); [congruence|]. lia.
        + destruct (in_dec Z.eq_dec y ms) as [I|I]; destruct (in_dec Z.eq_dec y (m :: ms)) as [J|J];
            try (exfalso; apply J; right; auto; fail); try (exfalso; destruct J; auto; congruence);
            destruct (Z.eqb_spec y h) as [->|]; lia.
      - intros y. rewrite F3. destruct (Z.eq_dec y m) as [->|Ny].
        + rewrite G4. destruct (in_dec Z.eq_dec m ms); [contradiction|]. cbn [andb negb]. rewrite andb_true_r.
          destruct (in_dec Z.eq_dec m (m :: ms)) as [_|C]; [|exfalso; apply C; left; auto].
          rewrite (Am m (or_introl eq_refl)), Rm. reflexivity.
        + rewrite G3 by auto. destruct (in_dec Z.eq_dec y ms) as [I|I]; destruct (in_dec Z.eq_dec y (m :: ms)) as [J|J];
            try (exfalso; apply J; right; auto; fail); try (exfalso; destruct J; auto; congruence); reflexivity.
      - rewrite F4, G5. cbn [filter]. rewrite Rm. rewrite <- app_assoc. destruct (f_rc f m - 1 =? 0); reflexivity. }
    destruct (f_rc f m - 1 =? 0) eqn:E0.
    + apply G; auto.
      * unfold setf. destruct (Z.eqb_spec h m); [congruence|auto].
      * intros x Hx. unfold setf. destruct (Z.eqb_spec x m); [subst; contradiction|]. apply Am. right; auto.
      * intros y Ny. unfold setf. destruct (Z.eqb_spec y m); [congruence|auto].
      * unfold setf. rewrite Z.eqb_refl. reflexivity.
    + apply G; auto.
      * intros x Hx. apply Am. right; auto.
      * apply Am. left. auto.
      * rewrite app_nil_r. auto.
Qed.

Lemma free_cb_ok tb f x :
  tb_head tb x = true -> NoDup (x :: tb_chain tb x) -> (forall m, In m (x :: tb_chain tb x) -> f_alive f m = true) ->
  exists f', rb_free_cb tb f x = Some f' /\
    (forall y, f_rc f' y = f_rc f y - (if in_dec Z.eq_dec y (x :: tb_chain tb x) then 1 else 0)
                 - (if y =? x then Z.of_nat (List.length (tb_chain tb x)) else 0)) /\
    (forall y, f_alive f' y = f_alive f y && negb ((if in_dec Z.eq_dec y (x :: tb_chain tb x) then true else false) && (f_rc f' y =? 0))) /\
    Permutation (f_log f') (f_log f ++ filter (fun y => f_rc f' y =? 0) (x :: tb_chain tb x)).
Proof.
  intros Hh Nd Al. apply NoDup_cons_iff in Nd. destruct Nd as [Nx Nd]. unfold rb_free_cb.
  rewrite (Al x (or_introl eq_refl)), Hh.
  destruct (free_members_ok (tb_chain tb x) f x Nd Nx (Al x (or_introl eq_refl)) ltac:(intros; apply Al; right; auto))
    as (f1 & A1 & A2 & A3 & A4). rewrite A1.
  assert (Ax : f_alive f1 x = true).
  { rewrite A3, (Al x (or_introl eq_refl)). destruct (in_dec Z.eq_dec x (tb_chain tb x)); [contradiction|]. reflexivity. }
  unfold free_task_sym. rewrite Ax.
  set (ch := tb_chain tb x) in *.
  assert (G : forall al lg, (forall y, y <> x -> al y = f_alive f1 y) -> al x = negb (f_rc f1 x - 1 =? 0) ->
     lg = f_log f1 ++ (if f_rc f1 x - 1 =? 0 then [x] else []) ->
     let f' := Fs (setf (f_rc f1) x (f_rc f1 x - 1)) al lg in
     (forall y, f_rc f' y = f_rc f y - (if in_dec Z.eq_dec y (x :: ch) then 1 else 0)
                 - (if y =? x then Z.of_nat (List.length ch) else 0)) /\
     (forall y, f_alive f' y = f_alive f y && negb ((if in_dec Z.eq_dec y (x :: ch) then true else false) && (f_rc f' y =? 0))) /\
     Permutation (f_log f') (f_log f ++ filter (fun y => f_rc f' y =? 0) (x :: ch))).
  { intros al lg G1 G2 G3. cbn [f_rc f_alive f_log].
    assert (Rx : f_rc f1 x = f_rc f x - Z.of_nat (List.length ch)).
    { rewrite A2. destruct (in_dec Z.eq_dec x ch); [contradiction|]. rewrite Z.eqb_refl. lia. }
    split; [|split].
    - intros y. unfold setf. destruct (Z.eqb_spec y x) as [->|Ny].
      + rewrite Rx. destruct (in_dec Z.eq_dec x (x :: ch)) as [_|C]; [|exfalso; apply C; left; auto]. lia.
      + rewrite A2. destruct (Z.eqb_spec y x); [congruence|].
        destruct (in_dec Z.eq_dec y ch) as [I|I]; destruct (in_dec Z.eq_dec y (x :: ch)) as [J|J];
            try (exfalso; apply J; right; auto; fail); try (exfalso; destruct J; auto; congruence); lia.
    - intros y. destruct (Z.eq_dec y x) as [->|Ny].
      + rewrite G2, (Al x (or_introl eq_refl)). unfold setf. rewrite Z.eqb_refl.
        destruct (in_dec Z.eq_dec x (x :: ch)) as [_|C]; [|exfalso; apply C; left; auto]. reflexivity.
      + rewrite G1, A3 by auto. unfold setf. destruct (Z.eqb_spec y x); [congruence|].
        destruct (in_dec Z.eq_dec y ch) as [I|I]; destruct (in_dec Z.eq_dec y (x :: ch)) as [J|J];
            try (exfalso; apply J; right; auto; fail); try (exfalso; destruct J; auto; congruence); reflexivity.
    - rewrite G3, A4. cbn [filter]. unfold setf at 1. rewrite Z.eqb_refl.
      rewrite (filter_ext_in (fun y => setf (f_rc f1) x (f_rc f1 x - 1) y =? 0) (fun y => f_rc f1 y =? 0) ch).
      2: { intros y Hy. unfold setf. destruct (Z.eqb_spec y x) as [->|]; [contradiction|auto]. }
      rewrite <- app_assoc. apply Permutation_app_head. destruct (f_rc f1 x - 1 =? 0).
      + symmetry. apply Permutation_cons_append. 
      + rewrite app_nil_r. reflexivity. }
  destruct (f_rc f1 x - 1 =? 0) eqn:E0.
  - eexists. split; [reflexivity|]. apply G; auto.
    + intros y Ny. unfold setf. destruct (Z.eqb_spec y x); [congruence|auto].
    + unfold setf. rewrite Z.eqb_refl. reflexivity.
  - eexists. split; [reflexivity|]. apply G; auto. cbn. rewrite app_nil_r. auto.
Qed.

Lemma free_all_ok tb hs : forall f,
  (forall h, In h hs -> tb_head tb h = true) -> NoDup (flat_map (fun h => h :: tb_chain tb h) hs) ->
  (forall m, In m (flat_map (fun h => h :: tb_chain tb h) hs) -> f_alive f m = true) ->
  exists f', free_all tb f hs = Some f' /\
    (forall y, f_rc f' y = f_rc f y - (if in_dec Z.eq_dec y (flat_map (fun h => h :: tb_chain tb h) hs) then 1 else 0)
                 - (if in_dec Z.eq_dec y hs then Z.of_nat (List.length (tb_chain tb y)) else 0)) /\
    (forall y, f_alive f' y = f_alive f y &&
       negb ((if in_dec Z.eq_dec y (flat_map (fun h => h :: tb_chain tb h) hs) then true else false) && (f_rc f' y =? 0))) /\
    Permutation (f_log f') (f_log f ++ filter (fun y => f_rc f' y =? 0) (flat_map (fun h => h :: tb_chain tb h) hs)).
Proof.
  induction hs as [|h hs IH]; intros f Hh Nd Al.
  - exists f. cbn. split; auto. split; [intros; lia|]. split; [intros; rewrite andb_true_r; auto|]. rewrite app_nil_r. auto.
  - cbn [free_all]. set (F := fun h => h :: tb_chain tb h) in *. cbn [flat_map] in *.
    set (g := F h) in *. set (fm := flat_map F hs) in *.
    assert (Nd1 : NoDup g /\ NoDup fm /\ forall x, In x g -> ~ In x fm).
    { clear - Nd. induction g as [|a g IH]; cbn in *; [split; [constructor|split; auto]|].
      apply NoDup_cons_iff in Nd. destruct Nd as [A B]. destruct (IH B) as (I1 & I2 & I3). rewrite in_app_iff in A.
      split; [constructor; tauto|]. split; auto. intros x [<-|Hx]; [tauto|auto]. }
    destruct Nd1 as (N1 & N2 & N3).
    destruct (free_cb_ok tb f h (Hh h (or_introl eq_refl)) N1 ltac:(intros m Hm; apply Al; apply in_app_iff; auto))
      as (f1 & A1 & A2 & A3 & A4). rewrite A1. fold g in A2, A3, A4. change (h :: tb_chain tb h) with g in A2, A3, A4.
    destruct (IH f1 ltac:(intros; apply Hh; right; auto) N2) as (f' & B1 & B2 & B3 & B4).
    { intros m Hm. rewrite A3. rewrite (Al m) by (apply in_app_iff; auto).
      destruct (in_dec Z.eq_dec m g) as [I|I]; [exfalso; apply (N3 m I Hm)|]. reflexivity. }
    fold fm in B2, B3, B4.
    assert (Hg : In h g) by (left; auto).
    assert (Hhs : ~ In h hs).
    { intros G. apply (N3 h Hg). apply in_flat_map. exists h. split; [auto|left; auto]. }
    assert (Ghs : forall y, In y g -> ~ In y hs).
    { intros y Gy G. apply (N3 y Gy). apply in_flat_map. exists y. split; [auto|left; auto]. }
    assert (Rg : forall y, In y g -> f_rc f' y = f_rc f1 y).
    { intros y Hy. rewrite B2. destruct (in_dec Z.eq_dec y fm) as [I|I]; [exfalso; apply (N3 y Hy I)|].
      destruct (in_dec Z.eq_dec y hs) as [J|J]; [exfalso; apply (Ghs y Hy J)|]. lia. }
    exists f'. split; auto. split; [|split].
    + intros y. rewrite B2, A2.
      destruct (in_dec Z.eq_dec y (g ++ fm)) as [I|I]; rewrite in_app_iff in I.
      * destruct (in_dec Z.eq_dec y g) as [Ig|Ig], (in_dec Z.eq_dec y fm) as [If|If]; try tauto.
        -- exfalso. apply (N3 y Ig If).
        -- destruct (in_dec Z.eq_dec y hs) as [J|J]; [exfalso; apply (Ghs y Ig J)|].
           destruct (in_dec Z.eq_dec y (h :: hs)) as [J2|J2]; destruct (Z.eqb_spec y h) as [->|Nh]; try lia.
           ++ exfalso. destruct J2; [congruence|tauto].
           ++ exfalso. apply J2. left. auto.
        -- destruct (Z.eqb_spec y h) as [->|Nh]; [contradiction|].
           destruct (in_dec Z.eq_dec y hs) as [J|J]; destruct (in_dec Z.eq_dec y (h :: hs)) as [J2|J2]; try lia.
           ++ exfalso. apply J2. right. auto.
           ++ exfalso. destruct J2; [congruence|tauto].
      * destruct (in_dec Z.eq_dec y g) as [Ig|Ig], (in_dec Z.eq_dec y fm) as [If|If]; try tauto.
        destruct (Z.eqb_spec y h) as [->|Nh]; [contradiction|].
        destruct (in_dec Z.eq_dec y hs) as [J|J]; [exfalso; apply If; apply in_flat_map; exists y; split; auto; left; auto|].
        destruct (in_dec Z.eq_dec y (h :: hs)) as [J2|J2]; [exfalso; destruct J2; [congruence|tauto]|]. lia.
    + intros y. rewrite B3, A3.
      destruct (in_dec Z.eq_dec y (g ++ fm)) as [I|I]; rewrite in_app_iff in I;
        destruct (in_dec Z.eq_dec y g) as [Ig|Ig], (in_dec Z.eq_dec y fm) as [If|If]; try tauto.
      * exfalso. apply (N3 y Ig If).
      * rewrite (Rg y Ig). cbn [andb negb]. rewrite andb_true_r. reflexivity.
      * cbn [andb negb]. rewrite andb_true_r. reflexivity.
      * cbn [andb negb]. rewrite !andb_true_r. reflexivity.
    + rewrite B4. rewrite filter_app. rewrite (filter_ext_in _ (fun y => f_rc f1 y =? 0) g).
      2: { intros y Hy. rewrite (Rg y Hy). auto. }
      rewrite app_assoc. apply Permutation_app_tail. exact A4.
Qed.

Lemma free_syms_ok (P : Z -> Prop) s hist fuel :
  regst P s hist -> (forall x, In x hist -> P x) -> (forall x, In x hist -> alive s x = true) -> (List.length hist < fuel)%nat ->
  exists f tn ta, holds (tb_rb (t_syms s)) tn /\ holds (tb_rb (t_addrs s)) ta /\
    free_task_syms fuel s = Some f /\
    (exists l, Permutation (f_log f) (freed s ++ l) /\ NoDup l /\
       (forall x, In x l <-> reachable (t_syms s) tn x \/ reachable (t_addrs s) ta x)) /\
    (forall x, f_alive f x = true <-> alive s x = true /\ ~ reachable (t_syms s) tn x /\ ~ reachable (t_addrs s) ta x).
Proof.
  intros (tn & ta & (N1 & N2 & N3 & N4 & N5 & N6) & (M1 & M2 & M3 & M4 & M5 & M6) & Rc) HP Al Hf.
  assert (Ln : (List.length (inorder tn) <= List.length hist)%nat).
  { pose proof (mem_len (t_syms s) tn). pose proof (NoDup_incl_length N3 N4). lia. }
  assert (La : (List.length (inorder ta) <= List.length hist)%nat).
  { pose proof (mem_len (t_addrs s) ta). pose proof (NoDup_incl_length M3 M4). lia. }
  unfold free_task_syms.
  destruct (rb_destroy_ok _ tn fuel N1 ltac:(unfold size; lia)) as (d1 & D1 & _). rewrite D1. cbn [fst].
  destruct (free_all_ok (t_syms s) (inorder tn) (Fs (refc s) (alive s) (freed s)) N5 N3) as (f1 & A1 & A2 & A3 & A4).
  { intros m Hm. apply Al. apply N4. auto. }
  rewrite A1. cbn [f_rc f_alive f_log] in *.
  destruct (rb_destroy_ok _ ta fuel M1 ltac:(unfold size; lia)) as (d2 & D2 & _). rewrite D2. cbn [fst].
  fold (mem (t_syms s) tn) in *.
  assert (R1 : forall y, In y hist -> f_rc f1 y = uses (t_addrs s) ta y).
  { intros y Py. rewrite A2, Rc by auto. unfold uses at 1.
    assert (E1 : Z.of_nat (count_occ Z.eq_dec (mem (t_syms s) tn) y) = if in_dec Z.eq_dec y (mem (t_syms s) tn) then 1 else 0).
    { destruct (in_dec Z.eq_dec y (mem (t_syms s) tn)) as [I|I].
      - rewrite (proj1 (NoDup_count_occ' Z.eq_dec _) N3 y I). reflexivity.
      - rewrite (proj1 (count_occ_not_In Z.eq_dec _ _) I). reflexivity. }
    rewrite E1. destruct (in_dec Z.eq_dec y (inorder tn)) as [I|I]; [lia|]. rewrite (N6 y I). cbn [List.length]. lia. }
  assert (U1 : forall y, In y (mem (t_addrs s) ta) ->
            uses (t_addrs s) ta y = 1 + Z.of_nat (List.length (tb_chain (t_addrs s) y))).
  { intros y Hy. unfold uses. rewrite (proj1 (NoDup_count_occ' Z.eq_dec _) M3 y Hy). lia. }
  assert (U0 : forall y, ~ In y (mem (t_addrs s) ta) -> uses (t_addrs s) ta y = 0).
  { intros y Hy. unfold uses. rewrite (proj1 (count_occ_not_In Z.eq_dec _ _) Hy).
    rewrite (M6 y); [reflexivity|]. intros G. apply Hy. apply mem_in. exists y. auto. }
  destruct (free_all_ok (t_addrs s) (inorder ta) f1 M5 M3) as (f2 & B1 & B2 & B3 & B4).
  { intros m Hm. rewrite A3, (Al m (M4 m Hm)), (R1 m (M4 m Hm)). fold (mem (t_addrs s) ta) in Hm. rewrite (U1 m Hm).
    destruct (Z.eqb_spec (1 + Z.of_nat (List.length (tb_chain (t_addrs s) m))) 0); [lia|]. rewrite andb_false_r. reflexivity. }
  fold (mem (t_addrs s) ta) in *.
  assert (R2 : forall y, In y hist -> f_rc f2 y = 0).
  { intros y Py. rewrite B2, (R1 y Py). destruct (in_dec Z.eq_dec y (mem (t_addrs s) ta)) as [I|I].
    - rewrite (U1 y I). destruct (in_dec Z.eq_dec y (inorder ta)) as [J|J]; [lia|]. rewrite (M6 y J). cbn. lia.
    - rewrite (U0 y I). destruct (in_dec Z.eq_dec y (inorder ta)) as [J|J]; [|lia].
      exfalso. apply I. apply mem_in. exists y. auto. }
  exists f2, tn, ta. split; auto. split; auto. split; auto.
  assert (F2 : filter (fun y => f_rc f2 y =? 0) (mem (t_addrs s) ta) = mem (t_addrs s) ta).
  { clear - R2 M4. induction (mem (t_addrs s) ta) as [|a l IHl]; cbn [filter]; auto.
    rewrite R2 by (apply M4; left; auto). rewrite IHl; [reflexivity|]. intros x Hx. apply M4. right; auto. }
  rewrite F2 in B4. split.
  - exists (filter (fun y => f_rc f1 y =? 0) (mem (t_syms s) tn) ++ mem (t_addrs s) ta). split; [|split].
    + rewrite B4, A4, <- app_assoc. reflexivity.
    + assert (Nf : NoDup (filter (fun y => f_rc f1 y =? 0) (mem (t_syms s) tn))) by (apply NoDup_filter; auto).
      assert (Dj : forall x, In x (filter (fun y => f_rc f1 y =? 0) (mem (t_syms s) tn)) -> ~ In x (mem (t_addrs s) ta)).
      { intros x Hx Ha. apply filter_In in Hx. destruct Hx as [_ Hx]. rewrite (R1 x (M4 x Ha)), (U1 x Ha) in Hx. apply Z.eqb_eq in Hx. lia. }
      revert Nf Dj. generalize (filter (fun y => f_rc f1 y =? 0) (mem (t_syms s) tn)). clear - M3.
      induction l as [|a l IH]; intros Nf Dj; cbn [app]; auto. apply NoDup_cons_iff in Nf. destruct Nf. constructor.
      * rewrite in_app_iff. intros [G|G]; auto. apply (Dj a); auto. left; auto.
      * apply IH; auto. intros x Hx. apply Dj. right; auto.
    + intros x. rewrite in_app_iff, filter_In, !mem_in.
      split; [tauto|]. intros [G|G]; [|auto].
      destruct (in_dec Z.eq_dec x (mem (t_addrs s) ta)) as [I|I]; [right; apply mem_in; auto|].
      left. split; auto. rewrite R1 by (apply N4, mem_in; auto). rewrite (U0 x I). reflexivity.
  - intros x. rewrite <- !mem_in, B3, A3. destruct (in_dec Z.eq_dec x hist) as [Ih|Ih].
    2: { destruct (in_dec Z.eq_dec x (mem (t_syms s) tn)) as [I|I]; [exfalso; apply Ih, N4, I|].
         destruct (in_dec Z.eq_dec x (mem (t_addrs s) ta)) as [J|J]; [exfalso; apply Ih, M4, J|].
         cbn. rewrite !andb_true_r. tauto. }
    rewrite (R2 x Ih), (R1 x Ih), Z.eqb_refl. rewrite !andb_true_r.
    destruct (alive s x); cbn [andb]; [|intuition discriminate].
    destruct (in_dec Z.eq_dec x (mem (t_addrs s) ta)) as [I|I].
    + rewrite andb_false_r. intuition discriminate.
    + rewrite (U0 x I). cbn. destruct (in_dec Z.eq_dec x (mem (t_syms s) tn)); cbn; intuition discriminate.
Qed.

(** ** Keyed tables over a whole history *)
Lemma strcmp_C1 a b : pos_bytes a -> pos_bytes b -> (strcmp a b < 0 <-> 0 < strcmp b a).
Proof. intros _ _. rewrite (strcmp_antisym a b). lia. Qed.

Lemma eqb_trans (f : Z -> Z) a b c : (f a =? f b) = true -> (f b =? f c) = true -> (f a =? f c) = true.
Proof. rewrite !Z.eqb_eq. congruence. Qed.

Lemma str_trans (f : Z -> list Z) a b c : str_eqb (f a) (f b) = true -> str_eqb (f b) (f c) = true -> str_eqb (f a) (f c) = true.
Proof. rewrite !str_eqb_eq. congruence. Qed.

Definition window (lo a : Z) : Prop := lo <= a < lo + 2 ^ 31.

Lemma cmp_addr_window lo a b : window lo a -> window lo b -> cmp_task_addr a b = a - b.
Proof. unfold window, cmp_task_addr. intros A B. apply s32_small. lia. Qed.

Lemma addr_C1 lo a b : window lo a -> window lo b -> (cmp_task_addr a b < 0 <-> 0 < cmp_task_addr b a).
Proof. intros A B. rewrite (cmp_addr_window lo a b), (cmp_addr_window lo b a) by auto. lia. Qed.

Lemma addr_C2 lo a b d : window lo a -> window lo b -> window lo d ->
  cmp_task_addr a b <= 0 -> cmp_task_addr b d <= 0 -> cmp_task_addr a d <= 0.
Proof. intros A B C. rewrite (cmp_addr_window lo a b), (cmp_addr_window lo b d), (cmp_addr_window lo a d) by auto. lia. Qed.

Lemma link_task_name fuel info s new s' hist :
  link_task_sym fuel info s new = Some s' -> name_inv info s hist ->
  Forall (fun x => pos_bytes (ts_name (info x))) hist -> pos_bytes (ts_name (info new)) -> ~ In new hist ->
  node_addr new -> hp (tb_rb (t_syms s)) new <> None -> (List.length hist < fuel)%nat ->
  name_inv info s' (hist ++ [new]).
Proof.
  intros E I Dh Dn Hn Na Lv Hf. unfold link_task_sym, link_task_sym_name in E.
  destruct (link_in fuel (t_syms s) _ _ _ new) as [[tb1 rc1]|] eqn:E1; [|discriminate]. cbn [fst snd] in E.
  unfold link_task_sym_addr in E. cbn [t_addrs refc t_syms alive freed] in E.
  destruct (link_in fuel (t_addrs s) _ _ _ new) as [[tb2 rc2]|] eqn:E2; [|discriminate]. cbn [fst snd] in E.
  injection E as <-. unfold name_inv. cbn [t_syms].
  apply (kinv_run (list Z) (fun x => ts_name (info x)) strcmp pos_bytes strcmp_C1 strcmp_trans _ (eqb_trans _) _ _ _ _ _ _ _ I Dh Dn Hn Na Lv Hf E1).
Qed.

Lemma link_task_addr lo fuel info s new s' hist :
  link_task_sym fuel info s new = Some s' -> addr_inv info s hist ->
  Forall (fun x => window lo (ts_addr (info x))) hist -> window lo (ts_addr (info new)) -> ~ In new hist ->
  node_addr new -> hp (tb_rb (t_addrs s)) new <> None -> (List.length hist < fuel)%nat ->
  addr_inv info s' (hist ++ [new]).
Proof.
  intros E I Dh Dn Hn Na Lv Hf. unfold link_task_sym, link_task_sym_name in E.
  destruct (link_in fuel (t_syms s) _ _ _ new) as [[tb1 rc1]|] eqn:E1; [|discriminate]. cbn [fst snd] in E.
  unfold link_task_sym_addr in E. cbn [t_addrs refc t_syms alive freed] in E.
  destruct (link_in fuel (t_addrs s) _ _ _ new) as [[tb2 rc2]|] eqn:E2; [|discriminate]. cbn [fst snd] in E.
  injection E as <-. unfold addr_inv. cbn [t_addrs].
  apply (kinv_run Z (fun x => ts_addr (info x)) cmp_task_addr (window lo) (addr_C1 lo) (addr_C2 lo) _ (str_trans _) _ _ _ _ _ _ _ I Dh Dn Hn Na Lv Hf E2).
Qed.

Lemma link_all_inv P info (Q : tsyms -> list Z -> Prop) (ok : Z -> Prop) fuel :
  (forall s hist new s', link_task_sym fuel info s new = Some s' -> Q s hist -> Forall ok hist -> ok new -> ~ In new hist ->
     node_addr new -> hp (tb_rb (t_syms s)) new <> None -> hp (tb_rb (t_addrs s)) new <> None ->
     (List.length hist < fuel)%nat -> Q s' (hist ++ [new])) ->
  forall l s hist, regst P s hist -> Q s hist -> Forall ok hist -> Forall ok l -> NoDup l -> (forall x, In x l -> ~ In x hist) ->
  pool_ok s l -> (List.length hist + List.length l <= fuel)%nat ->
  exists s', link_all fuel info s l = Some s' /\ regst P s' (hist ++ l) /\ Q s' (hist ++ l) /\ alive s' = alive s /\ freed s' = freed s.
Proof.
  intros Step. induction l as [|a l IH]; intros s hist Hr HQ Oh Ol Nd Hd Hp Hf.
  - exists s. cbn. rewrite app_nil_r. auto.
  - cbn [link_all]. apply NoDup_cons_iff in Nd. destruct Nd as [Na Nd]. apply Forall_cons_iff in Hp, Ol.
    destruct Hp as [(P1 & P2 & P3) Hp]. destruct Ol as [Oa Ol]. cbn [List.length] in Hf.
    destruct (link_step P info s hist a fuel Hr (Hd a (or_introl eq_refl)) P1 P2 P3 ltac:(lia)) as (s1 & E1 & E2 & E3 & E4 & E5 & E6).
    rewrite E1. destruct (IH s1 (hist ++ [a]) E2) as (s' & F1 & F2 & F2' & F3 & F4); auto.
    + apply (Step s hist a s1); auto; [apply Hd; left; auto|lia].
    + apply Forall_app. auto.
    + intros x Hx G. apply in_app_iff in G. destruct G as [G|[->|[]]]; auto. apply (Hd x (or_intror Hx)). auto.
    + unfold pool_ok in *. rewrite Forall_forall in *. intros x Hx. destruct (Hp x Hx) as (Q1 & Q2 & Q3). auto.
    + rewrite app_length. cbn. lia.
    + exists s'. rewrite <- app_assoc in F2, F2'. split; auto. split; auto. split; auto. split; congruence.
Qed.

Lemma fresh_pool s l : fresh_syms s l -> pool_ok s l.
Proof.
  intros (_ & _ & _ & F). unfold pool_ok. rewrite Forall_forall in *. intros x Hx. destruct (F x Hx) as (A & B & C & _). auto.
Qed.

Lemma run_names info s l fuel :
  fresh_syms s l -> Forall (fun x => cstring (ts_name (info x))) l -> (List.length l < fuel)%nat ->
  exists s', link_all fuel info s l = Some s' /\ regst (fun x => In x l) s' l /\ name_inv info s' l /\ alive s' = alive s /\ freed s' = freed s.
Proof.
  intros F C Hf.
  apply (link_all_inv (fun x => In x l) info (name_inv info) (fun x => pos_bytes (ts_name (info x))) fuel) with (hist := []); auto.
  - intros. eapply link_task_name; eauto.
  - apply fresh_regst; auto.
  - apply kinv_empty. apply F.
  - rewrite Forall_forall in *. intros x Hx. specialize (C x Hx). unfold pos_bytes, cstring in *. rewrite Forall_forall in *.
    intros c Hc. specialize (C c Hc). lia.
  - apply F.
  - apply fresh_pool. auto.
  - cbn. lia.
Qed.

Lemma run_addrs lo info s l fuel :
  fresh_syms s l -> Forall (fun x => window lo (ts_addr (info x))) l -> (List.length l < fuel)%nat ->
  exists s', link_all fuel info s l = Some s' /\ addr_inv info s' l.
Proof.
  intros F C Hf.
  destruct (link_all_inv (fun x => In x l) info (addr_inv info) (fun x => window lo (ts_addr (info x))) fuel) with (hist := @nil Z) (s := s) (l := l)
    as (s' & A & _ & B & _); auto.
  - intros. eapply link_task_addr; eauto.
  - apply fresh_regst; auto.
  - apply kinv_empty. apply F.
  - apply F.
  - apply fresh_pool. auto.
  - cbn. lia.
  - eauto.
Qed.

Lemma cstring_pos s : cstring s -> pos_bytes s.
Proof. unfold cstring, pos_bytes. rewrite !Forall_forall. intros H c Hc. specialize (H c Hc). lia. Qed.

Lemma filter_name (info : Z -> tinfo) l name :
  Forall (fun x => pos_bytes (ts_name (info x))) l -> pos_bytes name ->
  filter (fun x => strcmp (ts_name (info x)) name =? 0) l = filter (fun x => str_eqb (ts_name (info x)) name) l.
Proof.
  intros F P. apply filter_ext_in. intros x Hx. rewrite Forall_forall in F. apply eq_true_iff_eq.
  rewrite Z.eqb_eq, str_eqb_eq. apply strcmp_0; auto. apply F; auto.
Qed.

Lemma names_pos (info : Z -> tinfo) l : Forall (fun x => cstring (ts_name (info x))) l -> Forall (fun x => pos_bytes (ts_name (info x))) l.
Proof. rewrite !Forall_forall. intros H x Hx. apply cstring_pos. auto. Qed.

Lemma find_name_ok info s l name fuel :
  name_inv info s l -> Forall (fun x => cstring (ts_name (info x))) l -> cstring name -> (List.length l < fuel)%nat ->
  find_task_sym fuel info s name = Some (hd 0 (named info l name), tl (named info l name)).
Proof.
  intros I C Cn Hf. apply names_pos in C. apply cstring_pos in Cn.
  destruct (kinv_find (list Z) (fun x => ts_name (info x)) strcmp pos_bytes strcmp_C1 strcmp_trans _ (eqb_trans _) _ _ _ fuel I C Cn Hf)
    as (a & c & E1 & [[-> E2]|(E2 & E3 & E4 & E5)]); unfold find_task_sym; change cmp_task_sym with strcmp; rewrite E1; cbn [fst].
  - unfold named. rewrite <- filter_name by auto. rewrite E2. reflexivity.
  - unfold named. rewrite <- filter_name by auto. rewrite <- E5. cbn [hd tl].
    destruct (Z.eqb_spec a 0); [contradiction|]. reflexivity.
Qed.

Lemma distinct_hd same l : hd 0 (distinct same l) = hd 0 l.
Proof. destruct l; reflexivity. Qed.

Lemma find_addr_ok lo info s l addr fuel :
  addr_inv info s l -> Forall (fun x => window lo (ts_addr (info x))) l -> window lo addr -> (List.length l < fuel)%nat ->
  find_task_addr fuel info s addr = Some (hd 0 (located info l addr)).
Proof.
  intros I C Ca Hf.
  assert (Ef : filter (fun x => cmp_task_addr (ts_addr (info x)) addr =? 0) l = located info l addr).
  { unfold located. apply filter_ext_in. intros x Hx. rewrite Forall_forall in C.
    rewrite (cmp_addr_window lo) by auto. apply eq_true_iff_eq. rewrite !Z.eqb_eq. lia. }
  destruct (kinv_find Z (fun x => ts_addr (info x)) cmp_task_addr (window lo) (addr_C1 lo) (addr_C2 lo) _ (str_trans _) _ _ _ fuel I C Ca Hf)
    as (a & c & E1 & [[-> E2]|(E2 & E3 & E4 & E5)]); unfold find_task_addr; rewrite E1; cbn [fst].
  - rewrite Ef in E2. rewrite E2. reflexivity.
  - rewrite Ef in E5. rewrite <- (distinct_hd (fun a b => str_eqb (ts_name (info a)) (ts_name (info b)))), <- E5. reflexivity.
Qed.

Lemma tree_unique s t t' : holds s t -> holds s t' -> inorder t = inorder t'.
Proof.
  intros H H'. 
  destruct (rb_destroy_ok s t (S (size t + size t')) H ltac:(lia)) as (d & E & _).
  destruct (rb_destroy_ok s t' (S (size t + size t')) H' ltac:(lia)) as (d' & E' & _). congruence.
Qed.

(** Symbols that all differ in name or address are all kept in the name table. *)
Lemma distinct_all same l x : (forall a b, In a l -> In b l -> same a b = true -> a = b) -> In x l -> In x (distinct same l).
Proof.
  induction l as [|a l IH]; intros H Hx; cbn; auto. destruct Hx as [->|Hx]; auto.
  destruct (same a x) eqn:E.
  - left. apply H; auto; [left|right]; auto.
  - right. apply filter_In. rewrite E. split; auto. apply IH; auto. intros b c Hb Hc. apply H; right; auto.
Qed.

Lemma name_reach info s l t x :
  name_inv info s l -> Forall (fun x => pos_bytes (ts_name (info x))) l -> holds (tb_rb (t_syms s)) t ->
  (forall a b, In a l -> In b l -> ts_name (info a) = ts_name (info b) -> ts_addr (info a) = ts_addr (info b) -> a = b) ->
  In x l -> reachable (t_syms s) t x.
Proof.
  intros (t' & H & _ & _ & Hc & Hx & _) C Ht Hd Hi. rewrite Forall_forall in C.
  destruct (Hx x Hi) as (h & H1 & H2). rewrite (tree_unique _ _ _ H Ht) in H1. exists h. split; auto.
  rewrite <- (tree_unique _ _ _ H Ht) in H1. destruct (Hc h H1) as [I1 I2].
  assert (G : In x (h :: tb_chain (t_syms s) h)).
  { rewrite I2. apply distinct_all.
    - intros a b Ha Hb E. apply filter_In in Ha, Hb. destruct Ha as [Ha Ea], Hb as [Hb Eb].
      apply Z.eqb_eq in E, Ea, Eb. apply strcmp_0 in Ea; [|apply C; auto|apply C; auto].
      apply strcmp_0 in Eb; [|apply C; auto|apply C; auto]. apply Hd; auto. congruence.
    - apply filter_In. split; auto. apply Z.eqb_eq. auto. }
  destruct G as [G|G]; auto.
Qed.
