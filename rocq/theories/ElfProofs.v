(** Proofs about ELF reading. *)
From Coq Require Import ZArith String List Bool Lia Sorted ZifyBool ZifyNat.
From Verif Require TextModel.
From Verif Require Import Word WordLemmas RbModel RbSpec RbPure RbSep RbTop RbErase RbWalk RbSeq Str SymProofs ElfDefs ElfModel ElfSpec.
Import ListNotations.
Open Scope Z_scope.

Lemma sorted_impl_all (P Q : Z -> Z -> Prop) l : (forall a b, P a b -> Q a b) -> StronglySorted P l -> StronglySorted Q l.
Proof.
  intros H. induction 1 as [|a l S IH F]; constructor; auto. eapply Forall_impl; [|exact F]. auto.
Qed.

(** ** An index of nodes with keys *)
Section Index.
Variable K : Type.
Variable key : Z -> K.
Variable cmpk : K -> K -> Z.
Variable D : K -> Prop.
Hypothesis C1 : forall a b, D a -> D b -> (cmpk a b < 0 <-> 0 < cmpk b a).
Hypothesis C2 : forall a b d, D a -> D b -> D d -> cmpk a b <= 0 -> cmpk b d <= 0 -> cmpk a d <= 0.
Hypothesis Dk : forall n, D (key n).

Let c a b := cmpk (key a) (key b).

Lemma idx_consistent : consistent c.
Proof.
  split; unfold c.
  - intros a b. apply C1; auto.
  - intros a b d. apply C2; auto.
Qed.

Lemma idx_monotone l k : D k -> StronglySorted (lt c) l -> monotone (fun n => cmpk (key n) k) l.
Proof.
  intros Hk S. apply sorted_sgn_monotone. eapply sorted_impl_all; [|exact S].
  intros a b H. unfold lt, c in H. split; intros G.
  - destruct (Z_le_gt_dec (cmpk (key a) k) 0) as [Q|]; [exfalso|lia].
    pose proof (C1 k (key b) Hk (Dk b)). pose proof (C1 (key b) (key a) (Dk b) (Dk a)).
    pose proof (C2 (key a) k (key b) (Dk a) Hk (Dk b) Q ltac:(lia)). lia.
  - destruct (Z_le_gt_dec (cmpk (key a) k) 0) as [Q|]; [exfalso|lia].
    pose proof (C1 k (key b) Hk (Dk b)). pose proof (C1 (key b) k (Dk b) Hk).
    pose proof (C2 (key a) k (key b) (Dk a) Hk (Dk b) Q ltac:(lia)). lia.
Qed.

(** Inserting a sequence of nodes; the nodes reported as equal. *)
Fixpoint lg (fuel : nat) (s : rbs) (ns : list Z) : option (list Z * rbs) :=
  match ns with
  | [] => Some ([], s)
  | n :: r => x <- rb_insert_node fuel s n (fun m => cmpk (key m) (key n)) ;;
              y <- lg fuel (snd x) r ;; Some (fst x :: fst y, snd y)
  end.

Fixpoint res_ok (hist ns rs : list Z) : Prop :=
  match ns, rs with
  | [], [] => True
  | n :: ns, r :: rs => (r = 0 <-> forall y, In y hist -> cmpk (key y) (key n) <> 0) /\ res_ok (hist ++ [n]) ns rs
  | _, _ => False
  end.

Definition iinv (s : rbs) (t : tree) (hist : list Z) : Prop :=
  holds s t /\ red_black t /\ StronglySorted (lt c) (inorder t) /\
  (forall x, In x (inorder t) <-> first_of_group c hist x).

Lemma iinv_size s t hist : iinv s t hist -> (size t <= List.length hist)%nat.
Proof.
  intros (H & _ & _ & I). unfold size. apply NoDup_incl_length; [apply H|].
  intros x Hx. apply I in Hx. destruct Hx as (L & R & -> & _). apply in_app_iff. right. left. auto.
Qed.

Lemma lg_ok fuel ns : forall s t hist, iinv s t hist -> NoDup (hist ++ ns) ->
  (forall n, In n ns -> node_addr n /\ hp s n <> None) ->
  (List.length hist + List.length ns < fuel)%nat ->
  exists rs s' t', lg fuel s ns = Some (rs, s') /\ iinv s' t' (hist ++ ns) /\ res_ok hist ns rs.
Proof.
  induction ns as [|n ns IH]; intros s t hist I Nd Hp Hf.
  - exists [], s, t. rewrite app_nil_r. cbn. auto.
  - pose proof (iinv_size _ _ _ I) as Hsz. pose proof (height_size t) as Hh. cbn [List.length] in Hf.
    destruct I as (H & Hrb & Hs & Hi).
    destruct (Hp n (or_introl eq_refl)) as [Ha Hm]. destruct (hp s n) as [nd|] eqn:En; [|congruence].
    assert (Hni : ~ In n (inorder t)).
    { intros Q. apply Hi in Q. destruct Q as (L & R & E & _). apply NoDup_remove_2 in Nd. apply Nd.
      apply in_app_iff. left. rewrite E. apply in_app_iff. right. left. auto. }
    assert (Nd' : NoDup ((hist ++ [n]) ++ ns)) by (rewrite <- app_assoc; exact Nd).
    assert (Hno : ~ In n ns). { apply NoDup_remove_2 in Nd. intros Q. apply Nd, in_app_iff. auto. }
    pose proof idx_consistent as Hc.
    assert (Mono : monotone (fun m => cmpk (key m) (key n)) (inorder t)) by (apply idx_monotone; auto).
    cbn [lg].
    destruct (rb_insert_ok s t (fun m => cmpk (key m) (key n)) n nd fuel H Hrb Mono ltac:(lia) Ha En Hni)
      as [(a & E1 & E2 & E3)|(s1 & t1 & L & R & E1 & E2 & E3 & E4 & E5 & E6 & E7 & E8 & E9)]; rewrite E1; cbn [snd fst].
    + destruct (IH s t (hist ++ [n])) as (rs & s' & t' & A1 & A2 & A3); auto.
      * split; auto. split; auto. split; auto. intros x. rewrite first_of_snoc, Hi. split; auto.
        intros [G|[-> G]]; auto. exfalso. apply Hi in E2. destruct E2 as (L & R & -> & _).
        apply (G a); [apply in_app_iff; right; left; auto|exact E3].
      * intros m Hm'. apply Hp. right; auto.
      * rewrite app_length. cbn [List.length]. lia.
      * exists (a :: rs), s', t'. rewrite A1. cbn [fst snd]. split; auto.
        rewrite <- app_assoc in A2. split; auto. cbn [res_ok]. split; auto. split.
        -- intros ->. exfalso. destruct H as (_ & _ & _ & F). rewrite Forall_forall in F. destruct (F 0 E2). lia.
        -- intros G. exfalso. apply Hi in E2. destruct E2 as (L & R & -> & _).
           apply (G a); [apply in_app_iff; right; left; auto|exact E3].
    + assert (NoEq : forall y, In y hist -> c y n <> 0).
      { intros y Hy Q. destruct (group_repr c Hc hist y Hy) as (x & X1 & X2). apply Hi in X1.
        rewrite Forall_forall in E2. apply (E2 x X1). eapply (eq_trans c Hc); eauto. }
      destruct (IH s1 t1 (hist ++ [n])) as (rs & s' & t' & A1 & A2 & A3); auto.
      * split; auto. split; auto. split.
        -- rewrite E8. rewrite E3 in Hs. clear - Hs E4 E5 C1 C2 Dk.
           apply (sorted_place c idx_consistent) with (n := n) in Hs. rewrite (place_app c) in Hs; auto.
        -- intros x. rewrite first_of_snoc, E8, <- Hi, E3, !in_app_iff. cbn [In]. split.
           ++ intros [G|[<-|G]]; auto.
           ++ intros [[G|G]|[-> G]]; auto.
      * intros m Hm'. split; [apply Hp; right; auto|]. destruct (in_dec Z.eq_dec m (inorder t1)) as [Q|Q].
        -- destruct E6 as (_ & R' & _). eapply rep_live; eauto.
        -- rewrite E9 by auto. apply Hp. right; auto.
      * rewrite app_length. cbn [List.length]. lia.
      * exists (0 :: rs), s', t'. rewrite A1. cbn [fst snd]. split; auto.
        rewrite <- app_assoc in A2. split; auto. cbn [res_ok]. split; auto. split; auto.
Qed.

Lemma idx_find fuel s t hist k : iinv s t hist -> D k -> (List.length hist < fuel)%nat ->
  exists r calls, rb_search_node fuel s (fun n => cmpk (key n) k) = Some (r, calls) /\
    first_with (fun n => cmpk (key n) k = 0) hist r.
Proof.
  intros I Hk Hf. pose proof (iinv_size _ _ _ I) as Hsz. pose proof (height_size t).
  destruct I as (H1 & Hrb & Hs & Hi). pose proof idx_consistent as Hc.
  destruct (rb_search_ok s t (fun n => cmpk (key n) k) fuel H1 (idx_monotone _ k Hk Hs) ltac:(lia)) as (a & calls & E1 & E2 & E3).
  exists a, calls. split; auto.
  assert (Eq : forall x y, cmpk (key x) k = 0 -> cmpk (key y) k = 0 -> c x y = 0).
  { intros x y A B. unfold c. pose proof (C1 k (key y) Hk (Dk y)). pose proof (C1 (key y) k (Dk y) Hk).
    pose proof (C1 k (key x) Hk (Dk x)). pose proof (C1 (key x) k (Dk x) Hk).
    pose proof (C2 (key x) k (key y) (Dk x) Hk (Dk y) ltac:(lia) ltac:(lia)).
    pose proof (C2 (key y) k (key x) (Dk y) Hk (Dk x) ltac:(lia) ltac:(lia)).
    pose proof (C1 (key x) (key y) (Dk x) (Dk y)). lia. }
  assert (Tr : forall x y, c x y = 0 -> cmpk (key y) k = 0 -> cmpk (key x) k = 0).
  { unfold c. intros x y A B. pose proof (C1 k (key y) Hk (Dk y)). pose proof (C1 (key y) k (Dk y) Hk).
    pose proof (C1 k (key x) Hk (Dk x)). pose proof (C1 (key x) k (Dk x) Hk).
    pose proof (C1 (key x) (key y) (Dk x) (Dk y)). pose proof (C1 (key y) (key x) (Dk y) (Dk x)).
    pose proof (C2 (key x) (key y) k (Dk x) (Dk y) Hk ltac:(lia) ltac:(lia)).
    pose proof (C2 k (key y) (key x) Hk (Dk y) (Dk x) ltac:(lia) ltac:(lia)). lia. }
  destruct E3 as [[-> F]|[G1 G2]].
  - left. split; auto. intros n Hn Q. destruct (group_repr c Hc hist n Hn) as (x & X1 & X2).
    apply Hi in X1. rewrite Forall_forall in F. apply (F x X1). eapply Tr; eauto.
  - right. apply Hi in G1. destruct G1 as (L & R & -> & F). exists L, R. split; auto. split; auto.
    intros n Hn Q. apply (F n Hn). apply Eq; auto.
Qed.

Lemma idx_empty s : rootp s = 0 -> iinv s E [].
Proof.
  intros H. destruct (empty_holds s H) as [A B]. split; auto. split; auto. split; [constructor|].
  intros x. cbn. split; [tauto|]. intros (L & R & Q & _). destruct L; discriminate.
Qed.
End Index.

(** ** C52 *)
Lemma u32_small x : 0 <= x < 2 ^ 32 -> u32 x = x.
Proof. intros H. unfold u32, wrap. apply Z.mod_small. exact H. Qed.

Lemma ld_nonzero2 (f : Word.mem) a : bytes_ok f -> (ld 2 f a <> 0 <-> f a <> 0 \/ f (a + 1) <> 0).
Proof. intros B. pose proof (B a). pose proof (B (a + 1)). cbn [ld]. lia. Qed.

Lemma ld4_one (f : Word.mem) a : bytes_ok f -> (ld 4 f a = 1 <-> f a = 1 /\ f (a + 1) = 0 /\ f (a + 2) = 0 /\ f (a + 3) = 0).
Proof.
  intros B. pose proof (B a). pose proof (B (a + 1)). pose proof (B (a + 2)). pose proof (B (a + 3)). cbn [ld].
  replace (a + 1 + 1) with (a + 2) by lia. replace (a + 2 + 1) with (a + 3) by lia. lia.
Qed.

Lemma ehdr_ok_iff f : bytes_ok f -> (ehdr_ok (ehdr_of f) = true <-> elf64_header f).
Proof.
  intros B. unfold ehdr_ok, ehdr_magic_ok, ehdr_of, elf64_header, EI_CLASS, EI_DATA. cbn [e_ident e_type e_machine e_version].
  unfold ET_NONE, EM_NONE, EV_CURRENT, ELFCLASS64, ELFDATA2LSB.
  pose proof (ld_nonzero2 f 16 B) as T. pose proof (ld_nonzero2 f 18 B) as M. pose proof (ld4_one f 20 B) as V.
  cbn [Z.add Pos.add Pos.succ Pos.add_carry] in *.
  destruct (Z.eqb_spec (ld 2 f 16) 0); [split; [discriminate|intuition congruence]|].
  destruct (Z.eqb_spec (ld 2 f 18) 0); [split; [discriminate|intuition congruence]|].
  destruct (Z.eqb_spec (ld 4 f 20) 1); cbn [negb]; [|split; [discriminate|intuition congruence]].
  destruct (Z.eqb_spec (f 4) 2); cbn [negb]; [|split; [discriminate|intuition congruence]].
  destruct (Z.eqb_spec (f 5) 1); cbn [negb]; [|split; [discriminate|intuition congruence]].
  destruct (Z.eqb_spec (f 0) 127); cbn [negb orb]; [|split; [discriminate|intuition congruence]].
  destruct (Z.eqb_spec (f 1) 69); cbn [negb orb]; [|split; [discriminate|intuition congruence]].
  destruct (Z.eqb_spec (f 2) 76); cbn [negb orb]; [|split; [discriminate|intuition congruence]].
  destruct (Z.eqb_spec (f 3) 70); cbn [negb orb]; [|split; [discriminate|intuition congruence]].
  split; [intros _|reflexivity]. change (Z.of_nat 69) with 69. tauto.
Qed.

(** ** C53 *)
Definition dsym (s : esym) : Prop := pos_bytes (s_name s).

Lemma csn_C1 a b : dsym a -> dsym b -> (cmp_symbol_name a b < 0 <-> 0 < cmp_symbol_name b a).
Proof.
  intros A B. unfold cmp_symbol_name. pose proof (strcmp_C1 _ _ A B). rewrite (Z.eqb_sym (s_type b)).
  destruct (Z.eqb_spec (s_type a) (s_type b)); [exact H|].
  destruct (Z.ltb_spec (s_type b) (s_type a)), (Z.ltb_spec (s_type a) (s_type b)); lia.
Qed.

Lemma csn_C2 a b d : dsym a -> dsym b -> dsym d -> cmp_symbol_name a b <= 0 -> cmp_symbol_name b d <= 0 -> cmp_symbol_name a d <= 0.
Proof.
  intros A B Dd. unfold cmp_symbol_name. pose proof (strcmp_trans _ _ _ A B Dd).
  destruct (Z.eqb_spec (s_type a) (s_type b)), (Z.eqb_spec (s_type b) (s_type d)), (Z.eqb_spec (s_type a) (s_type d));
    destruct (Z.ltb_spec (s_type b) (s_type a)), (Z.ltb_spec (s_type a) (s_type b)),
      (Z.ltb_spec (s_type d) (s_type b)), (Z.ltb_spec (s_type b) (s_type d)),
      (Z.ltb_spec (s_type d) (s_type a)), (Z.ltb_spec (s_type a) (s_type d)); lia.
Qed.

Lemma csn_0 a b : dsym a -> dsym b -> (cmp_symbol_name a b = 0 <-> s_type a = s_type b /\ s_name a = s_name b).
Proof.
  intros A B. unfold cmp_symbol_name.
  destruct (Z.eqb_spec (s_type a) (s_type b)).
  - rewrite strcmp_0 by auto. tauto.
  - destruct (Z.ltb_spec (s_type b) (s_type a)), (Z.ltb_spec (s_type a) (s_type b)); lia.
Qed.

Definition kcode (k : kind) : Z := match k with Extern => 1 | Undef => 2 | Defined => 3 end.

Lemma alloc_kind name g k : s_type (alloc_symbol name g) = kcode k <-> kind_is g k.
Proof.
  unfold alloc_symbol, is_extern_symbol, is_undef_symbol, kind_is, st_bind, ElfDefs.st_type, SHN_UNDEF, SHN_LORESERVE,
    STB_GLOBAL, STB_WEAK, STT_NOTYPE, SYM_TYPE_EXTERN, SYM_TYPE_UNDEF, SYM_TYPE_DEFINED.
  cbn [s_type]. set (q := g_st_info g / 16). set (r := g_st_info g mod 16). set (x := g_st_shndx g).
  destruct (Z.eqb_spec x 0), (Z.eqb_spec q 1), (Z.eqb_spec q 2), (Z.eqb_spec r 0), (Z.leb_spec 65280 x);
    cbn [andb orb]; destruct k; cbn [kcode]; split; intros; try lia; try discriminate; repeat split; try lia; auto; intuition lia.
Qed.

Lemma link_all_lg fuel info ns : forall s rs s', lg esym info cmp_symbol_name fuel s ns = Some (rs, s') ->
  link_all fuel info s ns = Some (map (fun r => if r =? 0 then 0 else - EINVAL) rs, s').
Proof.
  induction ns as [|n ns IH]; intros s rs s'; cbn [lg link_all]; intros H.
  - injection H as <- <-. reflexivity.
  - unfold link_symbol. destruct (rb_insert_node fuel s n _) as [[a s1]|]; [|discriminate]. cbn [fst snd] in *.
    destruct (lg esym info cmp_symbol_name fuel s1 ns) as [[rs1 s2]|] eqn:E; [|discriminate]. cbn [fst snd] in H.
    injection H as <- <-. rewrite (IH _ _ _ E). reflexivity.
Qed.

Lemma res_ok_nth K (key : Z -> K) cmpk : forall ns hist rs, res_ok K key cmpk hist ns rs ->
  forall L n R, ns = L ++ n :: R -> exists v, nth_error rs (List.length L) = Some v /\
    (v = 0 <-> forall y, In y (hist ++ L) -> cmpk (key y) (key n) <> 0).
Proof.
  induction ns as [|m ns IH]; intros hist rs H L n R E; [destruct L; discriminate|].
  destruct rs as [|r rs]; cbn [res_ok] in H; [contradiction|]. destruct H as [H1 H2].
  destruct L as [|l L]; cbn [app] in E; injection E as -> ->.
  - exists r. split; auto. rewrite app_nil_r. exact H1.
  - destruct (IH _ _ H2 L n R eq_refl) as (v & V1 & V2). exists v. split; auto. rewrite <- app_assoc in V2. exact V2.
Qed.

Lemma first_with_ext (P Q : Z -> Prop) ns r : (forall n, P n <-> Q n) -> first_with P ns r -> first_with Q ns r.
Proof.
  intros H [[-> G]|(L & R & -> & G1 & G2)].
  - left. split; auto. intros n Hn. rewrite <- H. auto.
  - right. exists L, R. split; auto. rewrite <- H. split; auto. intros n Hn. rewrite <- H. auto.
Qed.

Lemma cstr_pos s : cstr_ok s -> pos_bytes s.
Proof. intros H. eapply Forall_impl; [|exact H]. cbv beta. lia. Qed.

Lemma index_ok (name : Z -> list Z) (g : Z -> gsym) s ns fuel :
  (forall n, cstr_ok (name n)) -> fresh_index s ns -> (List.length ns < fuel)%nat ->
  exists rs s', link_all fuel (fun n => alloc_symbol (name n) (g n)) s ns = Some (rs, s') /\
    (forall nm k, cstr_ok nm -> exists r, find_kind fuel (fun n => alloc_symbol (name n) (g n)) s' nm (kcode k) = Some r /\
       first_with (fun n => name n = nm /\ kind_is (g n) k) ns r) /\
    (forall L n R, ns = L ++ n :: R -> exists v, nth_error rs (List.length L) = Some v /\
       (v = 0 \/ v = - EINVAL) /\
       (v = 0 <-> forall m, In m L -> ~ (name m = name n /\ exists k, kind_is (g m) k /\ kind_is (g n) k))).
Proof.
  intros Hn (Hr & Nd & Hp) Hf. set (info := fun n => alloc_symbol (name n) (g n)).
  assert (Dk : forall n, dsym (info n)). { intros n. apply cstr_pos, Hn. }
  destruct (lg_ok esym info cmp_symbol_name dsym csn_C1 csn_C2 Dk fuel ns s E [] (idx_empty _ _ _ _ Hr) Nd Hp ltac:(exact Hf))
    as (rs & s' & t' & A1 & A2 & A3). cbn [app] in A2.
  exists (map (fun r => if r =? 0 then 0 else - EINVAL) rs), s'. split; [apply link_all_lg; auto|]. split.
  - intros nm k Hnm. unfold find_kind.
    destruct (idx_find esym info cmp_symbol_name dsym csn_C1 csn_C2 Dk fuel s' t' ns (Es nm (kcode k)) A2 (cstr_pos _ Hnm) Hf)
      as (r & calls & B1 & B2). rewrite B1. exists r. split; auto. eapply first_with_ext; [|exact B2].
    intros n. cbv beta. rewrite csn_0 by (auto; apply (cstr_pos _ Hnm)). cbn [s_type s_name].
    unfold info. rewrite alloc_kind. cbn [alloc_symbol s_name]. tauto.
  - intros L n R EL. destruct (res_ok_nth _ _ _ _ _ _ A3 L n R EL) as (v & V1 & V2).
    exists (if v =? 0 then 0 else - EINVAL). split; [rewrite nth_error_map, V1; reflexivity|].
    split; [destruct (v =? 0); auto|].
    assert (X : (if v =? 0 then 0 else - EINVAL) = 0 <-> v = 0).
    { destruct (Z.eqb_spec v 0); [tauto|]. split; [discriminate|lia]. }
    rewrite X, V2. cbn [app].
    assert (Y : forall m, cmp_symbol_name (info m) (info n) <> 0 <-> ~ (name m = name n /\ exists k, kind_is (g m) k /\ kind_is (g n) k)).
    { intros m. rewrite csn_0 by auto. unfold info.
      assert (Z0 : s_type (alloc_symbol (name m) (g m)) = s_type (alloc_symbol (name n) (g n)) <-> exists k, kind_is (g m) k /\ kind_is (g n) k).
      { split.
        - intros Q. assert (exists k, s_type (alloc_symbol (name n) (g n)) = kcode k) as [k Hk].
          { unfold alloc_symbol. cbn [s_type]. destruct (is_extern_symbol (g n)); [exists Extern; auto|].
            destruct (is_undef_symbol _); [exists Undef|exists Defined]; auto. }
          exists k. rewrite <- (alloc_kind (name m)), <- (alloc_kind (name n)). split; congruence.
        - intros (k & K1 & K2). apply (alloc_kind (name m)) in K1. apply (alloc_kind (name n)) in K2. congruence. }
      rewrite Z0. cbn [alloc_symbol s_name]. tauto. }
    split; intros Q m Hm; apply Y; auto.
Qed.

(** ** C54 *)
Lemma at_index_none s : at_index s = None <-> ~ In 64 s.
Proof.
  induction s as [|c s IH]; cbn [at_index In]; [tauto|]. destruct (Z.eqb_spec c 64).
  - split; [discriminate|tauto].
  - destruct (at_index s).
    + split; [discriminate|]. intros G. exfalso. assert (~ In 64 s) by tauto. apply IH in H. discriminate.
    + split; auto. intros _ [?|Q]; [congruence|]. apply IH in Q; auto.
Qed.

Lemma at_index_some s : forall k, at_index s = Some k ->
  exists base v, s = base ++ 64 :: v /\ ~ In 64 base /\ k = Z.of_nat (List.length base).
Proof.
  induction s as [|c s IH]; intros k; cbn [at_index]; [discriminate|]. destruct (Z.eqb_spec c 64) as [->|N].
  - intros [= <-]. exists [], s. auto.
  - destruct (at_index s) as [j|] eqn:E; [|discriminate]. intros [= <-].
    destruct (IH j eq_refl) as (b & v & -> & H & ->). exists (c :: b), v. cbn [app List.length In]. split; auto. split; [tauto|lia].
Qed.

Lemma at_index_split base v : ~ In 64 base -> at_index (base ++ 64 :: v) = Some (Z.of_nat (List.length base)).
Proof.
  induction base as [|c b IH]; intros H; cbn [app at_index]; [reflexivity|]. cbn [In] in H.
  destruct (Z.eqb_spec c 64); [tauto|]. rewrite IH by tauto. cbn [List.length]. f_equal. lia.
Qed.

Lemma cbytes_put_go (base : list Z) : forall (b : Z -> Z) (i : Z) n, Forall (fun c => 0 < c) base ->
  (forall j, (j < List.length base)%nat -> b (i + Z.of_nat j) = nth j base 0) -> b (i + Z.of_nat (List.length base)) = 0 ->
  (List.length base < n)%nat -> cbytes n b i = base.
Proof.
  induction base as [|c base IH]; intros b i n P H H0 Hn; (destruct n as [|n]; [cbn [List.length] in Hn; lia|]); cbn [cbytes].
  - cbn [List.length] in H0. rewrite Z.add_0_r in H0. rewrite H0. reflexivity.
  - inversion P; subst. pose proof (H O ltac:(cbn; lia)) as Hc. cbn [nth] in Hc. rewrite Z.add_0_r in Hc. rewrite Hc.
    destruct (Z.eqb_spec c 0); [lia|]. f_equal. apply IH; auto.
    + intros j Hj. specialize (H (S j) ltac:(cbn; lia)). cbn [nth] in H. rewrite <- H. f_equal. lia.
    + rewrite <- H0. f_equal. cbn [List.length]. lia.
    + cbn [List.length] in Hn. lia.
Qed.

Lemma put_at (b : buffer) off l i : put b off l i =
  if (off <=? i) && (i <? off + TextModel.len l) then nth (Z.to_nat (i - off)) l 0 else b i.
Proof. reflexivity. Qed.

Lemma pure_ok base v b blen : ~ In 64 base -> cstr_ok base -> 0 <= blen < 2 ^ 31 -> Z.of_nat (List.length base) <= blen ->
  pure_string (base ++ 64 :: v) (asymbol_pure_name (base ++ 64 :: v) b blen) = Some base /\
  (forall i, i < 0 \/ Z.of_nat (List.length base) < i -> snd (asymbol_pure_name (base ++ 64 :: v) b blen) i = b i).
Proof.
  intros Hn Hc Hb Hl. unfold asymbol_pure_name. rewrite at_index_split by auto.
  rewrite (u32_small (Z.of_nat (List.length base))) by lia. rewrite (u32_small blen) by lia.
  destruct (Z.ltb_spec blen (Z.of_nat (List.length base))); [lia|]. rewrite Nat2Z.id, firstn_app, firstn_all, Nat.sub_diag.
  cbn [firstn]. rewrite app_nil_r. unfold pure_string. cbn [fst snd]. split.
  - f_equal. apply cbytes_put_go.
    + apply cstr_pos; auto.
    + intros j Hj. rewrite !put_at. unfold TextModel.len. cbn [List.length].
      destruct (Z.leb_spec (Z.of_nat (List.length base)) (0 + Z.of_nat j)); [lia|]. cbn [andb].
      destruct (Z.leb_spec 0 (0 + Z.of_nat j)); [|lia]. destruct (Z.ltb_spec (0 + Z.of_nat j) (0 + Z.of_nat (List.length base))); [|lia].
      cbn [andb]. f_equal. lia.
    + rewrite !put_at. unfold TextModel.len. cbn [List.length].
      destruct (Z.leb_spec (Z.of_nat (List.length base)) (0 + Z.of_nat (List.length base))); [|lia].
      destruct (Z.ltb_spec (0 + Z.of_nat (List.length base)) (Z.of_nat (List.length base) + Z.of_nat 1)); [|lia]. cbn [andb].
      replace (0 + Z.of_nat (List.length base) - Z.of_nat (List.length base)) with 0 by lia. reflexivity.
    + rewrite app_length. cbn [List.length]. lia.
  - intros i Hi. rewrite !put_at. unfold TextModel.len. cbn [List.length].
    destruct (Z.leb_spec (Z.of_nat (List.length base)) i), (Z.ltb_spec i (Z.of_nat (List.length base) + Z.of_nat 1)),
      (Z.leb_spec 0 i), (Z.ltb_spec i (0 + Z.of_nat (List.length base))); cbn [andb]; auto; lia.
Qed.

(** ** C55 *)
Lemma prefixb_ok p : forall s, prefixb p s = true <-> exists r, s = p ++ r.
Proof.
  induction p as [|x p IH]; intros s; cbn [prefixb app].
  - split; eauto.
  - destruct s as [|y s]; [split; [discriminate|intros (r & E); discriminate]|].
    rewrite andb_true_iff, IH, Z.eqb_eq. split.
    + intros [-> (r & ->)]. eauto.
    + intros (r & E). injection E as -> ->. eauto.
Qed.

Lemma useless_ok s : useless s = false <-> useful s.
Proof.
  unfold useless, useful. destruct (Z.eqb_spec (a_value s) 0).
  { split; [discriminate|]. tauto. }
  destruct (a_name s) as [[|c name]|] eqn:En.
  - split; [discriminate|]. intros (_ & _ & nm & E & N & _). injection E as <-. congruence.
  - assert (S : is_significant_symbol_name (c :: name) = true <-> exists r, c :: name = str ".plt" ++ r \/ c :: name = str ".got" ++ r).
    { unfold is_significant_symbol_name. rewrite orb_true_iff, !prefixb_ok. split.
      - intros [[r H]|[r H]]; eauto.
      - intros [r [H|H]]; eauto. }
    destruct (a_debug s) eqn:Ed; cbn [andb].
    + destruct (is_significant_symbol_name (c :: name)); cbn [negb].
      * destruct (a_sec s); split; try discriminate; try (intros (_ & ? & _); discriminate); auto.
        intros _. split; auto. split; auto. exists (c :: name). split; auto. split; [discriminate|]. intros _. apply S. auto.
      * split; [discriminate|]. intros (_ & _ & nm & E & N & G). injection E as <-. specialize (G eq_refl). apply S in G. discriminate.
    + destruct (a_sec s); split; try discriminate; try (intros (_ & ? & _); discriminate); auto.
      intros _. split; auto. split; auto. exists (c :: name). split; auto. split; [discriminate|]. discriminate.
  - split; [discriminate|]. intros (_ & _ & nm & E & _). discriminate.
Qed.

Lemma filter_picked {A} (f : A -> bool) (P : A -> Prop) l : (forall a, f a = true <-> P a) -> picked P l (filter f l).
Proof.
  intros H. induction l as [|a l IH]; cbn [filter]; [constructor|]. destruct (f a) eqn:E.
  - constructor; auto. apply H; auto.
  - constructor; auto. intros Q. apply H in Q. congruence.
Qed.

Lemma picked_unique {A} (P : A -> Prop) l r1 : picked P l r1 -> forall r2, picked P l r2 -> r1 = r2.
Proof.
  induction 1; intros r2 H2; inversion H2; subst; auto; try contradiction. f_equal. auto.
Qed.

Definition span (v : Z -> asym) (i : Z) (n : nat) : list asym := map (fun k => v (i + Z.of_nat k)) (seq 0 n).

Lemma span_S v i n : span v i (S n) = v i :: span v (i + 1) n.
Proof.
  unfold span. cbn [seq map]. rewrite Z.add_0_r. f_equal. rewrite <- seq_shift, map_map. apply map_ext. intros k. f_equal. lia.
Qed.

Lemma span_ext v v' i n : (forall x, i <= x < i + Z.of_nat n -> v x = v' x) -> span v i n = span v' i n.
Proof. intros H. apply map_ext_in. intros k Hk. apply in_seq in Hk. apply H. lia. Qed.

Lemma remove_loop_ok c : forall v i o, 0 <= o <= i ->
  let keep := filter (fun s => negb (useless s)) (span v i c) in
  let '(v', n) := remove_loop c v i o in
  n = o + Z.of_nat (List.length keep) /\ span v' o (List.length keep) = keep /\
  (forall x, x < o \/ i + Z.of_nat c <= x -> v' x = v x).
Proof.
  induction c as [|c IH]; intros v i o H; cbn [remove_loop].
  - cbn. split; [lia|]. split; auto.
  - rewrite span_S. cbn [filter]. destruct (useless (v i)) eqn:E; cbn [negb].
    + specialize (IH v (i + 1) o ltac:(lia)). cbv zeta in IH. destruct (remove_loop c v (i + 1) o) as [v' n].
      destruct IH as (A & B & C). split; auto. split; auto. intros x Hx. apply C. lia.
    + specialize (IH (fun x => if x =? o then v i else v x) (i + 1) (o + 1) ltac:(lia)). cbv zeta in IH.
      rewrite (span_ext (fun x => if x =? o then v i else v x) v) in IH.
      2: { intros x Hx. destruct (Z.eqb_spec x o); [lia|auto]. }
      destruct (remove_loop c _ (i + 1) (o + 1)) as [v' n]. destruct IH as (A & B & C).
      cbn [List.length]. split; [lia|]. split.
      * rewrite span_S, B. f_equal. rewrite C by lia. rewrite Z.eqb_refl. auto.
      * intros x Hx. rewrite C by lia. destruct (Z.eqb_spec x o); [lia|auto].
Qed.

Lemma span_vec l : span (vec l) 0 (List.length l) = l.
Proof.
  unfold span, vec. set (d := As None 0 false SUnd false false).
  apply nth_ext with (d := d) (d' := d).
  - rewrite map_length, seq_length. auto.
  - intros n Hn. rewrite map_length, seq_length in Hn.
    rewrite (nth_indep _ _ (nth (Z.to_nat (0 + Z.of_nat 0)) l d)) by (rewrite map_length, seq_length; auto).
    rewrite (map_nth (fun k => nth (Z.to_nat (0 + Z.of_nat k)) l d)).
    rewrite seq_nth by auto. f_equal. lia.
Qed.

Lemma remove_ok v count : 0 <= count -> forall l, span v 0 (Z.to_nat count) = l ->
  exists v' kept, remove_useless_symbols v count = (v', Z.of_nat (List.length kept)) /\
    span v' 0 (List.length kept) = kept /\ picked useful l kept /\
    (forall x, x < 0 \/ count <= x -> v' x = v x).
Proof.
  intros H l <-. unfold remove_useless_symbols. pose proof (remove_loop_ok (Z.to_nat count) v 0 0 ltac:(lia)) as G. cbv zeta in G.
  destruct (remove_loop (Z.to_nat count) v 0 0) as [v' n]. destruct G as (A & B & C).
  exists v', (filter (fun s => negb (useless s)) (span v 0 (Z.to_nat count))). split; [f_equal; lia|]. split; auto. split.
  - apply filter_picked. intros a. rewrite negb_true_iff. apply useless_ok.
  - intros x Hx. apply C. lia.
Qed.

Lemma sorted_syms_ok syms dynsyms synth : considered syms dynsyms synth (sorted_syms syms dynsyms synth).
Proof.
  unfold sorted_syms, considered. set (l := match syms with [] => dynsyms | _ => syms end).
  destruct (remove_ok (vec l) (Z.of_nat (List.length l)) ltac:(lia) l) as (v' & kept & A & B & C & _).
  { rewrite Nat2Z.id. apply span_vec. }
  rewrite A. exists kept. split; auto. f_equal. rewrite Nat2Z.id. exact B.
Qed.

(** ** Looking up addresses *)
Lemma strstrb_ok p : p <> [] -> forall s, strstrb s p = true <-> exists a b, s = a ++ p ++ b.
Proof.
  intros Hp. induction s as [|c s IH]; cbn [strstrb].
  - rewrite orb_false_r, prefixb_ok. split.
    + intros (r & E). exists [], r. auto.
    + intros (a & b & E). destruct p; [congruence|]. destruct a; discriminate.
  - rewrite orb_true_iff, prefixb_ok, IH. split.
    + intros [(r & E)|(a & b & ->)]; [exists [], r; auto|exists (c :: a), b; auto].
    + intros (a & b & E). destruct a as [|x a]; [left; exists b; auto|]. right. injection E as -> ->. eauto.
Qed.

Lemma in_class_ok c name s : in_class c name s = true <-> class_is c s name.
Proof.
  destruct c; cbn [in_class class_is]; try tauto. unfold asymbol_is_plt. apply strstrb_ok. discriminate.
Qed.

Lemma pure_base s b : short_base s -> exists name base, a_name s = Some name /\
  pure_string name (asymbol_pure_name name b 256) = Some base /\ base_of name base /\ cstr_ok base.
Proof.
  intros (name & En & Hc & Hs). destruct (at_index name) as [k|] eqn:Ea.
  - destruct (at_index_some _ _ Ea) as (base & v & E & Hn & Hk). exists name, base. split; auto.
    assert (cstr_ok base). { rewrite E in Hc. apply Forall_app in Hc. tauto. }
    specialize (Hs base v Hn E).
    split.
    + rewrite E. apply pure_ok; auto; lia.
    + split; auto. split; eauto.
  - exists name, name. split; auto. unfold asymbol_pure_name. rewrite Ea. cbn. split; auto. split; auto.
    split; auto. apply at_index_none; auto.
Qed.

Lemma base_unique name b1 b2 : base_of name b1 -> base_of name b2 -> b1 = b2.
Proof.
  intros [N1 [E1|(v1 & E1)]] [N2 [E2|(v2 & E2)]]; subst.
  - auto.
  - exfalso. apply N1. rewrite in_app_iff. right. left. auto.
  - exfalso. apply N2. rewrite in_app_iff. right. left. auto.
  - revert b2 N2 E2. induction b1 as [|x b1 IH]; intros [|y b2] N2 E2; auto; cbn [app] in E2.
    + injection E2 as <- _. exfalso. apply N2. left; auto.
    + injection E2 as -> _. exfalso. apply N1. left; auto.
    + injection E2 as -> E2. f_equal. apply IH; auto; cbn [In] in *; tauto.
Qed.

Definition es_first (es : list bsym) (base : list Z) (r : Z) : Prop :=
  (r = 0 /\ forall e, In e es -> fst e <> base) \/
  (exists L e R, es = L ++ e :: R /\ fst e = base /\ r = snd e /\ forall e', In e' L -> fst e' <> base).

Lemma entries_ok c : forall all b, Forall short_base all -> exists es, entries c all b = Some es /\
  (List.length es <= List.length all)%nat /\ Forall (fun e => cstr_ok (fst e)) es /\
  forall base r, es_first es base r -> first_addr c base all r.
Proof.
  induction all as [|s all IH]; intros b F; cbn [entries].
  - exists []. split; auto. split; auto. split; [constructor|]. intros base r [[-> _]|(L & e & R & E & _)]; [|destruct L; discriminate].
    left. split; auto.
  - inversion F as [|? ? Hs F']; subst. destruct (pure_base s b Hs) as (name & base0 & En & Ep & Hb & Hc). rewrite En.
    destruct (IH (snd (asymbol_pure_name name b 256)) F') as (es & E1 & E2 & E3 & E4). rewrite E1.
    destruct (in_class c name s) eqn:Ec.
    + rewrite Ep. exists ((base0, a_value s) :: es). split; auto. split; [cbn [List.length]; lia|]. split; [constructor; auto|].
      apply in_class_ok in Ec. intros base r [[-> G]|(L & e & R & EL & G1 & G2 & G3)].
      * destruct (E4 base 0) as [[_ Q]|(L & s' & R & Q1 & Q2 & Q3 & Q4)].
        -- left. split; auto. intros e He. apply G. right; auto.
        -- left. split; auto. intros s' [<-|Hs']; auto. intros (nm & N1 & N2 & N3). rewrite En in N1. injection N1 as <-.
           apply (G (base0, a_value s) (or_introl eq_refl)). cbn [fst]. eapply base_unique; eauto.
        -- right. exists (s :: L), s', R. split; [rewrite Q1; auto|]. split; auto. split; auto. intros s'' [<-|Hs'']; auto.
           intros (nm & N1 & N2 & N3). rewrite En in N1. injection N1 as <-.
           apply (G (base0, a_value s) (or_introl eq_refl)). cbn [fst]. eapply base_unique; eauto.
      * destruct L as [|l L]; cbn [app] in EL; injection EL as EL1 EL2.
        -- right. exists [], s, all. split; auto. subst e. cbn [fst snd] in *. subst base. split.
           { exists name. auto. } split; auto.
        -- assert (X : es_first es base r). { right. exists L, e, R. split; auto. split; auto. split; auto. intros e' He'. apply G3. right; auto. }
           assert (NA : ~ answers c base s).
           { intros (nm & N1 & N2 & N3). rewrite En in N1. injection N1 as <-.
             apply (G3 l (or_introl eq_refl)). subst l. cbn [fst]. eapply base_unique; eauto. }
           destruct (E4 base r X) as [[-> Q]|(L' & s' & R' & Q1 & Q2 & Q3 & Q4)].
           ++ left. split; auto. intros s' [<-|Hs']; auto.
           ++ right. exists (s :: L'), s', R'. split; [rewrite Q1; auto|]. split; auto. split; auto. intros s'' [<-|Hs'']; auto.
    + exists es. split; auto. split; [cbn [List.length]; lia|]. split; auto. intros base r Hr.
      assert (NA : ~ answers c base s).
      { intros (nm & N1 & N2 & N3). rewrite En in N1. injection N1 as <-. apply in_class_ok in N2. congruence. }
      destruct (E4 base r Hr) as [[-> Q]|(L' & s' & R' & Q1 & Q2 & Q3 & Q4)].
      * left. split; auto. intros s' [<-|Hs']; auto.
      * right. exists (s :: L'), s', R'. split; [rewrite Q1; auto|]. split; auto. split; auto. intros s'' [<-|Hs'']; auto.
Qed.

Lemma link_bfd_lg fuel info ns : forall s rs s', lg bsym info (fun a b => strcmp (fst a) (fst b)) fuel s ns = Some (rs, s') ->
  link_bfd fuel info s ns = Some s'.
Proof.
  induction ns as [|n ns IH]; intros s rs s'; cbn [lg link_bfd]; intros H.
  - injection H as <- <-. reflexivity.
  - destruct (rb_insert_node fuel s n _) as [[a s1]|]; [|discriminate]. cbn [fst snd] in *.
    destruct (lg bsym info _ fuel s1 ns) as [[rs1 s2]|] eqn:E; [|discriminate]. cbn [fst snd] in H.
    injection H as <- <-. eauto.
Qed.

Lemma nodup_left (a b : list Z) : NoDup (a ++ b) -> NoDup a.
Proof.
  induction a as [|x a IH]; cbn [app]; intros H; [constructor|]. inversion H; subst. constructor; auto.
  intros Q. apply H2, in_app_iff. auto.
Qed.

Lemma info_of_nth ns : forall es, NoDup ns -> List.length ns = List.length es ->
  map (info_of ns es) ns = es.
Proof.
  induction ns as [|m ns IH]; intros [|e es] Nd Hl; try discriminate; auto. inversion Nd; subst. cbn [map info_of].
  rewrite Z.eqb_refl. f_equal. assert (Hm : map (info_of ns es) ns = es) by (apply IH; [auto|cbn in Hl; lia]).
  transitivity (map (info_of ns es) ns); [|exact Hm]. apply map_ext_in. intros n Hn.
  destruct (Z.eqb_spec n m); [congruence|auto].
Qed.

Lemma info_of_any (P : bsym -> Prop) ns : forall es n, Forall P es -> P ([], 0) -> P (info_of ns es n).
Proof.
  induction ns as [|m ns IH]; intros [|e es] n F H; auto. inversion F; subst. cbn [info_of]. destruct (n =? m); auto.
Qed.

Lemma load_class_ok c syms dynsyms synth b s nodes fuel :
  let all := sorted_syms syms dynsyms synth in
  Forall short_base all -> fresh_index s nodes -> (List.length all <= List.length nodes)%nat -> (List.length all < fuel)%nat ->
  exists info s', load_class fuel c syms dynsyms synth b s nodes = Some (info, s') /\
    forall base, cstr_ok base -> exists r, bfd_sym_addr_of fuel info s' base = Some r /\ first_addr c base all r.
Proof.
  intros all F (Hr & Nd & Hp) Hl Hf. unfold load_class. fold all.
  destruct (entries_ok c all b F) as (es & E1 & E2 & E3 & E4). rewrite E1.
  set (ns := firstn (List.length es) nodes). set (info := info_of ns es).
  assert (Ln : List.length ns = List.length es). { unfold ns. rewrite firstn_length. lia. }
  assert (Ndn : NoDup ns). { rewrite <- (firstn_skipn (List.length es) nodes) in Nd. fold ns in Nd. exact (nodup_left _ _ Nd). }
  assert (Inn : forall n, In n ns -> In n nodes). { intros n Hn. rewrite <- (firstn_skipn (List.length es) nodes). apply in_app_iff. auto. }
  set (DD := fun e : bsym => pos_bytes (fst e)).
  assert (Dk : forall n, DD (info n)).
  { intros n. apply info_of_any; [|constructor]. eapply Forall_impl; [|exact E3]. intros e He. apply cstr_pos; auto. }
  assert (K1 : forall x y : bsym, DD x -> DD y -> (strcmp (fst x) (fst y) < 0 <-> 0 < strcmp (fst y) (fst x))).
  { intros x y X Y. apply strcmp_C1; auto. }
  assert (K2 : forall x y z : bsym, DD x -> DD y -> DD z -> strcmp (fst x) (fst y) <= 0 -> strcmp (fst y) (fst z) <= 0 -> strcmp (fst x) (fst z) <= 0).
  { intros x y z X Y Z'. apply strcmp_trans; auto. }
  destruct (lg_ok bsym info (fun a b => strcmp (fst a) (fst b)) DD K1 K2 Dk fuel ns s E [] (idx_empty _ _ _ _ Hr)) as (rs & s' & t' & A1 & A2 & A3); auto.
  { cbn [List.length]. lia. }
  rewrite (link_bfd_lg _ _ _ _ _ _ A1). exists info, s'. split; auto. intros base Hb. unfold bfd_sym_addr_of.
  destruct (idx_find bsym info (fun a b => strcmp (fst a) (fst b)) DD K1 K2 Dk fuel s' t' ns (base, 0) A2 (cstr_pos _ Hb) ltac:(lia))
    as (r & calls & B1 & B2). cbn [fst] in B1. rewrite B1. cbn [fst]. eexists. split; [reflexivity|]. apply E4.
  assert (M : map info ns = es) by (apply info_of_nth; auto).
  destruct B2 as [[-> B2]|(L & R & Q1 & Q2 & Q3)].
  - left. split; auto. intros e He. rewrite <- M in He. apply in_map_iff in He. destruct He as (n & <- & Hn).
    intros Q. apply (B2 n Hn). cbn [fst]. apply strcmp_0; auto. apply Dk. apply (cstr_pos _ Hb).
  - assert (r <> 0). { assert (In r nodes) by (apply Inn; rewrite Q1, in_app_iff; right; left; auto). destruct (Hp r H) as [[? _] _]. lia. }
    destruct (Z.eqb_spec r 0); [congruence|]. right. exists (map info L), (info r), (map info R).
    split; [rewrite <- M, Q1, map_app; auto|]. split.
    { cbn [fst] in Q2. apply strcmp_0 in Q2; auto. apply Dk. apply (cstr_pos _ Hb). }
    split; auto. intros e' He'. apply in_map_iff in He'. destruct He' as (n' & <- & Hn'). intros Q. apply (Q3 n' Hn'). cbn [fst].
    apply strcmp_0; auto. apply Dk. apply (cstr_pos _ Hb).
Qed.
