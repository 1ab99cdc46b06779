(** Proofs about what names denote. *)
From Coq Require Import ZArith String List Bool Lia Sorted.
From Verif Require TextModel LdModel LdSpec.
From Verif Require Import LdProofs LdMore PaProofs PaLoad LkSyms.
From Verif Require Import Word WordLemmas RbModel RbSpec RbPure RbSep RbTop RbWalk RbSeq Str SymModel SymSpec SymProofs SymProps
  ElfDefs ElfModel ElfSpec ElfProofs RsModel RsSpec.
Import ListNotations.
Open Scope Z_scope.

(** ** The symbols considered *)
Lemma picked_fun {A} (P : A -> Prop) l r1 : picked P l r1 -> forall r2, picked P l r2 -> r1 = r2.
Proof.
  induction 1 as [|a l r Pa H IH|a l r Pa H IH]; intros r2 H2; inversion H2; subst; auto; try contradiction.
  f_equal. auto.
Qed.

Lemma picked_len {A} (P : A -> Prop) l r : picked P l r -> (List.length r <= List.length l)%nat.
Proof. induction 1; cbn [List.length]; lia. Qed.

Lemma considered_fun a b c l1 l2 : considered a b c l1 -> considered a b c l2 -> l1 = l2.
Proof. intros (k1 & P1 & ->) (k2 & P2 & ->). rewrite (picked_fun _ _ _ P1 _ P2). auto. Qed.

Definition the_syms (m : mapping) : list asym := sorted_syms (m_syms m) (m_dynsyms m) (m_synth m).

Lemma the_syms_ok m : file_syms m (the_syms m).
Proof. apply sorted_syms_ok. Qed.

Lemma the_syms_len m : (List.length (the_syms m) <= many m)%nat.
Proof.
  destruct (the_syms_ok m) as (k & P & ->). apply picked_len in P. rewrite app_length. unfold many.
  destruct (m_syms m); cbn [List.length] in *; lia.
Qed.

Lemma offers_iff m c n s : offers m c n s <-> in_use m /\ In s (the_syms m) /\ answers c n s.
Proof.
  split.
  - intros (U & all & F & H1 & H2). rewrite (considered_fun _ _ _ _ _ F (the_syms_ok m)) in H1. auto.
  - intros (U & H1 & H2). split; auto. exists (the_syms m). split; auto. apply the_syms_ok.
Qed.

(** ** First of a name *)
Definition byname (base : list Z) (e : bsym) : bool := str_eqb (fst e) base.

(** [o] is what the first symbol of [all] that answers gives. *)
Definition first_sym (c : cls) (base : list Z) (all : list asym) (f : asym -> Z) (o : option bsym) : Prop :=
  (o = None /\ forall s, In s all -> ~ answers c base s) \/
  (exists A s B, all = A ++ s :: B /\ answers c base s /\ o = Some (base, f s) /\ forall s', In s' A -> ~ answers c base s').

Lemma entries_find c : forall all b, Forall short_base all -> exists es, entries c all b = Some es /\
  (List.length es <= List.length all)%nat /\ Forall (fun e => cstr_ok (fst e)) es /\
  forall base, first_sym c base all a_value (find (byname base) es).
Proof.
  induction all as [|s all IH]; intros b F; cbn [entries].
  - exists []. split; auto. split; auto. split; auto. intros base. left. split; auto.
  - inversion F as [|? ? Hs F']; subst. destruct (pure_base s b Hs) as (name & base0 & En & Ep & Hb & Hc). rewrite En.
    destruct (IH (snd (asymbol_pure_name name b 256)) F') as (es & E1 & E2 & E3 & E4). rewrite E1.
    assert (Skip : forall base, ~ answers c base s -> first_sym c base (s :: all) a_value (find (byname base) es)).
    { intros base NA. destruct (E4 base) as [[Q1 Q2]|(A & s' & B & Q1 & Q2 & Q3 & Q4)].
      - left. split; auto. intros s' [<-|Hs']; auto.
      - right. exists (s :: A), s', B. split; [rewrite Q1; auto|]. split; auto. split; auto. intros s'' [<-|Hs'']; auto. }
    destruct (in_class c name s) eqn:Ec.
    + rewrite Ep. exists ((base0, a_value s) :: es). split; auto. split; [cbn [List.length]; lia|]. split; [constructor; auto|].
      apply in_class_ok in Ec. intros base. cbn [find]. unfold byname at 1. cbn [fst].
      destruct (str_eqb base0 base) eqn:Eb.
      * apply str_eqb_eq in Eb. subst base. right. exists [], s, all. split; auto. split; [exists name; auto|]. split; auto.
      * apply Skip. intros (nm & N1 & N2 & N3). rewrite En in N1. injection N1 as <-.
        pose proof (base_unique _ _ _ Hb N3) as Q. apply str_eqb_eq in Q. congruence.
    + exists es. split; auto. split; [cbn [List.length]; lia|]. split; auto. intros base. apply Skip.
      intros (nm & N1 & N2 & N3). rewrite En in N1. injection N1 as <-. apply in_class_ok in N2. congruence.
Qed.

Lemma find_unique {A} (p : A -> bool) l x : In x l -> p x = true -> (forall y, In y l -> p y = true -> y = x) -> find p l = Some x.
Proof.
  induction l as [|a l IH]; intros Hx Px U; [destruct Hx|]. cbn [find]. destruct (p a) eqn:Ea.
  - f_equal. apply U; auto. left; auto.
  - destruct Hx as [->|Hx]; [congruence|]. apply IH; auto. intros y Hy. apply U. right; auto.
Qed.

Lemma find_map {A B} (f : A -> B) p l : find p (map f l) = match find (fun x => p (f x)) l with Some x => Some (f x) | None => None end.
Proof. induction l as [|a l IH]; cbn [map find]; auto. destruct (p (f a)); auto. Qed.

Lemma find_split {A} (p : A -> bool) l x : find p l = Some x -> exists L R, l = L ++ x :: R /\ p x = true /\ forall y, In y L -> p y = false.
Proof.
  induction l as [|a l IH]; cbn [find]; [discriminate|]. destruct (p a) eqn:Ea; intros H.
  - injection H as <-. exists [], l. split; auto. split; auto. intros y [].
  - destruct (IH H) as (L & R & -> & P & Q). exists (a :: L), R. split; auto. split; auto. intros y [<-|Hy]; auto.
Qed.

Lemma sorted_same c (Hc : consistent c) l a b : StronglySorted (lt c) l -> In a l -> In b l -> c a b = 0 -> a = b.
Proof.
  intros S. revert a b. induction S as [|x l S IH F]; intros a b Ha Hb E; [destruct Ha|].
  rewrite Forall_forall in F. destruct Hc as (K1 & K2). destruct Ha as [<-|Ha], Hb as [<-|Hb]; auto.
  - specialize (F b Hb). unfold lt in F. pose proof (K1 x b). pose proof (K1 b x). lia.
  - specialize (F a Ha). unfold lt in F. pose proof (K1 x a). pose proof (K1 a x). lia.
Qed.

Lemma each_walk : each = walk.
Proof. reflexivity. Qed.

(** ** One class of one file *)
Lemma class_syms_ok fuel c m b s nodes : Forall short_base (the_syms m) -> fresh_index s nodes ->
  (many m <= List.length nodes)%nat -> (many m < fuel)%nat ->
  exists ws, class_syms fuel c m b s nodes = Some ws /\ (List.length ws <= many m)%nat /\
    Forall (fun e => cstr_ok (fst e)) ws /\
    forall base, cstr_ok base -> first_sym c base (the_syms m) (at_run_time m) (find (byname base) ws).
Proof.
  intros F (Hr & Nd & Hp) Hl Hf. pose proof (the_syms_len m) as Hm. unfold class_syms, load_class. fold (the_syms m).
  destruct (entries_find c (the_syms m) b F) as (es & E1 & E2 & E3 & E4). rewrite E1.
  set (ns := firstn (List.length es) nodes). set (info := info_of ns es).
  assert (Ln : List.length ns = List.length es). { unfold ns. rewrite firstn_length. lia. }
  assert (Ndn : NoDup ns). { rewrite <- (firstn_skipn (List.length es) nodes) in Nd. fold ns in Nd. exact (nodup_left _ _ Nd). }
  assert (Inn : forall n, In n ns -> In n nodes). { intros n Hn. rewrite <- (firstn_skipn (List.length es) nodes). apply in_app_iff. auto. }
  set (DD := fun e : bsym => pos_bytes (fst e)).
  assert (Dk : forall n, DD (info n)).
  { intros n. apply info_of_any; [|constructor]. eapply Forall_impl; [|exact E3]. intros e He. apply cstr_pos; auto. }
  assert (K1 : forall x y : bsym, DD x -> DD y -> (strcmp (fst x) (fst y) < 0 <-> 0 < strcmp (fst y) (fst x))).
  { intros x y X Y. apply strcmp_C1; auto. }
  assert (K2 : forall x y z : bsym, DD x -> DD y -> DD z -> strcmp (fst x) (fst y) <= 0 -> strcmp (fst y) (fst z) <= 0 -> strcmp (fst x) (fst z) <= 0).
  { intros x y z X Y Z'. apply strcmp_trans; auto. }
  destruct (lg_ok bsym info (fun a b => strcmp (fst a) (fst b)) DD K1 K2 Dk fuel ns s E [] (idx_empty _ _ _ _ Hr)) as (rs & s' & t' & A1 & A2 & A3); auto.
  { cbn [List.length]. lia. }
  rewrite (link_bfd_lg _ _ _ _ _ _ A1). cbn [fst snd]. cbn [app] in A2.
  pose proof (iinv_size _ _ _ _ _ _ A2) as Hsz. pose proof (height_size t') as Hh.
  destruct A2 as (H1 & Hrb & Hs & Hi).
  destruct (walk_next s' t' fuel fuel H1 ltac:(lia) ltac:(lia)) as (a & W1 & W2). rewrite W1, each_walk, W2.
  eexists. split; [reflexivity|].
  assert (M : map info ns = es) by (apply info_of_nth; auto).
  assert (Sub : forall n, In n (inorder t') -> In n ns).
  { intros n Hn. apply Hi in Hn. destruct Hn as (L & R & -> & _). apply in_app_iff. right. left. auto. }
  split; [rewrite map_length; unfold size in Hsz; lia|]. split.
  { rewrite Forall_forall in *. intros e He. apply in_map_iff in He. destruct He as (n & <- & Hn). cbn [fst]. apply E3.
    rewrite <- M. apply in_map. auto. }
  intros base Hb. rewrite find_map. unfold byname at 1. cbn [fst].
  pose proof (idx_consistent bsym info (fun a b => strcmp (fst a) (fst b)) DD K1 K2 Dk) as Hc.
  specialize (E4 base). rewrite <- M, find_map in E4. unfold byname at 1 in E4.
  destruct (find (fun n => str_eqb (fst (info n)) base) ns) as [n|] eqn:Ef.
  - destruct (find_split _ _ _ Ef) as (L & R & EL & P & Q). apply str_eqb_eq in P.
    assert (Hin : In n (inorder t')).
    { apply Hi. exists L, R. split; auto. intros y Hy Z0. apply strcmp_0 in Z0; try apply Dk.
      specialize (Q y Hy). rewrite Z0, P in Q. assert (str_eqb base base = true) by (apply str_eqb_eq; auto). congruence. }
    rewrite (find_unique _ _ n Hin).
    + destruct E4 as [[Q1 _]|(A & x & B & Q1 & Q2 & Q3 & Q4)]; [discriminate|]. right. exists A, x, B. split; auto. split; auto.
      split; auto. injection Q3 as Q3. rewrite Q3. cbn [fst snd]. unfold at_run_time, u64. reflexivity.
    + apply str_eqb_eq. auto.
    + intros y Hy Py. apply str_eqb_eq in Py. apply (sorted_same _ Hc _ y n Hs Hy Hin). apply strcmp_0; try apply Dk. congruence.
  - destruct E4 as [[_ Q]|(A & x & B & _ & _ & Q & _)]; [|discriminate].
    replace (find _ (inorder t')) with (@None Z); [left; auto|]. symmetry.
    destruct (find (fun x => str_eqb (fst (info x)) base) (inorder t')) as [n|] eqn:Eg; auto. exfalso.
    apply find_some in Eg. destruct Eg as [Hn P]. pose proof (find_none _ _ Ef n (Sub n Hn)) as P'. cbv beta in P'. congruence.
Qed.

(** ** One mapping *)
Definition use_b (m : mapping) : bool := m_elf m && m_open m && negb (m_patch m).
Lemma use_b_ok m : use_b m = true <-> in_use m.
Proof. unfold use_b, in_use. destruct (m_elf m), (m_open m), (m_patch m); cbn; intuition discriminate. Qed.

(** What the first definition in one mapping gives. *)
Definition first_in (m : mapping) (base : list Z) (o : option bsym) : Prop :=
  (o = None /\ forall c s, ~ offers m c base s) \/
  (exists c A s B, in_use m /\ the_syms m = A ++ s :: B /\ answers c base s /\ o = Some (base, at_run_time m s) /\
     (forall c' s', (rank c' < rank c)%nat -> ~ offers m c' base s') /\ forall s', In s' A -> ~ answers c base s').

Lemma find_app {A} (p : A -> bool) l r : find p (l ++ r) = match find p l with Some x => Some x | None => find p r end.
Proof. induction l as [|a l IH]; cbn [app find]; auto. destruct (p a); auto. Qed.

Lemma load_vma_ok fuel m b h : Forall short_base (the_syms m) ->
  (forall c, fresh_index (fst (h c)) (snd (h c)) /\ (many m <= List.length (snd (h c)))%nat) -> (many m < fuel)%nat ->
  exists ws, load_vma_elf_syms fuel m b h = Some ws /\ (List.length ws <= 3 * many m)%nat /\
    Forall (fun e => cstr_ok (fst e)) ws /\ forall base, cstr_ok base -> first_in m base (find (byname base) ws).
Proof.
  intros F Hh Hf. unfold load_vma_elf_syms. destruct (use_b m) eqn:U.
  - pose proof U as U'. apply use_b_ok in U'. unfold use_b in U. apply andb_true_iff in U. destruct U as [U U3].
    apply andb_true_iff in U. destruct U as [U1 U2]. apply negb_true_iff in U3. rewrite U1, U2, U3. cbn [negb orb].
    destruct (Hh CText) as [T1 T2]. destruct (class_syms_ok fuel CText m b _ _ F T1 T2 Hf) as (wt & Et & Lt & Ct & Ft).
    destruct (Hh CData) as [D1 D2]. destruct (class_syms_ok fuel CData m b _ _ F D1 D2 Hf) as (wd & Ed & Ld & Cd & Fd).
    destruct (Hh CPlt) as [P1 P2]. destruct (class_syms_ok fuel CPlt m b _ _ F P1 P2 Hf) as (wp & Epl & Lp & Cp & Fp).
    rewrite Et, Ed, Epl. eexists. split; [reflexivity|]. split; [rewrite !app_length; lia|].
    split; [rewrite !Forall_app; auto|]. intros base Hb. specialize (Ft base Hb). specialize (Fd base Hb). specialize (Fp base Hb).
    rewrite !find_app. destruct Ft as [[-> Nt]|(A & s & B & Q1 & Q2 & -> & Q4)].
    2:{ right. exists CText, A, s, B. split; auto. split; auto. split; auto. split; auto. split; auto.
        intros c' s' Hc'. cbn [rank] in Hc'. lia. }
    assert (Nt' : forall s', ~ offers m CText base s'). { intros s' O. apply offers_iff in O. apply (Nt s'); tauto. }
    destruct Fd as [[-> Ndd]|(A & s & B & Q1 & Q2 & -> & Q4)].
    2:{ right. exists CData, A, s, B. split; auto. split; auto. split; auto. split; auto. split; auto.
        intros c' s' Hc'. destruct c'; cbn [rank] in Hc'; try lia. apply Nt'. }
    assert (Nd' : forall s', ~ offers m CData base s'). { intros s' O. apply offers_iff in O. apply (Ndd s'); tauto. }
    destruct Fp as [[-> Np]|(A & s & B & Q1 & Q2 & -> & Q4)].
    2:{ right. exists CPlt, A, s, B. split; auto. split; auto. split; auto. split; auto. split; auto.
        intros c' s' Hc'. destruct c'; cbn [rank] in Hc'; try lia. apply Nt'. apply Nd'. }
    left. split; auto. intros c s. destruct c; auto. intros O. apply offers_iff in O. apply (Np s); tauto.
  - assert (E0 : load_vma_elf_syms fuel m b h = Some []).
    { unfold load_vma_elf_syms. unfold use_b in U. destruct (m_elf m), (m_open m), (m_patch m); cbn in U |- *; auto; discriminate. }
    unfold load_vma_elf_syms in E0. rewrite E0. exists []. split; auto. split; [cbn; lia|]. split; auto. intros base _. left. split; auto.
    intros c s (Hu & _). apply use_b_ok in Hu. congruence.
Qed.

(** ** All mappings *)
Definition first_among (ms : list mapping) (base : list Z) (o : option bsym) : Prop :=
  (o = None /\ forall m c s, In m ms -> ~ offers m c base s) \/
  (exists L m R, ms = L ++ m :: R /\ (forall m' c' s', In m' L -> ~ offers m' c' base s') /\ o <> None /\ first_in m base o).

Lemma load_all_ok fuel b heap : forall ms k, (forall m, In m ms -> Forall short_base (the_syms m)) ->
  (forall i m c, nth_error ms i = Some m -> fresh_index (fst (heap (k + i)%nat c)) (snd (heap (k + i)%nat c)) /\
     (many m <= List.length (snd (heap (k + i)%nat c)))%nat) ->
  (total ms < fuel)%nat ->
  exists ws, load_all fuel ms b heap k = Some ws /\ (List.length ws <= total ms)%nat /\
    Forall (fun e => cstr_ok (fst e)) ws /\ forall base, cstr_ok base -> first_among ms base (find (byname base) ws).
Proof.
  induction ms as [|m ms IH]; intros k Hn Hh Hf; cbn [load_all].
  - exists []. split; auto. split; auto. split; auto. intros base _. left. split; auto.
  - assert (Et : total (m :: ms) = (3 * many m + total ms)%nat) by reflexivity.
    destruct (load_vma_ok fuel m b (heap k)) as (w1 & E1 & L1 & C1 & F1).
    { apply Hn. left; auto. }
    { intros c. specialize (Hh O m c eq_refl). rewrite Nat.add_0_r in Hh. auto. }
    { rewrite Et in Hf. lia. }
    destruct (IH (S k)) as (w2 & E2 & L2 & C2 & F2).
    { intros m' Hm'. apply Hn. right; auto. }
    { intros i m' c Hi. specialize (Hh (S i) m' c Hi). replace (S k + i)%nat with (k + S i)%nat by lia. auto. }
    { rewrite Et in Hf. lia. }
    assert (Em : (if m_elf m then load_vma_elf_syms fuel m b (heap k) else Some []) = Some w1).
    { destruct (m_elf m) eqn:Ee; auto. rewrite <- E1. unfold load_vma_elf_syms. rewrite Ee. reflexivity. }
    rewrite Em, E2. eexists. split; [reflexivity|]. rewrite app_length, Et. split; [lia|]. split; [rewrite Forall_app; auto|].
    intros base Hb. rewrite find_app. destruct (F1 base Hb) as [[-> N1]|F1'].
    + destruct (F2 base Hb) as [[-> N2]|(L & m' & R & -> & Q2 & Q3 & Q4)].
      * left. split; auto. intros m' c s [<-|Hm']; auto.
      * right. exists (m :: L), m', R. split; auto. split; auto. intros m'' c' s' [<-|Hm'']; auto.
    + destruct F1' as (c & A & s & B & G1 & G2 & G3 & G4 & G5 & G6). rewrite G4. right. exists [], m, ms. split; auto.
      split; [intros ? ? ? []|]. split; [discriminate|]. right. exists c, A, s, B. auto 10.
Qed.

(** ** The whole look-up *)
Lemma hd_filter_find (l : list Z) (p : Z -> bool) : hd 0 (filter p l) = match find p l with Some x => x | None => 0 end.
Proof. induction l as [|a l IH]; cbn [filter find]; auto. destruct (p a); auto. Qed.

Lemma fresh_sub ts pool n : fresh_syms ts pool -> fresh_syms ts (firstn n pool).
Proof.
  intros (A & B & C & D). split; auto. split; auto. rewrite <- (firstn_skipn n pool) in C, D. split.
  - exact (nodup_left _ _ C).
  - apply Forall_app in D. apply D.
Qed.

(** ** Patches *)
Definition pfirst (m : mapping) (base : list Z) (o : option bsym) : Prop :=
  (o = None /\ forall v, ~ patch_defines m base v) \/ (exists v, o = Some (base, v) /\ patch_first m base v).

Lemma find_symtab_first img l t n : forall i r, LdModel.find_symtab img l t i n = Some (Some r) ->
  forall j, i <= j < fst r -> sh_type (LdSpec.section img t j) <> SHT_SYMTAB.
Proof.
  induction n as [|n IH]; intros i r H j Hj; cbn [LdModel.find_symtab] in H; [discriminate|].
  ob H. apply rd_inv in E. destruct E as (-> & _). destruct (Z.eqb_spec (ld 4 img (LdModel.sec t i + 4)) SHT_SYMTAB) as [Q|Q].
  - ob H. ob H. apply some_inj in H. assert (fst r = i) by (assert (Some (i, z0) = Some r) by congruence; injection H0; intros; subst; auto). lia.
  - destruct (Z.eq_dec j i) as [->|N]; [exact Q|]. apply (IH (i + 1) r H j). lia.
Qed.

Lemma setup_first m l li : LdModel.setup_load_info m l = Some (inr li) ->
  forall i, 1 <= i < LdModel.li_sym li -> sh_type (LdSpec.section m (ld 8 m 40) i) <> SHT_SYMTAB.
Proof.
  intros SU. unfold LdModel.setup_load_info in SU. cbv zeta in SU. unfold LdModel.e_shoff in SU.
  ob SU. apply rd_inv in E. destruct E as (-> & _).
  do 3 ob SU. destruct (z1 =? 0); [discriminate|].
  do 2 ob SU. destruct (negb (z3 =? LdModel.ULPATCH_FILE_VERSION)); [discriminate|].
  ob SU. destruct (z4 =? 0); [discriminate|]. ob SU.
  ob SU. destruct (z6 =? 0); [discriminate|]. ob SU.
  ob SU. destruct (z8 =? 0); [discriminate|]. ob SU.
  ob SU. destruct (z10 =? 0); [discriminate|]. ob SU.
  destruct (negb (z11 =? SHT_NOTE)); [discriminate|]. do 3 ob SU. ob SU. destruct p as [[e1 s1] d1].
  destruct (negb (e1 =? 0)); [discriminate|]. ob SU. ob SU. destruct o0 as [[sy st]|]; [|discriminate].
  match goal with H : LdModel.find_symtab _ _ _ _ _ = _ |- _ => pose proof (find_symtab_first _ _ _ _ _ _ H) as FS end. cbn [fst] in FS.
  apply some_inj in SU. match type of SU with inr ?a = inr _ => assert (Hl : li = a) by congruence end. subst li. exact FS.
Qed.

Lemma table_fun im s s' : im_table im s -> im_table im s' -> s = s'.
Proof.
  intros (A & B & C) (A' & B' & C'). destruct (Z.lt_total s s') as [Q|[Q|Q]]; auto; exfalso.
  - apply (C' s); auto. lia.
  - apply (C s'); auto. lia.
Qed.

Lemma string_cstr m p s : byte_mem m -> LdSpec.string_at m p s -> cstr_ok s.
Proof.
  intros Hb (N & E & _). unfold cstr_ok. apply Forall_forall. intros c Hc.
  destruct (In_nth s c 0 Hc) as (i & Hi & Ei). specialize (E i Hi). specialize (Hb (p + Z.of_nat i)).
  assert (c <> 0) by (intros ->; auto). lia.
Qed.

Section Loop.
Variables (im : image) (s : Z).
Hypothesis G : good_image im.
Hypothesis T : im_table im s.

Lemma patch_loop_ok n : forall k, 0 <= k -> k + Z.of_nat n = im_count im s ->
  exists ws, patch_loop (im_mem im) (im_len im) (sh_offset (im_sect im (sh_link (im_sect im s)))) (im_sym im s k) n = Some ws /\
    (List.length ws <= n)%nat /\ Forall (fun e => cstr_ok (fst e)) ws /\
    forall base, (find (byname base) ws = None /\ forall k' v, k <= k' -> ~ im_has im s k' base v) \/
      (exists k' v, k <= k' /\ find (byname base) ws = Some (base, v) /\ im_has im s k' base v /\ forall i v', k <= i < k' -> ~ im_has im s i base v').
Proof.
  pose proof (gi_bytes _ G) as Hb. destruct (gi_syms _ G s T) as [B0 B1].
  induction n as [|n IH]; intros k Hk En; cbn [patch_loop].
  - exists []. split; auto. split; auto. split; auto. intros base. left. split; auto. intros k' v Hk' (Q & _). lia.
  - destruct (IH (k + 1)) as (ws & E1 & L1 & C1 & F1); [lia|lia|].
    assert (Es : im_sym im s k + 24 = im_sym im s (k + 1)) by (unfold im_sym; lia).
    assert (I0 : 0 <= im_sym im s k) by (unfold im_sym in *; lia).
    assert (I1 : im_sym im s k + 24 <= im_len im) by (unfold im_sym in *; lia).
    rewrite rd_ok by lia. rewrite rd_ok by lia. rewrite Es, E1.
    assert (R2 : 0 <= ld 2 (im_mem im) (im_sym im s k + 6)) by (apply ld_range; auto).
    assert (Skip : forall base, (forall v, ~ im_has im s k base v) ->
      (find (byname base) ws = None /\ forall k' v, k <= k' -> ~ im_has im s k' base v) \/
      (exists k' v, k <= k' /\ find (byname base) ws = Some (base, v) /\ im_has im s k' base v /\ forall i v', k <= i < k' -> ~ im_has im s i base v')).
    { intros base N. destruct (F1 base) as [[Q1 Q2]|(k' & v & Q1 & Q2 & Q3 & Q4)].
      - left. split; auto. intros k' v Hk'. destruct (Z.eq_dec k' k) as [->|]; auto. apply Q2. lia.
      - right. exists k', v. split; [lia|]. split; auto. split; auto. intros i v' Hi. destruct (Z.eq_dec i k) as [->|]; auto. apply Q4. lia. }
    unfold SHN_UNDEF, SHN_LORESERVE.
    destruct ((ld 2 (im_mem im) (im_sym im s k + 6) =? 0) || (65280 <=? ld 2 (im_mem im) (im_sym im s k + 6))) eqn:D.
    + exists ws. split; auto. split; [lia|]. split; auto. intros base. apply Skip. intros v (_ & Q & _). unfold im_defined in Q. lia.
    + assert (De : im_defined im s k) by (unfold im_defined; lia).
      rewrite rd_ok by lia.
      destruct (gi_names _ G s k T ltac:(lia) De) as (z & Z1 & Z2).
      assert (O1 : 0 <= sh_offset (im_sect im (sh_link (im_sect im s)))) by (apply ld_range; auto).
      assert (O2 : 0 <= ld 4 (im_mem im) (im_sym im s k)) by (apply ld_range; auto).
      destruct (cstr_def (im_mem im) (im_len im) (im_name im s k) z) as (nm & En' & _); auto; [unfold im_name in *; lia|lia|].
      pose proof (cstr_inv _ _ _ _ En') as (Sa & _). unfold im_name in En' at 1. rewrite En'.
      eexists. split; [reflexivity|]. split; [cbn [List.length]; lia|]. split; [constructor; auto; cbn [fst]; eapply string_cstr; eauto|].
      intros base. cbn [find]. unfold byname at 1 3. cbn [fst]. destruct (str_eqb nm base) eqn:Eb.
      * apply str_eqb_eq in Eb. subst nm. right. exists k, (ld 8 (im_mem im) (im_sym im s k + 8)). split; [lia|]. split; auto.
        split; [|intros; lia]. split; [lia|]. auto.
      * apply Skip. intros v (_ & _ & Q & _). pose proof (string_at_fun _ _ _ _ Sa Q) as X. apply str_eqb_eq in X. congruence.
Qed.
End Loop.

Lemma patch_syms_ok m im : good_image im -> m_image m = Some im -> m_patch m = true ->
  exists ws, patch_syms im = Some ws /\ (List.length ws <= pmany m)%nat /\ Forall (fun e => cstr_ok (fst e)) ws /\
    forall base, pfirst m base (find (byname base) ws).
Proof.
  intros G Hi Hp. pose proof (gi_bytes _ G) as Hb. pose proof (gi_start _ G) as Hs. pose proof (gi_len _ G) as Hl.
  destruct (gi_known _ G) as (li & SU & Hbid). pose proof (gi_wf _ G) as W.
  pose proof (LdSpec.wf_table _ _ W) as (T1 & T2 & T3). unfold patch_syms.
  assert (N1 : 1 <= ld 2 (im_mem im) 60). { pose proof (LdSpec.wf_strndx _ _ W). pose proof (ld_range 2 (im_mem im) 62 Hb). lia. }
  assert (C : LdModel.chk_load_info_len (im_mem im) (im_len im) = Some 0).
  { unfold LdModel.chk_load_info_len, LdModel.e_shoff, LdModel.e_shnum. rewrite !rd_ok by lia.
    f_equal. unfold LdModel.sizeof_shdr.
    replace (u64 (im_len im - ld 8 (im_mem im) 40)) with (im_len im - ld 8 (im_mem im) 40) by (symmetry; apply wrap_id; lia).
    replace (u64 (ld 2 (im_mem im) 60 * 64)) with (ld 2 (im_mem im) 60 * 64) by (symmetry; apply wrap_id; lia).
    destruct ((im_len im <=? ld 8 (im_mem im) 40) || (im_len im - ld 8 (im_mem im) 40 <? ld 2 (im_mem im) 60 * 64)) eqn:Q; auto. lia. }
  rewrite C. cbn [Z.eqb negb]. rewrite SU.
  destruct (setup_facts _ _ _ Hb SU) as (F1 & (F2 & F3 & F4 & F5) & (F6 & F7) & _). pose proof (setup_first _ _ _ SU) as F8. pose proof (setup_strtab _ _ _ SU) as F9.
  set (s := LdModel.li_sym li) in *. rewrite F1.
  assert (Ts : im_table im s) by (split; [lia|split; [exact F7|exact F8]]).
  unfold LdModel.g_addr, LdModel.g_size. rewrite rd_ok by (unfold LdModel.sec, LdModel.sizeof_shdr; lia).
  rewrite rd_ok by (unfold LdModel.sec, LdModel.sizeof_shdr; lia).
  change (ld 8 (im_mem im) (LdModel.sec (ld 8 (im_mem im) 40) s + 16)) with (sh_addr (im_sect im s)).
  change (ld 8 (im_mem im) (LdModel.sec (ld 8 (im_mem im) 40) s + 32)) with (sh_size (im_sect im s)).
  destruct (gi_syms _ G s Ts) as [B0 B1].
  assert (Ra : 0 <= sh_addr (im_sect im s) < 2 ^ 64) by (apply ld_range; auto).
  assert (Rz : 0 <= sh_size (im_sect im s)) by (apply ld_range; auto).
  assert (Rc : 0 <= im_count im s) by (apply Z.div_pos; auto; lia).
  replace (u64 (sh_addr (im_sect im s) - im_start im)) with (im_sym im s 0) by (symmetry; unfold im_sym in *; unfold u64; rewrite wrap_id; lia).
  rewrite F9.
  destruct (patch_loop_ok im s G Ts (Z.to_nat (im_count im s)) 0) as (ws & E1 & L1 & C1 & P1); [lia|lia|].
  change (LdSpec.section (im_mem im) (ld 8 (im_mem im) 40)) with (im_sect im).
  change (sh_size (im_sect im s) / 24) with (im_count im s). rewrite E1. destruct (LdModel.li_bid li) as [bid|]; [|congruence].
  assert (Fi : LdModel.inb (im_len im) (LdModel.li_info li) 64 = true).
  { pose proof (LdSpec.wf_info _ _ W (LdModel.li_info_idx li) ltac:(lia) F3) as Q. rewrite <- F5 in Q.
    assert (0 <= LdModel.li_info li) by (rewrite F5; apply ld_range; auto). unfold LdModel.inb. lia. }
  rewrite Fi. exists ws. split; auto. split.
  { unfold pmany. rewrite Hi. apply (Nat.le_trans _ _ _ L1). apply Z2Nat.inj_le; auto; [apply Z.div_pos; lia|].
    apply Z.div_le_lower_bound; [lia|]. unfold im_sym in *. lia. }
  split; auto. intros base. destruct (P1 base) as [[Q1 Q2]|(k & v & Q1 & Q2 & Q3 & Q4)].
  - left. split; auto. intros v (_ & im' & s' & k & Ei & Ts' & H). rewrite Hi in Ei. injection Ei as <-.
    rewrite <- (table_fun _ _ _ Ts Ts') in H. apply (Q2 k v); auto. apply H.
  - right. exists v. split; auto. split; auto. exists im, s, k. auto.
Qed.

Definition pfirst_among (ms : list mapping) (base : list Z) (o : option bsym) : Prop :=
  (o = None /\ forall m v, In m ms -> ~ patch_defines m base v) \/
  (exists L m R v, ms = L ++ m :: R /\ o = Some (base, v) /\ patch_first m base v /\ forall m' v', In m' L -> ~ patch_defines m' base v').

Lemma load_patches_ok : forall ms, good_patches ms -> exists ws, load_patches ms = Some ws /\ (List.length ws <= ptotal ms)%nat /\
  Forall (fun e => cstr_ok (fst e)) ws /\ forall base, pfirst_among ms base (find (byname base) ws).
Proof.
  induction ms as [|m ms IH]; intros G; cbn [load_patches].
  - exists []. split; auto. split; auto. split; auto. intros base. left. split; auto.
  - destruct IH as (w2 & E2 & L2 & C2 & F2). { intros m' im Hm'. apply G. right; auto. }
    assert (X : exists w1, (if m_patch m then match m_image m with Some im => patch_syms im | None => Some [] end else Some []) = Some w1 /\
      (List.length w1 <= pmany m)%nat /\ Forall (fun e => cstr_ok (fst e)) w1 /\ forall base, pfirst m base (find (byname base) w1)).
    { destruct (m_patch m) eqn:Ep; [destruct (m_image m) as [im|] eqn:Ei|].
      - apply patch_syms_ok; auto. apply (G m im); auto. left; auto.
      - exists []. split; auto. split; [cbn; lia|]. split; auto. intros base. left. split; auto. intros v (_ & im & s & k & Q & _). congruence.
      - exists []. split; auto. split; [cbn; lia|]. split; auto. intros base. left. split; auto. intros v (Q & _). congruence. }
    destruct X as (w1 & E1 & L1 & C1 & F1). rewrite E1, E2. eexists. split; [reflexivity|].
    assert (Et : ptotal (m :: ms) = (pmany m + ptotal ms)%nat) by reflexivity.
    split; [rewrite app_length, Et; lia|]. split; [rewrite Forall_app; auto|].
    intros base. rewrite find_app. destruct (F1 base) as [[-> N1]|(v & -> & P)].
    + destruct (F2 base) as [[-> N2]|(L & m' & R & v & -> & -> & Q3 & Q4)].
      * left. split; auto. intros m' v [<-|Hm']; auto.
      * right. exists (m :: L), m', R, v. split; auto. split; auto. split; auto. intros m'' v' [<-|Hm'']; auto.
    + right. exists [], m, ms, v. split; auto.
Qed.

Lemma first_defines m name v : patch_first m name v -> patch_defines m name v.
Proof. intros (A & im & s & k & B & C & D & _). split; auto. exists im, s, k. auto. Qed.

Lemma resolve_ok fuel ms b heap ts pool : opened ms fuel heap ts pool ->
  forall name, cstr_ok name -> exists r, resolve fuel ms b heap ts pool name = Some r /\ denotes ms name r.
Proof.
  intros (Hh & (Ht & Hl) & Hw & Hg & Hf) name Hc. unfold resolve.
  destruct (load_patches_ok ms Hg) as (wp & E0 & L0 & C0 & F0). rewrite E0.
  destruct (load_all_ok fuel b heap ms 0) as (wf & E1 & L1 & C1 & F1); [|auto|lia|].
  { intros m Hm. apply (Hw m); auto. apply the_syms_ok. }
  rewrite E1. cbv zeta. set (ws := wp ++ wf). set (ns := firstn (List.length ws) pool). set (info := tinfo_of ns ws).
  assert (Lw : List.length ws = (List.length wp + List.length wf)%nat) by apply app_length.
  assert (Cw : Forall (fun e => cstr_ok (fst e)) ws) by (apply Forall_app; auto).
  assert (Ln : List.length ns = List.length ws). { unfold ns. rewrite firstn_length. lia. }
  pose proof (fresh_sub _ _ (List.length ws) Ht) as Hns. fold ns in Hns.
  assert (Ndn : NoDup ns) by apply Hns.
  assert (M : map (info_of ns ws) ns = ws) by (apply info_of_nth; auto).
  assert (Cs : Forall (fun x => cstring (ts_name (info x))) ns).
  { rewrite Forall_forall in *. intros x Hx. unfold info, tinfo_of. cbn [ts_name]. apply (Cw (info_of ns ws x)). rewrite <- M at 2. apply in_map. auto. }
  destruct (C12_lookup_by_name info ts ns fuel Hns Cs ltac:(lia)) as (ts' & E2 & E3). rewrite E2.
  destruct (E3 name Hc) as (r & extra & E4 & _ & E5 & _). rewrite E4. cbn [fst]. eexists. split; [reflexivity|].
  specialize (F1 name Hc). specialize (F0 name). rewrite hd_filter_find in E5.
  assert (Ff : find (byname name) ws = match find (fun x => str_eqb (ts_name (info x)) name) ns with Some x => Some (info_of ns ws x) | None => None end).
  { rewrite <- M at 1. rewrite find_map. reflexivity. }
  unfold ws in Ff at 1. rewrite find_app in Ff. destruct (find (fun x => str_eqb (ts_name (info x)) name) ns) as [x|] eqn:Ex.
  - apply find_some in Ex. destruct Ex as [Hx _]. subst r.
    assert (x <> 0). { destruct Hns as (_ & _ & _ & P). rewrite Forall_forall in P. destruct (P x Hx) as ((? & _) & _). lia. }
    destruct (Z.eqb_spec x 0); [congruence|].
    destruct F0 as [[Q0 N0]|(L & m & R & v & -> & Q1 & Q2 & Q3)].
    + rewrite Q0 in Ff. rewrite Ff in F1. right. split; auto.
      destruct F1 as [[Q _]|(L & m & R & -> & Q2 & Q3 & [[Q4 _]|(c & A & s & B & G1 & G2 & G3 & G4 & G5 & G6)])]; try discriminate.
      right. exists L, m, R, c, (the_syms m), A, s, B. split; auto. split; auto. split; [apply the_syms_ok|]. split; auto. split; auto. split; auto.
      injection G4 as G4. unfold info, tinfo_of. cbn [ts_addr]. rewrite G4. reflexivity.
    + left. exists L, m, R. split; auto. split; auto. rewrite Q1 in Ff. assert (Ei : info_of ns ws x = (name, v)) by congruence.
      unfold info, tinfo_of. cbn [ts_addr]. rewrite Ei. exact Q2.
  - subst r. cbn [Z.eqb]. destruct F0 as [[Q0 N0]|(L & m & R & v & -> & Q1 & Q2 & Q3)]; [|rewrite Q1 in Ff; discriminate].
    rewrite Q0 in Ff. rewrite Ff in F1. right. split; auto.
    left. split; auto. destruct F1 as [[_ Q]|(L & m & R & _ & _ & Q & _)]; [auto|congruence].
Qed.

(** ** Consequences *)
Lemma file_denotes_only ms name r A : file_denotes ms name r ->
  (exists m c s, In m ms /\ offers m c name s) ->
  (forall m c s, In m ms -> offers m c name s -> at_run_time m s = A) -> r = A.
Proof.
  intros [[-> N]|(L & m & R & c & all & A0 & s & B & -> & U & F & -> & An & -> & _)] (m1 & c1 & s1 & I1 & O1) H.
  - exfalso. eapply N; eauto.
  - apply (H m c s); [apply in_app_iff; right; left; auto|]. split; auto. exists (A0 ++ s :: B). split; auto. split; auto.
    apply in_app_iff. right. left. auto.
Qed.

Lemma file_denotes_drop L m R name r : (forall c s, ~ offers m c name s) -> file_denotes (L ++ m :: R) name r -> file_denotes (L ++ R) name r.
Proof.
  intros N [[-> H]|(L1 & m1 & R1 & c & all & A0 & s & B & E & U & F & -> & An & -> & H1 & H2 & H3)].
  - left. split; auto. intros m' c' s' Hm'. apply H. apply in_app_iff in Hm'. apply in_app_iff. cbn [In]. tauto.
  - assert (Ne : m1 <> m).
    { intros ->. apply (N c s). split; auto. exists (A0 ++ s :: B). split; auto. split; auto. apply in_app_iff. right. left. auto. }
    assert (X : exists L2 R2, L ++ R = L2 ++ m1 :: R2 /\ forall m', In m' L2 -> In m' L1).
    { clear - E Ne. revert L1 E. induction L as [|l L IH]; intros L1 E; cbn [app] in E.
      - destruct L1 as [|x L1]; cbn [app] in E; injection E as E1 E2; [congruence|]. subst. exists L1, R1. split; auto. intros; right; auto.
      - destruct L1 as [|x L1]; cbn [app] in E; injection E as E1 E2.
        + subst. exists [], (L ++ R). split; auto. 
        + subst. destruct (IH _ E2) as (L2 & R2 & Q1 & Q2). exists (x :: L2), R2. cbn [app]. rewrite Q1. split; auto.
          intros m' [<-|Hm']; [left; auto|right; auto]. }
    destruct X as (L2 & R2 & X1 & X2). right. exists L2, m1, R2, c, (A0 ++ s :: B), A0, s, B. split; [auto|]. split; [auto|]. split; [auto|].
    split; [auto|]. split; [auto|]. split; [auto|]. split; [|split; auto]. intros m' c' s' Hm'. apply H1. auto.
Qed.

Lemma file_denotes_fun ms name r1 r2 : file_denotes ms name r1 -> file_denotes ms name r2 -> r1 = r2.
Proof.
  intros D1 D2. destruct D1 as [[-> N]|(L & m & R & c & all & A & s & B & -> & U & F & -> & An & -> & H1 & H2 & H3)].
  - destruct D2 as [[-> _]|(L & m & R & c & all & A & s & B & -> & U & F & -> & An & _)]; auto. exfalso.
    apply (N m c s); [apply in_app_iff; right; left; auto|]. split; auto. exists (A ++ s :: B). split; auto. split; auto. apply in_app_iff; right; left; auto.
  - assert (O : offers m c name s). { split; auto. exists (A ++ s :: B). split; auto. split; auto. apply in_app_iff; right; left; auto. }
    destruct D2 as [[-> N]|(L' & m' & R' & c' & all' & A' & s' & B' & E & U' & F' & -> & An' & -> & H1' & H2' & H3')].
    { exfalso. apply (N m c s); auto. apply in_app_iff; right; left; auto. }
    assert (O' : offers m' c' name s'). { split; auto. exists (A' ++ s' :: B'). split; auto. split; auto. apply in_app_iff; right; left; auto. }
    assert (Em : m = m').
    { clear - E H1 H1' O O'. revert L' E H1'. induction L as [|l L IH]; intros [|l' L'] E H1'; cbn [app] in E; injection E as E1 E2; auto.
      - subst. exfalso. apply (H1' l' c s); auto. left; auto.
      - subst. exfalso. apply (H1 m' c' s'); auto. left; auto.
      - eapply IH; [|exact E2|]; intros; [apply H1|apply H1']; right; auto. }
    subst m'. assert (Ec : c = c').
    { destruct (Nat.lt_total (rank c) (rank c')) as [Q|[Q|Q]].
      - exfalso. apply (H2' c s Q O).
      - destruct c, c'; cbn in Q; auto; discriminate.
      - exfalso. apply (H2 c' s' Q O'). }
    subst c'. pose proof (considered_fun _ _ _ _ _ F F') as Ea. f_equal.
    clear - Ea H3 H3' An An'. revert A' Ea H3'. induction A as [|a A IH]; intros [|a' A'] Ea H3'; cbn [app] in Ea; injection Ea as E1 E2; auto.
    + subst. exfalso. apply (H3' a'); auto. left; auto.
    + subst. exfalso. apply (H3 s'); auto. left; auto.
    + eapply IH; [|exact E2|]; intros; [apply H3|apply H3']; right; auto.
Qed.

Lemma patch_first_fun m name v v' : patch_first m name v -> patch_first m name v' -> v = v'.
Proof.
  intros (_ & im & s & k & A & B & C & D) (_ & im' & s' & k' & A' & B' & C' & D').
  rewrite A in A'. injection A' as <-. rewrite <- (table_fun _ _ _ B B') in *.
  destruct (Z.lt_total k k') as [Q|[Q|Q]].
  - exfalso. apply (D' k v); auto. destruct C. lia.
  - subst k'. destruct C as (_ & _ & _ & ->), C' as (_ & _ & _ & ->). auto.
  - exfalso. apply (D k' v'); auto. destruct C'. lia.
Qed.

Lemma denotes_fun ms name r1 r2 : denotes ms name r1 -> denotes ms name r2 -> r1 = r2.
Proof.
  intros [(L & m & R & -> & P & N)|[N F]] [(L' & m' & R' & E & P' & N')|[N' F']].
  - assert (Em : m = m').
    { apply first_defines in P, P'. clear - E P P' N N'. revert L' E N'. induction L as [|l L IH]; intros [|l' L'] E N'; cbn [app] in E; injection E as E1 E2; auto.
      - subst. exfalso. apply (N' l' r1); auto. left; auto.
      - subst. exfalso. apply (N m' r2); auto. left; auto.
      - eapply IH; [|exact E2|]; intros; [apply N|apply N']; right; auto. }
    subst m'. eapply patch_first_fun; eauto.
  - exfalso. apply (N' m r1); [apply in_app_iff; right; left; auto|apply first_defines; auto].
  - exfalso. apply (N m' r2); [rewrite E; apply in_app_iff; right; left; auto|apply first_defines; auto].
  - eapply file_denotes_fun; eauto.
Qed.

Lemma denotes_drop L m R name r : (forall c s, ~ offers m c name s) -> (forall v, ~ patch_defines m name v) ->
  denotes (L ++ m :: R) name r -> denotes (L ++ R) name r.
Proof.
  intros N NP [(L1 & m1 & R1 & E & P & H1)|[H F]].
  - left. assert (Ne : m1 <> m). { intros ->. apply (NP r). apply first_defines; auto. }
    assert (X : exists L2 R2, L ++ R = L2 ++ m1 :: R2 /\ forall m', In m' L2 -> In m' L1).
    { clear - E Ne. revert L1 E. induction L as [|l L IH]; intros L1 E; cbn [app] in E.
      - destruct L1 as [|x L1]; cbn [app] in E; injection E as E1 E2; [congruence|]. subst. exists L1, R1. split; auto. intros; right; auto.
      - destruct L1 as [|x L1]; cbn [app] in E; injection E as E1 E2.
        + subst. exists [], (L ++ R). split; auto. 
        + subst. destruct (IH _ E2) as (L2 & R2 & Q1 & Q2). exists (x :: L2), R2. cbn [app]. rewrite Q1. split; auto.
          intros m' [<-|Hm']; [left; auto|right; auto]. }
    destruct X as (L2 & R2 & X1 & X2). exists L2, m1, R2. split; [auto|]. split; [auto|]. intros m' v Hm'. apply H1. auto.
  - right. split; [|eapply file_denotes_drop; eauto]. intros m' v Hm'. apply H. apply in_app_iff in Hm'. apply in_app_iff. cbn [In]. tauto.
Qed.
