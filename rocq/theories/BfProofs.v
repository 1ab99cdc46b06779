(** Proofs for BfModel. *)
From Coq Require Import ZArith String List Bool Lia Permutation.
From Verif Require Import Word WordLemmas RbModel RbSpec RbPure RbSep RbTop RbErase RbWalk RbSeq Str SymProofs ElfDefs ElfModel ElfSpec ElfProofs BfModel BfSpec.
Import ListNotations.
Open Scope Z_scope.

(** ** One class *)
Lemma entries_from c : forall all b es, Forall short_base all -> entries c all b = Some es ->
  Forall (fun e => exists s, In s all /\ answers c (fst e) s) es.
Proof.
  induction all as [|s all IH]; intros b es F; cbn [entries].
  - intros E. injection E as <-. constructor.
  - inversion F as [|? ? Hs F']; subst. destruct (pure_base s b Hs) as (name & base0 & En & Ep & Hb & Hc). rewrite En.
    destruct (entries c all (snd (asymbol_pure_name name b 256))) as [es0|] eqn:E0; [|discriminate].
    specialize (IH _ _ F' E0). assert (W : Forall (fun e => exists s0, In s0 (s :: all) /\ answers c (fst e) s0) es0).
    { eapply Forall_impl; [|exact IH]. cbv beta. intros e (s' & A & B). exists s'. split; [right; auto|auto]. }
    destruct (in_class c name s) eqn:Ec.
    + rewrite Ep. intros E. injection E as <-. constructor; auto. exists s. split; [left; auto|]. cbn [fst].
      exists name. split; auto. split; auto. apply in_class_ok; auto.
    + intros E. injection E as <-. auto.
Qed.

Lemma entries_distinct c : forall all b es, Forall short_base all -> entries c all b = Some es -> distinct c all ->
  NoDup (map fst es).
Proof.
  induction all as [|s all IH]; intros b es F; cbn [entries].
  - intros E _. injection E as <-. constructor.
  - inversion F as [|? ? Hs F']; subst. destruct (pure_base s b Hs) as (name & base0 & En & Ep & Hb & Hc). rewrite En.
    destruct (entries c all (snd (asymbol_pure_name name b 256))) as [es0|] eqn:E0; [|discriminate].
    intros E Hd. assert (Hd' : distinct c all).
    { intros L s1 R s2 base EL. apply (Hd (s :: L) s1 R s2 base). rewrite EL. reflexivity. }
    specialize (IH _ _ F' E0 Hd'). destruct (in_class c name s) eqn:Ec.
    + rewrite Ep in E. injection E as <-. cbn [map fst]. constructor; auto. intros Q. apply in_map_iff in Q.
      destruct Q as (e & Q1 & Q2). pose proof (entries_from c all _ _ F' E0) as W. rewrite Forall_forall in W.
      destruct (W e Q2) as (s' & A & B). rewrite Q1 in B. apply (Hd [] s all s' base0); auto.
      exists name. split; auto. split; auto. apply in_class_ok; auto.
    + injection E as <-. auto.
Qed.

Lemma fill_ok c l1 l2 l3 b h fuel :
  let all := sorted_syms l1 l2 l3 in
  Forall short_base all -> fresh_index (fst h) (snd h) -> (List.length all <= List.length (snd h))%nat ->
  (List.length all < fuel)%nat ->
  exists t ns, fill_class fuel c l1 l2 l3 b h = Some (t, map (OSym c) ns) /\
    load_class fuel c l1 l2 l3 b (fst h) (snd h) = Some t /\ NoDup ns /\
    exists out s', rb_destroy fuel (snd t) = Some (out, s') /\ NoDup out /\ incl out ns /\
      (distinct c all -> Permutation out ns).
Proof.
  intros all F (Hr & Nd & Hp) Hl Hf. unfold fill_class, load_class. fold all.
  destruct (entries_ok c all b F) as (es & E1 & E2 & E3 & _). rewrite E1.
  set (ns := firstn (List.length es) (snd h)). set (info := info_of ns es).
  assert (Ln : List.length ns = List.length es). { unfold ns. rewrite firstn_length. lia. }
  assert (Ndn : NoDup ns). { rewrite <- (firstn_skipn (List.length es) (snd h)) in Nd. fold ns in Nd. exact (nodup_left _ _ Nd). }
  assert (Inn : forall n, In n ns -> In n (snd h)). { intros n Hn. rewrite <- (firstn_skipn (List.length es) (snd h)). apply in_app_iff. auto. }
  set (DD := fun e : bsym => pos_bytes (fst e)).
  assert (Dk : forall n, DD (info n)).
  { intros n. apply info_of_any; [|constructor]. eapply Forall_impl; [|exact E3]. intros e He. apply cstr_pos; auto. }
  assert (K1 : forall x y : bsym, DD x -> DD y -> (strcmp (fst x) (fst y) < 0 <-> 0 < strcmp (fst y) (fst x))).
  { intros x y X Y. apply strcmp_C1; auto. }
  assert (K2 : forall x y z : bsym, DD x -> DD y -> DD z -> strcmp (fst x) (fst y) <= 0 -> strcmp (fst y) (fst z) <= 0 -> strcmp (fst x) (fst z) <= 0).
  { intros x y z X Y Z'. apply strcmp_trans; auto. }
  destruct (lg_ok bsym info (fun a b => strcmp (fst a) (fst b)) DD K1 K2 Dk fuel ns (fst h) E [] (idx_empty _ _ _ _ Hr)) as (rs & s' & t' & A1 & A2 & A3); auto.
  { cbn [List.length]. lia. }
  rewrite (link_bfd_lg _ _ _ _ _ _ A1). cbn [snd]. exists (info, s'), ns. split; auto. split; auto. split; auto.
  pose proof (iinv_size _ _ _ _ _ _ A2) as Hsz. cbn [app] in Hsz. destruct A2 as (H1 & _ & _ & Hi). cbn [app] in Hi.
  destruct (rb_destroy_ok s' t' fuel H1) as (s2 & B1 & _); [lia|]. exists (inorder t'), s2. split; auto.
  assert (N1 : NoDup (inorder t')) by apply H1. split; auto.
  assert (I1 : incl (inorder t') ns).
  { intros x Hx. apply Hi in Hx. destruct Hx as (L & R & -> & _). apply in_app_iff. right. left. auto. }
  split; auto. intros Hd. apply NoDup_Permutation; auto. intros x. split; [apply I1|]. intros Hx. apply Hi.
  apply in_split in Hx. destruct Hx as (L & R & EL). exists L, R. split; auto. intros y Hy Q.
  pose proof (entries_distinct c all b es F E1 Hd) as Nf.
  assert (M : map info ns = es) by (apply info_of_nth; auto). rewrite <- M, EL, map_app, map_app in Nf. cbn [map] in Nf.
  apply strcmp_0 in Q; [|apply Dk|apply Dk]. apply NoDup_remove_2 in Nf. apply Nf. apply in_app_iff. left.
  rewrite <- Q. apply in_map, in_map. auto.
Qed.

(** ** The tables that are read *)
Lemma slurp_ok l : sound l -> exists sy a1, slurp_symtab l = (sy, Z.of_nat (List.length (statics l)), a1) /\
  a1 = (if is_some sy then [OSyms] else []) /\
  (statics l <> [] -> exists k, sy = Some k /\ Z.of_nat (List.length (statics l)) * 8 <= k).
Proof.
  intros (A & _ & _ & B & _ & _ & C & _). unfold slurp_symtab, statics. destruct (l_has_syms l); cbn [negb andb].
  2:{ do 2 eexists. split; [reflexivity|]. split; auto. congruence. }
  destruct (Z.leb_spec (l_room l) 0).
  { destruct (Z.ltb_spec 0 (l_room l)); [lia|]. do 2 eexists. split; [reflexivity|]. split; auto. congruence. }
  destruct (Z.ltb_spec 0 (l_room l)); [|lia]. destruct (Z.ltb_spec (l_count l) 0); [lia|].
  rewrite B, Z2Nat.id by lia. do 2 eexists. split; [reflexivity|]. split; auto. intros _. eexists. split; [reflexivity|]. lia.
Qed.

Lemma dslurp_ok l : sound l -> exists dy a2, slurp_dynamic_symtab l = (dy, Z.of_nat (List.length (dynamics l)), a2) /\
  a2 = (if is_some dy then [ODyn] else []) /\
  (dynamics l <> [] -> exists k, dy = Some k /\ Z.of_nat (List.length (dynamics l)) * 8 <= k).
Proof.
  intros (_ & A & _ & _ & B & _ & _ & C). unfold slurp_dynamic_symtab, dynamics.
  destruct (Z.leb_spec (l_droom l) 0).
  { destruct (Z.ltb_spec 0 (l_droom l)); [lia|]. do 2 eexists. split; [reflexivity|]. split; auto. congruence. }
  destruct (Z.ltb_spec 0 (l_droom l)); [|lia]. destruct (Z.ltb_spec (l_dcount l) 0); [lia|].
  rewrite B, Z2Nat.id by lia. do 2 eexists. split; [reflexivity|]. split; auto. intros _. eexists. split; [reflexivity|]. lia.
Qed.

Lemma statics_len l : sound l -> Z.of_nat (List.length (statics l)) < 2 ^ 59 /\
  firstn (List.length (statics l)) (l_syms l) = statics l.
Proof.
  intros (A & _ & _ & B & _). unfold statics. destruct (l_has_syms l && (0 <? l_room l)).
  - split; [lia|apply firstn_all].
  - split; [cbn; lia|reflexivity].
Qed.
Lemma dynamics_len l : sound l -> Z.of_nat (List.length (dynamics l)) < 2 ^ 59 /\
  firstn (List.length (dynamics l)) (l_dyn l) = dynamics l.
Proof.
  intros (_ & A & _ & _ & B & _). unfold dynamics. destruct (0 <? l_droom l).
  - split; [lia|apply firstn_all].
  - split; [cbn; lia|reflexivity].
Qed.

(** ** Opening *)
Lemma open_ok fuel l b h :
  let all := sorted_syms (statics l) (dynamics l) (l_synth l) in
  sound l -> l_exist l = true -> l_open l = true -> l_archive l = false -> l_object l = true ->
  Forall short_base all -> heap_ok h (List.length all) -> (List.length all < fuel)%nat ->
  exists f alive, bfd_elf_open fuel l b h = Some (BFile f alive) /\
    (forall c, load_class fuel c (statics l) (dynamics l) (l_synth l) b (fst (h c)) (snd (h c)) = Some (f_tree f c)) /\
    NoDup alive /\
    exists freed, bfd_elf_close fuel f = Some freed /\ NoDup freed /\ incl freed alive /\
      ((forall c, distinct c all) -> Permutation freed alive).
Proof.
  intros all Hs H1 H2 H3 H4 F Hh Hf. unfold bfd_elf_open. rewrite H1, H2, H3, H4. cbn [negb].
  destruct (slurp_ok l Hs) as (sy & a1 & -> & -> & S3). destruct (dslurp_ok l Hs) as (dy & a2 & -> & -> & D3).
  destruct (statics_len l Hs) as [Ls Fs]. destruct (dynamics_len l Hs) as [Ld Fd].
  rewrite !Nat2Z.id, Fs, Fd.
  assert (Hy : Z.to_nat (if l_ycount l <? 0 then 0 else l_ycount l) = List.length (l_synth l)).
  { destruct Hs as (_ & _ & _ & _ & _ & -> & _). destruct (Z.ltb_spec (l_ycount l) 0); lia. }
  rewrite Hy, firstn_all.
  set (yc := if l_ycount l <? 0 then 0 else l_ycount l) in *.
  assert (Yb : 0 <= yc < 2 ^ 59). { destruct Hs as (_ & _ & Y & _). unfold yc. destruct (Z.ltb_spec (l_ycount l) 0); lia. }
  set (n := if Z.of_nat (List.length (statics l)) =? 0 then Z.of_nat (List.length (dynamics l)) else Z.of_nat (List.length (statics l))).
  set (src := if Z.of_nat (List.length (statics l)) =? 0 then dy else sy).
  assert (Hn : 0 <= n < 2 ^ 59). { unfold n. destruct (_ =? 0); lia. }
  assert (Hc : n <> 0 -> exists k, src = Some k /\ n * 8 <= k).
  { unfold n, src. destruct (Z.eqb_spec (Z.of_nat (List.length (statics l))) 0) as [E|E]; intros Q.
    - apply D3. intros Q1. rewrite Q1 in Q. cbn in Q. lia.
    - apply S3. intros Q1. rewrite Q1 in E. cbn in E. lia. }
  assert (G : negb (n =? 0) && negb (copy_ok (u64 (n * 8)) src (u64 ((n + yc) * 8))) = false).
  { destruct (Z.eqb_spec n 0) as [E|E]; [reflexivity|]. cbn [negb andb]. destruct (Hc E) as (k & -> & Hk). unfold copy_ok.
    clearbody n yc. clear - Hn Yb Hk. unfold u64. rewrite !wrap_id by lia.
    destruct (Z.leb_spec (n * 8) k); [|lia]. destruct (Z.leb_spec (n * 8) ((n + yc) * 8)); [|lia].
    destruct (Z.ltb_spec ((n + yc) * 8) (2 ^ 63)); [reflexivity|lia]. }
  rewrite G. clear G Hc.
  destruct (Hh CPlt) as [P1 P2]. destruct (Hh CText) as [T1 T2]. destruct (Hh CData) as [D1 D2].
  destruct (fill_ok CPlt _ _ _ b (h CPlt) fuel F P1 P2 Hf) as (tp & np & -> & Lp & Np & op & sp & Rp & Op & Ip & Pp).
  destruct (fill_ok CText _ _ _ b (h CText) fuel F T1 T2 Hf) as (tt & nt & -> & Lt & Nt & ot & st & Rt & Ot & It & Pt).
  destruct (fill_ok CData _ _ _ b (h CData) fuel F D1 D2 Hf) as (td & nd & -> & Lx & Nx & od & sd & Rd & Od & Id & Pd).
  cbn [fst snd]. do 2 eexists. split; [reflexivity|]. cbn [f_tree]. split; [intros []; auto|].
  assert (NM : forall c l0, NoDup l0 -> NoDup (map (OSym c) l0)).
  { intros c l0. induction 1; cbn [map]; constructor; auto. intros Q. apply in_map_iff in Q. destruct Q as (z & Q1 & Q2). congruence. }
  assert (AP : forall (u v : list obj), NoDup u -> NoDup v -> (forall o, In o u -> In o v -> False) -> NoDup (u ++ v)).
  { intros u v. induction 1; cbn [app]; intros V W; auto. constructor.
    - intros Q. apply in_app_iff in Q. destruct Q; [contradiction|]. apply (W x); cbn; auto.
    - apply IHNoDup; auto. intros o O1 O2. apply (W o); cbn; auto. }
  assert (SYM : forall np nt nd, NoDup np -> NoDup nt -> NoDup nd -> NoDup (map (OSym CPlt) np ++ map (OSym CText) nt ++ map (OSym CData) nd)).
  { intros x y z X Y Z0. apply AP; [auto|apply AP; auto|].
    - intros o O1 O2. apply in_map_iff in O1, O2. destruct O1 as (? & <- & _), O2 as (? & ? & _). discriminate.
    - intros o O1 O2. apply in_app_iff in O2. rewrite !in_map_iff in O2. apply in_map_iff in O1.
      destruct O1 as (? & <- & _). destruct O2 as [(? & ? & _)|(? & ? & _)]; discriminate. }
  assert (HD : forall (b1 b2 b3 : bool) u, NoDup u -> (forall o, In o u -> exists c m, o = OSym c m) ->
    NoDup ([OFile; OBfd] ++ (if b1 then [OSyms] else []) ++ (if b2 then [ODyn] else []) ++ (if b3 then [OSynth] else []) ++ [OSorted] ++ u)).
  { intros b1 b2 b3 u U1 U2.
    assert (X : forall o, In o u -> o <> OFile /\ o <> OBfd /\ o <> OSyms /\ o <> ODyn /\ o <> OSynth /\ o <> OSorted).
    { intros o O. destruct (U2 o O) as (c & m & ->). repeat split; discriminate. }
    destruct b1, b2, b3; cbn [app]; repeat (constructor; [cbn [In]; intros Q;
      repeat (destruct Q as [Q|Q]; [discriminate|]); apply X in Q; intuition congruence|]); exact U1. }
  assert (US : forall np nt nd o, In o (map (OSym CPlt) np ++ map (OSym CText) nt ++ map (OSym CData) nd) -> exists c m, o = OSym c m).
  { intros x y z o O. rewrite !in_app_iff, !in_map_iff in O. destruct O as [(m & <- & _)|[(m & <- & _)|(m & <- & _)]]; eauto. }
  split; [apply HD; [apply SYM; auto|apply US]|].
  unfold bfd_elf_close. cbn [f_tree f_syms f_dyn f_synth]. rewrite Rp, Rt, Rd. cbn [fst]. eexists. split; [reflexivity|].
  assert (PERM : Permutation
    ((if is_some sy then [OSyms] else []) ++ (if is_some dy then [ODyn] else []) ++ (if 0 <? yc then [OSynth] else []) ++ [OSorted] ++
      map (OSym CText) ot ++ map (OSym CPlt) op ++ map (OSym CData) od ++ [OBfd; OFile])
    ([OFile; OBfd] ++ (if is_some sy then [OSyms] else []) ++ (if is_some dy then [ODyn] else []) ++ (if 0 <? yc then [OSynth] else []) ++ [OSorted] ++
      map (OSym CPlt) op ++ map (OSym CText) ot ++ map (OSym CData) od)).
  { transitivity ([OBfd; OFile] ++ ((if is_some sy then [OSyms] else []) ++ (if is_some dy then [ODyn] else []) ++ (if 0 <? yc then [OSynth] else []) ++ [OSorted] ++
      map (OSym CText) ot ++ map (OSym CPlt) op ++ map (OSym CData) od)).
    { rewrite (Permutation_app_comm [OBfd; OFile]). rewrite <- !app_assoc. apply Permutation_refl. }
    cbn [app]. rewrite perm_swap. apply perm_skip, perm_skip. do 3 apply Permutation_app_head. apply perm_skip.
    rewrite !app_assoc. apply Permutation_app_tail. apply Permutation_app_comm. }
  split.
  { eapply Permutation_NoDup; [apply Permutation_sym, PERM|]. apply HD; [apply SYM; auto|apply US]. }
  split.
  { intros o O. apply (Permutation_in _ PERM) in O. rewrite !in_app_iff in *. rewrite !in_map_iff in *.
    destruct O as [O|[O|[O|[O|[O|[(m & <- & M)|[(m & <- & M)|(m & <- & M)]]]]]]]; auto 9.
    - do 5 right. left. exists m. auto.
    - do 6 right. left. exists m. auto.
    - do 7 right. exists m. auto. }
  intros Hd. rewrite PERM. do 5 apply Permutation_app_head.
  apply Permutation_app; [apply Permutation_map, Pp, Hd|]. apply Permutation_app; apply Permutation_map; auto.
Qed.

(** ** Names *)
Definition basef (name : list Z) : list Z :=
  match at_index name with None => name | Some k => firstn (Z.to_nat k) name end.

Lemma basef_ok name base : base_of name base -> basef name = base.
Proof.
  intros [H [->|(v & ->)]]; unfold basef.
  - rewrite (proj2 (at_index_none base) H). reflexivity.
  - rewrite at_index_split by auto. rewrite Nat2Z.id, firstn_app, firstn_all, Nat.sub_diag, firstn_O, app_nil_r. reflexivity.
Qed.

Lemma distinct_nodup c all : NoDup (map (fun s => option_map basef (a_name s)) all) -> distinct c all.
Proof.
  intros N L s R s' base -> HR (n1 & N1 & _ & B1) (n2 & N2 & _ & B2). rewrite map_app in N. cbn [map] in N.
  apply NoDup_remove_2 in N. apply N. apply in_app_iff. right. apply in_map_iff. exists s'. split; auto.
  rewrite N1, N2. cbn [option_map]. rewrite (basef_ok _ _ B1), (basef_ok _ _ B2). reflexivity.
Qed.
