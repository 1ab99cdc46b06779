(** What names denote: C176-C179. *)
From Coq Require Import ZArith String List Bool Lia.
From Verif Require TextModel.
From Verif Require Import WordLemmas LdModel LdSpec LdProofs LdMore LdEx LdProps.
From Verif Require Import Word RbModel RbSpec Str SymModel SymSpec SymProps ElfDefs ElfModel ElfSpec ElfProofs RsModel RsSpec RsProofs.
Import ListNotations.
Open Scope Z_scope.

(** ** Processes for the examples *)
Definition ex_rbs : rbs := Rbs (fun x => if (0 <? x) && (x mod 16 =? 0) then Some (Rbn 0 0 0) else None) 0.
Definition ex_nodes : list Z := map (fun i => 16 * (Z.of_nat i + 1)) (seq 0 120).
Definition ex_heap : nat -> cls -> rbs * list Z := fun _ _ => (ex_rbs, ex_nodes).
Definition ex_stack : buffer := fun _ => 7.

Lemma nodes_in n : In n ex_nodes -> 0 < n /\ n mod 16 = 0 /\ n < 2048.
Proof.
  unfold ex_nodes. rewrite in_map_iff. intros (i & <- & Hi). apply in_seq in Hi.
  replace (16 * (Z.of_nat i + 1)) with ((Z.of_nat i + 1) * 16) by lia. rewrite Z.mod_mul by lia. lia.
Qed.

Lemma nodes_nodup : NoDup ex_nodes.
Proof. unfold ex_nodes. apply FinFun.Injective_map_NoDup; [intros a b; lia|apply seq_NoDup]. Qed.

Lemma nodes_live n : In n ex_nodes -> node_addr n /\ hp ex_rbs n <> None.
Proof.
  intros H. apply nodes_in in H. destruct H as (A & B & C). split; [unfold node_addr; lia|].
  cbn [hp ex_rbs]. replace (0 <? n) with true by lia. rewrite B. discriminate.
Qed.

Definition sym_fine (s : asym) : bool :=
  match a_name s with Some n => forallb (fun c => (0 <? c) && (c <? 256)) n && (Z.of_nat (List.length n) <? 256) | None => false end.

Lemma sym_fine_ok s : sym_fine s = true -> short_base s.
Proof.
  unfold sym_fine, short_base. destruct (a_name s) as [n|]; [|discriminate]. intros H. apply andb_true_iff in H. destruct H as [H1 H2].
  exists n. split; auto. split.
  - unfold cstr_ok. apply Forall_forall. rewrite forallb_forall in H1. intros c Hc. specialize (H1 c Hc). lia.
  - intros base v _ ->. rewrite app_length in H2. lia.
Qed.

Lemma ex_opened ms : forallb (fun m => forallb sym_fine (the_syms m) && (many m <=? 8)%nat) ms = true -> (ptotal ms + total ms <= 99)%nat -> good_patches ms ->
  opened ms 100 ex_heap ex_syms ex_nodes.
Proof.
  intros H Ht Hg. rewrite forallb_forall in H. split; [|split; [|split; [|split; [exact Hg|]]]].
  - intros k m c Hk. apply nth_error_In in Hk. specialize (H m Hk). apply andb_true_iff in H. destruct H as [_ H]. cbn [fst snd ex_heap].
    split; [split; [reflexivity|split; [apply nodes_nodup|apply nodes_live]]|]. unfold ex_nodes. rewrite map_length, seq_length. apply Nat.leb_le in H. lia.
  - split; [split; [|split; [|split]]|].
    + repeat split.
    + repeat split.
    + apply nodes_nodup.
    + apply Forall_forall. intros x Hx. apply nodes_live in Hx. destruct Hx as [A B]. repeat split; auto; apply A.
    + unfold ex_nodes. rewrite map_length, seq_length. lia.
  - intros m all Hm Ha. specialize (H m Hm). apply andb_true_iff in H. destruct H as [H _]. rewrite forallb_forall in H.
    unfold file_syms in Ha. rewrite (considered_fun _ _ _ _ _ Ha (the_syms_ok m)). apply Forall_forall. intros s Hs. apply sym_fine_ok. auto.
  - lia.
Qed.

(** Without patches. *)
Lemma ex_opened_plain ms : forallb (fun m => forallb sym_fine (the_syms m) && (many m <=? 8)%nat && negb (m_patch m) && match m_image m with None => true | _ => false end) ms = true ->
  (total ms <= 99)%nat -> opened ms 100 ex_heap ex_syms ex_nodes.
Proof.
  intros H Ht. apply ex_opened.
  - rewrite forallb_forall in *. intros m Hm. specialize (H m Hm). rewrite !andb_true_iff in H. rewrite !andb_true_iff. tauto.
  - replace (ptotal ms) with 0%nat; [lia|]. clear Ht. rewrite forallb_forall in H. induction ms as [|m ms IH]; auto.
    change (ptotal (m :: ms)) with (pmany m + ptotal ms)%nat. rewrite <- IH; [|intros; apply H; right; auto].
    specialize (H m (or_introl eq_refl)). rewrite !andb_true_iff in H. destruct H as [_ H]. unfold pmany. destruct (m_image m); [discriminate|reflexivity].
  - intros m im Hm Hp. rewrite forallb_forall in H. specialize (H m Hm). rewrite !andb_true_iff in H. destruct H as [[_ H] _]. rewrite Hp in H. discriminate.
Qed.

Definition fn (name : string) (v : Z) : asym := As (Some (str name)) v false SOther true false.
Definition var (name : string) (v : Z) : asym := As (Some (str name)) v false SOther false true.
Definition und (name : string) : asym := As (Some (str name)) 0 false SUnd false false.

(** A program with a stub for puts and a static function log_it, and two libraries. *)
Definition prog : mapping := Mp true true false 0x555555554000
  [fn "log_it" 0x1160; und "puts@GLIBC_2.2.5"; fn "main" 0x1139; var "count" 0x4010] [und "puts"] [fn "puts@plt" 0x1030] None.
Definition libc : mapping := Mp true true false 0x7ffff7c00000
  [] [fn "puts@@GLIBC_2.2.5" 0x80e50; fn "log_it" 0x5000; var "environ" 0x222200; fn "cond@GLIBC_2.2.5" 0x9000; fn "cond@@GLIBC_2.3.2" 0x9100; fn "strlen" 0xa000] [] None.
Definition libm : mapping := Mp true true false 0x7ffff7a00000 [] [fn "sin" 0x7000; fn "hook" 0x7100] [] None.
Definition libn : mapping := Mp true true false 0x7ffff7e00000 [] [fn "hook" 0x3100] [] None.
Definition heap_map : mapping := Mp false false false 0 [] [] [] None.
Definition vdso : mapping := Mp true false false 0x7ffff7fc1000 [] [fn "clock" 0xc10] [] None.
Definition ex_ms : list mapping := [prog; heap_map; libm; libc; libn; vdso].

Definition o_prog : object := Ob prog [Ex (str "main") 0x1139 None; Ex (str "count") 0x4010 None].
Definition o_libc : object := Ob libc [Ex (str "puts") 0x80e50 None; Ex (str "log_it") 0x5000 None; Ex (str "environ") 0x222200 None;
  Ex (str "cond") 0x9100 None; Ex (str "strlen") 0xa000 (Some 0x7ffff7d01230)].
Definition o_libm : object := Ob libm [Ex (str "sin") 0x7000 None; Ex (str "hook") 0x7100 None].
Definition o_libn : object := Ob libn [Ex (str "hook") 0x3100 None].
(** The program needs libn, libc and libm, in this order. *)
Definition ex_scope : list object := [o_prog; o_libn; o_libc; o_libm].

Lemma ex_ms_opened : opened ex_ms 100 ex_heap ex_syms ex_nodes.
Proof. apply ex_opened_plain; [vm_compute; reflexivity|cbn; lia]. Qed.

Ltac offer c s := exists c, s; split; [apply offers_iff; split; [repeat split|split; [vm_compute; tauto|]]|reflexivity].

Lemma fn_answers name base v : base_of (str name) base -> answers CText base (fn name v).
Proof. intros H. exists (str name). repeat split; auto; apply H. Qed.
Lemma var_answers name base v : base_of (str name) base -> answers CData base (var name v).
Proof. intros H. exists (str name). repeat split; auto; apply H. Qed.
Lemma plain n : at_index n = None -> base_of n n.
Proof. intros H. split; auto. apply at_index_none; auto. Qed.
Lemma versioned n base v : at_index n = Some (Z.of_nat (List.length base)) -> n = base ++ 64 :: v -> at_index base = None -> base_of n base.
Proof. intros _ -> H. split; [apply at_index_none; auto|eauto]. Qed.

Lemma ex_loaded : loaded_process ex_ms ex_scope.
Proof.
  split.
  - intros o [<-|[<-|[<-|[<-|[]]]]].
    + split; [left; auto|]. intros e [<-|[<-|[]]]; cbn [x_name x_value o_map o_prog].
      * offer CText (fn "main" 0x1139). apply fn_answers, plain. reflexivity.
      * offer CData (var "count" 0x4010). apply var_answers, plain. reflexivity.
    + split; [cbn; tauto|]. intros e [<-|[]]; cbn [x_name x_value o_map o_libn].
      offer CText (fn "hook" 0x3100). apply fn_answers, plain. reflexivity.
    + split; [cbn; tauto|]. intros e [<-|[<-|[<-|[<-|[<-|[]]]]]]; cbn [x_name x_value o_map o_libc].
      * offer CText (fn "puts@@GLIBC_2.2.5" 0x80e50). apply fn_answers. apply versioned with (v := str "@GLIBC_2.2.5"); reflexivity.
      * offer CText (fn "log_it" 0x5000). apply fn_answers, plain. reflexivity.
      * offer CData (var "environ" 0x222200). apply var_answers, plain. reflexivity.
      * offer CText (fn "cond@@GLIBC_2.3.2" 0x9100). apply fn_answers. apply versioned with (v := str "@GLIBC_2.3.2"); reflexivity.
      * offer CText (fn "strlen" 0xa000). apply fn_answers, plain. reflexivity.
    + split; [cbn; tauto|]. intros e [<-|[<-|[]]]; cbn [x_name x_value o_map o_libm].
      * offer CText (fn "sin" 0x7000). apply fn_answers, plain. reflexivity.
      * offer CText (fn "hook" 0x7100). apply fn_answers, plain. reflexivity.
  - intros m [<-|[<-|[<-|[<-|[<-|[<-|[]]]]]]] (U1 & U2 & _); try discriminate.
    + exists o_prog. cbn. auto.
    + exists o_libm. cbn. auto 10.
    + exists o_libc. cbn. auto 10.
    + exists o_libn. cbn. auto 10.
Qed.

(** ** C176 *)
Theorem C176_names fuel ms b heap ts pool : opened ms fuel heap ts pool ->
  forall name, cstr_ok name -> exists r, resolve fuel ms b heap ts pool name = Some r /\ denotes ms name r /\
    forall r', denotes ms name r' -> r' = r.
Proof.
  intros H name Hc. destruct (resolve_ok fuel ms b heap ts pool H name Hc) as (r & E & D).
  exists r. split; auto. split; auto. intros r' D'. eapply denotes_fun; eauto.
Qed.
Print Assumptions C176_names.

Lemma at_main : resolve 100 ex_ms ex_stack ex_heap ex_syms ex_nodes (str "main") = Some 0x555555555139.
Proof. vm_compute. reflexivity. Qed.
Lemma at_sin : resolve 100 ex_ms ex_stack ex_heap ex_syms ex_nodes (str "sin") = Some 0x7ffff7a07000.
Proof. vm_compute. reflexivity. Qed.
Lemma at_clock : resolve 100 ex_ms ex_stack ex_heap ex_syms ex_nodes (str "clock") = Some 0.
Proof. vm_compute. reflexivity. Qed.
Example C176_ex : opened ex_ms 100 ex_heap ex_syms ex_nodes /\
  resolve 100 ex_ms ex_stack ex_heap ex_syms ex_nodes (str "main") = Some 0x555555555139 /\
  resolve 100 ex_ms ex_stack ex_heap ex_syms ex_nodes (str "sin") = Some 0x7ffff7a07000 /\
  resolve 100 ex_ms ex_stack ex_heap ex_syms ex_nodes (str "clock") = Some 0.
Proof. exact (conj ex_ms_opened (conj at_main (conj at_sin at_clock))). Qed.

(** ** C177 *)
Lemma binds_main : binds ex_scope (str "main") o_prog (Ex (str "main") 0x1139 None).
Proof. exists [], [o_libn; o_libc; o_libm]. repeat split; [left; auto|]. intros o' e' []. Qed.

Ltac after := let o := fresh in let e := fresh in
  intros o e Ho He; cbn [In] in Ho; repeat (destruct Ho as [<-|Ho]; [cbn [o_exports o_prog o_libn o_libc o_libm In] in He;
    repeat (destruct He as [<-|He]; [cbn [x_name]; vm_compute; discriminate|]); destruct He|]); destruct Ho.

Lemma binds_puts : binds ex_scope (str "puts") o_libc (Ex (str "puts") 0x80e50 None).
Proof. exists [o_prog; o_libn], [o_libm]. repeat split; [cbn; tauto|]. after. Qed.
Lemma binds_log : binds ex_scope (str "log_it") o_libc (Ex (str "log_it") 0x5000 None).
Proof. exists [o_prog; o_libn], [o_libm]. repeat split; [cbn; tauto|]. after. Qed.
Lemma binds_hook : binds ex_scope (str "hook") o_libn (Ex (str "hook") 0x3100 None).
Proof. exists [o_prog], [o_libc; o_libm]. repeat split; [cbn; tauto|]. after. Qed.
Lemma binds_cond : binds ex_scope (str "cond") o_libc (Ex (str "cond") 0x9100 None).
Proof. exists [o_prog; o_libn], [o_libm]. repeat split; [cbn; tauto|]. after. Qed.
Lemma binds_strlen : binds ex_scope (str "strlen") o_libc (Ex (str "strlen") 0xa000 (Some 0x7ffff7d01230)).
Proof. exists [o_prog; o_libn], [o_libm]. repeat split; [cbn; tauto|]. after. Qed.

(** The full claim is [r = run_addr o e] in place of [r <> run_addr o e].
    The name of a library function denotes the stub of the program that calls it. *)
Theorem C177_stub_refuted : exists fuel ms scope b heap ts pool name o e r s,
  opened ms fuel heap ts pool /\ loaded_process ms scope /\ binds scope name o e /\
  resolve fuel ms b heap ts pool name = Some r /\ r <> run_addr o e /\
  In s (m_synth prog) /\ r = at_run_time prog s.
Proof.
  exists 100%nat, ex_ms, ex_scope, ex_stack, ex_heap, ex_syms, ex_nodes, (str "puts"), o_libc, (Ex (str "puts") 0x80e50 None), 0x555555555030, (fn "puts@plt" 0x1030).
  split; [exact ex_ms_opened|]. split; [exact ex_loaded|]. split; [exact binds_puts|]. split; [vm_compute; reflexivity|].
  split; [vm_compute; discriminate|]. split; [left; auto|reflexivity].
Qed.
Print Assumptions C177_stub_refuted.

(** A function that is static in one object hides an exported function of another. *)
Theorem C177_static_refuted : exists fuel ms scope b heap ts pool name o e r,
  opened ms fuel heap ts pool /\ loaded_process ms scope /\ binds scope name o e /\
  resolve fuel ms b heap ts pool name = Some r /\ r <> run_addr o e /\
  (forall o', In o' scope -> o_map o' = prog -> forall e', In e' (o_exports o') -> x_name e' <> name) /\ r = 0x1160 + m_load prog.
Proof.
  exists 100%nat, ex_ms, ex_scope, ex_stack, ex_heap, ex_syms, ex_nodes, (str "log_it"), o_libc, (Ex (str "log_it") 0x5000 None), 0x555555555160.
  split; [exact ex_ms_opened|]. split; [exact ex_loaded|]. split; [exact binds_log|]. split; [vm_compute; reflexivity|].
  split; [vm_compute; discriminate|]. split; [|reflexivity].
  intros o' [<-|[<-|[<-|[<-|[]]]]] Hm; try discriminate. intros e' [<-|[<-|[]]]; vm_compute; discriminate.
Qed.
Print Assumptions C177_static_refuted.

(** Libraries are searched by address, not in the order of the loader. *)
Theorem C177_order_refuted : exists fuel ms scope b heap ts pool name o e r,
  opened ms fuel heap ts pool /\ loaded_process ms scope /\ binds scope name o e /\ x_ifunc e = None /\
  resolve fuel ms b heap ts pool name = Some r /\ r <> run_addr o e /\ r = run_addr o_libm (Ex name 0x7100 None).
Proof.
  exists 100%nat, ex_ms, ex_scope, ex_stack, ex_heap, ex_syms, ex_nodes, (str "hook"), o_libn, (Ex (str "hook") 0x3100 None), 0x7ffff7a07100.
  split; [exact ex_ms_opened|]. split; [exact ex_loaded|]. split; [exact binds_hook|]. split; auto. split; [vm_compute; reflexivity|].
  split; [vm_compute; discriminate|reflexivity].
Qed.
Print Assumptions C177_order_refuted.

(** Of several versions of a function the first in the symbol table is taken, not the default one. *)
Theorem C177_version_refuted : exists fuel ms scope b heap ts pool name o e r,
  opened ms fuel heap ts pool /\ loaded_process ms scope /\ binds scope name o e /\ x_ifunc e = None /\
  resolve fuel ms b heap ts pool name = Some r /\ r <> run_addr o e /\ r = at_run_time (o_map o) (fn "cond@GLIBC_2.2.5" 0x9000).
Proof.
  exists 100%nat, ex_ms, ex_scope, ex_stack, ex_heap, ex_syms, ex_nodes, (str "cond"), o_libc, (Ex (str "cond") 0x9100 None), 0x7ffff7c09000.
  split; [exact ex_ms_opened|]. split; [exact ex_loaded|]. split; [exact binds_cond|]. split; auto. split; [vm_compute; reflexivity|].
  split; [vm_compute; discriminate|reflexivity].
Qed.
Print Assumptions C177_version_refuted.

(** The name of an indirect function denotes its resolver. *)
Theorem C177_indirect_refuted : exists fuel ms scope b heap ts pool name o e r,
  opened ms fuel heap ts pool /\ loaded_process ms scope /\ binds scope name o e /\
  resolve fuel ms b heap ts pool name = Some r /\ r <> run_addr o e /\ r = x_value e + m_load (o_map o).
Proof.
  exists 100%nat, ex_ms, ex_scope, ex_stack, ex_heap, ex_syms, ex_nodes, (str "strlen"), o_libc, (Ex (str "strlen") 0xa000 (Some 0x7ffff7d01230)), 0x7ffff7c0a000.
  split; [exact ex_ms_opened|]. split; [exact ex_loaded|]. split; [exact binds_strlen|]. split; [vm_compute; reflexivity|].
  split; [vm_compute; discriminate|reflexivity].
Qed.
Print Assumptions C177_indirect_refuted.

(** It does if no patch defines the name, no file mapped below the one the loader takes has a symbol of that name, not
    even a static one or a stub, and that file has it only at the address bound. *)
Theorem C177_binding_partial fuel ms scope b heap ts pool name o e L R :
  opened ms fuel heap ts pool -> loaded_process ms scope -> cstr_ok name -> binds scope name o e ->
  (forall m v, In m ms -> ~ patch_defines m name v) ->
  ms = L ++ o_map o :: R -> (forall m c s, In m L -> ~ offers m c name s) ->
  (forall c s, offers (o_map o) c name s -> at_run_time (o_map o) s = run_addr o e) ->
  resolve fuel ms b heap ts pool name = Some (run_addr o e).
Proof.
  intros Ho (Hp & _) Hc (L1 & R1 & Es & He & Hn & _) NP Em HL HO.
  destruct (C176_names fuel ms b heap ts pool Ho name Hc) as (r & E & D & _). rewrite E. f_equal.
  destruct (Hp o) as [_ Sh]; [rewrite Es; apply in_app_iff; right; left; auto|].
  destruct (Sh e He) as (c & s & O & _). rewrite Hn in O.
  destruct D as [(L0 & m0 & R0 & E0 & P0 & _)|[_ D]].
  { exfalso. apply (NP m0 r); [rewrite E0; apply in_app_iff; right; left; auto|apply first_defines; auto]. }
  destruct D as [[-> N]|(L2 & m & R2 & c2 & all & A & s2 & B & Em2 & U & F & -> & An & -> & H1 & H2 & H3)].
  - exfalso. apply (N (o_map o) c s); auto. rewrite Em. apply in_app_iff; right; left; auto.
  - assert (O2 : offers m c2 name s2). { split; auto. exists (A ++ s2 :: B). split; auto. split; auto. apply in_app_iff; right; left; auto. }
    assert (Eq : m = o_map o).
    { rewrite Em in Em2. clear - Em2 HL H1 O O2. revert L2 Em2 H1. induction L as [|l L IH]; intros [|l2 L2] E H1; cbn [app] in E; injection E as E1 E2; auto.
      - exfalso. apply (H1 (o_map o) c s); auto. left; auto.
      - exfalso. apply (HL m c2 s2); auto. left; auto.
      - eapply IH; [|exact E2|]; intros; [apply HL|apply H1]; right; auto. }
    subst m. eapply HO; eauto.
Qed.
Print Assumptions C177_binding_partial.

Lemma other_name c base s n b0 : answers c base s -> a_name s = Some n -> base_of n b0 -> b0 = base.
Proof. intros (n' & E' & _ & Hb') E Hb. rewrite E in E'. injection E' as <-. eapply base_unique; eauto. Qed.

Lemma prog_syms : the_syms prog = [fn "log_it" 0x1160; fn "main" 0x1139; var "count" 0x4010; fn "puts@plt" 0x1030].
Proof. vm_compute. reflexivity. Qed.
Lemma libm_syms : the_syms libm = [fn "sin" 0x7000; fn "hook" 0x7100].
Proof. vm_compute. reflexivity. Qed.

Lemma binds_sin : binds ex_scope (str "sin") o_libm (Ex (str "sin") 0x7000 None).
Proof. exists [o_prog; o_libn; o_libc], []. repeat split; [cbn; tauto|]. after. Qed.

Lemma prog_no_sin c s : ~ offers prog c (str "sin") s.
Proof.
  intros O. apply offers_iff in O. destruct O as (_ & Hs & An). rewrite prog_syms in Hs.
  destruct Hs as [<-|[<-|[<-|[<-|[]]]]].
  - apply (other_name _ _ _ (str "log_it") (str "log_it")) in An; [vm_compute in An; discriminate|reflexivity|apply plain; reflexivity].
  - apply (other_name _ _ _ (str "main") (str "main")) in An; [vm_compute in An; discriminate|reflexivity|apply plain; reflexivity].
  - apply (other_name _ _ _ (str "count") (str "count")) in An; [vm_compute in An; discriminate|reflexivity|apply plain; reflexivity].
  - apply (other_name _ _ _ (str "puts@plt") (str "puts")) in An; [vm_compute in An; discriminate|reflexivity|apply versioned with (v := str "plt"); reflexivity].
Qed.

Example C177_ex : opened ex_ms 100 ex_heap ex_syms ex_nodes /\ loaded_process ex_ms ex_scope /\
  (forall m v, In m ex_ms -> ~ patch_defines m (str "sin") v) /\
  binds ex_scope (str "sin") o_libm (Ex (str "sin") 0x7000 None) /\ ex_ms = [prog; heap_map] ++ o_map o_libm :: [libc; libn; vdso] /\
  (forall m c s, In m [prog; heap_map] -> ~ offers m c (str "sin") s) /\
  (forall c s, offers (o_map o_libm) c (str "sin") s -> at_run_time (o_map o_libm) s = run_addr o_libm (Ex (str "sin") 0x7000 None)).
Proof.
  split; [exact ex_ms_opened|]. split; [exact ex_loaded|]. split.
  { intros m v Hm (Q & _). cbn [In ex_ms] in Hm. repeat (destruct Hm as [<-|Hm]; [discriminate|]). destruct Hm. }
  split; [exact binds_sin|]. split; [reflexivity|]. split.
  - intros m c s [<-|[<-|[]]]; [apply prog_no_sin|]. intros ((U & _) & _). discriminate.
  - intros c s O. apply offers_iff in O. destruct O as (_ & Hs & An). cbn [o_map o_libm] in Hs. rewrite libm_syms in Hs.
    destruct Hs as [<-|[<-|[]]]; [reflexivity|].
    apply (other_name _ _ _ (str "hook") (str "hook")) in An; [vm_compute in An; discriminate|reflexivity|apply plain; reflexivity].
Qed.

(** ** C178 *)
(** A file that the process has mapped only to read it: here a copy of a library mapped
    below the program's libraries.  The claim is [r = r'].  *)
Definition copy : mapping := Mp true true false 0x7ffff7800000 [] [fn "sin" 0x7200] [] None.
Lemma data_opened : opened [prog; copy; libm] 100 ex_heap ex_syms ex_nodes.
Proof. apply ex_opened_plain; [vm_compute; reflexivity|cbn; lia]. Qed.
Lemma nodata_opened : opened [prog; libm] 100 ex_heap ex_syms ex_nodes.
Proof. apply ex_opened_plain; [vm_compute; reflexivity|cbn; lia]. Qed.
Lemma sin_data : resolve 100 [prog; copy; libm] ex_stack ex_heap ex_syms ex_nodes (str "sin") = Some 0x7ffff7807200.
Proof. vm_compute. reflexivity. Qed.
Lemma sin_nodata : resolve 100 [prog; libm] ex_stack ex_heap ex_syms ex_nodes (str "sin") = Some 0x7ffff7a07000.
Proof. vm_compute. reflexivity. Qed.
Lemma nodata_loaded : loaded_process [prog; libm] [o_prog; o_libm].
Proof.
  destruct ex_loaded as [H _]. split.
  - intros o [<-|[<-|[]]]; (split; [cbn; tauto|]; apply H; cbn; tauto).
  - intros m [<-|[<-|[]]] _; [exists o_prog|exists o_libm]; cbn; auto.
Qed.

Theorem C178_data_refuted : exists fuel L m R scope b heap ts pool name r r',
  loaded_process (L ++ R) scope /\ opened (L ++ m :: R) fuel heap ts pool /\ opened (L ++ R) fuel heap ts pool /\
  (forall o, In o scope -> o_map o <> m) /\
  resolve fuel (L ++ m :: R) b heap ts pool name = Some r /\ resolve fuel (L ++ R) b heap ts pool name = Some r' /\ r <> r'.
Proof.
  exists 100%nat, [prog], copy, [libm], [o_prog; o_libm], ex_stack, ex_heap, ex_syms, ex_nodes, (str "sin"), 0x7ffff7807200, 0x7ffff7a07000.
  split; [exact nodata_loaded|]. split; [exact data_opened|]. split; [exact nodata_opened|]. split.
  { intros o [<-|[<-|[]]]; discriminate. }
  split; [exact sin_data|]. split; [exact sin_nodata|discriminate].
Qed.
Print Assumptions C178_data_refuted.

(** It does not if the file has no symbol of that name. *)
Theorem C178_data_partial fuel fuel' L m R b b' heap heap' ts ts' pool pool' name :
  opened (L ++ m :: R) fuel heap ts pool -> opened (L ++ R) fuel' heap' ts' pool' -> cstr_ok name ->
  (forall c s, ~ offers m c name s) -> (forall v, ~ patch_defines m name v) ->
  exists r, resolve fuel (L ++ m :: R) b heap ts pool name = Some r /\ resolve fuel' (L ++ R) b' heap' ts' pool' name = Some r.
Proof.
  intros H1 H2 Hc N NP. destruct (C176_names fuel _ b heap ts pool H1 name Hc) as (r & E & D & _).
  destruct (C176_names fuel' _ b' heap' ts' pool' H2 name Hc) as (r' & E' & _ & U). exists r. split; auto. rewrite E'. f_equal.
  symmetry. apply U. eapply denotes_drop; eauto.
Qed.
Print Assumptions C178_data_partial.

Example C178_ex : opened ([prog] ++ copy :: [libm]) 100 ex_heap ex_syms ex_nodes /\ opened ([prog] ++ [libm]) 100 ex_heap ex_syms ex_nodes /\
  (forall c s, ~ offers copy c (str "hook") s) /\ (forall v, ~ patch_defines copy (str "hook") v) /\
  resolve 100 [prog; copy; libm] ex_stack ex_heap ex_syms ex_nodes (str "hook") = Some 0x7ffff7a07100.
Proof.
  split; [exact data_opened|]. split; [exact nodata_opened|]. split; [|split; [intros v (Q & _); discriminate|vm_compute; reflexivity]].
  intros c s O. apply offers_iff in O. destruct O as (_ & Hs & An).
  assert (E : the_syms copy = [fn "sin" 0x7200]) by (vm_compute; reflexivity). rewrite E in Hs. destruct Hs as [<-|[]].
  apply (other_name _ _ _ (str "sin") (str "sin")) in An; [vm_compute in An; discriminate|reflexivity|apply plain; reflexivity].
Qed.

(** ** C179 *)
(** A patch that replaces old_fn by a function that it calls log_it, linked for 0x7000000. *)
Definition log_file : list Z := patch_list (patch_list ex_file 153 (str "log_it")) 329 (str "log_it").
Definition log_linked : list Z := Eval vm_compute in match prepare (of_bytes log_file) with Some (_, m) => map (fun i => m (Z.of_nat i)) (seq 0 (List.length log_file)) | None => [] end.
Definition log_im : image := Im ex_th ex_len (of_bytes log_linked).
Definition a_patch : mapping := Mp true true true 0x7000000 [] [] [] (Some log_im).

Lemma log_bytes : byte_mem (im_mem log_im).
Proof. apply of_bytes_byte, bytes_check. vm_compute. reflexivity. Qed.
Lemma log_setup : setup_load_info (im_mem log_im) (im_len log_im) = Some (inr ex_li).
Proof. vm_compute. reflexivity. Qed.

Lemma log_wf : well_formed (im_mem log_im) (im_len log_im).
Proof.
  assert (N : ld 2 (im_mem log_im) 60 = 11) by (vm_compute; reflexivity). constructor.
  - vm_compute. repeat split; discriminate.
  - vm_compute. reflexivity.
  - rewrite N. use11; exists 477; vm_compute; repeat split; discriminate.
  - rewrite N. use11; intros _; vm_compute; discriminate.
  - rewrite N. use11; intros (_ & F & _); pose proof (F 1%nat ltac:(vm_compute; lia)) as F1; specialize (F 10%nat ltac:(vm_compute; lia));
      first [vm_compute in F; discriminate F|vm_compute in F1; discriminate F1|exists 152, 159; vm_compute; repeat split; discriminate].
  - rewrite N. use11; intros (_ & F & _); specialize (F 1%nat ltac:(vm_compute; lia));
      first [vm_compute in F; discriminate F|vm_compute; discriminate].
  - rewrite N. use11; intros F; first [vm_compute in F; discriminate F|vm_compute; reflexivity].
Qed.

Lemma log_table s : im_table log_im s -> s = 8.
Proof.
  intros T. apply (table_fun log_im); auto. split; [vm_compute; split; [discriminate|reflexivity]|]. split; [vm_compute; reflexivity|].
  intros i Hi. assert (E : i = 1 \/ i = 2 \/ i = 3 \/ i = 4 \/ i = 5 \/ i = 6 \/ i = 7) by lia.
  intuition (subst; vm_compute in H; discriminate).
Qed.
Lemma log_count : im_count log_im 8 = 4. Proof. vm_compute. reflexivity. Qed.

Lemma log_good : good_image log_im.
Proof.
  constructor.
  - exact log_bytes.
  - vm_compute. discriminate.
  - vm_compute. reflexivity.
  - exact log_wf.
  - exists ex_li. split; [exact log_setup|discriminate].
  - intros s T. apply log_table in T. subst s. vm_compute. split; discriminate.
  - intros s k T. apply log_table in T. subst s. rewrite log_count. intros Hk _. exists 350.
    assert (E : k = 0 \/ k = 1 \/ k = 2 \/ k = 3) by lia. intuition (subst; vm_compute; repeat split; discriminate).
Qed.

Lemma patch_opened : opened ([] ++ a_patch :: [prog; libm]) 100 ex_heap ex_syms ex_nodes.
Proof.
  apply ex_opened; [vm_compute; reflexivity|vm_compute; lia|].
  intros m im [<-|[<-|[<-|[]]]] Hp Hi; try discriminate. injection Hi as <-. exact log_good.
Qed.
Lemma log_patched : resolve 100 (a_patch :: [prog; libm]) ex_stack ex_heap ex_syms ex_nodes (str "log_it") = Some 0x7000040.
Proof. vm_compute. reflexivity. Qed.
Lemma log_plain : resolve 100 [prog; libm] ex_stack ex_heap ex_syms ex_nodes (str "log_it") = Some 0x555555555160.
Proof. vm_compute. reflexivity. Qed.

(** The claim is [r = r'].  What a patch defines hides what the process has under that name. *)
Theorem C179_patches_refuted : exists fuel L m R scope b heap ts pool name r r',
  loaded_process (L ++ R) scope /\ opened (L ++ m :: R) fuel heap ts pool /\ opened (L ++ R) fuel heap ts pool /\ m_patch m = true /\
  resolve fuel (L ++ m :: R) b heap ts pool name = Some r /\ resolve fuel (L ++ R) b heap ts pool name = Some r' /\ r' <> 0 /\ r <> r'.
Proof.
  exists 100%nat, [], a_patch, [prog; libm], [o_prog; o_libm], ex_stack, ex_heap, ex_syms, ex_nodes, (str "log_it"), 0x7000040, 0x555555555160.
  split; [exact nodata_loaded|]. split; [exact patch_opened|]. split; [exact nodata_opened|]. split; [reflexivity|].
  split; [exact log_patched|]. split; [exact log_plain|]. split; discriminate.
Qed.
Print Assumptions C179_patches_refuted.

(** Mappings without an ELF header, files that cannot be read, and patches that do not define
    the name do not change what it denotes. *)
Theorem C179_patches_partial fuel fuel' L m R b b' heap heap' ts ts' pool pool' name :
  opened (L ++ m :: R) fuel heap ts pool -> opened (L ++ R) fuel' heap' ts' pool' -> cstr_ok name ->
  m_patch m = true \/ m_elf m = false \/ m_open m = false -> (forall v, ~ patch_defines m name v) ->
  exists r, resolve fuel (L ++ m :: R) b heap ts pool name = Some r /\ resolve fuel' (L ++ R) b' heap' ts' pool' name = Some r.
Proof.
  intros H1 H2 Hc Hm NP. apply C178_data_partial; auto. intros c s ((U1 & U2 & U3) & _).
  destruct Hm as [Q|[Q|Q]]; congruence.
Qed.
Print Assumptions C179_patches_partial.

Lemma main_patched : resolve 100 (a_patch :: [prog; libm]) ex_stack ex_heap ex_syms ex_nodes (str "main") = Some 0x555555555139.
Proof. vm_compute. reflexivity. Qed.
Lemma no_main v : ~ patch_defines a_patch (str "main") v.
Proof.
  intros (_ & im & s & k & Ei & T & (Hk & De & (_ & Sn & _) & _)). injection Ei as <-. apply log_table in T. subst s. rewrite log_count in Hk.
  specialize (Sn 0%nat ltac:(vm_compute; lia)).
  assert (E : k = 0 \/ k = 1 \/ k = 2 \/ k = 3) by lia. destruct E as [-> |[-> |[-> | -> ]]]; vm_compute in Sn; try discriminate Sn.
Qed.
Example C179_ex : opened ([] ++ a_patch :: [prog; libm]) 100 ex_heap ex_syms ex_nodes /\ opened ([] ++ [prog; libm]) 100 ex_heap ex_syms ex_nodes /\
  m_patch a_patch = true /\ (forall v, ~ patch_defines a_patch (str "main") v) /\
  resolve 100 (a_patch :: [prog; libm]) ex_stack ex_heap ex_syms ex_nodes (str "main") = Some 0x555555555139.
Proof. exact (conj patch_opened (conj nodata_opened (conj eq_refl (conj no_main main_patched)))). Qed.
