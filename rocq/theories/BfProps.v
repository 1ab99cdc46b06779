(** Properties of opening and closing an object file: C208, C209, C210. *)
From Coq Require Import ZArith String List Bool Lia Permutation.
From Verif Require Import Word WordLemmas RbModel RbSpec Str ElfDefs ElfModel ElfSpec ElfProofs BfModel BfSpec BfProofs.
Import ListNotations.
Open Scope Z_scope.

(** A program with two static functions of the same name, a variable and a stub. *)
Definition bx_syms : list asym :=
  [As (Some (str "main")) 4198400 false SOther true false;
   As (Some (str "helper")) 4198500 false SOther true false;
   As (Some (str "stderr@GLIBC_2.2.5")) 4210688 false SOther false true;
   As (Some (str "puts@GLIBC_2.2.5")) 0 false SUnd false false].
Definition bx_dup : list asym := bx_syms ++ [As (Some (str "helper")) 4198600 false SOther true false].
Definition bx_synth : list asym := [As (Some (str "puts@plt")) 4198300 false SOther true false].
Definition bx_lib (syms : list asym) : blib :=
  Bl true true false true true (Z.of_nat (List.length syms) * 8 + 8) (Z.of_nat (List.length syms)) 0 0 1 syms [] bx_synth.
Definition bx_heap (c : cls) : rbs * list Z :=
  (Rbs (fun x => if (0 <? x) && (x mod 16 =? 0) then Some (Rbn 0 0 0) else None) 0, [16; 32; 48; 64; 80; 96]).

Lemma bx_heap_ok n : (n <= 6)%nat -> heap_ok bx_heap n.
Proof.
  intros H c. split; [|exact H]. split; [reflexivity|]. split.
  - cbn [bx_heap snd]. repeat constructor; cbn [In]; intuition lia.
  - intros x Hx. cbn [bx_heap snd In] in Hx.
    destruct Hx as [<-|[<-|[<-|[<-|[<-|[<-|[]]]]]]]; (split; [repeat split; lia|discriminate]).
Qed.

Lemma bx_sound syms : (List.length syms <= 5)%nat -> sound (bx_lib syms).
Proof.
  intros H. unfold sound, bx_lib. cbn [l_count l_dcount l_ycount l_syms l_dyn l_synth l_room l_droom].
  rewrite Nat2Z.id. change (List.length bx_synth) with 1%nat. repeat split; try lia; reflexivity.
Qed.

(** ** C208 *)

(** A damaged symbol table, for which libbfd reports -1: the copy takes the count for a size. *)
Theorem C208_opened_refuted : exists l, l_exist l = true /\ l_open l = true /\ l_archive l = false /\ l_object l = true /\
  l_syms l = [] /\ l_dyn l = [] /\ l_synth l = [] /\ forall fuel b h, bfd_elf_open fuel l b h = None.
Proof.
  exists (Bl true true false true true 8 (-1) 0 0 0 [] [] []). repeat split. 
Qed.
Print Assumptions C208_opened_refuted.

(** A file that is there but cannot be opened, as one without read permission. *)
Theorem C208_unreadable_refuted : exists l, l_exist l = true /\ l_open l = false /\ sound l /\
  forall fuel b h, bfd_elf_open fuel l b h = None.
Proof.
  exists (Bl true false false false false 0 0 0 0 0 [] [] []). split; auto. split; auto. split; [|reflexivity].
  unfold sound. cbn. lia.
Qed.
Print Assumptions C208_unreadable_refuted.

(** With a readable file and the counts of libbfd in order, the answer is NULL exactly for
    what is missing, an archive or no object, and else a file that knows its symbols. *)
Theorem C208_opened_partial fuel l b h all :
  considered (statics l) (dynamics l) (l_synth l) all -> sound l -> l_open l = true ->
  Forall short_base all -> heap_ok h (List.length all) -> (List.length all < fuel)%nat ->
  exists r, bfd_elf_open fuel l b h = Some r /\
    match r with
    | BNull _ => l_exist l = false \/ l_archive l = true \/ l_object l = false
    | BFile f _ => l_exist l = true /\ l_archive l = false /\ l_object l = true /\
        forall c base, cstr_ok base -> exists a, bfd_sym_addr_of fuel (fst (f_tree f c)) (snd (f_tree f c)) base = Some a /\
          first_addr c base all a
    end.
Proof.
  intros Ha Hs Ho F Hh Hf.
  assert (all = sorted_syms (statics l) (dynamics l) (l_synth l)) as ->.
  { destruct Ha as (k1 & P1 & ->). destruct (sorted_syms_ok (statics l) (dynamics l) (l_synth l)) as (k2 & P2 & ->). f_equal. eapply picked_unique; eauto. }
  destruct (l_exist l) eqn:E1; [|eexists; split; [unfold bfd_elf_open; rewrite E1; reflexivity|cbn; auto]].
  destruct (l_archive l) eqn:E2; [eexists; split; [unfold bfd_elf_open; rewrite E1, Ho, E2; reflexivity|cbn; auto]|].
  destruct (l_object l) eqn:E3; [|eexists; split; [unfold bfd_elf_open; rewrite E1, Ho, E2, E3; reflexivity|cbn; auto]].
  destruct (open_ok fuel l b h Hs E1 Ho E2 E3 F Hh Hf) as (f & alive & A & B & _). eexists. split; [exact A|]. cbn.
  repeat split; auto. intros c base Hb. destruct (Hh c) as [H1 H2].
  destruct (load_class_ok c (statics l) (dynamics l) (l_synth l) b (fst (h c)) (snd (h c)) fuel F H1 H2 Hf) as (info & s' & C & D).
  rewrite B in C. injection C as ->. cbn [fst snd]. apply D; auto.
Qed.
Print Assumptions C208_opened_partial.

Example C208_opened_partial_ex : exists f alive,
  considered (statics (bx_lib bx_syms)) (dynamics (bx_lib bx_syms)) bx_synth (firstn 3 bx_syms ++ bx_synth) /\
  sound (bx_lib bx_syms) /\ heap_ok bx_heap 4 /\
  bfd_elf_open 9 (bx_lib bx_syms) (fun _ => 0) bx_heap = Some (BFile f alive) /\
  alive = [OFile; OBfd; OSyms; OSynth; OSorted; OSym CPlt 16; OSym CText 16; OSym CText 32; OSym CText 48; OSym CData 16] /\
  bfd_sym_addr_of 9 (fst (f_tree f CData)) (snd (f_tree f CData)) (str "stderr") = Some 4210688 /\
  bfd_sym_addr_of 9 (fst (f_tree f CPlt)) (snd (f_tree f CPlt)) (str "puts") = Some 4198300.
Proof.
  do 2 eexists. split.
  { exists (firstn 3 bx_syms). split; [|reflexivity]. change (statics (bx_lib bx_syms)) with bx_syms. 
    assert (E : firstn 3 bx_syms = filter (fun s => negb (useless s)) bx_syms) by (vm_compute; reflexivity).
    rewrite E. apply filter_picked. intros a. rewrite negb_true_iff. apply useless_ok. }
  split; [apply bx_sound; cbn; lia|]. split; [apply bx_heap_ok; lia|]. split; [vm_compute; reflexivity|].
  split; [reflexivity|]. split; vm_compute; reflexivity.
Qed.

(** ** C209 *)

(** Two functions of one name: the second is refused by the tree and never given back. *)
Theorem C209_closed_refuted : exists fuel l b h f alive freed o,
  sound l /\ Forall short_base (sorted_syms (statics l) (dynamics l) (l_synth l)) /\
  heap_ok h (List.length (sorted_syms (statics l) (dynamics l) (l_synth l))) /\
  bfd_elf_open fuel l b h = Some (BFile f alive) /\ bfd_elf_close fuel f = Some freed /\ In o alive /\ ~ In o freed.
Proof.
  exists 9%nat, (bx_lib bx_dup), (fun _ => 0), bx_heap. do 3 eexists. exists (OSym CText 48).
  assert (S : sorted_syms (statics (bx_lib bx_dup)) (dynamics (bx_lib bx_dup)) (l_synth (bx_lib bx_dup)) =
    firstn 3 bx_syms ++ [As (Some (str "helper")) 4198600 false SOther true false] ++ bx_synth) by (vm_compute; reflexivity).
  rewrite S. split; [apply bx_sound; cbn; lia|]. split.
  { assert (N : forall s name, a_name s = Some name -> (List.length name < 256)%nat -> cstr_ok name -> short_base s).
    { intros s name A B C. exists name. split; auto. split; auto. intros base v _ E. rewrite E, app_length in B. lia. }
    repeat constructor; (eapply N; [reflexivity|cbn; lia|repeat constructor; lia]). }
  split; [apply bx_heap_ok; cbn; lia|]. split; [vm_compute; reflexivity|]. split; [vm_compute; reflexivity|].
  split; [cbn; tauto|]. cbn. intuition discriminate.
Qed.
Print Assumptions C209_closed_refuted.

(** Nothing is given back twice and nothing that was not allocated; when the names of each
    class are distinct, all is given back. *)
Theorem C209_closed_partial fuel l b h f alive all :
  considered (statics l) (dynamics l) (l_synth l) all -> sound l ->
  Forall short_base all -> heap_ok h (List.length all) -> (List.length all < fuel)%nat ->
  bfd_elf_open fuel l b h = Some (BFile f alive) ->
  exists freed, bfd_elf_close fuel f = Some freed /\ NoDup freed /\ incl freed alive /\
    ((forall c, distinct c all) -> Permutation freed alive).
Proof.
  intros Ha Hs F Hh Hf HO.
  assert (all = sorted_syms (statics l) (dynamics l) (l_synth l)) as ->.
  { destruct Ha as (k1 & P1 & ->). destruct (sorted_syms_ok (statics l) (dynamics l) (l_synth l)) as (k2 & P2 & ->). f_equal. eapply picked_unique; eauto. }
  assert (X : l_exist l = true /\ l_open l = true /\ l_archive l = false /\ l_object l = true).
  { revert HO. unfold bfd_elf_open. destruct (l_exist l); [|discriminate]. destruct (l_open l); [|discriminate].
    destruct (l_archive l); [discriminate|]. destruct (l_object l); [auto|discriminate]. }
  destruct X as (X1 & X2 & X3 & X4).
  destruct (open_ok fuel l b h Hs X1 X2 X3 X4 F Hh Hf) as (f' & alive' & A & _ & _ & B). rewrite HO in A. injection A as <- <-. exact B.
Qed.
Print Assumptions C209_closed_partial.

Example C209_closed_partial_ex : exists f alive,
  bfd_elf_open 9 (bx_lib bx_syms) (fun _ => 0) bx_heap = Some (BFile f alive) /\
  bfd_elf_close 9 f = Some [OSyms; OSynth; OSorted; OSym CText 48; OSym CText 16; OSym CText 32; OSym CPlt 16; OSym CData 16; OBfd; OFile] /\
  (forall c, distinct c (firstn 3 bx_syms ++ bx_synth)).
Proof.
  do 2 eexists. split; [vm_compute; reflexivity|]. split; [vm_compute; reflexivity|].
  intros c. apply distinct_nodup. vm_compute. repeat constructor; cbn [In]; intuition discriminate.
Qed.

(** ** C210 *)

(** An archive, or a file that is no object: the structure for the open file stays allocated. *)
Theorem C210_failed_refuted : exists l, sound l /\ l_open l = true /\
  forall fuel b h, exists left, bfd_elf_open fuel l b h = Some (BNull left) /\ left <> [].
Proof.
  exists (Bl true true false false false 0 0 0 0 0 [] [] []). split; [unfold sound; cbn; lia|]. split; auto.
  intros fuel b h. exists [OFile]. split; [reflexivity|discriminate].
Qed.
Print Assumptions C210_failed_refuted.

(** A missing file leaves nothing; otherwise that structure is all that stays: the handle of
    libbfd is given back and no symbol was read. *)
Theorem C210_failed_partial fuel l b h left : bfd_elf_open fuel l b h = Some (BNull left) ->
  (l_exist l = false /\ left = []) \/ (l_exist l = true /\ left = [OFile]).
Proof.
  unfold bfd_elf_open. destruct (l_exist l); [|intros E; injection E as <-; auto].
  destruct (l_open l); [|discriminate]. destruct (l_archive l); [intros E; injection E as <-; auto|].
  destruct (l_object l); [|intros E; injection E as <-; auto]. cbn [negb].
  destruct (slurp_symtab l) as [[sy sc] a1], (slurp_dynamic_symtab l) as [[dy dc] a2].
  destruct (_ && _); [discriminate|].
  destruct (fill_class fuel CPlt _ _ _ b (h CPlt)); [|discriminate].
  destruct (fill_class fuel CText _ _ _ b (h CText)); [|discriminate].
  destruct (fill_class fuel CData _ _ _ b (h CData)); discriminate.
Qed.
Print Assumptions C210_failed_partial.

Example C210_failed_partial_ex :
  bfd_elf_open 9 (Bl false false false false false 0 0 0 0 0 [] [] []) (fun _ => 0) bx_heap = Some (BNull []) /\
  bfd_elf_open 9 (Bl true true true true true 8 0 0 0 0 [] [] []) (fun _ => 0) bx_heap = Some (BNull [OFile]).
Proof. split; reflexivity. Qed.
