(** Functions and variables of an object file: C214. *)
From Coq Require Import ZArith String List Bool Lia.
From Verif Require Import Word WordLemmas Str ElfModel ElfSpec ElfProofs ElfProps ClModel ClSpec.
Import ListNotations.
Open Scope Z_scope.

Lemma has_bit f k : 0 <= k -> has f (2 ^ k) = Z.testbit f k.
Proof.
  intros Hk. unfold has. destruct (Z.testbit f k) eqn:B.
  - destruct (Z.eqb_spec (Z.land f (2 ^ k)) 0) as [E|]; [|reflexivity]. exfalso.
    assert (X : Z.testbit (Z.land f (2 ^ k)) k = true) by (rewrite Z.land_spec, B, Z.pow2_bits_true; auto). rewrite E, Z.bits_0 in X. discriminate.
  - replace (Z.land f (2 ^ k)) with 0; [reflexivity|]. symmetry. apply Z.bits_inj'. intros n Hn. rewrite Z.land_spec, Z.bits_0.
    destruct (Z.eq_dec n k) as [->|N]; [rewrite B; reflexivity|]. rewrite Z.pow2_bits_false by congruence. apply andb_false_r.
Qed.
Lemma code_bit s : sec_code s = Z.testbit (b_flags s) 2. Proof. apply (has_bit _ 2). lia. Qed.
Lemma load_bit s : sec_load s = Z.testbit (b_flags s) 1 && negb (b_type s =? 8).
Proof. unfold sec_load. change SHF_ALLOC with (2 ^ 1). rewrite has_bit by lia. reflexivity. Qed.

Lemma is_text_iff s : asymbol_is_text s = true <-> executable s \/ b_name s = str ".text".
Proof. unfold asymbol_is_text, executable. rewrite orb_true_iff, code_bit, str_eqb_eq. reflexivity. Qed.
Lemma is_data_iff s : asymbol_is_data s = true <->
  (~ executable s /\ in_memory s /\ ~ no_bytes s) \/ b_name s = str ".data" \/ b_name s = str ".data.rel.ro" \/ b_name s = str ".bss".
Proof.
  unfold asymbol_is_data, executable, in_memory, no_bytes, sec_data. rewrite !orb_true_iff, !str_eqb_eq, andb_true_iff, negb_true_iff, code_bit, load_bit, andb_true_iff, negb_true_iff, Z.eqb_neq.
  destruct (Z.testbit (b_flags s) 2); intuition congruence.
Qed.

(** The claim is what C214_found_partial says, for all sections.  A variable of a section
    that takes no space in the file, and is not .bss, is in no class. *)
Definition lbss : bsec := Bs (str ".lbss") 8 3.
Theorem C214_variable_refuted : exists sec name value,
  in_memory sec /\ ~ executable sec /\ proper_names sec /\ value <> 0 /\
  forall c, match load_class 6 c [symbol_in sec name value false] [] [] (fun _ => 0) ex_rbs [16; 32; 48; 64] with
            | Some (i, s) => bfd_sym_addr_of 6 i s name = Some 0
            | None => False
            end.
Proof.
  exists lbss, (str "big_table"), 0x404000. split; [reflexivity|]. split; [discriminate|].
  split; [split; [discriminate|intros [H|[H|H]]; discriminate H]|]. split; [discriminate|]. intros []; vm_compute; reflexivity.
Qed.
Print Assumptions C214_variable_refuted.

(** Each symbol of a section that is in memory is of one of the two classes, by what the
    section holds.  Missing: sections without bytes in the file other than .bss. *)
Theorem C214_class_partial : forall sec name value debug, in_memory sec -> proper_names sec -> (no_bytes sec -> executable sec \/ b_name sec = str ".bss") ->
  (class_is CText (symbol_in sec name value debug) name <-> executable sec) /\
  (class_is CData (symbol_in sec name value debug) name <-> ~ executable sec).
Proof.
  intros sec name value debug Hm [P1 P2] Hn. cbn [class_is symbol_in a_code a_data]. rewrite is_text_iff, is_data_iff. split.
  - split; [intros [H|H]; auto|auto].
  - split.
    + intros [(H & _)|H]; auto.
    + intros H. destruct (Z.eq_dec (b_type sec) 8) as [E|N]; [|left; auto]. destruct (Hn E) as [X|X]; [contradiction|auto].
Qed.
Print Assumptions C214_class_partial.

(** So that every name of a function is found among the functions, and every name of a
    variable among the variables, with the address of a symbol of that name. *)
Theorem C214_found_partial : forall c syms dynsyms synth b s nodes fuel all sec name base value,
  considered syms dynsyms synth all -> Forall short_base all -> fresh_index s nodes ->
  (List.length all <= List.length nodes)%nat -> (List.length all < fuel)%nat ->
  In (symbol_in sec name value false) (match syms with [] => dynsyms | _ => syms end) -> value <> 0 -> name <> [] -> base_of name base -> cstr_ok base ->
  in_memory sec -> proper_names sec -> (no_bytes sec -> executable sec \/ b_name sec = str ".bss") ->
  (c = CText /\ executable sec) \/ (c = CData /\ ~ executable sec) ->
  exists info s' sym, load_class fuel c syms dynsyms synth b s nodes = Some (info, s') /\
    bfd_sym_addr_of fuel info s' base = Some (a_value sym) /\ a_value sym <> 0 /\
    In sym (match syms with [] => dynsyms | _ => syms end) /\ answers c base sym.
Proof.
  intros c syms dynsyms synth b s nodes fuel all sec name base value Ha F Hi Hl Hf Hin Hv Hne Hb Hc Hm Hp Hn Hk.
  destruct (C90_lookup c syms dynsyms synth b s nodes fuel all Ha F Hi Hl Hf) as (info & s' & E & G).
  destruct (G base Hc) as (r & R1 & R2). set (e := symbol_in sec name value false) in *.
  destruct (C214_class_partial sec name value false Hm Hp Hn) as [K1 K2].
  assert (An : answers c base e).
  { exists name. split; [reflexivity|]. split; [|exact Hb]. destruct Hk as [[-> X]|[-> X]]; [apply K1|apply K2]; exact X. }
  destruct Ha as (kept & Pk & ->).
  assert (Us : useful e). { split; [exact Hv|]. split; [reflexivity|]. exists name. split; [reflexivity|]. split; [exact Hne|]. intros X. discriminate X. }
  assert (Pf : forall l k, picked useful l k -> (In e l -> In e k) /\ forall x, In x k -> In x l /\ useful x).
  { clear - Us. intros l k P. induction P as [|a l k Pa P [I1 I2]|a l k Pa P [I1 I2]].
    - split; [auto|intros x []].
    - split; [intros [->|H]; [left; auto|right; auto]|]. intros x [<-|H]; [split; [left; auto|exact Pa]|]. destruct (I2 x H). split; [right; auto|auto].
    - split; [intros [->|H]; [contradiction|auto]|]. intros x H. destruct (I2 x H). split; [right; auto|auto]. }
  destruct (Pf _ _ Pk) as [P1 P2]. specialize (P1 Hin).
  destruct R2 as [[_ Q]|(L & x & R & Q1 & Q2 & -> & Q3)]; [exfalso; apply (Q e); [apply in_or_app; left; exact P1|exact An]|].
  assert (Hx : In x kept).
  { apply in_split in P1. destruct P1 as (A & B & ->). rewrite <- app_assoc in Q1. cbn [app] in Q1.
    assert (C : forall (A L : list asym) T R, A ++ e :: T = L ++ x :: R -> (forall s', In s' L -> ~ answers c base s') -> In x A \/ x = e).
    { clear - An. induction A as [|a A IH]; intros L T R H N; destruct L as [|l L]; cbn [app] in H; injection H as H1 H2.
      - right. congruence.
      - exfalso. apply (N l); [left; reflexivity|congruence].
      - left. left. congruence.
      - destruct (IH L T R H2) as [I|I]; [intros s' Hs; apply N; right; exact Hs|left; right; exact I|right; exact I]. }
    destruct (C A L _ R Q1 Q3) as [I| -> ]; [apply in_or_app; left; exact I|apply in_or_app; right; left; reflexivity]. }
  destruct (P2 x Hx) as [Px Ux]. exists info, s', x. split; [exact E|]. split; [exact R1|]. split; [apply Ux|]. split; [exact Px|exact Q2].
Qed.
Print Assumptions C214_found_partial.

(** A function of .init and a variable of .bss. *)
Definition two_syms : list asym := [symbol_in (Bs (str ".init") 1 6) (str "_init") 0x401000 false; symbol_in (Bs (str ".bss") 8 3) (str "counter") 0x404040 false].
Example C214_ex : in_memory (Bs (str ".init") 1 6) /\ executable (Bs (str ".init") 1 6) /\ proper_names (Bs (str ".init") 1 6) /\
  in_memory (Bs (str ".bss") 8 3) /\ ~ executable (Bs (str ".bss") 8 3) /\ proper_names (Bs (str ".bss") 8 3) /\
  match load_class 6 CText two_syms [] [] (fun _ => 0) ex_rbs [16; 32; 48; 64], load_class 6 CData two_syms [] [] (fun _ => 0) ex_rbs [16; 32; 48; 64] with
  | Some (i1, s1), Some (i2, s2) => bfd_sym_addr_of 6 i1 s1 (str "_init") = Some 0x401000 /\ bfd_sym_addr_of 6 i2 s2 (str "counter") = Some 0x404040 /\
      bfd_sym_addr_of 6 i1 s1 (str "counter") = Some 0
  | _, _ => False
  end.
Proof.
  assert (T : proper_names (Bs (str ".init") 1 6)) by (split; [intros _; reflexivity|intros [H|[H|H]]; discriminate H]).
  assert (B : proper_names (Bs (str ".bss") 8 3)) by (split; [intros H; discriminate H|intros _; discriminate]).
  split; [reflexivity|]. split; [reflexivity|]. split; [exact T|]. split; [reflexivity|]. split; [discriminate|]. split; [exact B|].
  vm_compute. repeat split; reflexivity.
Qed.
