(** Listings, disassembly and the dump of the vdso: C180-C185. *)
From Coq Require Import ZArith String List Bool Lia Sorted.
From Verif Require ListProofs SymProps EcModel ScProps.
From Verif Require Import Word WordLemmas RbModel RbSpec Str VmaModel VmaSpec VmaProps SymModel SymSpec SymProofs ScModel ScSpec CmdModel CmdSpec CmdProps
  PrSpec MpSpec TextSpec DsModel DsSpec DsProofs.
Import ListNotations.
Open Scope Z_scope.

(** * C180 *)

Lemma before_irrefl a : ~ before a a.
Proof. induction a as [|c a IH]; intros H; inversion H; subst; [lia|auto]. Qed.

Lemma named_in info l name x : In x (named info l name) <-> In x (named info l name) /\ In x l /\ ts_name (info x) = name.
Proof.
  split; [|tauto]. intros H. split; [auto|]. unfold named in H. apply distinct_in, filter_In in H. destruct H as [H1 H2].
  split; [auto|]. apply str_eqb_eq. auto.
Qed.

(** ultask --symbols: each name of a symbol of the process is on exactly one line, with the
    address that looking up the name gives. *)
Theorem C180_listing : forall info s l fuel file, fresh_syms s l ->
  Forall (fun x => cstring (ts_name (info x))) l -> Forall (fun x => 0 <= ts_addr (info x)) l -> (List.length l < fuel)%nat ->
  exists s' rows text, link_all fuel info s l = Some s' /\ list_all_symbols fuel false file info s' = Some text /\
    lines_of (fun x => sym_line (file x, ts_name (info x), ts_addr (info x))) rows text /\
    NoDup (map (fun x => ts_name (info x)) rows) /\
    (forall x, In x rows -> In x l /\ exists extra, find_task_sym fuel info s' (ts_name (info x)) = Some (x, extra)) /\
    (forall x, In x l -> exists y, In y rows /\ ts_name (info y) = ts_name (info x)).
Proof.
  intros info s l fuel file F C A Hf. destruct (listing_ok info s l fuel file false F C A Hf) as (s' & heads & text & E1 & E2 & (L1 & L2 & L3) & T).
  exists s', heads, text. split; [exact E1|]. split; [exact E2|]. split; [exact T|].
  split.
  { clear - L1. induction L1 as [|x m S IH G]; cbn [map]; constructor; auto. intros Hx. apply in_map_iff in Hx. destruct Hx as (y & E & Hy).
    rewrite Forall_forall in G. specialize (G y Hy). rewrite E in G. exact (before_irrefl _ G). }
  split; [|exact L3]. intros x Hx. destruct (L2 x Hx) as [I1 I2]. split; [exact I1|].
  destruct (run_names info s l fuel F C Hf) as (s1 & E1' & _ & Hinv & _). rewrite E1 in E1'. injection E1' as <-.
  pose proof (proj1 (Forall_forall _ _) C x I1) as Cx. cbv beta in Cx. eexists. rewrite (find_name_ok info s' l _ fuel Hinv C Cx Hf), I2. reflexivity.
Qed.
Print Assumptions C180_listing.

(** With --verbose: each pair of a name and an address that belong together is on exactly one line. *)
Theorem C180_verbose : forall info s l fuel file, fresh_syms s l ->
  Forall (fun x => cstring (ts_name (info x))) l -> Forall (fun x => 0 <= ts_addr (info x)) l -> (List.length l < fuel)%nat ->
  exists s' rows text, link_all fuel info s l = Some s' /\ list_all_symbols fuel true file info s' = Some text /\
    lines_of (fun x => sym_line (file x, ts_name (info x), ts_addr (info x))) rows text /\
    NoDup (map (fun x => (ts_name (info x), ts_addr (info x))) rows) /\
    (forall x, In x rows -> In x l) /\
    (forall x, In x l -> exists y, In y rows /\ ts_name (info y) = ts_name (info x) /\ ts_addr (info y) = ts_addr (info x)).
Proof.
  intros info s l fuel file F C A Hf. destruct (listing_ok info s l fuel file true F C A Hf) as (s' & heads & text & E1 & E2 & (L1 & L2 & L3) & T).
  cbv zeta in T. exists s'. eexists. exists text. split; [exact E1|]. split; [exact E2|]. split; [exact T|]. clear T.
  assert (In_rows : forall m x, In x (concat (map (fun h => named info l (ts_name (info h))) m)) ->
            exists h, In h m /\ ts_name (info x) = ts_name (info h) /\ In x l).
  { intros m x H. apply in_concat in H. destruct H as (y & Hy & Hx). apply in_map_iff in Hy. destruct Hy as (h & <- & Hh).
    apply named_in in Hx. exists h. tauto. }
  split.
  { clear - L1 In_rows. induction L1 as [|h m S IH G]; cbn [map concat]; [constructor|]. rewrite map_app.
    assert (Nh : NoDup (map (fun x => (ts_name (info x), ts_addr (info x))) (named info l (ts_name (info h))))).
    { unfold named. destruct (distinct_nodup (fun a b => ts_addr (info a) =? ts_addr (info b)) (filter (fun s0 => str_eqb (ts_name (info s0)) (ts_name (info h))) l)) as [_ O].
      { intros a _. apply Z.eqb_refl. }
      induction O as [|a d Fa O IHO]; cbn [map]; constructor; auto. intros Ha. apply in_map_iff in Ha. destruct Ha as (b & E & Hb).
      rewrite Forall_forall in Fa. specialize (Fa b Hb). injection E as _ E. rewrite E, Z.eqb_refl in Fa. discriminate. }
    assert (D : forall x, In x (map (fun x => (ts_name (info x), ts_addr (info x))) (named info l (ts_name (info h)))) ->
       ~ In x (map (fun x => (ts_name (info x), ts_addr (info x))) (concat (map (fun h => named info l (ts_name (info h))) m)))).
    { intros x Hx Hy. apply in_map_iff in Hx, Hy. destruct Hx as (a & <- & Ha), Hy as (b & E & Hb). injection E as E _.
      apply named_in in Ha. destruct (In_rows m b Hb) as (h' & H1 & H2 & _). rewrite Forall_forall in G. specialize (G h' H1).
      destruct Ha as (_ & _ & Ha). rewrite <- H2, E, Ha in G. exact (before_irrefl _ G). }
    apply ListProofs.nodup_app. split; [exact Nh|]. split; [exact IH|]. exact D. }
  split. { intros x Hx. destruct (In_rows heads x Hx) as (_ & _ & _ & H). exact H. }
  intros x Hx. destruct (L3 x Hx) as (h & Hh & En).
  destruct (distinct_cover (fun a b => ts_addr (info a) =? ts_addr (info b)) (filter (fun s0 => str_eqb (ts_name (info s0)) (ts_name (info h))) l) x) as (y & Hy & Ey).
  - intros a b c. apply (eqb_trans (fun x => ts_addr (info x))).
  - intros a. apply Z.eqb_refl.
  - apply filter_In. split; [exact Hx|]. apply str_eqb_eq. auto.
  - exists y. split; [apply in_concat; exists (named info l (ts_name (info h))); split; [apply in_map_iff; exists h; auto|exact Hy]|].
    apply distinct_in, filter_In in Hy. destruct Hy as [_ Hy]. apply str_eqb_eq in Hy. split; [congruence|]. apply Z.eqb_eq. exact Ey.
Qed.
Print Assumptions C180_verbose.

Definition ex_syms' : tsyms := match link_all 6 SymProps.ex_sym SymProps.ex_syms SymProps.ex_list with Some s => s | None => SymProps.ex_syms end.
Definition ex_file (x : Z) : list Z := if x =? 32 then str "prog" else str "libc.so.6".
Example C180_ex : fresh_syms SymProps.ex_syms SymProps.ex_list /\ Forall (fun x => cstring (ts_name (SymProps.ex_sym x))) SymProps.ex_list /\
  list_all_symbols 6 false ex_file SymProps.ex_sym ex_syms' =
    Some (str "libc.so.6 printf     0x00000000401000" ++ [10] ++ str "prog      main       0x00000000402000" ++ [10] ++
          str "libc.so.6 _IO_printf 0x00000000401000" ++ [10]) /\
  list_all_symbols 6 true ex_file SymProps.ex_sym ex_syms' =
    Some (str "libc.so.6 printf     0x00000000401000" ++ [10] ++ str "libc.so.6 printf     0x00000000403000" ++ [10] ++
          str "prog      main       0x00000000402000" ++ [10] ++ str "libc.so.6 _IO_printf 0x00000000401000" ++ [10]).
Proof. split; [exact SymProps.ex_fresh|]. split; [exact SymProps.ex_names|]. split; vm_compute; reflexivity. Qed.

(** * C181 *)

(** The list is not in alphabetical order: printf, main, _IO_printf. *)
Theorem C181_alphabetical_refuted : exists info s l fuel file s' rows text,
  fresh_syms s l /\ Forall (fun x => cstring (ts_name (info x))) l /\ Forall (fun x => 0 <= ts_addr (info x)) l /\ (List.length l < fuel)%nat /\
  link_all fuel info s l = Some s' /\ list_all_symbols fuel false file info s' = Some text /\
  lines_of (fun x => sym_line (file x, ts_name (info x), ts_addr (info x))) rows text /\
  ~ StronglySorted before (map (fun x => ts_name (info x)) rows).
Proof.
  destruct (listing_ok SymProps.ex_sym SymProps.ex_syms SymProps.ex_list 6 ex_file false SymProps.ex_fresh SymProps.ex_names)
    as (s' & heads & text & E1 & E2 & (L1 & L2 & L3) & T); [repeat constructor; vm_compute; discriminate|cbn; lia|].
  exists SymProps.ex_sym, SymProps.ex_syms, SymProps.ex_list, 6%nat, ex_file, s', heads, text.
  split; [exact SymProps.ex_fresh|]. split; [exact SymProps.ex_names|]. split; [repeat constructor; vm_compute; discriminate|]. split; [cbn; lia|].
  split; [exact E1|]. split; [exact E2|]. split; [exact T|]. intros S.
  destruct heads as [|a [|b r]].
  - destruct (L3 16) as (h & [] & _). left. reflexivity.
  - destruct (L3 16) as (h & [<-|[]] & Ea); [left; reflexivity|]. destruct (L3 32) as (h & [<-|[]] & Eb); [right; left; reflexivity|].
    rewrite Ea in Eb. vm_compute in Eb. discriminate.
  - inversion L1 as [|x y _ F]; subst. inversion F as [|u v Hab _]; subst. cbn [map] in S. inversion S as [|x y _ G]; subst. inversion G as [|u v Hba _]; subst.
    assert (As : forall x y, before x y -> before y x -> False).
    { clear. intros x y H. induction H as [c r|c d r t H|c r t H IH]; intros K; inversion K; subst; try lia; auto. }
    exact (As _ _ Hab Hba).
Qed.
Print Assumptions C181_alphabetical_refuted.

(** What does hold: the order is the reverse of the alphabetical one. *)
Theorem C181_alphabetical_partial : forall info s l fuel file, fresh_syms s l ->
  Forall (fun x => cstring (ts_name (info x))) l -> Forall (fun x => 0 <= ts_addr (info x)) l -> (List.length l < fuel)%nat ->
  exists s' rows text, link_all fuel info s l = Some s' /\ list_all_symbols fuel false file info s' = Some text /\
    lines_of (fun x => sym_line (file x, ts_name (info x), ts_addr (info x))) rows text /\
    StronglySorted (fun a b => before (ts_name (info b)) (ts_name (info a))) rows.
Proof.
  intros info s l fuel file F C A Hf. destruct (listing_ok info s l fuel file false F C A Hf) as (s' & heads & text & E1 & E2 & (L1 & _) & T).
  exists s', heads, text. auto.
Qed.
Print Assumptions C181_alphabetical_partial.

Example C181_ex : before (str "main") (str "printf") /\ before (str "_IO_printf") (str "main").
Proof. split; constructor; reflexivity. Qed.

(** * C182 *)

(** A decoder for the examples: nop, ret, and nothing else. *)
Definition ex_one : decoder := fun code a =>
  match code with
  | c :: _ => if c =? 0x90 then Some (In_ a [c] (str "nop") []) else if c =? 0xc3 then Some (In_ a [c] (str "ret") []) else None
  | [] => None
  end.
Fixpoint ex_cs (code : list Z) (a : Z) : list insn :=
  match code with
  | c :: r => if c =? 0x90 then In_ a [c] (str "nop") [] :: ex_cs r ((a + 1) mod 2 ^ 64)
              else if c =? 0xc3 then In_ a [c] (str "ret") [] :: ex_cs r ((a + 1) mod 2 ^ 64) else []
  | [] => []
  end.
Lemma ex_proper : proper_decoder ex_one.
Proof.
  intros code a i H. destruct code as [|c r]; [discriminate|]. cbn [ex_one] in H.
  destruct (c =? 0x90); [|destruct (c =? 0xc3); [|discriminate]]; injection H as <-; (split; [reflexivity|split; [discriminate|exists r; reflexivity]]).
Qed.
Lemma ex_engine : engine ex_one ex_cs.
Proof.
  intros code. induction code as [|c r IH]; intros a; [exists []; constructor; reflexivity|].
  cbn [ex_cs]. destruct (IH ((a + 1) mod 2 ^ 64)) as (left & D).
  destruct (c =? 0x90) eqn:E1; [|destruct (c =? 0xc3) eqn:E2].
  - exists left. apply (decoded_step ex_one [c] r a); [cbn [ex_one app]; rewrite E1; reflexivity|reflexivity|exact D].
  - exists left. apply (decoded_step ex_one [c] r a); [cbn [ex_one app]; rewrite E1, E2; reflexivity|reflexivity|exact D].
  - exists (c :: r). apply decoded_stop. cbn [ex_one]. rewrite E1, E2. reflexivity.
Qed.

(** A byte that is not an instruction ends the disassembly; the rest is not shown, and success
    is reported: the disassembly is the same whether the code ends with nop or ret. *)
Theorem C182_complete_refuted : exists one cs prefix base host code code' text,
  proper_decoder one /\ engine one cs /\ Forall byte code /\ Forall byte code' /\ 0 < base < 2 ^ 64 /\
  List.length code = List.length code' /\ code <> code' /\
  fdisasm true cs prefix base host code = (text, 0) /\ fdisasm true cs prefix base host code' = (text, 0).
Proof.
  exists ex_one, ex_cs, [], 0x401000, 0x5000, [0x90; 0xff; 0x90], [0x90; 0xff; 0xc3]. eexists.
  split; [exact ex_proper|]. split; [exact ex_engine|]. split; [repeat constructor; vm_compute; discriminate|].
  split; [repeat constructor; vm_compute; discriminate|]. split; [lia|]. split; [reflexivity|]. split; [discriminate|].
  split; vm_compute; reflexivity.
Qed.
Print Assumptions C182_complete_refuted.

(** What does hold: if the first bytes are an instruction, the lines show one instruction
    after the other, each with its address and its bytes, up to the end or to the first bytes
    that are no instruction, then the address reached; otherwise nothing is shown and this is
    reported.  The address of the first one is the one given, unless that is 0.
    Missing (false): what comes after bytes that are no instruction. *)
Theorem C182_complete_partial : forall one cs opened prefix base host code,
  proper_decoder one -> engine one cs -> Forall byte code -> 0 <= base < 2 ^ 64 -> 0 <= host < 2 ^ 64 ->
  let a := if base =? 0 then host else base in
  (opened = true /\ one code a <> None /\ exists left text, fdisasm opened cs prefix base host code = (text, 0) /\ disassembly one prefix a code left text) \/
  ((opened = false \/ one code a = None) /\ exists r, r < 0 /\ fdisasm opened cs prefix base host code = ([], r)).
Proof.
  intros one cs opened prefix base host code Pd En Fb Hb Hh a.
  destruct (fdisasm_ok one cs opened prefix base host code Pd En Fb Hb Hh) as [(E1 & E2 & left & D & R)|(E1 & E2)]; fold a in D || fold a in E1.
  - left. split; [exact E1|]. split; [exact E2|]. exists left, (fst (fdisasm opened cs prefix base host code)). split; [|exact D].
    rewrite (surjective_pairing (fdisasm opened cs prefix base host code)) at 1. rewrite R. reflexivity.
  - right. split; [exact E1|]. exists (- EINVAL). split; [reflexivity|exact E2].
Qed.
Print Assumptions C182_complete_partial.

Example C182_ex : proper_decoder ex_one /\ engine ex_one ex_cs /\
  fdisasm true ex_cs (str "> ") 0x401000 0x5000 [0x90; 0xc3] =
    (str "> Disasm: code addr 0x5000, size 2, count 2" ++ [10] ++ str "> 0x401000: 90  " ++ [9] ++ str "nop" ++ [9; 10] ++
     str "> 0x401001: c3  " ++ [9] ++ str "ret" ++ [9; 10] ++ str "> 0x401002:" ++ [10], 0).
Proof. split; [exact ex_proper|]. split; [exact ex_engine|]. vm_compute. reflexivity. Qed.

(** * C183 *)

(** A process with nops everywhere. *)
Definition nop_w : world := W (Tg (fun _ => 0) (fun _ => 0x90) false) 0 [].

(** ultask --disasm: what is shown does not depend on the address. *)
Theorem C183_addresses_refuted : exists e w one cs host addr addr' size text w',
  proper_decoder one /\ engine one cs /\ 0 < addr < 2 ^ 64 /\ 0 < addr' < 2 ^ 64 /\ addr <> addr' /\
  (forall n a, e_read e n a size = Some size) /\ text <> [] /\
  run_disasm e w true cs host addr size = (text, 0, w') /\ run_disasm e w true cs host addr' size = (text, 0, w').
Proof.
  exists page_env, nop_w, ex_one, ex_cs, 0x5000, 0x401000, 0x402000, 2. eexists. eexists.
  split; [exact ex_proper|]. split; [exact ex_engine|]. split; [lia|]. split; [lia|]. split; [lia|]. split; [reflexivity|].
  split; [|split; vm_compute; reflexivity]. intros H. apply (f_equal (@List.length Z)) in H. vm_compute in H. discriminate.
Qed.
Print Assumptions C183_addresses_refuted.

(** What does hold: the addresses shown are those in the target with the difference [host - addr]
    added, where [host] is the address of the copy in the tool. *)
Theorem C183_addresses_partial : forall e w one cs host addr size text w',
  proper_decoder one -> engine one cs -> 0 < addr < 2 ^ 64 -> 0 < size -> 0 <= host < 2 ^ 64 ->
  (forall x, byte (t_mem (w_t w) x)) -> e_read e (w_n w) addr size = Some size ->
  run_disasm e w true cs host addr size = (text, 0, w') ->
  w_t w' = w_t w /\ exists code left hex dis, content w addr size code /\ text = hex ++ dis /\ disassembly one [] host code left dis.
Proof.
  intros e w one cs host addr size text w' Pd En Ha Hs Hh By Rd H. unfold run_disasm in H.
  destruct (Z.eqb_spec addr 0); [lia|]. destruct (Z.eqb_spec size 0); [lia|]. cbn [orb] in H.
  unfold memcpy_from_task in H. rewrite Rd in H. destruct (Z.leb_spec size 0); [lia|].
  set (code := bytes_of _ _ 0) in H.
  assert (Cc : content w addr size code).
  { unfold code. split; [rewrite bytes_of_length; lia|]. intros i Hi. rewrite bytes_of_length in Hi. rewrite bytes_of_nth by exact Hi. cbn [Z.add].
    destruct (Z.leb_spec 0 (Z.of_nat i)), (Z.ltb_spec (Z.of_nat i) size); try lia. reflexivity. }
  assert (Fb : Forall byte code).
  { apply Forall_forall. intros c Hc. apply (In_nth _ _ 0) in Hc. destruct Hc as (i & Hi & <-). rewrite (proj2 Cc i Hi). apply By. }
  destruct (fdisasm_ok one cs true [] 0 host code Pd En Fb ltac:(lia) Hh) as [(_ & _ & left & D & R)|(_ & E2)].
  - destruct (fdisasm true cs [] 0 host code) as [t r]. cbn [fst snd] in D, R. injection H as <- E <-. split; [reflexivity|].
    exists code, left, (print_string_hex (str "Hex: ") code), t. split; [exact Cc|]. split; [reflexivity|exact D].
  - rewrite E2 in H. injection H as _ H _. discriminate.
Qed.
Print Assumptions C183_addresses_partial.

Example C183_ex : run_disasm page_env nop_w true ex_cs 0x5000 0x401000 2 =
    (str "Hex: 0x90 0x90 " ++ [10] ++ str "Disasm: code addr 0x5000, size 2, count 2" ++ [10] ++ str "0x5000: 90  " ++ [9] ++ str "nop" ++ [9; 10] ++
     str "0x5001: 90  " ++ [9] ++ str "nop" ++ [9; 10] ++ str "0x5002:" ++ [10], 0, tick nop_w).
Proof. vm_compute. reflexivity. Qed.

(** * C184 *)

(** Only the first 2 of 4 bytes can be read: the others shown are whatever malloc left; success is reported. *)
Definition half_env : env :=
  Env (fun _ => None) (fun _ => None) (fun _ _ s => Some (s / 2)) (fun _ _ s => Some s) (fun _ => None)
      (fun _ _ _ _ => WFail) (fun _ => None) (fun _ r m => WStopped SIGSTOP r m) (fun _ => None) (fun _ => 0xc3).
Theorem C184_bytes_refuted : exists e w one cs host addr size text w' code rest,
  proper_decoder one /\ engine one cs /\ 0 < addr < 2 ^ 64 /\ 0 < size /\ 0 <= host < 2 ^ 64 /\ (forall x, byte (t_mem (w_t w) x)) /\
  run_disasm e w true cs host addr size = (text, 0, w') /\ text = code ++ rest /\
  (exists l, hex_line l code /\ Z.of_nat (List.length l) = size /\ ~ content w addr size l).
Proof.
  exists half_env, nop_w, ex_one, ex_cs, 0x5000, 0x401000, 4, (fst (fst (run_disasm half_env nop_w true ex_cs 0x5000 0x401000 4))), (tick nop_w),
    (print_string_hex (str "Hex: ") [0x90; 0x90; 0xc3; 0xc3]), (fst (fdisasm true ex_cs [] 0 0x5000 [0x90; 0x90; 0xc3; 0xc3])).
  split; [exact ex_proper|]. split; [exact ex_engine|]. split; [lia|]. split; [lia|]. split; [lia|].
  split; [intros x; vm_compute; split; congruence|]. split; [vm_compute; reflexivity|]. split; [vm_compute; reflexivity|].
  exists [0x90; 0x90; 0xc3; 0xc3]. split; [apply hex_line_ok; repeat constructor; vm_compute; discriminate|]. split; [reflexivity|].
  intros [_ H]. specialize (H 2%nat). vm_compute in H. assert (X : 195 = 144) by (apply H; lia). discriminate.
Qed.
Print Assumptions C184_bytes_refuted.

(** What does hold: if all the bytes could be read, they are what the first line shows; if
    none could be read, nothing is shown and this is reported.  The process is not changed. *)
Theorem C184_bytes_partial : forall e w one cs host addr size text r w',
  proper_decoder one -> engine one cs -> 0 < addr < 2 ^ 64 -> 0 < size -> 0 <= host < 2 ^ 64 ->
  (forall x, byte (t_mem (w_t w) x)) -> run_disasm e w true cs host addr size = (text, r, w') ->
  w_t w' = w_t w /\
  (e_read e (w_n w) addr size = Some size -> exists code line rest, content w addr size code /\ hex_line code line /\ text = line ++ rest) /\
  (e_read e (w_n w) addr size = None -> text = [] /\ r < 0).
Proof.
  intros e w one cs host addr size text r w' Pd En Ha Hs Hh By H. unfold run_disasm in H.
  destruct (Z.eqb_spec addr 0); [lia|]. destruct (Z.eqb_spec size 0); [lia|]. cbn [orb] in H.
  unfold memcpy_from_task in H. destruct (e_read e (w_n w) addr size) as [k|] eqn:Rd.
  - destruct (Z.leb_spec k 0).
    { injection H as <- <- <-. split; [reflexivity|]. split; [|discriminate]. intros E. injection E as ->. lia. }
    set (code := bytes_of _ _ 0) in H. destruct (fdisasm true cs [] 0 host code) as [t q]. injection H as <- <- <-.
    split; [reflexivity|]. split; [|discriminate]. intros E. injection E as ->.
    assert (Cc : content w addr size code).
    { unfold code. split; [rewrite bytes_of_length; lia|]. intros i Hi. rewrite bytes_of_length in Hi. rewrite bytes_of_nth by exact Hi. cbn [Z.add].
      destruct (Z.leb_spec 0 (Z.of_nat i)), (Z.ltb_spec (Z.of_nat i) size); try lia. reflexivity. }
    assert (Fb : Forall byte code).
    { apply Forall_forall. intros c Hc. apply (In_nth _ _ 0) in Hc. destruct Hc as (i & Hi & <-). rewrite (proj2 Cc i Hi). apply By. }
    exists code. eexists. eexists. split; [exact Cc|]. split; [apply hex_line_ok; exact Fb|reflexivity].
  - cbn [Z.leb Z.compare] in H. injection H as <- <- <-. split; [reflexivity|]. split; [discriminate|]. intros _. split; [reflexivity|]. unfold ENOMEM. lia.
Qed.
Print Assumptions C184_bytes_partial.

Example C184_ex : forall x, byte (t_mem (w_t nop_w) x).
Proof. intros x. vm_compute. split; congruence. Qed.

(** * C185 *)

(** A process without a vdso: the tool reads through a null pointer. *)
Theorem C185_vdso_refuted : exists fuel e info s vdso vs w, memory_map info vs /\ lookup_exact fuel info s vs /\ nonnull vs /\
  dump_vdso fuel e info s vdso vs w [] true (Some 0) 0 = None.
Proof.
  exists 8%nat, page_env, ex_info, ex_s, (fun _ => false), [16; 32; 48], ScProps.ex_w. split; [exact ex_map|]. split; [exact ex_exact|].
  split; [intros [H|[H|[H|[]]]]; discriminate|]. reflexivity.
Qed.
Print Assumptions C185_vdso_refuted.

(** What does hold: with exactly one vdso it is what is dumped (C103 says how). *)
Theorem C185_vdso_partial : forall fuel e info s vdso vs w old opens wr err v,
  memory_map info vs -> lookup_exact fuel info s vs -> nonnull vs -> In v vs -> vdso v = true -> (forall u, In u vs -> vdso u = true -> u = v) ->
  vm_start (info v) + 1 < vm_end (info v) ->
  dump_vdso fuel e info s vdso vs w old opens wr err =
  dump_task_addr_to_file fuel e info s w old opens wr err (vm_start (info v)) (vm_end (info v) - vm_start (info v)).
Proof.
  intros fuel e info s vdso vs w old opens wr err v M L N Iv V U Hlen. unfold dump_vdso.
  assert (G : forall l r, (forall u, In u l -> vdso u = true -> u = v) -> (In v l \/ r = v) -> fold_left (fun r v => if vdso v then v else r) l r = v).
  { induction l as [|x l IH]; intros r Hu Hr; cbn [fold_left].
    - destruct Hr as [[]|Hr]; auto.
    - apply IH; [intros u Hu' Vu; apply Hu; [right; auto|auto]|]. destruct (vdso x) eqn:Vx; [right; apply Hu; [left; auto|auto]|].
      destruct Hr as [[<-|Hr]|Hr]; [congruence|left; auto|right; auto]. }
  unfold task_vdso_vma. rewrite (G vs 0) by auto. destruct (Z.eqb_spec v 0) as [->|_]; [contradiction|].
  pose proof M as (P & _ & Dj). rewrite Forall_forall in P. pose proof (P v Iv) as Pv. unfold proper in Pv. rewrite ScProps.u64_small by lia.
  destruct (C103_dump_mapping fuel e info s vs w old opens wr err (vm_start (info v) + 1) M L N) as [(u & Iu & Cu & E)|(Nm & _)].
  - destruct (Z.eq_dec u v) as [->|Ne]; [exact E|]. exfalso. specialize (Dj u v Iu Iv Ne). unfold disjoint in Dj. unfold covers in Cu. lia.
  - exfalso. apply Nm. exists v. split; [exact Iv|]. unfold covers. lia.
Qed.
Print Assumptions C185_vdso_partial.

Example C185_ex : dump_vdso 8 page_env ex_info ex_s (fun v => v =? 48) [16; 32; 48] ScProps.ex_w [] true (Some 4) 5 =
  dump_task_addr_to_file 8 page_env ex_info ex_s ScProps.ex_w [] true (Some 4) 5 (vm_start (ex_info 48)) (vm_end (ex_info 48) - vm_start (ex_info 48)) /\
  vm_start (ex_info 48) + 1 < vm_end (ex_info 48).
Proof. split; vm_compute; reflexivity. Qed.
