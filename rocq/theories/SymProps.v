(** Properties of the symbol tables: C12, C13, C14, C76. *)
From Coq Require Import ZArith String List Bool Lia Permutation.
From Verif Require Import Word RbModel RbSpec Str SymModel SymSpec SymProofs.
Import ListNotations.
Open Scope Z_scope.

(** Symbols for the examples: printf twice at different addresses, an alias of
    the first one, an exact duplicate, and main. *)
Definition ex_sym (x : Z) : tinfo :=
  if x =? 16 then Ti (str "printf") 4198400
  else if x =? 32 then Ti (str "main") 4202496
  else if x =? 48 then Ti (str "printf") 4206592
  else if x =? 64 then Ti (str "_IO_printf") 4198400
  else if x =? 80 then Ti (str "printf") 4206592
  else Ti [] 0.
Definition ex_tab : table :=
  Tb (Rbs (fun x => if (0 <? x) && (x mod 16 =? 0) then Some (Rbn 0 0 0) else None) 0) (fun _ => []) (fun _ => false).
Definition ex_syms : tsyms := Ts ex_tab ex_tab (fun _ => 0) (fun _ => true) [].
Definition ex_list : list Z := [16; 32; 48; 64; 80].

Lemma ex_fresh : fresh_syms ex_syms ex_list.
Proof.
  split; [repeat split|]. split; [repeat split|]. split.
  - repeat constructor; cbn; intuition lia.
  - repeat constructor; cbn; try lia; discriminate.
Qed.

Lemma ex_names : Forall (fun x => cstring (ts_name (ex_sym x))) ex_list.
Proof. repeat constructor. Qed.

(** ** C12 *)
Theorem C12_lookup_by_name : forall info s l fuel,
  fresh_syms s l -> Forall (fun x => cstring (ts_name (info x))) l -> (List.length l < fuel)%nat ->
  exists s', link_all fuel info s l = Some s' /\
    forall name, cstring name -> exists r extra, find_task_sym fuel info s' name = Some (r, extra) /\
      (r = 0 <-> forall x, In x l -> ts_name (info x) <> name) /\
      r = hd 0 (filter (fun x => str_eqb (ts_name (info x)) name) l) /\
      extra = tl (named info l name).
Proof.
  intros info s l fuel F C Hf. destruct (run_names info s l fuel F C Hf) as (s' & E & _ & I & _).
  exists s'. split; auto. intros name Cn. exists (hd 0 (named info l name)), (tl (named info l name)).
  split; [apply find_name_ok; auto|]. unfold named. rewrite distinct_hd. split; [|split; reflexivity].
  destruct (filter (fun x => str_eqb (ts_name (info x)) name) l) as [|a r] eqn:Ef.
  - cbn [hd]. split; auto. intros _ x Hx G.
    assert (G1 : In x (filter (fun x => str_eqb (ts_name (info x)) name) l)).
    { apply filter_In. split; auto. apply str_eqb_eq. auto. }
    rewrite Ef in G1. destruct G1.
  - cbn [hd]. assert (G1 : In a (filter (fun x => str_eqb (ts_name (info x)) name) l)) by (rewrite Ef; left; auto).
    apply filter_In in G1. destruct G1 as [G1 G2]. apply str_eqb_eq in G2. destruct F as (_ & _ & _ & F).
    rewrite Forall_forall in F. destruct (F a G1) as ((Fa & _) & _). split; [lia|]. intros H. exfalso. apply (H a); auto.
Qed.
Print Assumptions C12_lookup_by_name.

Example C12_lookup_by_name_ex :
  fresh_syms ex_syms ex_list /\ Forall (fun x => cstring (ts_name (ex_sym x))) ex_list /\
  match link_all 6 ex_sym ex_syms ex_list with
  | Some s => find_task_sym 6 ex_sym s (str "printf") = Some (16, [48]) /\
              find_task_sym 6 ex_sym s (str "main") = Some (32, []) /\
              find_task_sym 6 ex_sym s (str "puts") = Some (0, [])
  | None => False
  end.
Proof. split; [exact ex_fresh|]. split; [exact ex_names|]. vm_compute. auto. Qed.

(** ** C13 *)
Definition addr_exact (fuel : nat) (info : Z -> tinfo) (s : tsyms) (l : list Z) : Prop :=
  forall addr, 0 <= addr < 2 ^ 64 -> exists r, find_task_addr fuel info s addr = Some r /\
    (r <> 0 <-> exists x, In x l /\ ts_addr (info x) = addr).

(** One symbol is registered at 0x401000; the lookup of 0x100401000 returns it. *)
Theorem C13_address_exact_refuted : exists info s l s' addr r,
  fresh_syms s l /\ (forall x, In x l -> 0 <= ts_addr (info x) < 2 ^ 64) /\
  link_all 9 info s l = Some s' /\ 0 <= addr < 2 ^ 64 /\
  (forall x, In x l -> ts_addr (info x) <> addr) /\ find_task_addr 9 info s' addr = Some r /\ r <> 0.
Proof.
  exists (fun _ => Ti (str "main") 0x401000), ex_syms, [16].
  eexists. exists 0x100401000, 16. split.
  { split; [repeat split|]. split; [repeat split|]. split; repeat constructor; cbn; auto; try lia; discriminate. }
  split; [intros; cbn; lia|]. split; [vm_compute; reflexivity|]. split; [lia|].
  split; [intros x _; cbn; lia|]. split; [vm_compute; reflexivity|lia].
Qed.
Print Assumptions C13_address_exact_refuted.

(** A registered address that is not found: the comparison is not transitive. *)
Definition far_addrs : list Z :=
  [0x401000; 0x60401000; 0x90401000; 0xC0401000; 0xC0401010; 0xC0401020; 0xC0401030; 0xC0401040].
Definition far_sym (x : Z) : tinfo := Ti (dec x) (nth (Z.to_nat (x / 16 - 1)) far_addrs 0).
Definition far_list : list Z := [16; 32; 48; 64; 80; 96; 112; 128].

Theorem C13_registered_found_refuted : exists info s l s' x,
  fresh_syms s l /\ (forall x, In x l -> 0 <= ts_addr (info x) < 2 ^ 64) /\
  link_all 9 info s l = Some s' /\ In x l /\ find_task_addr 9 info s' (ts_addr (info x)) = Some 0.
Proof.
  exists far_sym, ex_syms, far_list. eexists. exists 32. split.
  { split; [repeat split|]. split; [repeat split|]. split.
    - repeat constructor; cbn; intuition lia.
    - repeat constructor; cbn; try lia; discriminate. }
  split.
  { assert (G : Forall (fun x => 0 <= ts_addr (far_sym x) < 2 ^ 64) far_list).
    { repeat constructor; vm_compute; congruence. }
    rewrite Forall_forall in G. exact G. }
  split; [vm_compute; reflexivity|]. split; [right; left; auto|]. vm_compute. reflexivity.
Qed.
Print Assumptions C13_registered_found_refuted.

(** What does hold: when all addresses, looked up and registered, lie within one
    window of 2 GiB, the lookup is exact and returns the first registered symbol.
    Missing: addresses 2 GiB or more apart, for which the statement is false. *)
Theorem C13_address_exact_partial : forall lo info s l fuel,
  fresh_syms s l -> Forall (fun x => lo <= ts_addr (info x) < lo + 2 ^ 31) l -> (List.length l < fuel)%nat ->
  exists s', link_all fuel info s l = Some s' /\
    forall addr, lo <= addr < lo + 2 ^ 31 -> exists r, find_task_addr fuel info s' addr = Some r /\
      (r <> 0 <-> exists x, In x l /\ ts_addr (info x) = addr) /\
      r = hd 0 (located info l addr).
Proof.
  intros lo info s l fuel F C Hf. destruct (run_addrs lo info s l fuel F C Hf) as (s' & E & I).
  exists s'. split; auto. intros addr Ca. exists (hd 0 (located info l addr)).
  split; [apply (find_addr_ok lo); auto|]. split; auto.
  destruct (located info l addr) as [|a r] eqn:Ef; unfold located in Ef.
  - cbn [hd]. split; [congruence|]. intros (x & Hx & G). exfalso.
    assert (G1 : In x (filter (fun x => ts_addr (info x) =? addr) l)).
    { apply filter_In. split; auto. apply Z.eqb_eq. auto. }
    rewrite Ef in G1. destruct G1.
  - cbn [hd]. assert (G1 : In a (filter (fun x => ts_addr (info x) =? addr) l)) by (rewrite Ef; left; auto).
    apply filter_In in G1. destruct G1 as [G1 G2]. apply Z.eqb_eq in G2. destruct F as (_ & _ & _ & F).
    rewrite Forall_forall in F. destruct (F a G1) as ((Fa & _) & _). split; [|lia]. intros _. exists a. auto.
Qed.
Print Assumptions C13_address_exact_partial.

Example C13_address_exact_partial_ex :
  fresh_syms ex_syms ex_list /\ Forall (fun x => 4194304 <= ts_addr (ex_sym x) < 4194304 + 2 ^ 31) ex_list /\
  match link_all 6 ex_sym ex_syms ex_list with
  | Some s => find_task_addr 6 ex_sym s 4198400 = Some 16 /\ find_task_addr 6 ex_sym s 4206592 = Some 48 /\
              find_task_addr 6 ex_sym s 4198401 = Some 0
  | None => False
  end.
Proof. split; [exact ex_fresh|]. split; [repeat constructor; vm_compute; congruence|]. vm_compute. auto. Qed.

(** ** C14 *)

(** For every history, whatever names and addresses: registration succeeds, and
    releasing the tables never touches a freed symbol, frees the symbols reachable
    from the two tables, each exactly once, and frees nothing else. *)
Theorem C14_free_once : forall info s l fuel,
  fresh_syms s l -> (List.length l < fuel)%nat ->
  exists s' tn ta f log, link_all fuel info s l = Some s' /\
    holds (tb_rb (t_syms s')) tn /\ holds (tb_rb (t_addrs s')) ta /\
    free_task_syms fuel s' = Some f /\
    Permutation (f_log f) (freed s ++ log) /\ NoDup log /\
    (forall x, In x log <-> reachable (t_syms s') tn x \/ reachable (t_addrs s') ta x) /\
    (forall x, f_alive f x = true <-> alive s x = true /\ ~ In x log).
Proof.
  intros info s l fuel F Hf.
  destruct (link_all_reg (fun x => In x l) info l s [] fuel (fresh_regst s l F)) as (s' & E & R & A1 & A2).
  - apply F.
  - intros x _ [].
  - apply fresh_pool. auto.
  - cbn. lia.
  - cbn [app] in R. destruct (free_syms_ok _ s' l fuel R) as (f & tn & ta & B1 & B2 & B3 & (log & B4 & B5 & B6) & B7); auto.
    { rewrite A1. destruct F as (_ & _ & _ & F). rewrite Forall_forall in F. intros x Hx. apply (F x Hx). }
    exists s', tn, ta, f, log. split; auto. split; auto. split; auto. split; auto. split; [congruence|].
    split; auto. split; auto. intros x. rewrite B7, A1, B6. tauto.
Qed.
Print Assumptions C14_free_once.

Example C14_free_once_ex :
  fresh_syms ex_syms ex_list /\
  match link_all 6 ex_sym ex_syms ex_list with
  | Some s => match free_task_syms 6 s with Some f => f_log f = [48; 32; 64; 16] | None => False end
  | None => False
  end.
Proof. split; [exact ex_fresh|]. vm_compute. auto. Qed.

(** ** C76 *)

(** The second of two symbols with the same name and address stays allocated. *)
Theorem C76_all_released_refuted : exists info s l s' f x,
  fresh_syms s l /\ Forall (fun x => cstring (ts_name (info x))) l /\
  link_all 6 info s l = Some s' /\ free_task_syms 6 s' = Some f /\ In x l /\ f_alive f x = true.
Proof.
  exists ex_sym, ex_syms, ex_list. eexists. eexists. exists 80. split; [exact ex_fresh|]. split; [exact ex_names|].
  split; [vm_compute; reflexivity|]. split; [vm_compute; reflexivity|]. split; [cbn; tauto|]. vm_compute. reflexivity.
Qed.
Print Assumptions C76_all_released_refuted.

(** When no two symbols agree in both name and address, all are released. *)
Theorem C76_all_released_partial : forall info s l fuel,
  fresh_syms s l -> Forall (fun x => cstring (ts_name (info x))) l -> (List.length l < fuel)%nat ->
  (forall a b, In a l -> In b l -> ts_name (info a) = ts_name (info b) -> ts_addr (info a) = ts_addr (info b) -> a = b) ->
  exists s' f, link_all fuel info s l = Some s' /\ free_task_syms fuel s' = Some f /\
    forall x, In x l -> f_alive f x = false.
Proof.
  intros info s l fuel F C Hf Hd. destruct (run_names info s l fuel F C Hf) as (s' & E & R & I & A1 & A2).
  destruct (free_syms_ok _ s' l fuel R) as (f & tn & ta & B1 & B2 & B3 & _ & B7); auto.
  { rewrite A1. destruct F as (_ & _ & _ & F). rewrite Forall_forall in F. intros x Hx. apply (F x Hx). }
  exists s', f. split; auto. split; auto. intros x Hx. apply not_true_iff_false. rewrite B7. intros (_ & G & _). apply G.
  apply (name_reach info s' l); auto. apply names_pos. auto.
Qed.
Print Assumptions C76_all_released_partial.

Example C76_all_released_partial_ex :
  fresh_syms ex_syms [16; 32; 48; 64] /\
  (forall a b, In a [16; 32; 48; 64] -> In b [16; 32; 48; 64] ->
     ts_name (ex_sym a) = ts_name (ex_sym b) -> ts_addr (ex_sym a) = ts_addr (ex_sym b) -> a = b) /\
  match link_all 6 ex_sym ex_syms [16; 32; 48; 64] with
  | Some s => match free_task_syms 6 s with Some f => f_log f = [48; 32; 64; 16] | None => False end
  | None => False
  end.
Proof.
  split.
  { split; [repeat split|]. split; [repeat split|]. split; [repeat constructor; cbn; intuition lia|repeat constructor; cbn; try lia; discriminate]. }
  split; [|vm_compute; auto].
  intros a b Ha Hb. cbn in Ha, Hb.
  destruct Ha as [<-|[<-|[<-|[<-|[]]]]], Hb as [<-|[<-|[<-|[<-|[]]]]]; vm_compute; (reflexivity || discriminate || (intros; discriminate)).
Qed.
