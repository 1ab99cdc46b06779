(** Properties C01-C05, C70, C71: the ordered index (red-black tree). *)
From Coq Require Import ZArith List Bool Lia Sorted.
From Verif Require Import RbModel RbSpec RbSep RbInsert RbPure RbTop RbErase RbWalk RbSeq.
Import ListNotations.
Open Scope Z_scope.

(** ** A concrete index for the examples *)

Fixpoint heap_of (t : tree) (p : Z) (h : Z -> option rbn) : Z -> option rbn :=
  match t with
  | E => h
  | T c l a r => heap_of l a (heap_of r a (upd h a (Some (Rbn (p + color_bit c) (raddr r) (raddr l)))))
  end.
Definition ex_tree : tree :=
  T Black (T Black E 32 (T Red E 48 E)) 64
          (T Red (T Black E 80 E) 96 (T Black (T Red E 112 E) 128 (T Red E 144 E))).
Definition ex_free (x : Z) : option rbn := if (x =? 16) || (x =? 100) then Some (Rbn 7 7 7) else None.
Definition ex_state : rbs := Rbs (heap_of ex_tree 0 ex_free) 64.

Ltac concrete :=
  repeat match goal with
  | |- _ /\ _ => split
  | |- NoDup _ => constructor
  | |- Forall _ _ => constructor
  | |- node_addr _ => split; reflexivity
  | |- ~ In _ _ => cbn; intuition discriminate
  end; try reflexivity; try exact I.

Lemma ex_holds : holds ex_state ex_tree.
Proof. unfold holds. cbn [ex_tree rep raddr inorder app]. concrete. Qed.
Lemma ex_red_black : red_black ex_tree.
Proof. apply red_black_rbt. exists 2%nat. cbn. concrete. Qed.
(** Nodes ordered by address. *)
Definition ex_cmp (k : Z) (n : Z) : Z := k - n.
Lemma ex_monotone : monotone (ex_cmp 100) (inorder ex_tree).
Proof. exists [32; 48; 64; 80; 96], [], [112; 128; 144]. cbn. concrete. Qed.
Lemma ex_monotone_hit : monotone (ex_cmp 80) (inorder ex_tree).
Proof. exists [32; 48; 64], [80], [96; 112; 128; 144]. cbn. concrete. Qed.

(** Comparison modulo 48: three groups of equal elements. *)
Definition ex_c (a b : Z) : Z := b mod 48 - a mod 48.
Lemma ex_consistent : consistent ex_c.
Proof. split; intros; unfold ex_c in *; lia. Qed.
Definition ex_pool (n : Z) : Prop := In n [16; 32; 48; 64; 80; 96; 112].
Definition ex_empty : rbs := Rbs (fun x => if in_dec Z.eq_dec x [16; 32; 48; 64; 80; 96; 112] then Some (Rbn 5 6 7) else None) 0.
Lemma ex_pool_ok : forall n, ex_pool n -> node_addr n /\ hp ex_empty n <> None.
Proof.
  intros n H. split.
  - unfold ex_pool in H. cbn in H. decompose [or] H; subst; try (split; reflexivity). contradiction.
  - cbn [hp ex_empty]. destruct (in_dec _ _ _); [discriminate|contradiction].
Qed.

(** ** C01 *)

(** One insertion: an equal element is reported and nothing changes, or the new
    node is added at its place and the tree stays red-black. *)
Theorem C01_rb_insert s t cmp new n fuel :
  holds s t -> red_black t -> monotone cmp (inorder t) -> (height t < fuel)%nat ->
  node_addr new -> hp s new = Some n -> ~ In new (inorder t) ->
  (exists a, rb_insert_node fuel s new cmp = Some (a, s) /\ In a (inorder t) /\ cmp a = 0) \/
  (exists s' t' L R, rb_insert_node fuel s new cmp = Some (0, s') /\
     Forall (fun n => cmp n <> 0) (inorder t) /\
     inorder t = L ++ R /\ Forall (fun n => 0 < cmp n) L /\ Forall (fun n => cmp n < 0) R /\
     holds s' t' /\ red_black t' /\ inorder t' = L ++ new :: R /\
     same_elsewhere s s' (inorder t')).
Proof. exact (rb_insert_ok s t cmp new n fuel). Qed.
Print Assumptions C01_rb_insert.

Example C01_rb_insert_ex :
  holds ex_state ex_tree /\ red_black ex_tree /\ monotone (ex_cmp 100) (inorder ex_tree) /\
  node_addr 100 /\ hp ex_state 100 = Some (Rbn 7 7 7) /\ ~ In 100 (inorder ex_tree) /\
  exists s', rb_insert_node 10 ex_state 100 (ex_cmp 100) = Some (0, s') /\
    exists a, rb_first 10 s' = Some a /\
    walk (rb_next 10 s') 20 a = Some [32; 48; 64; 80; 96; 100; 112; 128; 144].
Proof.
  split; [exact ex_holds|]. split; [exact ex_red_black|]. split; [exact ex_monotone|].
  split; [split; reflexivity|]. split; [reflexivity|]. split; [cbn; intuition discriminate|].
  eexists. split; [vm_compute; reflexivity|]. eexists. split; vm_compute; reflexivity.
Qed.

(** Any sequence of insertions into an empty index. *)
Theorem C01_insert_sequence c (pool : Z -> Prop) ns s fuel :
  consistent c -> rootp s = 0 -> (forall n, pool n -> node_addr n /\ hp s n <> None) ->
  (forall n, In n ns -> pool n) -> NoDup ns -> (length ns < fuel)%nat ->
  exists s' t, run_ops fuel s c (map Ins ns) = Some s' /\ holds s' t /\ red_black t /\
    StronglySorted (fun a b => 0 < c a b) (inorder t) /\
    (forall x, In x (inorder t) <-> first_of_group c ns x) /\
    (forall x, ~ pool x -> hp s' x = hp s x).
Proof.
  intros Hc Hr Hp Hin Nd Hf. destruct (empty_holds s Hr) as [H0 R0].
  destruct (run_ops_ok c Hc pool fuel (map Ins ns) s E H0 R0) as (s' & t' & A & B & C & D & F & G); auto.
  - constructor.
  - intros n [].
  - apply valid_ins; auto.
  - rewrite map_length. exact Hf.
  - exists s', t'. split; auto. split; auto. split; auto. split; auto. split; auto.
    cbn [inorder] in D. intros x. rewrite D. apply inserted_ok. exact Hc.
Qed.
Print Assumptions C01_insert_sequence.

Example C01_insert_sequence_ex :
  consistent ex_c /\ rootp ex_empty = 0 /\ (forall n, ex_pool n -> node_addr n /\ hp ex_empty n <> None) /\
  NoDup [48; 64; 32; 16; 80; 96; 112] /\
  exists s', run_ops 8 ex_empty ex_c (map Ins [48; 64; 32; 16; 80; 96; 112]) = Some s' /\
    exists a, rb_first 10 s' = Some a /\ walk (rb_next 10 s') 20 a = Some [48; 64; 32].
Proof.
  split; [exact ex_consistent|]. split; [reflexivity|]. split; [exact ex_pool_ok|].
  split; [concrete|]. eexists. split; [vm_compute; reflexivity|]. eexists. split; vm_compute; reflexivity.
Qed.

(** Any sequence of insertions and removals: the index holds exactly what the
    sorted-sequence specification says. *)
Theorem C01_index_sequence c (pool : Z -> Prop) os s t fuel :
  consistent c -> holds s t -> red_black t -> StronglySorted (fun a b => 0 < c a b) (inorder t) ->
  (forall n, pool n -> node_addr n /\ hp s n <> None) -> (forall n, In n (inorder t) -> pool n) ->
  valid c pool (inorder t) os -> (size t + length os < fuel)%nat ->
  exists s' t', run_ops fuel s c os = Some s' /\ holds s' t' /\ red_black t' /\
    inorder t' = fold_left (op_spec c) os (inorder t) /\
    StronglySorted (fun a b => 0 < c a b) (inorder t') /\
    (forall x, ~ pool x -> hp s' x = hp s x).
Proof. intros Hc. exact (fun H R S P I V F => run_ops_ok c Hc pool fuel os s t H R S P I V F). Qed.
Print Assumptions C01_index_sequence.

Example C01_index_sequence_ex :
  let os := [Ins 48; Ins 64; Ins 32; Del 64; Ins 112; Ins 96; Del 48; Ins 96] in
  consistent ex_c /\ holds ex_empty E /\ red_black E /\
  valid ex_c ex_pool [] os /\ fold_left (op_spec ex_c) os [] = [96; 112; 32] /\
  exists s', run_ops 10 ex_empty ex_c os = Some s' /\
    exists a, rb_first 10 s' = Some a /\ walk (rb_next 10 s') 20 a = Some [96; 112; 32].
Proof.
  split; [exact ex_consistent|]. destruct (empty_holds ex_empty eq_refl) as [A B]. split; [exact A|].
  split; [exact B|]. split.
  { cbn [valid op_spec]. unfold ex_pool. repeat split; vm_compute; intuition discriminate. }
  split; [reflexivity|]. eexists. split; [vm_compute; reflexivity|]. eexists. split; vm_compute; reflexivity.
Qed.

(** ** C02 *)

Theorem C02_rb_search s t cmp fuel :
  holds s t -> red_black t -> monotone cmp (inorder t) -> (height t < fuel)%nat ->
  exists a calls, rb_search_node fuel s cmp = Some (a, calls) /\
    (calls <= 2 * Nat.log2 (size t + 1))%nat /\
    ((a = 0 /\ Forall (fun n => cmp n <> 0) (inorder t)) \/ (In a (inorder t) /\ cmp a = 0)).
Proof.
  intros H R M F. destruct (rb_search_ok s t cmp fuel H M F) as (a & k & E1 & E2 & E3).
  exists a, k. split; auto. split; auto. pose proof (red_black_height t R). lia.
Qed.
Print Assumptions C02_rb_search.

Example C02_rb_search_ex :
  holds ex_state ex_tree /\ red_black ex_tree /\ monotone (ex_cmp 80) (inorder ex_tree) /\
  (height ex_tree < 5)%nat /\ rb_search_node 5 ex_state (ex_cmp 80) = Some (80, 3%nat) /\
  rb_search_node 5 ex_state (ex_cmp 100) = Some (0, 4%nat).
Proof.
  split; [exact ex_holds|]. split; [exact ex_red_black|]. split; [exact ex_monotone_hit|].
  split; [cbn; lia|]. split; reflexivity.
Qed.

(** ** C03 *)

Theorem C03_rb_erase s t a fuel :
  holds s t -> red_black t -> In a (inorder t) -> (height t <= fuel)%nat ->
  exists s' t' L R, rb_erase fuel s a = Some s' /\ holds s' t' /\ red_black t' /\
    inorder t = L ++ a :: R /\ inorder t' = L ++ R /\ same_elsewhere s s' (inorder t) /\
    hp s' a <> None.
Proof. exact (rb_erase_ok s t a fuel). Qed.
Print Assumptions C03_rb_erase.

Example C03_rb_erase_ex :
  holds ex_state ex_tree /\ red_black ex_tree /\ In 64 (inorder ex_tree) /\ In 80 (inorder ex_tree) /\
  (exists s', rb_erase 5 ex_state 64 = Some s' /\
    exists a, rb_first 10 s' = Some a /\ walk (rb_next 10 s') 20 a = Some [32; 48; 80; 96; 112; 128; 144]) /\
  (exists s', rb_erase 5 ex_state 80 = Some s' /\
    exists a, rb_first 10 s' = Some a /\ walk (rb_next 10 s') 20 a = Some [32; 48; 64; 96; 112; 128; 144]).
Proof.
  split; [exact ex_holds|]. split; [exact ex_red_black|]. split; [cbn; tauto|]. split; [cbn; tauto|].
  split; (eexists; split; [vm_compute; reflexivity|]; eexists; split; vm_compute; reflexivity).
Qed.

(** ** C04 *)

Theorem C04_rb_walk s t fuel n :
  holds s t -> (height t <= fuel)%nat -> (size t < n)%nat ->
  exists a, rb_first fuel s = Some a /\ walk (rb_next fuel s) n a = Some (inorder t).
Proof. exact (walk_next s t fuel n). Qed.
Print Assumptions C04_rb_walk.

Theorem C04_rb_walk_back s t fuel n :
  holds s t -> (height t <= fuel)%nat -> (size t < n)%nat ->
  exists a, rb_last fuel s = Some a /\ walk (rb_prev fuel s) n a = Some (rev (inorder t)).
Proof. exact (walk_prev s t fuel n). Qed.
Print Assumptions C04_rb_walk_back.

(** Children before their parent, every element once. *)
Theorem C04_rb_walk_postorder s t fuel n :
  holds s t -> (height t <= fuel)%nat -> (size t < n)%nat ->
  exists a, rb_first_postorder fuel s = Some a /\ walk (rb_next_postorder fuel s) n a = Some (postorder t).
Proof. exact (walk_postorder s t fuel n). Qed.
Print Assumptions C04_rb_walk_postorder.

Example C04_rb_walk_ex :
  holds ex_state ex_tree /\ (height ex_tree <= 4)%nat /\ (size ex_tree < 9)%nat /\
  rb_first 4 ex_state = Some 32 /\
  walk (rb_next 4 ex_state) 9 32 = Some [32; 48; 64; 80; 96; 112; 128; 144] /\
  rb_last 4 ex_state = Some 144 /\
  walk (rb_prev 4 ex_state) 9 144 = Some [144; 128; 112; 96; 80; 64; 48; 32] /\
  rb_first_postorder 4 ex_state = Some 48 /\
  walk (rb_next_postorder 4 ex_state) 9 48 = Some [48; 32; 80; 112; 144; 128; 96; 64].
Proof. split; [exact ex_holds|]. repeat split; try (cbn; lia); reflexivity. Qed.

(** ** C05 *)

(** The nodes are passed to the callback once each, in order; the callback frees
    them; no step reads or writes a freed node (that would be [None]). *)
Theorem C05_rb_destroy s t fuel :
  holds s t -> (size t < fuel)%nat ->
  exists s', rb_destroy fuel s = Some (inorder t, s') /\
    (forall x, In x (inorder t) -> hp s' x = None) /\ same_elsewhere s s' (inorder t).
Proof.
  intros H F. destruct (rb_destroy_ok s t fuel H F) as (s' & A & B & C & _). eauto.
Qed.
Print Assumptions C05_rb_destroy.

Example C05_rb_destroy_ex :
  holds ex_state ex_tree /\ (size ex_tree < 9)%nat /\
  exists s', rb_destroy 9 ex_state = Some ([32; 48; 64; 80; 96; 112; 128; 144], s').
Proof. split; [exact ex_holds|]. split; [cbn; lia|]. eexists. vm_compute. reflexivity. Qed.

(** ** C70 *)

(** The root still points to a released node. *)
Theorem C70_rb_destroy_empties_refuted :
  exists s t s', holds s t /\ rb_destroy 9 s = Some (inorder t, s') /\ rootp s' <> 0 /\
    hp s' (rootp s') = None.
Proof.
  exists ex_state, ex_tree. eexists. split; [exact ex_holds|]. split; [vm_compute; reflexivity|].
  split; [discriminate|reflexivity].
Qed.
Print Assumptions C70_rb_destroy_empties_refuted.

(** Only an index that was empty before is empty afterwards. *)
Theorem C70_rb_destroy_root_partial s t fuel :
  holds s t -> (size t < fuel)%nat ->
  exists s', rb_destroy fuel s = Some (inorder t, s') /\ (rootp s' = 0 <-> inorder t = []).
Proof.
  intros H F. destruct (rb_destroy_ok s t fuel H F) as (s' & A & _ & _ & D). exists s'. split; auto.
  rewrite D. destruct H as (-> & _ & _ & G). destruct t as [|c l a r]; cbn [raddr inorder]; [tauto|].
  apply fa_T in G. destruct G as (_ & [G _] & _). split; [lia|]. intros E. apply app_eq_nil in E.
  destruct E; discriminate.
Qed.
Print Assumptions C70_rb_destroy_root_partial.

Example C70_rb_destroy_root_ex : holds ex_state ex_tree /\ (size ex_tree < 9)%nat.
Proof. split; [exact ex_holds|cbn; lia]. Qed.

(** ** C71 *)

Theorem C71_rb_replace s t v new n :
  holds s t -> In v (inorder t) -> node_addr new -> hp s new = Some n -> ~ In new (inorder t) ->
  exists s' t', rb_replace_node s v new = Some s' /\ holds s' t' /\
    inorder t' = map (fun x => if x =? v then new else x) (inorder t) /\
    (red_black t -> red_black t') /\ same_elsewhere s s' (new :: inorder t).
Proof.
  intros H Hv Ha Hn Hi. destruct (rb_replace_ok s t v new n H Hv Ha Hn Hi) as (s' & A & B & C).
  exists s', (rename v new t). split; auto. split; auto. split; [apply rename_inorder|].
  split; auto. apply rename_red_black.
Qed.
Print Assumptions C71_rb_replace.

Example C71_rb_replace_ex :
  holds ex_state ex_tree /\ In 96 (inorder ex_tree) /\ hp ex_state 100 = Some (Rbn 7 7 7) /\
  exists s', rb_replace_node ex_state 96 100 = Some s' /\
    walk (rb_next 4 s') 9 32 = Some [32; 48; 64; 80; 100; 112; 128; 144].
Proof.
  split; [exact ex_holds|]. split; [cbn; tauto|]. split; [reflexivity|].
  eexists. split; [vm_compute; reflexivity|]. vm_compute. reflexivity.
Qed.
