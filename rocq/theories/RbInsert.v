(** Insertion: the pointer code refines a function on trees with a hole. *)
From Coq Require Import ZArith List Bool Lia.
From Coq Require Import ZifyBool ZifyNat.
From Verif Require Import RbModel RbSpec RbSep.
Import ListNotations.
Open Scope Z_scope.

(** ** Symbolic execution *)

Lemma exec_set_lf s0 s l i a n v : sat s0 s l -> nth_error l i = Some (CCell a n) ->
  exists s', set_lf s a v = Some s' /\ sat s0 s' (repl l i (CCell a (Rbn (pc n) (rt n) v))).
Proof.
  intros H E. unfold set_lf. rewrite (node_at_cell _ _ _ _ _ _ H E).
  eexists. split; [reflexivity|]. eapply sat_put; eauto.
Qed.
Lemma exec_set_rt s0 s l i a n v : sat s0 s l -> nth_error l i = Some (CCell a n) ->
  exists s', set_rt s a v = Some s' /\ sat s0 s' (repl l i (CCell a (Rbn (pc n) v (lf n)))).
Proof.
  intros H E. unfold set_rt. rewrite (node_at_cell _ _ _ _ _ _ H E).
  eexists. split; [reflexivity|]. eapply sat_put; eauto.
Qed.
Lemma exec_set_pc s0 s l i a n v : sat s0 s l -> nth_error l i = Some (CCell a n) ->
  exists s', set_pc s a v = Some s' /\ sat s0 s' (repl l i (CCell a (Rbn v (rt n) (lf n)))).
Proof.
  intros H E. unfold set_pc. rewrite (node_at_cell _ _ _ _ _ _ H E).
  eexists. split; [reflexivity|]. eapply sat_put; eauto.
Qed.
Lemma exec_set_parent_color s0 s l i a n p c w : sat s0 s l -> nth_error l i = Some (CCell a n) ->
  ptr_ok p -> w = color_bit c ->
  exists s', rb_set_parent_color s a p w = Some s' /\
    sat s0 s' (repl l i (CCell a (Rbn (p + color_bit c) (rt n) (lf n)))).
Proof.
  intros H E Hp ->. unfold rb_set_parent_color. rewrite pack by auto. eapply exec_set_pc; eauto.
Qed.

Lemma exec_get_lf s0 s l i a n : sat s0 s l -> nth_error l i = Some (CCell a n) -> get_lf s a = Some (lf n).
Proof. intros H E. unfold get_lf. rewrite (node_at_cell _ _ _ _ _ _ H E). reflexivity. Qed.
Lemma exec_get_rt s0 s l i a n : sat s0 s l -> nth_error l i = Some (CCell a n) -> get_rt s a = Some (rt n).
Proof. intros H E. unfold get_rt. rewrite (node_at_cell _ _ _ _ _ _ H E). reflexivity. Qed.
Lemma exec_get_pc s0 s l i a n : sat s0 s l -> nth_error l i = Some (CCell a n) -> get_pc s a = Some (pc n).
Proof. intros H E. unfold get_pc. rewrite (node_at_cell _ _ _ _ _ _ H E). reflexivity. Qed.
Lemma exec_is_black s0 s l i a p c r f : sat s0 s l -> nth_error l i = Some (CCell a (Rbn (p + color_bit c) r f)) ->
  ptr_ok p -> rb_is_black s a = Some (match c with Black => true | Red => false end).
Proof.
  intros H E Hp. unfold rb_is_black. rewrite (exec_get_pc _ _ _ _ _ _ H E). cbn [pc].
  rewrite pc_color_pack by auto. destruct c; reflexivity.
Qed.
Lemma exec_is_red s0 s l i a p c r f : sat s0 s l -> nth_error l i = Some (CCell a (Rbn (p + color_bit c) r f)) ->
  ptr_ok p -> rb_is_red s a = Some (match c with Black => false | Red => true end).
Proof.
  intros H E Hp. unfold rb_is_red. rewrite (exec_get_pc _ _ _ _ _ _ H E). cbn [pc].
  rewrite pc_color_pack by auto. destruct c; reflexivity.
Qed.
Lemma exec_parent s0 s l i a p c r f : sat s0 s l -> nth_error l i = Some (CCell a (Rbn (p + color_bit c) r f)) ->
  ptr_ok p -> rb_parent s a = Some p.
Proof.
  intros H E Hp. unfold rb_parent. rewrite (exec_get_pc _ _ _ _ _ _ H E). cbn [pc].
  rewrite pc_parent_pack by auto. reflexivity.
Qed.

Lemma cell_eqb_0 s0 s l i a n : sat s0 s l -> nth_error l i = Some (CCell a n) -> (a =? 0) = false.
Proof. intros H E. destruct (cell_addr _ _ _ _ _ _ H E). apply Z.eqb_neq. lia. Qed.

(** Position of a chunk. *)
Ltac cell_idx l a :=
  match l with
  | CCell a _ :: _ => constr:(O)
  | _ :: ?r => let i := cell_idx r a in constr:(S i)
  end.
Ltac tree_idx l t :=
  match l with
  | CTree _ t :: _ => constr:(O)
  | _ :: ?r => let i := tree_idx r t in constr:(S i)
  end.
Ltac ctx_idx l :=
  match l with
  | CCtx _ _ :: _ => constr:(O)
  | _ :: ?r => let i := ctx_idx r in constr:(S i)
  end.

Ltac norm H := cbn [repl splice app rt lf pc raddr mknode] in H.

(** [ptr_ok] of the address of a cell or of the top of the context. *)
Ltac ptr H :=
  match type of H with
  | sat ?s0 ?s ?l =>
      match goal with
      | |- ptr_ok 0 => split; [lia|reflexivity]
      | |- ptr_ok (top ?k) => let i := ctx_idx l in exact (sat_top_ok _ _ _ i _ _ H eq_refl)
      | |- ptr_ok ?a => let i := cell_idx l a in exact (node_ptr _ (cell_addr _ _ _ i _ _ H eq_refl))
      end
  end.

(** One step on the operation [op] at the head of the goal. *)
Ltac xread E := rewrite E; cbv beta iota; cbn [rt lf pc].
Ltac xwrite L H :=
  let s' := fresh "s" in let E := fresh "E" in let H' := fresh "H" in
  destruct L as (s' & E & H'); [ .. | rewrite E; clear E; cbv beta iota; norm H'; clear H; rename H' into H ].

Ltac xop H op :=
  match type of H with
  | sat ?s0 ?s ?l =>
    match op with
    | get_lf s ?a => let i := cell_idx l a in xread (exec_get_lf s0 s l i a _ H eq_refl)
    | get_rt s ?a => let i := cell_idx l a in xread (exec_get_rt s0 s l i a _ H eq_refl)
    | get_pc s ?a => let i := cell_idx l a in xread (exec_get_pc s0 s l i a _ H eq_refl)
    | rb_red_parent s ?a => unfold rb_red_parent
    | rb_is_black s ?a => let i := cell_idx l a in
        xread (exec_is_black s0 s l i a _ _ _ _ H eq_refl ltac:(ptr H))
    | rb_is_red s ?a => let i := cell_idx l a in
        xread (exec_is_red s0 s l i a _ _ _ _ H eq_refl ltac:(ptr H))
    | rb_parent s ?a => let i := cell_idx l a in
        xread (exec_parent s0 s l i a _ _ _ _ H eq_refl ltac:(ptr H))
    | present_red s (raddr ?t) => let i := tree_idx l t in
        xread (exec_present_red s0 s l i _ t H eq_refl ltac:(ptr H))
    | absent_black s (raddr ?t) => let i := tree_idx l t in
        xread (exec_absent_black s0 s l i _ t H eq_refl ltac:(ptr H))
    | present_red s ?a => let i := cell_idx l a in
        unfold present_red; rewrite (cell_eqb_0 s0 s l i a _ H eq_refl)
    | absent_black s ?a => let i := cell_idx l a in
        unfold absent_black; rewrite (cell_eqb_0 s0 s l i a _ H eq_refl)
    | set_lf s ?a ?v => let i := cell_idx l a in
        xwrite (exec_set_lf s0 s l i a _ v H eq_refl) H
    | set_rt s ?a ?v => let i := cell_idx l a in
        xwrite (exec_set_rt s0 s l i a _ v H eq_refl) H
    | set_pc s ?a ?v => let i := cell_idx l a in
        xwrite (exec_set_pc s0 s l i a _ v H eq_refl) H
    | rb_set_parent_color s ?a ?p RB_BLACK => let i := cell_idx l a in
        xwrite (exec_set_parent_color s0 s l i a _ p Black RB_BLACK H eq_refl ltac:(ptr H) eq_refl) H
    | rb_set_parent_color s ?a ?p RB_RED => let i := cell_idx l a in
        xwrite (exec_set_parent_color s0 s l i a _ p Red RB_RED H eq_refl ltac:(ptr H) eq_refl) H
    | set_parent_color_if s (raddr ?t) ?p RB_BLACK => let i := tree_idx l t in
        xwrite (exec_set_parent_color_if s0 s l i _ p Black t RB_BLACK H eq_refl ltac:(ptr H) eq_refl) H
    | set_parent_if s (raddr ?t) ?p => let i := tree_idx l t in
        xwrite (exec_set_parent_if s0 s l i _ p t H eq_refl ltac:(ptr H) ltac:(ptr H)) H
    | rb_rotate_set_parents s ?old ?new RB_RED =>
        change (rb_rotate_set_parents s old new RB_RED) with (rb_rotate_set_parents s old new (color_bit Red));
        let i := cell_idx l old in let j := cell_idx l new in let q := ctx_idx l in
        xwrite (exec_rotate s0 s l i j q old new _ _ _ _ _ _ _ _ Red H eq_refl eq_refl eq_refl eq_refl
                  ltac:(discriminate) eq_refl ltac:(discriminate) ltac:(discriminate)) H
    | rb_rotate_set_parents s ?old ?new RB_BLACK =>
        change (rb_rotate_set_parents s old new RB_BLACK) with (rb_rotate_set_parents s old new (color_bit Black));
        let i := cell_idx l old in let j := cell_idx l new in let q := ctx_idx l in
        xwrite (exec_rotate s0 s l i j q old new _ _ _ _ _ _ _ _ Black H eq_refl eq_refl eq_refl eq_refl
                  ltac:(discriminate) eq_refl ltac:(discriminate) ltac:(discriminate)) H
    end
  end.

Ltac headop t :=
  lazymatch t with
  | match ?x with Some _ => _ | None => _ end => headop x
  | _ => constr:(t)
  end.

Ltac xstep H :=
  match goal with
  | |- exists _, ?t = _ /\ _ => let op := headop t in xop H op
  end.

Ltac xrun H := repeat xstep H.

(** Unfold the tree or the context at a position. *)
Ltac open_tree H t :=
  match type of H with
  | sat _ _ ?l => let i := tree_idx l t in apply (sat_unfold_tree _ _ _ i) with (1 := H) in H || idtac
  end.

(** Rearranging chunks. *)
Ltac chunks H :=
  let A := fresh "A" in
  pose proof (proj1 H) as A; cbn [choldall chold repk] in A; decompose [and] A; clear A;
  repeat match goal with Hx : Forall node_addr (inorder (recolor _ _)) |- _ => rewrite inorder_recolor in Hx end.

Lemma fa_app l1 l2 : Forall node_addr (l1 ++ l2) <-> Forall node_addr l1 /\ Forall node_addr l2.
Proof. apply Forall_app. Qed.
Lemma fa_cons a l : Forall node_addr (a :: l) <-> node_addr a /\ Forall node_addr l.
Proof. split; [intros H; inversion H; auto|intros [A B]; constructor; auto]. Qed.

Ltac refold H :=
  refine (sat_equiv _ _ _ _ H _ _);
  [ let y := fresh "y" in intros y; cbn [feet foot cnt cntk mk recolor app]; rewrite ?cnt_recolor; lia
  | chunks H; cbn [choldall chold rep repk mk raddr recolor inorder top mknode];
    rewrite ?raddr_recolor, ?inorder_recolor; repeat (rewrite fa_app || rewrite fa_cons);
    repeat match goal with |- _ /\ _ => split end; try assumption; try exact I; try apply Forall_nil ].

Lemma sat_plug s0 s k x : sat s0 s [CTree (top k) x; CCtx k (raddr x)] ->
  sat s0 s [CTree 0 (plug k x); CCtx [] (raddr (plug k x))].
Proof.
  revert x. induction k as [|[d c a t] k IH]; intros x H; [exact H|].
  cbn [plug]. apply IH. replace (raddr (mk d c x a t)) with a by (destruct d; reflexivity).
  apply (sat_unfold_ctx _ _ _ 1) with (2 := eq_refl) in H. cbn [splice app top] in H.
  destruct d; cbn [mknode] in H; refold H.
Qed.

Lemma sat_unplug s0 s k x : sat s0 s [CTree 0 (plug k x); CCtx [] (raddr (plug k x))] ->
  sat s0 s [CTree (top k) x; CCtx k (raddr x)].
Proof.
  revert x. induction k as [|[d c a t] k IH]; intros x H; [exact H|].
  cbn [plug] in H. apply IH in H. replace (raddr (mk d c x a t)) with a in H by (destruct d; reflexivity).
  destruct d; cbn [mk] in H;
    (apply (sat_unfold_tree _ _ _ 0) with (2 := eq_refl) in H; cbn [splice app] in H; refold H).
Qed.

(** ** The function on trees *)

Definition side_eqb (d e : side) : bool :=
  match d, e with DL, DL | DR, DR => true | _, _ => false end.

Fixpoint fix_ins (k : ctx) (x : tree) {struct k} : option tree :=
  match k with
  | [] => Some (recolor Black x)
  | Fr d Black p s :: k1 => Some (plug k x)
  | Fr d Red p s :: [] => None
  | Fr d Red p s :: Fr e cg g u :: k' =>
      match rcolor u with
      | Red => fix_ins k' (mk e Red (mk d Black x p s) g (recolor Black u))
      | Black =>
          if side_eqb d e then Some (plug k' (mk e cg x p (mk e Red (recolor Black s) g u)))
          else match x with
               | E => None
               | T _ xl n xr =>
                   let '(np, ng) := match e with DL => (xl, xr) | DR => (xr, xl) end in
                   Some (plug k' (mk e cg (mk e Red s p (recolor Black np)) n
                                          (mk e Red (recolor Black ng) g u)))
               end
      end
  end.

Section Ref.
Variable s0 : rbs.

Definition done (t : tree) (s : rbs) : Prop := sat s0 s [CTree 0 t; CCtx [] (raddr t)].

Lemma eqb_neq a b : a <> b -> (a =? b) = false.
Proof. apply Z.eqb_neq. Qed.

Lemma insert_loop_ref n : forall k x s t fuel, (length k <= n)%nat -> (length k < fuel)%nat ->
  x <> E -> sat s0 s [CTree (top k) x; CCtx k (raddr x)] -> fix_ins k x = Some t ->
  exists s', insert_loop fuel s (raddr x) (top k) = Some s' /\ done t s'.
Proof.
  induction n as [n IH] using lt_wf_ind. intros k x s t fuel Hn Hf Hx H F.
  destruct fuel as [|fuel]; [lia|]. cbn [insert_loop].
  destruct x as [|cx xl n0 xr]; [congruence|]. clear Hx.
  destruct k as [|[d c p sb] k].
  - cbn [fix_ins recolor] in F. injection F as <-. cbn [top raddr] in *.
    unfold insert_round. rewrite Z.eqb_refl.
    apply (sat_unfold_tree _ _ _ 0) with (2 := eq_refl) in H. norm H.
    xrun H. eexists. split; [reflexivity|]. unfold done. refold H.
  - destruct c.
    2:{ cbn [fix_ins] in F. injection F as <-. unfold insert_round. cbn [top raddr] in *.
        pose proof (sat_unfold_ctx _ _ _ 1 _ _ _ _ _ _ H eq_refl) as H1. norm H1.
        assert (Ap : node_addr p) by exact (cell_addr _ _ _ 1 _ _ H1 eq_refl).
        rewrite (eqb_neq p 0) by (destruct Ap; lia).
        destruct d; cbn [mknode] in H1; xstep H1;
          (eexists; split; [reflexivity|]; apply (sat_plug _ _ (Fr _ Black p sb :: k)); exact H). }
    destruct k as [|[e cg g u] k]; [discriminate F|].
    cbn [fix_ins] in F. cbn [top raddr] in *. cbn [length] in *.
    apply (sat_unfold_ctx _ _ _ 1) with (2 := eq_refl) in H. norm H.
    apply (sat_unfold_ctx _ _ _ 3) with (2 := eq_refl) in H. norm H.
    apply (sat_unfold_tree _ _ _ 0) with (2 := eq_refl) in H. norm H. cbn [top] in H.
    assert (Ap : p <> 0) by (pose proof (cell_addr _ _ _ 3 _ _ H eq_refl) as [? ?]; lia).
    unfold insert_round. rewrite (eqb_neq p 0) by auto.
    assert (Pu : p <> raddr u) by exact (cell_tree_neq _ _ _ 3 6 _ _ _ _ H eq_refl eq_refl ltac:(discriminate)).
    assert (Ps : n0 <> raddr sb) by exact (cell_tree_neq _ _ _ 0 4 _ _ _ _ H eq_refl eq_refl ltac:(discriminate)).
    assert (Hred : g + color_bit Red = g) by (cbn; lia).
    destruct (rcolor u) eqn:Eu.
    + (* colour flips *)
      destruct u as [|cu ul ua ur]; [discriminate Eu|]. cbn [rcolor] in Eu. subst cu.
      pose proof (fun s' H' => IH (length k) ltac:(lia) k
        (mk e Red (mk d Black (T cx xl n0 xr) p sb) g (T Black ul ua ur)) s' t fuel
        ltac:(lia) ltac:(lia) ltac:(destruct e; discriminate) H' F) as G.
      replace (raddr (mk e Red (mk d Black (T cx xl n0 xr) p sb) g (T Black ul ua ur))) with g in G
        by (destruct e; reflexivity).
      cbn [raddr] in Pu.
      apply (sat_unfold_tree _ _ _ 6) with (2 := eq_refl) in H. norm H.
      destruct d, e; cbn [mknode] in H; xstep H; xstep H; xstep H; rewrite Hred; xstep H;
        try rewrite Z.eqb_refl; try rewrite (eqb_neq p ua) by auto; cbn [negb];
        unfold insert_round_left, insert_round_right.
      all: xrun H; apply G; refold H.
    + (* rotations *)
      destruct d, e; cbn [mknode side_eqb mk] in *; injection F as <-; xstep H; xstep H; xstep H; rewrite Hred;
        xstep H; try rewrite Z.eqb_refl; try rewrite (eqb_neq p (raddr u)) by auto; cbn [negb];
        unfold insert_round_left, insert_round_right; xrun H; rewrite Eu; cbv iota; xrun H;
        try rewrite Z.eqb_refl; try rewrite (eqb_neq n0 (raddr sb)) by auto; cbv iota; xrun H;
        (eexists; split; [reflexivity|]; apply sat_plug; cbn [raddr]; refold H).
Qed.
End Ref.
