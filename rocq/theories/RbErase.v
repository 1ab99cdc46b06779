(** Removal: the heap program computes a function on trees. *)
From Coq Require Import ZArith List Bool Lia.
From Coq Require Import ZifyBool ZifyNat.
From Verif Require Import RbModel RbSpec RbSep RbInsert RbPure RbTop.
Import ListNotations.
Open Scope Z_scope.

Lemma exec_set_black s0 s l i a p c r f : sat s0 s l -> nth_error l i = Some (CCell a (Rbn (p + color_bit c) r f)) ->
  ptr_ok p ->
  exists s', rb_set_black s a = Some s' /\ sat s0 s' (repl l i (CCell a (Rbn (p + color_bit Black) r f))).
Proof.
  intros H E Hp. unfold rb_set_black. rewrite (exec_get_pc _ _ _ _ _ _ H E). cbn [pc].
  replace (Z.lor (p + color_bit c) RB_BLACK) with (p + color_bit Black) by (symmetry; apply pack_black; auto).
  destruct (exec_set_pc _ _ _ _ _ _ (p + color_bit Black) H E) as (s' & E1 & H1). exists s'. auto.
Qed.

(** ** The function on trees *)

Definition near (d : side) (l r : tree) : tree := match d with DL => l | DR => r end.
Definition far (d : side) (l r : tree) : tree := match d with DL => r | DR => l end.

(** Node [p] of colour [c] with the short subtree [N] on side [d] and the black
    sibling [S] on the other: the new subtree, and whether its height is restored. *)
Definition bal (d : side) (c : color) (p : Z) (N S : tree) : option (bool * tree) :=
  match S with
  | E => None
  | T cs sl s sr =>
      match rcolor (far d sl sr) with
      | Red => Some (true, mk d c (mk d Black N p (near d sl sr)) s (recolor Black (far d sl sr)))
      | Black =>
          match rcolor (near d sl sr) with
          | Red => match near d sl sr with
                   | E => None
                   | T _ nl n nr =>
                       Some (true, mk d c (mk d Black N p (near d nl nr)) n
                                          (mk d Black (recolor Black (far d nl nr)) s (far d sl sr)))
                   end
          | Black => Some (match c with Red => true | Black => false end, mk d Black N p (T Red sl s sr))
          end
      end
  end.

Fixpoint fix_del (k : ctx) (N : tree) : option tree :=
  match k with
  | [] => Some N
  | Fr d c p B :: k' =>
      match B with
      | E => None
      | T Red sl s sr =>
          match near d sl sr with
          | E => None
          | _ => match bal d Red p N (recolor Black (near d sl sr)) with
                 | None => None
                 | Some (_, t) => Some (plug (Fr d c s (far d sl sr) :: k') t)
                 end
          end
      | T Black _ _ _ =>
          match bal d c p N B with
          | None => None
          | Some (true, t) => Some (plug k' t)
          | Some (false, t) => fix_del k' t
          end
      end
  end.

Ltac xop H op ::=
  match type of H with
  | sat ?s0 ?s ?l =>
    match op with
    | get_lf s ?a => let i := cell_idx l a in xread (exec_get_lf s0 s l i a _ H eq_refl)
    | get_rt s ?a => let i := cell_idx l a in xread (exec_get_rt s0 s l i a _ H eq_refl)
    | get_pc s ?a => let i := cell_idx l a in xread (exec_get_pc s0 s l i a _ H eq_refl)
    | rb_red_parent s ?a => unfold rb_red_parent
    | rb_is_black s ?a => let i := cell_idx l a in
        xread (exec_is_black s0 s l i a _ _ _ _ H eq_refl ltac:(ptr H))
    | rb_is_red s ?a => let i := cell_idx l a in
        xread (exec_is_red s0 s l i a _ _ _ _ H eq_refl ltac:(ptr H))
    | rb_parent s ?a => let i := cell_idx l a in
        xread (exec_parent s0 s l i a _ _ _ _ H eq_refl ltac:(ptr H))
    | absent_black s (raddr ?t) => let i := tree_idx l t in
        xread (exec_absent_black s0 s l i _ t H eq_refl ltac:(ptr H))
    | absent_black s ?a => let i := cell_idx l a in
        unfold absent_black; rewrite (cell_eqb_0 s0 s l i a _ H eq_refl)
    | set_lf s ?a ?v => let i := cell_idx l a in
        xwrite (exec_set_lf s0 s l i a _ v H eq_refl) H
    | set_rt s ?a ?v => let i := cell_idx l a in
        xwrite (exec_set_rt s0 s l i a _ v H eq_refl) H
    | set_pc s ?a ?v => let i := cell_idx l a in
        xwrite (exec_set_pc s0 s l i a _ v H eq_refl) H
    | rb_set_black s ?a => let i := cell_idx l a in
        xwrite (exec_set_black s0 s l i a _ _ _ _ H eq_refl ltac:(ptr H)) H
    | rb_set_parent s (raddr ?t) ?p => let i := tree_idx l t in
        xwrite (exec_set_parent s0 s l i _ p t H eq_refl ltac:(assumption) ltac:(ptr H) ltac:(ptr H)) H
    | rb_set_parent_color s ?a ?p RB_BLACK => let i := cell_idx l a in
        xwrite (exec_set_parent_color s0 s l i a _ p Black RB_BLACK H eq_refl ltac:(ptr H) eq_refl) H
    | rb_set_parent_color s ?a ?p RB_RED => let i := cell_idx l a in
        xwrite (exec_set_parent_color s0 s l i a _ p Red RB_RED H eq_refl ltac:(ptr H) eq_refl) H
    | set_parent_color_if s (raddr ?t) ?p RB_BLACK => let i := tree_idx l t in
        xwrite (exec_set_parent_color_if s0 s l i _ p Black t RB_BLACK H eq_refl ltac:(ptr H) eq_refl) H
    | set_parent_if s (raddr ?t) ?p => let i := tree_idx l t in
        xwrite (exec_set_parent_if s0 s l i _ p t H eq_refl ltac:(ptr H) ltac:(ptr H)) H
    | rb_rotate_set_parents s ?old ?new RB_RED =>
        change (rb_rotate_set_parents s old new RB_RED) with (rb_rotate_set_parents s old new (color_bit Red));
        let i := cell_idx l old in let j := cell_idx l new in let q := ctx_idx l in
        xwrite (exec_rotate s0 s l i j q old new _ _ _ _ _ _ _ _ Red H eq_refl eq_refl eq_refl eq_refl
                  ltac:(discriminate) eq_refl ltac:(discriminate) ltac:(discriminate)) H
    | rb_rotate_set_parents s ?old ?new RB_BLACK =>
        change (rb_rotate_set_parents s old new RB_BLACK) with (rb_rotate_set_parents s old new (color_bit Black));
        let i := cell_idx l old in let j := cell_idx l new in let q := ctx_idx l in
        xwrite (exec_rotate s0 s l i j q old new _ _ _ _ _ _ _ _ Black H eq_refl eq_refl eq_refl eq_refl
                  ltac:(discriminate) eq_refl ltac:(discriminate) ltac:(discriminate)) H
    end
  end.

Section Ref.
Variable s0 : rbs.

(** The part of a round after the sibling is known to be black: [r] is what the
    round must do. *)
Definition finish_left (s : rbs) (parent sibling : Z) : option round :=
  tmp1 <- get_rt s sibling ;;
  b1 <- absent_black s tmp1 ;;
  if (b1 : bool) then
    tmp2 <- get_lf s sibling ;;
    b2 <- absent_black s tmp2 ;;
    if (b2 : bool) then
      s <- rb_set_parent_color s sibling parent RB_RED ;;
      pred <- rb_is_red s parent ;;
      if (pred : bool) then
        s <- rb_set_black s parent ;; Some (Break s)
      else
        parent' <- rb_parent s parent ;;
        if negb (parent' =? 0) then Some (Again s parent parent') else Some (Break s)
    else
      tmp1 <- get_rt s tmp2 ;;
      s <- set_lf s sibling tmp1 ;;
      s <- set_rt s tmp2 sibling ;;
      s <- set_rt s parent tmp2 ;;
      s <- set_parent_color_if s tmp1 sibling RB_BLACK ;;
      erase_case4_left s parent tmp2 sibling
  else erase_case4_left s parent sibling tmp1.

Definition finish_right (s : rbs) (parent sibling : Z) : option round :=
  tmp1 <- get_lf s sibling ;;
  b1 <- absent_black s tmp1 ;;
  if (b1 : bool) then
    tmp2 <- get_rt s sibling ;;
    b2 <- absent_black s tmp2 ;;
    if (b2 : bool) then
      s <- rb_set_parent_color s sibling parent RB_RED ;;
      pred <- rb_is_red s parent ;;
      if (pred : bool) then
        s <- rb_set_black s parent ;; Some (Break s)
      else
        parent' <- rb_parent s parent ;;
        if negb (parent' =? 0) then Some (Again s parent parent') else Some (Break s)
    else
      tmp1 <- get_lf s tmp2 ;;
      s <- set_rt s sibling tmp1 ;;
      s <- set_lf s tmp2 sibling ;;
      s <- set_lf s parent tmp2 ;;
      s <- set_parent_color_if s tmp1 sibling RB_BLACK ;;
      erase_case4_right s parent tmp2 sibling
  else erase_case4_right s parent sibling tmp1.

Definition finish (d : side) := match d with DL => finish_left | DR => finish_right end.

Definition after (k : ctx) (b : bool) (t : tree) (r : round) : Prop :=
  match r with
  | Break s => sat s0 s [CTree (top k) t; CCtx k (raddr t)] /\ (b = false -> k = [])
  | Again s node parent => sat s0 s [CTree (top k) t; CCtx k (raddr t)] /\ b = false /\
                           k <> [] /\ node = raddr t /\ parent = top k
  end.

Lemma finish_ok d c p N S k s b t :
  sat s0 s [CTree p N; CCell p (mknode d (top k + color_bit c) (raddr N) (raddr S)); CTree p S; CCtx k p] ->
  bal d c p N S = Some (b, t) ->
  exists r, finish d s p (raddr S) = Some r /\ after k b t r.
Proof.
  intros H B. destruct S as [|cs sl sb sr]; [discriminate|]. cbn [bal] in B.
  apply (sat_unfold_tree _ _ _ 2) with (2 := eq_refl) in H. norm H. cbn [raddr].
  destruct d; cbn [near far mknode finish] in *; unfold finish_left, finish_right.
  - xstep H. xstep H. destruct (rcolor sr) eqn:Er.
    + injection B as <- <-. destruct sr as [|cr rl ra rr]; [discriminate|]. cbn [rcolor] in Er. subst cr.
      apply (sat_unfold_tree _ _ _ 4) with (2 := eq_refl) in H. norm H. cbn [raddr].
      unfold erase_case4_left. xrun H. eexists. split; [reflexivity|]. cbn [after mk raddr recolor].
      split; [refold H|discriminate].
    + xstep H. xstep H. destruct (rcolor sl) eqn:En.
      * destruct sl as [|cn nl n nr]; [discriminate|]. injection B as <- <-.
        apply (sat_unfold_tree _ _ _ 3) with (2 := eq_refl) in H. norm H. cbn [raddr].
        unfold erase_case4_left. xrun H. eexists. split; [reflexivity|]. cbn [after mk raddr].
        split; [refold H|discriminate].
      * injection B as <- <-. cbn [mk]. xstep H. xstep H. destruct c; cbv iota.
        -- xstep H. eexists. split; [reflexivity|]. split; [cbn [raddr]; refold H|discriminate].
        -- xstep H. destruct k as [|[e ck ka ks] k].
           ++ cbn [top]. rewrite Z.eqb_refl. cbn [negb]. eexists. split; [reflexivity|].
              split; [cbn [raddr]; refold H|auto].
           ++ cbn [top]. destruct (Z.eqb_spec ka 0) as [Z0|_].
              { pose proof (proj1 H) as A. cbn [choldall chold repk] in A. exfalso. unfold node_addr in A. lia. }
              cbn [negb]. eexists. split; [reflexivity|]. split; [cbn [raddr]; refold H|].
              split; [auto|]. split; [discriminate|]. auto.
  - xstep H. xstep H. destruct (rcolor sl) eqn:Er.
    + injection B as <- <-. destruct sl as [|cr rl ra rr]; [discriminate|]. cbn [rcolor] in Er. subst cr.
      apply (sat_unfold_tree _ _ _ 3) with (2 := eq_refl) in H. norm H. cbn [raddr].
      unfold erase_case4_right. xrun H. eexists. split; [reflexivity|]. cbn [after mk raddr recolor].
      split; [refold H|discriminate].
    + xstep H. xstep H. destruct (rcolor sr) eqn:En.
      * destruct sr as [|cn nl n nr]; [discriminate|]. injection B as <- <-.
        apply (sat_unfold_tree _ _ _ 4) with (2 := eq_refl) in H. norm H. cbn [raddr].
        unfold erase_case4_right. xrun H. eexists. split; [reflexivity|]. cbn [after mk raddr].
        split; [refold H|discriminate].
      * injection B as <- <-. cbn [mk]. xstep H. xstep H. destruct c; cbv iota.
        -- xstep H. eexists. split; [reflexivity|]. split; [cbn [raddr]; refold H|discriminate].
        -- xstep H. destruct k as [|[e ck ka ks] k].
           ++ cbn [top]. rewrite Z.eqb_refl. cbn [negb]. eexists. split; [reflexivity|].
              split; [cbn [raddr]; refold H|auto].
           ++ cbn [top]. destruct (Z.eqb_spec ka 0) as [Z0|_].
              { pose proof (proj1 H) as A. cbn [choldall chold repk] in A. exfalso. unfold node_addr in A. lia. }
              cbn [negb]. eexists. split; [reflexivity|]. split; [cbn [raddr]; refold H|].
              split; [auto|]. split; [discriminate|]. auto.
Qed.

Lemma trees_neq s l i j p t q u : sat s0 s l -> nth_error l i = Some (CTree p t) ->
  nth_error l j = Some (CTree q u) -> i <> j -> u <> E -> raddr t <> raddr u.
Proof.
  intros H E F N Hu. pose proof (fun Hz => Hu (raddr_0 _ _ _ _ _ _ H F Hz)) as Hz.
  destruct t as [|c tl a tr]; cbn [raddr]; [auto|]. intros Ha.
  destruct u as [|cu ul b ur]; [congruence|]. cbn [raddr] in Ha. subst b.
  destruct H as (_ & B & _). pose proof (feet_two a _ _ _ _ _ E F N) as G. specialize (B a).
  cbn [foot cnt] in G. rewrite eq1_refl in G. lia.
Qed.

Lemma bal_red d p N S b t : bal d Red p N S = Some (b, t) -> b = true.
Proof.
  destruct S as [|cs sl sb sr]; cbn [bal]; [discriminate|].
  destruct (rcolor (far d sl sr)); [congruence|]. destruct (rcolor (near d sl sr)); [|congruence].
  destruct (near d sl sr); congruence.
Qed.

Lemma erase_round_left_finish s p x : erase_round_left s p x =
  (red <- rb_is_red s x ;;
   r <- (if (red : bool) then
          tmp1 <- get_lf s x ;;
          s <- set_rt s p tmp1 ;;
          s <- set_lf s x p ;;
          s <- rb_set_parent_color s tmp1 p RB_BLACK ;;
          s <- rb_rotate_set_parents s p x RB_RED ;;
          Some (s, tmp1)
        else Some (s, x)) ;;
   let '(s, sibling) := r in finish DL s p sibling).
Proof. reflexivity. Qed.
Lemma erase_round_right_finish s p : erase_round_right s p =
  (x <- get_lf s p ;;
   red <- rb_is_red s x ;;
   r <- (if (red : bool) then
          tmp1 <- get_rt s x ;;
          s <- set_lf s p tmp1 ;;
          s <- set_rt s x p ;;
          s <- rb_set_parent_color s tmp1 p RB_BLACK ;;
          s <- rb_rotate_set_parents s p x RB_RED ;;
          Some (s, tmp1)
        else Some (s, x)) ;;
   let '(s, sibling) := r in finish DR s p sibling).
Proof. reflexivity. Qed.

(** What a round must achieve. *)
Lemma erase_round_ok d c p B k N s :
  sat s0 s [CTree p N; CCtx (Fr d c p B :: k) (raddr N)] ->
  match B with
  | E => True
  | T Red sl x sr =>
      match near d sl sr with
      | E => True
      | _ => match bal d Red p N (recolor Black (near d sl sr)) with
             | None => True
             | Some (b, t) => exists r, erase_round s (raddr N) p = Some r /\
                                        after (Fr d c x (far d sl sr) :: k) b t r
             end
      end
  | T Black _ _ _ =>
      match bal d c p N B with
      | None => True
      | Some (b, t) => exists r, erase_round s (raddr N) p = Some r /\ after k b t r
      end
  end.
Proof.
  intros H. apply (sat_unfold_ctx _ _ _ 1) with (2 := eq_refl) in H. norm H.
  destruct B as [|cb sl x sr]; [exact I|].
  assert (Nq : raddr N <> x).
  { exact (trees_neq _ _ 0 2 _ _ _ (T cb sl x sr) H eq_refl eq_refl ltac:(discriminate) ltac:(discriminate)). }
  destruct cb.
  - destruct (near d sl sr) as [|cn nl n nr] eqn:En; [exact I|]. cbn [recolor].
    destruct (bal d Red p N (T Black nl n nr)) as [[b t]|] eqn:Eb; [|exact I].
    apply (sat_unfold_tree _ _ _ 2) with (2 := eq_refl) in H. norm H.
    unfold erase_round. destruct d; cbn [near far mknode] in *.
    + subst sl. apply (sat_unfold_tree _ _ _ 3) with (2 := eq_refl) in H. norm H.
      xstep H. rewrite (eqb_neq _ _ Nq). cbn [negb]. rewrite erase_round_left_finish.
      xstep H. xrun H. apply (finish_ok DL Red p N (T Black nl n nr) (Fr DL c x sr :: k)); auto.
      cbn [top mknode raddr]. refold H.
    + subst sr. apply (sat_unfold_tree _ _ _ 4) with (2 := eq_refl) in H. norm H.
      xstep H. rewrite Z.eqb_refl. cbn [negb]. rewrite erase_round_right_finish.
      xstep H. xstep H. xrun H. apply (finish_ok DR Red p N (T Black nl n nr) (Fr DR c x sl :: k)); auto.
      cbn [top mknode raddr]. refold H.
  - destruct (bal d c p N (T Black sl x sr)) as [[b t]|] eqn:Eb; [|exact I].
    pose proof (finish_ok d c p N (T Black sl x sr) k s b t) as G. cbn [raddr] in G. specialize (G H Eb).
    apply (sat_unfold_tree _ _ _ 2) with (2 := eq_refl) in H. norm H.
    unfold erase_round. destruct d; cbn [mknode] in *.
    + xstep H. rewrite (eqb_neq _ _ Nq). cbn [negb]. rewrite erase_round_left_finish.
      xstep H. exact G.
    + xstep H. rewrite Z.eqb_refl. cbn [negb]. rewrite erase_round_right_finish.
      xstep H. xstep H. exact G.
Qed.

Lemma erase_loop_ref k : forall N s t fuel, k <> [] -> (length k <= fuel)%nat ->
  sat s0 s [CTree (top k) N; CCtx k (raddr N)] -> fix_del k N = Some t ->
  exists s', erase_loop fuel s (raddr N) (top k) = Some s' /\ done s0 t s'.
Proof.
  induction k as [|[d c p B] k IH]; intros N s t fuel Hk Hf H F; [congruence|].
  cbn [length] in Hf. destruct fuel as [|fuel]; [lia|]. cbn [erase_loop top] in *.
  pose proof (erase_round_ok _ _ _ _ _ _ _ H) as G. cbn [fix_del] in F.
  destruct B as [|[] sl x sr]; [discriminate| |].
  - destruct (near d sl sr) as [|cn nl n nr] eqn:En; [discriminate|].
    destruct (bal d Red p N (recolor Black (T cn nl n nr))) as [[b u]|] eqn:Eb; [|discriminate].
    apply bal_red in Eb. subst b. injection F as <-. destruct G as (r & -> & A).
    destruct r as [s'|s' node parent]; cbn [after] in A; [|destruct A as (_ & A & _); discriminate].
    exists s'. split; [reflexivity|]. destruct A as [A _]. apply sat_plug in A. exact A.
  - destruct (bal d c p N (T Black sl x sr)) as [[b u]|] eqn:Eb; [|discriminate].
    destruct G as (r & -> & A). destruct r as [s'|s' node parent]; cbn [after] in A.
    + destruct A as [A A']. exists s'. split; [reflexivity|]. destruct b.
      * injection F as <-. apply sat_plug. exact A.
      * rewrite (A' eq_refl) in *. cbn [fix_del] in F. injection F as <-. exact A.
    + destruct A as (A & -> & Hk' & -> & ->). apply IH; auto. lia.
Qed.
End Ref.

(** ** Unlinking *)

(** The leftmost node of [t] and the way to it. *)
Fixpoint lm (t : tree) (acc : ctx) : option (ctx * color * Z * tree) :=
  match t with
  | E => None
  | T c l a r => match l with E => Some (acc, c, a, r) | _ => lm l (Fr DL c a r :: acc) end
  end.

(** The context and tree left after taking the root out of [t] in [k], and
    whether the hole is then one black node short. *)
Definition unl (k : ctx) (t : tree) : option (ctx * tree * bool) :=
  match t with
  | E => None
  | T c l a r =>
      match l, r with
      | E, E => Some (k, E, match c with Black => true | Red => false end)
      | E, _ => Some (k, recolor c r, false)
      | _, E => Some (k, recolor c l, false)
      | _, _ =>
          match lm r [] with
          | None => None
          | Some (kk, cs, x, c2) =>
              Some (kk ++ Fr DR c x l :: k, recolor Black c2,
                    match c2, cs with E, Black => true | _, _ => false end)
          end
      end
  end.

Fixpoint bot (k : ctx) (x : Z) : Z := match k with [] => x | Fr _ _ a _ :: k' => bot k' a end.

Lemma topb_app k1 k2 b : topb (k1 ++ k2) b = topb k1 (topb k2 b).
Proof. destruct k1 as [|[]]; reflexivity. Qed.
Lemma top_app k1 k2 : top (k1 ++ k2) = topb k1 (top k2).
Proof. destruct k1 as [|[]]; reflexivity. Qed.

Lemma repk_app s k1 k2 : forall x, repk s (k1 ++ k2) x <-> repseg s k1 (top k2) x /\ repk s k2 (bot k1 x).
Proof.
  induction k1 as [|[d c a t] k1 IH]; intros x; cbn [app repk repseg bot]; [tauto|].
  rewrite IH, top_app. tauto.
Qed.
Lemma repseg_app s k1 k2 b : forall x,
  repseg s (k1 ++ k2) b x <-> repseg s k1 (topb k2 b) x /\ repseg s k2 b (bot k1 x).
Proof.
  induction k1 as [|[d c a t] k1 IH]; intros x; cbn [app repseg bot]; [tauto|].
  rewrite IH, topb_app. tauto.
Qed.
Lemma cntk_app y k1 k2 : cntk y (k1 ++ k2) = (cntk y k1 + cntk y k2)%nat.
Proof. induction k1 as [|[d c a t] k1 IH]; cbn [app cntk]; lia. Qed.
Lemma plug_app k1 k2 x : plug (k1 ++ k2) x = plug k2 (plug k1 x).
Proof. revert x. induction k1 as [|[d c a t] k1 IH]; intros x; cbn [app plug]; auto. Qed.

Lemma raddr_plug k x : raddr (plug k x) = bot k (raddr x).
Proof.
  revert x. induction k as [|[d c a t] k IH]; intros x; cbn [plug bot]; auto.
  rewrite IH. destruct d; reflexivity.
Qed.

Lemma exec_seg_parent s0 s l i k b b' x : sat s0 s l -> nth_error l i = Some (CSeg k b x) -> k <> [] ->
  ptr_ok b -> ptr_ok b' ->
  exists s', rb_set_parent s (bot k x) b' = Some s' /\ sat s0 s' (repl l i (CSeg k b' x)).
Proof.
  intros H E Hk Hb Hb'. destruct (exists_last Hk) as (k0 & [d c z t] & Ek). subst k. clear Hk.
  pose proof H as (A & B & C). pose proof (choldall_nth _ _ _ _ A E) as K. cbn [chold] in K.
  apply repseg_app in K. destruct K as (K1 & K2). cbn [repseg topb] in K2.
  destruct K2 as ([Z1 Z2] & K2 & K3 & K4 & _).
  assert (Bz : (cntk z k0 + cnt z t = 0)%nat).
  { pose proof (feet_nth z _ _ _ E) as G. cbn [foot] in G. rewrite cntk_app in G. cbn [cntk] in G.
    rewrite eq1_refl in G. specialize (B z). lia. }
  assert (Eb : bot (k0 ++ [Fr d c z t]) x = z).
  { clear. revert x. induction k0 as [|[? ? ? ?] k0 IH]; intros x; cbn [app bot]; auto. }
  rewrite Eb. unfold rb_set_parent, get_pc, set_pc, node_at. destruct (Z.eqb_spec z 0); [lia|].
  rewrite K2. eexists. split; [reflexivity|].
  assert (Ew : forall y, Rbn (Z.lor (pc_color (pc (mknode d (b + color_bit c) y (raddr t)))) b')
      (rt (mknode d (b + color_bit c) y (raddr t))) (lf (mknode d (b + color_bit c) y (raddr t))) =
      mknode d (b' + color_bit c) y (raddr t)).
  { intros y. replace (pc (mknode d (b + color_bit c) y (raddr t))) with (b + color_bit c) by (destruct d; reflexivity).
    rewrite pc_color_pack, pack' by auto. destruct d; reflexivity. }
  rewrite Ew. eapply sat_change; eauto.
  - intros y Hy. cbn [foot] in Hy. rewrite cntk_app in Hy. cbn [cntk] in Hy. cbn. apply upd_other, eq1_0. lia.
  - cbn [chold]. apply repseg_app. split.
    + cbn [topb] in *. eapply repseg_ext; [|exact K1]. intros y Hy. cbn. apply upd_other. intros ->. lia.
    + cbn [repseg topb put hp]. split; [split; auto|]. split; [apply upd_same|]. split; [|split; auto].
      eapply rep_ext; [|exact K3]. intros y Hy. apply upd_other. intros ->. lia.
Qed.

Ltac refold2 H :=
  refine (sat_equiv _ _ _ _ H _ _);
  [ let y := fresh "y" in intros y; cbn [feet foot cnt cntk mk recolor app]; rewrite ?cnt_recolor; lia
  | chunks H; cbn [choldall chold repk raddr top mknode];
    repeat match goal with |- _ /\ _ => split end; try assumption; try exact I; try apply Forall_nil ].

Section Unlink.
Variable s0 : rbs.

Lemma lm_acc t : forall acc, t <> E -> exists kk cs x c2,
  lm t acc = Some (kk ++ acc, cs, x, c2) /\ lm t [] = Some (kk, cs, x, c2) /\
  plug kk (T cs E x c2) = t /\
  match kk with [] => True | Fr DL _ _ _ :: _ => True | _ => False end.
Proof.
  induction t as [|c l IHl a r _]; intros acc Ht; [congruence|]. cbn [lm].
  destruct l as [|cl ll la lr].
  - exists [], c, a, r. repeat split; auto.
  - destruct (IHl (Fr DL c a r :: acc) ltac:(discriminate)) as (kk & cs & x & c2 & E1 & E2 & E3 & E4).
    destruct (IHl [Fr DL c a r] ltac:(discriminate)) as (kk' & cs' & x' & c2' & E1' & E2' & _).
    rewrite E2 in E2'. injection E2' as <- <- <- <-.
    exists (kk ++ [Fr DL c a r]), cs, x, c2. rewrite E1, E1'. rewrite <- app_assoc. cbn [app].
    split; auto. split; auto. split.
    + rewrite plug_app, E3. reflexivity.
    + destruct kk as [|[[] ? ? ?] kk]; auto.
Qed.

Lemma succ_loop_ok t : forall K fuel s kk cs x c2 ,
  sat s0 s [CTree (top K) t; CCtx K (raddr t)] -> t <> E -> (height t <= fuel)%nat ->
  lm t [] = Some (kk, cs, x, c2) ->
  succ_loop fuel s (top K) (raddr t) = Some (top (kk ++ K), x).
Proof.
  induction t as [|c l IHl a r _]; intros K fuel s kk cs x c2 H Ht Hf El; [congruence|].
  cbn [height] in Hf. destruct fuel as [|fuel]; [lia|]. cbn [succ_loop raddr].
  apply (sat_unfold_tree _ _ _ 0) with (2 := eq_refl) in H. norm H.
  rewrite (exec_get_lf _ _ _ 0 _ _ H eq_refl). cbn [lf].
  destruct l as [|cl ll la lr].
  - cbn [raddr]. rewrite Z.eqb_refl. cbn [lm] in El. injection El as <- <- <- <-. reflexivity.
  - destruct (lm_acc (T cl ll la lr) [Fr DL c a r] ltac:(discriminate)) as (kk0 & cs0 & x0 & c20 & E1 & E2 & _).
    change (lm (T c (T cl ll la lr) a r) []) with (lm (T cl ll la lr) [Fr DL c a r]) in El.
    rewrite E1 in El. injection El as <- <- <- <-. cbn [raddr].
    assert (Hla : la <> 0).
    { destruct (sat_tree_in _ _ _ _ _ H ltac:(right; left; reflexivity)) as [_ G].
      apply fa_T in G. destruct G as (_ & [G _] & _). lia. }
    rewrite (eqb_neq la 0) by auto. rewrite <- app_assoc. cbn [app].
    apply (IHl (Fr DL c a r :: K) fuel s kk0 cs0 x0 c20); auto.
    + cbn [top raddr]. refold2 H.
    + discriminate.
    + lia.
Qed.

Lemma sat_unplug_top s F K kk x :
  sat s0 s (CTree (top K) (plug kk x) :: CCtx K (raddr (plug kk x)) :: F) ->
  sat s0 s (CTree (top (kk ++ K)) x :: CCtx (kk ++ K) (raddr x) :: F).
Proof.
  revert x. induction kk as [|[d c a t] kk IH]; intros x H; [exact H|].
  cbn [plug] in H. apply IH in H. cbn [app top].
  replace (raddr (mk d c x a t)) with a in H by (destruct d; reflexivity).
  destruct d; cbn [mk] in H;
    (apply (sat_unfold_tree _ _ _ 0) with (2 := eq_refl) in H; cbn [splice app] in H; refold H).
Qed.

Lemma rb_erase_unlink_ok k c l a r K N b fuel s :
  sat s0 s [CTree (top k) (T c l a r); CCtx k a] -> unl k (T c l a r) = Some (K, N, b) ->
  (height r <= fuel)%nat ->
  exists s' n, rb_erase_unlink fuel s a = Some (s', if b then top K else 0) /\
    sat s0 s' [CTree (top K) N; CCtx K (raddr N); CCell a n].
Proof.
  intros H0 U Hf. pose proof H0 as H. apply (sat_unfold_tree _ _ _ 0) with (2 := eq_refl) in H. norm H.
  cbn [unl] in U. unfold rb_erase_unlink.
  assert (Pk : ptr_ok (top k)) by ptr H.
  assert (Pa : ptr_ok a) by ptr H.
  assert (Na : a <> 0) by (pose proof (cell_addr _ _ _ 0 _ _ H eq_refl) as [? _]; lia).
  rewrite (exec_get_rt _ _ _ 0 _ _ H eq_refl), (exec_get_lf _ _ _ 0 _ _ H eq_refl). cbn [rt lf].
  assert (Ck : cntk a k = 0%nat) by exact (cell_cntk _ _ _ 0 3 _ _ _ _ H eq_refl eq_refl ltac:(discriminate)).
  destruct l as [|cl ll la lr]; [|destruct r as [|cr rl ra rr]].
  - cbn [raddr]. rewrite Z.eqb_refl. rewrite (exec_get_pc _ _ _ 0 _ _ H eq_refl). cbn [pc].
    cbv zeta. rewrite pc_parent_pack by auto.
    destruct (exec_change_child _ _ _ 3 _ _ (raddr r) H eq_refl eq_refl Na Ck) as (s1 & E1 & H1).
    rewrite E1. norm H1. destruct r as [|cr rl ra rr].
    + injection U as <- <- <-. cbn [raddr negb Z.eqb]. rewrite pc_color_pack by auto.
      exists s1, (Rbn (top k + color_bit c) 0 0). split.
      * destruct c; reflexivity.
      * cbn [raddr] in *. refold2 H1.
    + injection U as <- <- <-. cbn [raddr].
      destruct (set_root_pc _ _ _ 2 _ (top k) c (T cr rl ra rr) _ H1 eq_refl ltac:(discriminate) eq_refl) as (s2 & E2 & H2).
      cbn [raddr] in E2.
      assert (Nr : (ra =? 0) = false).
      { apply eqb_neq. intros ->. pose proof (raddr_0 _ _ _ 2 _ _ H1 eq_refl eq_refl). discriminate. }
      rewrite Nr. cbn [negb]. rewrite E2. norm H2. cbn [recolor raddr] in *.
      exists s2, (Rbn (top k + color_bit c) ra 0). split; [reflexivity|]. refold2 H2.
  - injection U as <- <- <-. cbn [raddr].
    assert (Nr : (la =? 0) = false).
    { apply eqb_neq. intros ->. pose proof (raddr_0 _ _ _ 1 _ _ H eq_refl eq_refl). discriminate. }
    rewrite Nr. cbn [Z.eqb]. rewrite (exec_get_pc _ _ _ 0 _ _ H eq_refl). cbn [pc].
    destruct (set_root_pc _ _ _ 1 _ (top k) c (T cl ll la lr) _ H eq_refl ltac:(discriminate) eq_refl) as (s2 & E2 & H2).
    cbn [raddr] in E2. rewrite E2. norm H2. cbv zeta. rewrite pc_parent_pack by auto.
    destruct (exec_change_child _ _ _ 3 _ _ la H2 eq_refl eq_refl Na Ck) as (s1 & E1 & H1).
    rewrite E1. norm H1. exists s1, (Rbn (top k + color_bit c) 0 la). split; [reflexivity|].
    cbn [recolor raddr] in *. refold2 H1.
  - set (l := T cl ll la lr) in *. set (r := T cr rl ra rr) in *.
    assert (Hl : l <> E) by discriminate. assert (Hr : r <> E) by discriminate.
    assert (Nl : (raddr l =? 0) = false).
    { apply eqb_neq. intros Hz. exact (Hl (raddr_0 _ _ _ 1 _ _ H eq_refl Hz)). }
    assert (Nr : (raddr r =? 0) = false).
    { apply eqb_neq. intros Hz. exact (Hr (raddr_0 _ _ _ 2 _ _ H eq_refl Hz)). }
    rewrite Nl, Nr.
    destruct (lm_acc r (Fr DR c a l :: k) Hr) as (kk & cs & x & c2 & L1 & L2 & L3 & L4).
    change (match l with E => match r with E => Some (k, E, match c with Black => true | Red => false end)
                                          | _ => Some (k, recolor c r, false) end
            | _ => match r with E => Some (k, recolor c l, false) | _ =>
              match lm r [] with None => None | Some (kk, cs, x, c2) =>
              Some (kk ++ Fr DR c x l :: k, recolor Black c2,
                    match c2, cs with E, Black => true | _, _ => false end) end end end = Some (K, N, b)) in U.
    assert (U' : Some (kk ++ Fr DR c x l :: k, recolor Black c2,
                    match c2, cs with E, Black => true | _, _ => false end) = Some (K, N, b)).
    { rewrite <- U. rewrite L2. reflexivity. }
    clear U. injection U' as EK EN Eb.
    assert (G : exists s1 p w lx,
      (if match kk with [] => true | _ => false end then
            child2 <- get_rt s (raddr r) ;;
            Some (s, raddr r, raddr r, child2)
          else
            tmp <- get_lf s (raddr r) ;;
            ps <- succ_loop fuel s (raddr r) tmp ;;
            let '(parent, successor) := ps in
            child2 <- get_rt s successor ;;
            s <- set_lf s parent child2 ;;
            s <- set_rt s successor (raddr r) ;;
            s <- rb_set_parent s (raddr r) successor ;;
            Some (s, parent, successor, child2)) = Some (s1, topb kk x, x, raddr c2) /\
      get_lf s (raddr r) = Some (match kk with [] => 0 | _ => p end) /\ (kk <> [] -> p <> 0) /\
      ptr_ok w /\
      sat s0 s1 [CCell x (Rbn (w + color_bit cs) (bot kk (raddr c2)) lx); CTree x c2; CSeg kk x (raddr c2);
                 CCell a (Rbn (top k + color_bit c) (raddr r) (raddr l)); CTree a l; CCtx k a]).
    { destruct kk as [|f kk].
      - (* the right child is the successor *)
        cbn [plug] in L3. rewrite <- L3 in H. cbn [raddr] in H.
        apply (sat_unfold_tree _ _ _ 2) with (2 := eq_refl) in H. norm H. rewrite <- L3. cbn [raddr bot topb].
        rewrite (exec_get_rt _ _ _ 2 _ _ H eq_refl), (exec_get_lf _ _ _ 2 _ _ H eq_refl). cbn [rt lf raddr].
        exists s, 0, a, 0. split; [reflexivity|]. split; [reflexivity|]. split; [congruence|]. split; [auto|].
        refold2 H.
      - set (K0 := Fr DR c a l :: k).
        assert (Hs : sat s0 s [CTree (top K0) r; CCtx K0 (raddr r)]) by (unfold K0; cbn [top]; refold2 H).
        pose proof (succ_loop_ok r K0 (S fuel) s _ _ _ _ Hs Hr ltac:(lia) L2) as SL.
        cbn [succ_loop] in SL.
        assert (Gl : get_lf s (raddr r) = Some (raddr rl)).
        { apply (sat_unfold_tree _ _ _ 2) with (2 := eq_refl) in H. norm H.
          exact (exec_get_lf _ _ _ 2 _ _ H eq_refl). }
        rewrite Gl in *. cbv iota.
        assert (Hrl : rl <> E).
        { intros ->. unfold r in L2. cbn [lm] in L2. discriminate. }
        assert (Zrl : raddr rl <> 0).
        { apply (sat_unfold_tree _ _ _ 2) with (2 := eq_refl) in H. norm H.
          intros Hz. exact (Hrl (raddr_0 _ _ _ 3 _ _ H eq_refl Hz)). }
        rewrite (eqb_neq _ _ Zrl) in SL. cbv iota. rewrite SL.
        destruct f as [[] fc fa ft]; [|contradiction].
        set (KK := Fr DL fc fa ft :: kk) in *.
        rewrite <- L3 in Hs. apply sat_unplug_top in Hs. cbn [raddr] in Hs.
        apply (sat_unfold_tree _ _ _ 0) with (2 := eq_refl) in Hs. norm Hs.
        assert (Pt : ptr_ok (top (KK ++ K0))) by ptr Hs.
        rewrite (exec_get_rt _ _ _ 0 _ _ Hs eq_refl). cbn [rt].
        destruct (link_set_ok _ _ _ 3 _ _ (raddr c2) Hs eq_refl eq_refl) as (s1 & E1 & H1).
        cbn [KK app lk link_set] in E1. cbn [KK app top]. rewrite E1. norm H1.
        destruct (exec_set_rt _ _ _ 0 _ _ (raddr r) H1 eq_refl) as (s2 & E2 & H2). rewrite E2. norm H2.
        assert (H3 : sat s0 s2 [CCell x (Rbn (top (KK ++ K0) + color_bit cs) (raddr r) 0); CTree x c2;
                     CSeg KK a (raddr c2);
                     CCell a (Rbn (top k + color_bit c) (raddr r) (raddr l)); CTree a l; CCtx k a]).
        { refine (sat_equiv _ _ _ _ H2 _ _).
          - intros y. cbn [feet foot cnt]. rewrite (cntk_app y KK K0). unfold K0. cbn [cntk]. lia.
          - pose proof (proj1 H2) as A2. cbn [choldall chold] in A2.
            destruct A2 as (X1 & X2 & X3 & X4 & _).
            change (repk s2 (KK ++ K0) (raddr c2)) in X4. apply repk_app in X4. destruct X4 as (X4 & X5).
            unfold K0 in X5. cbn [repk mknode] in X5.
            replace (raddr r) with (bot KK (raddr c2)) at 2
              by (rewrite <- L3, raddr_plug; reflexivity).
            cbn [choldall chold]. unfold K0 in X4. cbn [top] in X4. tauto. }
        destruct (exec_seg_parent _ _ _ 2 KK a x (raddr c2) H3 eq_refl ltac:(discriminate) Pa ltac:(ptr H3))
          as (s3 & E3 & H4).
        replace (bot KK (raddr c2)) with (raddr r) in *
          by (rewrite <- L3, raddr_plug; reflexivity).
        rewrite E3. norm H4.
        exists s3, (raddr rl), (top (KK ++ K0)), 0. cbn [KK topb].
        split; [reflexivity|]. split; [reflexivity|]. split; [auto|]. split; [auto|]. exact H4. }
    destruct G as (s1 & p & w & lx & G1 & G2 & G3 & G4 & H1).
    rewrite G2.
    match goal with |- exists s' n, (match ?X with Some _ => _ | None => _ end) = _ /\ _ =>
      replace X with (Some (s1, topb kk x, x, raddr c2)) end.
    2:{ rewrite <- G1. destruct kk as [|f kk]; cbv iota.
        - rewrite Z.eqb_refl. reflexivity.
        - rewrite (eqb_neq p 0) by (apply G3; discriminate). rewrite G2. reflexivity. }
    assert (Px : ptr_ok x) by ptr H1.
    assert (Nx : (x =? 0) = false) by exact (cell_eqb_0 _ _ _ 0 _ _ H1 eq_refl).
    cbv iota beta.
    rewrite (exec_get_lf _ _ _ 3 _ _ H1 eq_refl). cbn [lf].
    destruct (exec_set_lf _ _ _ 0 _ _ (raddr l) H1 eq_refl) as (s2 & E2 & H2). rewrite E2. norm H2.
    destruct (exec_set_parent _ _ _ 4 _ x l H2 eq_refl Hl Pa Px) as (s3 & E3 & H3). rewrite E3. norm H3.
    rewrite (exec_get_pc _ _ _ 3 _ _ H3 eq_refl). cbn [pc]. rewrite pc_parent_pack by auto.
    destruct (exec_change_child _ _ _ 5 _ _ x H3 eq_refl eq_refl Na Ck) as (s4 & E4 & H4). rewrite E4. norm H4.
    assert (Fin : forall s5 t, t = recolor Black c2 ->
      sat s0 s5 [CCell x (Rbn (top k + color_bit c) (bot kk (raddr c2)) (raddr l)); CTree (topb kk x) t;
                 CSeg kk x (raddr c2); CCell a (Rbn (top k + color_bit c) (raddr r) (raddr l));
                 CTree x l; CCtx k x] ->
      sat s0 s5 [CTree (top K) N; CCtx K (raddr N); CCell a (Rbn (top k + color_bit c) (raddr r) (raddr l))]).
    { intros s5 t -> H5. refine (sat_equiv _ _ _ _ H5 _ _).
      - intros y. rewrite <- EK, <- EN. cbn [feet foot]. rewrite cntk_app. cbn [cntk]. lia.
      - chunks H5. rewrite <- EK, <- EN. cbn [choldall chold]. rewrite top_app, raddr_recolor, inorder_recolor.
        cbn [top]. split; [split; auto|]. split; [|split; auto].
        apply repk_app. cbn [top repk mknode]. auto 10. }
    destruct c2 as [|c2c c2l c2a c2r].
    + cbn [raddr negb Z.eqb]. rewrite (exec_get_pc _ _ _ 0 _ _ H4 eq_refl). cbn [pc].
      destruct (exec_set_pc _ _ _ 0 _ _ (top k + color_bit c) H4 eq_refl) as (s5 & E5 & H5). rewrite E5. norm H5.
      rewrite pc_color_pack by auto.
      exists s5, (Rbn (top k + color_bit c) (raddr r) (raddr l)). split.
      * rewrite <- Eb, <- EK, top_app. cbn [top]. destruct cs; reflexivity.
      * apply (Fin s5 E eq_refl). cbn [raddr] in *. refold2 H5.
    + set (c2 := T c2c c2l c2a c2r) in *.
      assert (Hc : c2 <> E) by discriminate.
      assert (Nc : (raddr c2 =? 0) = false).
      { apply eqb_neq. intros Hz. exact (Hc (raddr_0 _ _ _ 1 _ _ H4 eq_refl Hz)). }
      rewrite Nc. cbn [negb].
      destruct (exec_set_pc _ _ _ 0 _ _ (top k + color_bit c) H4 eq_refl) as (s5 & E5 & H5). rewrite E5. norm H5.
      assert (Pt : ptr_ok (topb kk x)).
      { destruct kk as [|[d' c' a' t'] kk]; [exact Px|]. pose proof (proj1 H5) as A5.
        cbn [choldall chold repseg] in A5. cbn [topb]. apply node_ptr. tauto. }
      destruct (set_root_pc _ _ _ 1 _ (topb kk x) Black c2 (Z.lor (topb kk x) RB_BLACK) H5 eq_refl Hc
                  ltac:(apply (pack _ Black); exact Pt)) as (s6 & E6 & H6).
      unfold rb_set_parent_color. rewrite E6. norm H6.
      exists s6, (Rbn (top k + color_bit c) (raddr r) (raddr l)). split; [rewrite <- Eb; reflexivity|].
      apply (Fin s6 _ eq_refl). refold2 H6.
Qed.
End Unlink.

(** ** Removal keeps the tree red-black *)

Lemma bal_ok d c p N B n : rbt N n -> rcolor N = Black -> rbt B (S n) -> rcolor B = Black ->
  exists b t, bal d c p N B = Some (b, t) /\ inorder t = inorder (mk d c N p B) /\
    (if b then rbt t (match c with Red => S n | Black => S (S n) end) /\ (c = Black -> rcolor t = Black)
     else c = Black /\ rbt t (S n) /\ rcolor t = Black).
Proof.
  intros HN CN HB CB. destruct B as [|cb sl x sr]; [cbn in HB; lia|]. cbn [rcolor] in CB. subst cb.
  cbn [rbt] in HB. destruct HB as [B1 B2]. cbn [bal].
  assert (Nf : rbt (near d sl sr) n /\ rbt (far d sl sr) n) by (destruct d; auto).
  assert (Es : inorder (mk d c N p (T Black sl x sr)) =
               inorder (mk d c N p (mk d Black (near d sl sr) x (far d sl sr)))) by (destruct d; reflexivity).
  assert (Er : inorder (mk d Black N p (T Red sl x sr)) =
               inorder (mk d c N p (mk d Black (near d sl sr) x (far d sl sr)))) by (destruct d; reflexivity).
  rewrite Es. destruct Nf as [Hn Hf].
  assert (Rr : rcolor (near d sl sr) = Black -> rcolor (far d sl sr) = Black -> rbt (T Red sl x sr) n).
  { intros. cbn [rbt]. destruct d; auto. }
  remember (near d sl sr) as nn. remember (far d sl sr) as ff.
  destruct (rcolor ff) eqn:Cf; [|destruct (rcolor nn) eqn:Cn].
  - exists true. eexists. split; [reflexivity|]. split.
    + destruct d; cbn [mk inorder]; rewrite inorder_recolor, <- ?app_assoc; reflexivity.
    + pose proof (rbt_blacken_red _ _ Cf Hf). split; [|intros ->; apply rcolor_mk].
      rewrite !rbt_mk. destruct c; [rewrite rbt_mk, rcolor_mk, rcolor_recolor_black; auto 10|].
      rewrite rbt_mk. auto.
  - destruct nn as [|cn nl y nr]; [discriminate|]. cbn [rcolor] in Cn. subst cn. cbn [rbt] in Hn.
    destruct Hn as (Y1 & Y2 & Y3 & Y4).
    assert (Q : rbt (near d nl nr) n /\ rbt (far d nl nr) n /\ recolor Black (far d nl nr) = far d nl nr).
    { destruct d; cbn [near far]; auto using recolor_black_id. }
    destruct Q as (Q1 & Q2 & Q3). rewrite Q3.
    exists true. eexists. split; [reflexivity|]. split.
    + destruct d; cbn [mk inorder near far]; rewrite <- ?app_assoc; cbn [app]; rewrite <- ?app_assoc; reflexivity.
    + split; [|intros ->; apply rcolor_mk]. rewrite rbt_mk. destruct c; rewrite !rbt_mk, ?rcolor_mk; auto 10.
  - eexists _, _. split; [reflexivity|]. split; [exact Er|]. destruct c.
    + split; [|discriminate]. rewrite rbt_mk. auto.
    + rewrite rbt_mk, rcolor_mk. auto.
Qed.

Lemma fix_del_ok k : forall N n, rbt N n -> rcolor N = Black -> rbk k (S n) ->
  exists t, fix_del k N = Some t /\ inorder t = inorder (plug k N) /\ exists m, rbt t m /\ rcolor t = Black.
Proof.
  induction k as [|[d c p B] k IH]; intros N n HN CN Hk; cbn [fix_del plug].
  - exists N. eauto.
  - assert (HB : rbt B (S n)) by (destruct c; cbn [rbk] in Hk; tauto).
    destruct B as [|[] sl x sr]; [cbn in HB; lia| |].
    + destruct c; [cbn [rbk rcolor] in Hk; destruct Hk as (_ & C & _); discriminate|].
      cbn [rbk] in Hk. destruct Hk as [_ Hk]. cbn [rbt] in HB. destruct HB as (B1 & B2 & B3 & B4).
      assert (Q : rbt (near d sl sr) (S n) /\ rcolor (near d sl sr) = Black /\
                  rbt (far d sl sr) (S n) /\ rcolor (far d sl sr) = Black) by (destruct d; auto).
      destruct Q as (Q1 & Q2 & Q3 & Q4).
      assert (Ei : inorder (mk d Black N p (T Red sl x sr)) =
                   inorder (mk d Black (mk d Red N p (near d sl sr)) x (far d sl sr))).
      { destruct d; cbn [mk inorder near far]; rewrite <- ?app_assoc; reflexivity. }
      destruct (near d sl sr) as [|cn nl y nr] eqn:En; [cbn in Q1; lia|].
      rewrite (recolor_black_id _ Q2).
      destruct (bal_ok d Red p N (T cn nl y nr) n HN CN Q1 Q2) as (b & t & E1 & E2 & E3).
      rewrite E1. eexists. split; [reflexivity|]. destruct b; [|destruct E3; discriminate].
      split.
      * cbn [plug]. rewrite !inorder_plug. f_equal. f_equal. rewrite Ei. rewrite !inorder_mk. rewrite E2.
        rewrite inorder_mk. reflexivity.
      * eapply (plug_rb (Fr d Black x (far d sl sr) :: k)); [apply E3| |]; cbn [rbk red_allowed]; auto.
    + destruct (bal_ok d c p N (T Black sl x sr) n HN CN HB eq_refl) as (b & t & E1 & E2 & E3).
      rewrite E1. destruct b.
      * destruct E3 as [E3 E4]. eexists. split; [reflexivity|]. split.
        -- rewrite !inorder_plug, E2. reflexivity.
        -- destruct c; cbn [rbk] in Hk.
           ++ eapply plug_rb; [exact E3|tauto|tauto].
           ++ eapply plug_rb; [exact E3|tauto|]. rewrite E4 by auto. discriminate.
      * destruct E3 as (-> & E3 & E4). cbn [rbk] in Hk.
        destruct (IH t (S n) E3 E4 (proj2 Hk)) as (u & U1 & U2 & U3).
        exists u. split; auto. split; auto. rewrite U2, !inorder_plug, E2. reflexivity.
Qed.

Lemma rbk_swap kk d c a b l k n : rbk (kk ++ Fr d c a l :: k) n -> rbk (kk ++ Fr d c b l :: k) n.
Proof.
  revert n. induction kk as [|[d' c' a' t'] kk IH]; intros n; cbn [app rbk]; auto.
  destruct c'; intros H.
  - destruct H as (A & B & C & D). repeat split; auto. destruct kk as [|[? ? ? ?] kk]; exact D.
  - destruct H as (A & B). auto.
Qed.

Lemma lm_pre t : forall acc kk cs x c2, lm t acc = Some (kk, cs, x, c2) -> kpre kk = kpre acc.
Proof.
  induction t as [|c l IHl a r _]; intros acc kk cs x c2 H; [discriminate|]. cbn [lm] in H.
  destruct l as [|cl ll la lr]; [congruence|]. apply IHl in H. exact H.
Qed.

Lemma unl_ok k c l a r m : rbt (plug k (T c l a r)) m -> rcolor (plug k (T c l a r)) = Black ->
  exists K N b, unl k (T c l a r) = Some (K, N, b) /\
    inorder (plug K N) = (kpre k ++ inorder l) ++ (inorder r ++ kpost k) /\
    (length K <= height (plug k (T c l a r)))%nat /\
    (if b then N = E /\ rbk K 1 else exists m', rbt (plug K N) m' /\ rcolor (plug K N) = Black).
Proof.
  intros H C. destruct (unplug_rb _ _ _ H C) as (n & A1 & A2 & A3). cbn [rcolor] in A3.
  pose proof (length_height k (T c l a r)) as Lh.
  cbn [unl]. destruct l as [|cl ll la lr]; [|destruct r as [|cr rl ra rr]].
  - destruct r as [|cr rl ra rr].
    + eexists _, _, _. split; [reflexivity|]. split; [rewrite inorder_plug; cbn; rewrite app_nil_r; reflexivity|].
      split; [lia|].
      destruct c; cbn [rbt] in A1.
      * destruct A1 as (-> & _). eapply plug_rb; [reflexivity|auto|discriminate].
      * destruct n as [|n]; [contradiction|]. destruct A1 as (-> & _). auto.
    + eexists _, _, _. split; [reflexivity|].
      split; [rewrite inorder_plug, inorder_recolor; cbn; rewrite app_nil_r; reflexivity|].
      split; [lia|].
      destruct c; cbn [rbt] in A1.
      * destruct A1 as (-> & A4 & _ & A5). cbn [rcolor] in A5. subst cr. contradiction.
      * destruct n as [|n]; [contradiction|]. destruct A1 as (-> & A4).
        destruct cr; [|contradiction]. eapply plug_rb; [apply rbt_blacken_red; [reflexivity|exact A4]|auto|discriminate].
  - eexists _, _, _. split; [reflexivity|].
    split; [rewrite inorder_plug, inorder_recolor; cbn [inorder app]; rewrite <- !app_assoc; reflexivity|].
    split; [lia|].
    destruct c; cbn [rbt] in A1.
    + destruct A1 as (A4 & -> & A5 & _). cbn [rcolor] in A5. subst cl. contradiction.
    + destruct n as [|n]; [contradiction|]. destruct A1 as (A4 & ->).
      destruct cl; [|contradiction]. eapply plug_rb; [apply rbt_blacken_red; [reflexivity|exact A4]|auto|discriminate].
  - set (l := T cl ll la lr) in *. set (r := T cr rl ra rr) in *.
    destruct (lm_acc r [] ltac:(discriminate)) as (kk & cs & x & c2 & _ & L2 & L3 & _).
    rewrite L2. eexists _, _, _. split; [reflexivity|].
    pose proof (lm_pre _ _ _ _ _ _ L2) as Kp. cbn [kpre] in Kp.
    split.
    { rewrite <- L3. rewrite plug_app. cbn [plug]. rewrite inorder_plug, inorder_mk, !inorder_plug, Kp, inorder_recolor.
      cbn [inorder app]. rewrite <- !app_assoc. cbn [app]. rewrite <- !app_assoc. reflexivity. }
    assert (Ew : plug k (T c l a r) = plug (kk ++ Fr DR c a l :: k) (T cs E x c2)).
    { rewrite plug_app, L3. reflexivity. }
    split.
    { pose proof (length_height (kk ++ Fr DR c a l :: k) (T cs E x c2)) as Lh'. rewrite <- Ew in Lh'.
      rewrite app_length in *. cbn [length] in *. lia. }
    rewrite Ew in H, C. destruct (unplug_rb _ _ _ H C) as (n' & B1 & B2 & B3).
    pose proof (rbk_swap _ _ _ _ x _ _ _ B2) as B4.
    destruct cs; cbn [rbt] in B1.
    + destruct B1 as (-> & B5 & _ & B6). destruct c2 as [|[] c2l c2a c2r]; try discriminate; try contradiction.
      eapply plug_rb; [reflexivity|exact B4|discriminate].
    + destruct n' as [|n']; [contradiction|]. destruct B1 as (-> & B5).
      destruct c2 as [|[] c2l c2a c2r]; [auto| |contradiction].
      eapply plug_rb; [apply rbt_blacken_red; [reflexivity|exact B5]|exact B4|discriminate].
Qed.

Lemma in_zip a t : In a (inorder t) -> exists k c l r, plug k (T c l a r) = t.
Proof.
  assert (G : forall k, In a (inorder t) -> exists k' c l r, plug k' (T c l a r) = plug k t).
  { induction t as [|c l IHl b r IHr]; intros k H; [destruct H|]. cbn [inorder] in H.
    apply in_app_iff in H. destruct H as [H|[<-|H]].
    - exact (IHl (Fr DL c b r :: k) H).
    - eauto.
    - exact (IHr (Fr DR c b l :: k) H). }
  apply (G []).
Qed.

Lemma rb_erase_ok s t a fuel :
  holds s t -> red_black t -> In a (inorder t) -> (height t <= fuel)%nat ->
  exists s' t' L R, rb_erase fuel s a = Some s' /\ holds s' t' /\ red_black t' /\
    inorder t = L ++ a :: R /\ inorder t' = L ++ R /\ same_elsewhere s s' (inorder t) /\ hp s' a <> None.
Proof.
  intros H Hrb Hin Hf. destruct (in_zip _ _ Hin) as (k & c & l & r & Et). subst t.
  apply red_black_rbt in Hrb. destruct Hrb as (m & M1 & M2).
  destruct (unl_ok _ _ _ _ _ _ M1 M2) as (K & N & b & U1 & U2 & U3 & U4).
  pose proof (holds_sat _ _ H) as S0. apply sat_unplug in S0. cbn [raddr] in S0.
  pose proof (length_height k (T c l a r)) as Lh. cbn [height] in Lh.
  destruct (rb_erase_unlink_ok s k c l a r K N b fuel s S0 U1 ltac:(lia)) as (s1 & n & X1 & S1).
  assert (Io : inorder (plug k (T c l a r)) = (kpre k ++ inorder l) ++ a :: (inorder r ++ kpost k)).
  { rewrite inorder_plug. cbn [inorder]. rewrite <- !app_assoc. cbn [app]. reflexivity. }
  unfold rb_erase. rewrite X1.
  assert (S2 : sat s1 s1 [CTree (top K) N; CCtx K (raddr N)]).
  { destruct S1 as (A & B & _). split; [|split; auto].
    - cbn [choldall] in *. tauto.
    - intros x. specialize (B x). cbn [feet] in *. lia. }
  assert (Fr1 : same_elsewhere s s1 (inorder (plug k (T c l a r)))).
  { intros x Hx. destruct S1 as (_ & _ & Cx). apply Cx. cbn [feet foot].
    rewrite Io in Hx. rewrite in_app_iff in Hx. cbn [In] in Hx.
    assert (Hx' : ~ In x (inorder (plug K N))) by (rewrite U2; rewrite in_app_iff; tauto).
    rewrite <- cnt_in in Hx'.
    assert (Gc : forall k y, cnt x (plug k y) = (cnt x y + cntk x k)%nat).
    { clear. induction k as [|[d c a u] k IH]; intros y; cbn [plug cntk]; [lia|]. rewrite IH.
      destruct d; cbn [mk cnt]; lia. }
    rewrite Gc in Hx'. rewrite eq1_neq by (intros ->; tauto). lia. }
  assert (Fin : forall s2 t', done s1 t' s2 -> inorder t' = inorder (plug K N) ->
    (exists m', rbt t' m' /\ rcolor t' = Black) ->
    exists s' t' L R, Some s2 = Some s' /\ holds s' t' /\ red_black t' /\
    inorder (plug k (T c l a r)) = L ++ a :: R /\ inorder t' = L ++ R /\
    same_elsewhere s s' (inorder (plug k (T c l a r))) /\ hp s' a <> None).
  { intros s2 t' D I' R'. apply sat_holds in D. destruct D as [D1 D2].
    exists s2, t', (kpre k ++ inorder l), (inorder r ++ kpost k).
    split; auto. split; auto. split; [apply red_black_rbt; exact R'|]. split; auto. rewrite I', U2. split; auto.
    split.
    - intros x Hx. rewrite <- Fr1 by auto. apply D2. rewrite I', U2. rewrite Io in Hx.
      rewrite in_app_iff in *. cbn [In] in Hx. tauto.
    - rewrite D2.
      + destruct (sat_cell_in _ _ _ a n S1 ltac:(right; right; left; reflexivity)) as [_ ->]. discriminate.
      + rewrite I', U2. destruct H as (_ & _ & Nd & _). rewrite Io in Nd. apply NoDup_remove_2 in Nd. exact Nd. }
  destruct b.
  - destruct U4 as [-> U4].
    destruct (fix_del_ok K E 0%nat eq_refl eq_refl U4) as (t' & F1 & F2 & F3).
    destruct K as [|f K].
    + cbn [top fix_del] in *. cbn [Z.eqb negb]. injection F1 as <-.
      eapply Fin; eauto.
    + assert (Zt : (top (f :: K) =? 0) = false).
      { apply eqb_neq. pose proof (proj1 S2) as A2. destruct f as [fd fc fa ft]. cbn [choldall chold repk] in A2.
        cbn [top]. unfold node_addr in A2. lia. }
      cbn [raddr] in S2.
      destruct (erase_loop_ref s1 (f :: K) E s1 t' fuel ltac:(discriminate) ltac:(lia) S2 F1) as (s2 & X2 & D).
      cbn [raddr] in X2. rewrite Zt. cbn [negb]. rewrite X2. eapply Fin; eauto.
  - cbn [Z.eqb negb]. apply (Fin s1 (plug K N)); auto. apply sat_plug. exact S2.
Qed.
