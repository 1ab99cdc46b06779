(** Proofs about the built-in system calls of patches. *)
From Coq Require Import ZArith List Bool Lia.
From Verif Require Import Word WordLemmas InsnModel AsModel AsSpec.
Import ListNotations.
Open Scope Z_scope.

Ltac eqbs := repeat match goal with
  | |- context[Z.eqb ?a ?b] =>
      match isZcst a with true => match isZcst b with true => let v := eval compute in (Z.eqb a b) in change (Z.eqb a b) with v end end
  end; cbv beta iota.
Ltac run := cbv [xrun arun x86_sleep x86_exit x86_write x86_hello a64_sleep a64_exit a64_write a64_hello fold_left xstep astep negb
  live set setm gp me calls val RAX RCX RDX RSP RSI RDI R8 R9 R10 R11 ASP]; eqbs.

Lemma u64_id x : 0 <= x < 2 ^ 64 -> u64 x = x.
Proof. apply wrap_id. Qed.

(** Reading back a word. *)
Lemma ld8 m x v : 0 <= v < 2 ^ 64 -> ld 8 (st 8 m x v) x = v.
Proof. intros H. rewrite ld_st. apply Z.mod_small. exact H. Qed.

Lemma sleep_mem m ts sec : 0 <= sec < 2 ^ 63 ->
  ld 8 (st 8 (st 8 m ts sec) (ts + 8) 0) ts = sec /\ ld 8 (st 8 (st 8 m ts sec) (ts + 8) 0) (ts + 8) = 0.
Proof.
  intros H. split.
  - rewrite ld_st_disj by (simpl Z.of_nat; lia). apply ld8. lia.
  - apply ld8. lia.
Qed.

(** The call is made. *)
Lemma builtin_call a k rip fl rq ch s : good_state a rq s -> inputs a rq ch s -> apart a rq ch ->
  ch_drop ch = false -> ch_stored ch = true ->
  exists c, calls (builtin a k rip fl rq ch s) = calls s ++ [c] /\ asks a rq c /\
            forall x, ~ scratch a s x -> c_mem c x = me (prepared rq ch s) x.
Proof.
  intros (Hl & Hr & Hsp & Hg) Hi Ha Hd Hs. unfold builtin. rewrite Hd.
  destruct s as [g m cs l]. cbn [live gp] in *. subst l.
  destruct rq as [sec ts|v|fd msg len]; unfold prepared; rewrite ?Hs; destruct a; cbn [sp_of] in Hsp.
  - (* x86 sleep *)
    destruct Hi as (Hi0 & Hv & _). unfold in_reg, holds64, val in *. destruct (ch_in ch 0) as [r|] eqn:E; [|easy]. cbn [gp] in Hv.
    run. rewrite E. eqbs.
    match goal with |- context[k ?c] => exists c; destruct (k c) as [[r' m']|] end;
      (split; [reflexivity|]; split; [|intros; reflexivity]; cbn [asks c_nr arg c_args nth c_mem nr_nanosleep];
       destruct (sleep_mem m ts sec ltac:(lia)) as [H1 H2]; repeat split; try reflexivity; assumption).
  - (* a64 sleep *)
    destruct Hi as (Hi0 & Hv & Hx). destruct (Hx eq_refl) as (Hi1 & Hv1). unfold in_reg, in_any, holds64, val in *. cbn [apart] in Ha.
    destruct Hg as [Hsec Hts]. specialize (Hts eq_refl). cbn [gp ASP] in *.
    destruct (ch_in ch 0) as [r|] eqn:E; [|easy].
    assert (Hsp' : u64 (g 31 - 16) = g 31 - 16) by (specialize (Hr 31); apply u64_id; unfold ASP in *; lia).
    run. rewrite E. eqbs. rewrite ?Hsp'. unfold ASP in *.
    replace (r =? 31) with false by (symmetry; apply Z.eqb_neq; cbn [general] in Hi0; lia).
    set (M := st 8 (st 8 _ _ _) _ _).
    assert (HM : forall x, ~ (g 31 - 32 <= x < g 31) -> M x = st 8 (st 8 m ts sec) (ts + 8) 0 x).
    { intros x Hn. unfold M. rewrite !st_out by (simpl Z.of_nat; lia). reflexivity. }
    assert (H1 : ld 8 M ts = sec).
    { destruct (sleep_mem m ts sec ltac:(lia)) as [H1 _]. rewrite <- H1. apply ld_ext. intros x Hx'. apply HM. simpl Z.of_nat in *; lia. }
    assert (H2 : ld 8 M (ts + 8) = 0).
    { destruct (sleep_mem m ts sec ltac:(lia)) as [_ H2]. rewrite <- H2. apply ld_ext. intros x Hx'. apply HM. simpl Z.of_nat in *; lia. }
    assert (Hval1 : (match ch_in ch 1 with Sreg r0 => if r0 =? 0 then g r else if r0 =? 31 then g 31 - 16 else g r0 | Simm v => u64 v end) = 0).
    { destruct (ch_in ch 1) as [r1|v1].
      - destruct (Z.eqb_spec r1 0) as [->|]; [now contradiction Ha|].
        destruct (Z.eqb_spec r1 31) as [->|]; [cbn [general] in Hi1; lia|exact Hv1].
      - exact Hv1. }
    destruct (ch_in ch 1) as [r1|v1]; rewrite Hval1;
    match goal with |- context[k ?c] => exists c; destruct (k c) as [[r' m']|] end;
      (split; [reflexivity|]; split; [|exact HM]; cbn [asks c_nr arg c_args nth c_mem nr_nanosleep];
       repeat split; try reflexivity; assumption).
  - (* x86 exit *)
    destruct Hi as (Hi0 & Hv). unfold in_reg, holds32, val in *. destruct (ch_in ch 0) as [r|] eqn:E; [|easy]. cbn [gp] in Hv.
    run. rewrite E. eqbs.
    match goal with |- context[k ?c] => exists c; destruct (k c) as [[r' m']|] end;
      (split; [reflexivity|]; split; [|intros; reflexivity]; cbn [asks c_nr arg c_args nth c_mem nr_exit]; split; [reflexivity|];
       unfold u32 in *; rewrite wrap_wrap by lia; exact Hv).
  - (* a64 exit *)
    destruct Hi as (Hi0 & Hv). unfold in_reg, holds32, val in *. destruct (ch_in ch 0) as [r|] eqn:E; [|easy]. cbn [gp] in Hv.
    run. rewrite E. eqbs.
    match goal with |- context[k ?c] => exists c; destruct (k c) as [[r' m']|] end;
      (split; [reflexivity|]; split; [|intros; reflexivity]; cbn [asks c_nr arg c_args nth c_mem nr_exit]; split; [reflexivity|exact Hv]).
  - (* x86 write *)
    destruct Hi as (Hi0 & Hv0 & Hi1 & Hv1 & Hi2 & Hv2). unfold in_reg, holds32, holds64, val in *. cbn [apart] in Ha. unfold RDI, RSI in Ha.
    destruct (ch_in ch 0) as [r0|] eqn:E0; [|easy]. destruct (ch_in ch 1) as [r1|] eqn:E1; [|easy]. destruct (ch_in ch 2) as [r2|] eqn:E2; [|easy].
    cbn [gp] in *. destruct Ha as (A1 & A2 & A3).
    run. rewrite E0, E1, E2. eqbs.
    replace (r1 =? 7) with false by (symmetry; apply Z.eqb_neq; congruence).
    replace (r2 =? 7) with false by (symmetry; apply Z.eqb_neq; congruence).
    replace (r2 =? 6) with false by (symmetry; apply Z.eqb_neq; congruence).
    match goal with |- context[k ?c] => exists c; destruct (k c) as [[r' m']|] end;
      (split; [reflexivity|]; split; [|intros; reflexivity]; cbn [asks c_nr arg c_args nth c_mem nr_write]; split; [reflexivity|];
       split; [unfold u32 in *; rewrite wrap_wrap by lia; exact Hv0|split; assumption]).
  - (* a64 write *)
    destruct Hi as (Hi0 & Hv0 & Hi1 & Hv1 & Hi2 & Hv2). unfold in_reg, holds32, holds64, val in *. cbn [apart] in Ha.
    destruct (ch_in ch 0) as [r0|] eqn:E0; [|easy]. destruct (ch_in ch 1) as [r1|] eqn:E1; [|easy]. destruct (ch_in ch 2) as [r2|] eqn:E2; [|easy].
    cbn [gp general] in *. destruct Ha as (A1 & A2 & A3). unfold ASP in *.
    assert (Hsp' : u64 (g 31 - 32) = g 31 - 32) by (specialize (Hr 31); apply u64_id; lia).
    run. rewrite E0, E1, E2. eqbs. rewrite ?Hsp'.
    replace (r0 =? 31) with false by (symmetry; apply Z.eqb_neq; lia).
    replace (r1 =? 31) with false by (symmetry; apply Z.eqb_neq; lia).
    replace (r2 =? 31) with false by (symmetry; apply Z.eqb_neq; lia).
    replace (r1 =? 0) with false by (symmetry; apply Z.eqb_neq; congruence).
    replace (r2 =? 0) with false by (symmetry; apply Z.eqb_neq; congruence).
    replace (r2 =? 1) with false by (symmetry; apply Z.eqb_neq; congruence).
    match goal with |- context[k ?c] => exists c; destruct (k c) as [[r' m']|] end;
      (split; [reflexivity|]; split; [cbn [asks c_nr arg c_args nth c_mem nr_write]; repeat split; try reflexivity; assumption|];
       intros x Hx; cbn [scratch gp] in Hx; cbn [c_mem me]; unfold ASP in Hx; rewrite !st_out by (simpl Z.of_nat; lia); reflexivity).
Qed.

Lemma s32_u64 r : s32 (u64 r) = s32 r.
Proof. apply wrap_eq_sgn_eq. unfold wrap, u64. apply (mod_pow_mod r 64 32). lia. Qed.

(** The result on x86-64. *)
Lemma x86_result k rip fl rq ch s : live s = true -> ch_drop ch = false -> ch_out ch = Lreg RAX ->
  exists c, calls (builtin X86_64 k rip fl rq ch s) = calls s ++ [c] /\
            forall r m, k c = Some (r, m) -> out_val (ch_out ch) (builtin X86_64 k rip fl rq ch s) = s32 r.
Proof.
  intros Hl Hd Ho. unfold builtin. rewrite Hd, Ho. destruct s as [g m cs l]. cbn [live] in Hl. subst l.
  destruct rq as [sec ts|v|fd msg len]; unfold prepared; [destruct (ch_stored ch)| | ]; run;
    match goal with |- context[k ?c] => exists c; destruct (k c) as [[r' m']|] end; (split; [reflexivity|]);
    intros r m0 E; try discriminate; injection E as <- <-; unfold out_val; cbv [gp]; eqbs; apply s32_u64.
Qed.

(** On aarch64 it is lost. *)
Lemma a64_lost k1 k2 rip fl rq ch s x : rq <> Exit x -> (forall v, rq <> Exit v) ->
  (forall c, option_map snd (k1 c) = option_map snd (k2 c)) ->
  live s = true ->
  out_val (ch_out ch) (builtin AARCH64 k1 rip fl rq ch s) = out_val (ch_out ch) (builtin AARCH64 k2 rip fl rq ch s).
Proof.
  intros _ Hx Hk Hl. unfold builtin. destruct (ch_drop ch); [reflexivity|].
  destruct s as [g m cs l]. cbn [live] in Hl. subst l.
  destruct rq as [sec ts|v|fd msg len]; [| now contradiction (Hx v) |].
  - unfold prepared. destruct (ch_stored ch); run;
    match goal with |- context[k1 ?c] => pose proof (Hk c) as E; destruct (k1 c) as [[r1 m1]|], (k2 c) as [[r2 m2]|] end;
      cbn [option_map snd] in E; try discriminate; try reflexivity; injection E as ->;
      unfold out_val; destruct (ch_out ch) as [r|y]; cbv [gp me]; try reflexivity; f_equal;
      (destruct (Z.eqb_spec r 31) as [->|]; [reflexivity|]); (destruct (Z.eqb_spec r 1) as [->|]; [reflexivity|]);
      (destruct (Z.eqb_spec r 0) as [->|]; reflexivity).
  - unfold prepared. run.
    match goal with |- context[k1 ?c] => pose proof (Hk c) as E; destruct (k1 c) as [[r1 m1]|], (k2 c) as [[r2 m2]|] end;
      cbn [option_map snd] in E; try discriminate; try reflexivity; injection E as ->;
      unfold out_val; destruct (ch_out ch) as [r|y]; cbv [gp me]; try reflexivity; f_equal;
      (destruct (Z.eqb_spec r 31) as [->|]; [reflexivity|]); (destruct (Z.eqb_spec r 1) as [->|]; [reflexivity|]);
      (destruct (Z.eqb_spec r 0) as [->|]; reflexivity).
Qed.

(** What changes. *)
Lemma in_list r l : ~ In r l -> forallb (fun x => negb (r =? x)) l = true.
Proof.
  intros H. apply forallb_forall. intros x Hx. apply negb_true_iff, Z.eqb_neq. intros ->. contradiction.
Qed.
Ltac others Hn := apply in_list in Hn; cbn [forallb] in Hn; rewrite ?andb_true_iff, ?negb_true_iff in Hn;
  repeat match type of Hn with _ /\ _ => let h := fresh in destruct Hn as [h Hn]; try rewrite h end.

Lemma builtin_frame a k rip fl rq ch s : good_state a rq s -> ch_drop ch = false ->
  (a = AARCH64 -> spares k (gp s ASP - 32) (gp s ASP)) ->
  live (builtin a k rip fl rq ch s) = true ->
  (forall r, ~ In r (changed a rq) -> gp (builtin a k rip fl rq ch s) r = gp s r) /\
  exists c res m, calls (builtin a k rip fl rq ch s) = calls s ++ [c] /\ k c = Some (res, m) /\
    me (builtin a k rip fl rq ch s) = m /\ (forall x, ~ scratch a s x -> c_mem c x = me (prepared rq ch s) x).
Proof.
  intros (Hl & Hr & Hsp & Hg) Hd Hk. unfold builtin. rewrite Hd. 
  destruct s as [g m cs l]. cbn [live gp] in *. subst l.
  assert (Hpx : exists pm, prepared rq ch (St g m cs true) = St g pm cs true).
  { destruct rq; unfold prepared; try (eexists; reflexivity). destruct (ch_stored ch); eexists; reflexivity. }
  destruct Hpx as [pm Hp]. rewrite Hp. clear Hp Hg.
  assert (Hsc : forall x, scratch a (St g m cs true) x = scratch a (St g pm cs true) x) by reflexivity.
  destruct a; cbn [sp_of] in Hsp.
  - clear Hk. destruct rq as [sec ts|v|fd msg len]; run; cbn [changed];
    (match goal with |- context[k ?c] => destruct (k c) as [[r' m']|] eqn:E; intros Hlive; [|discriminate Hlive];
      (split; [|exists c, r', m'; repeat split; try reflexivity; exact E]) end;
     intros r Hn; cbv [RAX RCX RDX RSP RSI RDI R8 R9 R10 R11] in Hn; apply in_list in Hn; cbn [forallb] in Hn;
     rewrite ?andb_true_iff, ?negb_true_iff in Hn; repeat match goal with H : _ /\ _ |- _ => destruct H end;
     repeat match goal with H : (r =? _) = false |- _ => rewrite H; clear H end; reflexivity).
  - specialize (Hk eq_refl). unfold ASP in *. pose proof (Hr 31) as H31. pose proof (Hr 0) as H0. pose proof (Hr 1) as H1. clear Hr.
    destruct rq as [sec ts|v|fd msg len].
    + assert (Hsp' : u64 (g 31 - 16) = g 31 - 16) by (apply u64_id; lia).
      run. rewrite ?Hsp'. 
      match goal with |- context[k ?c] => destruct (k c) as [[r' m']|] eqn:E; intros Hlive; [|discriminate Hlive] end.
      pose proof (Hk _ _ _ E) as Hm. cbn [c_mem] in Hm.
      split.
      * intros r Hn. cbn [changed In] in Hn. eqbs.
        replace (u64 (g 31 - 16 + 16)) with (g 31) by (rewrite u64_id by lia; lia).
        destruct (Z.eqb_spec r 31) as [->|]; [reflexivity|].
        destruct (Z.eqb_spec r 1) as [->|].
        { etransitivity; [apply ld_ext; intros x Hx; apply Hm; simpl Z.of_nat in Hx; lia|]. apply ld8; lia. }
        destruct (Z.eqb_spec r 0) as [->|].
        { etransitivity; [apply ld_ext; intros x Hx; apply Hm; simpl Z.of_nat in Hx; lia|]. rewrite ld_st_disj by (simpl Z.of_nat; lia). apply ld8; lia. }
        destruct (Z.eqb_spec r 8) as [->|]; [lia|reflexivity].
      * eexists _, r', m'. split; [reflexivity|]. split; [exact E|]. split; [reflexivity|].
        intros x Hx. cbn [scratch gp] in Hx. unfold ASP in Hx. cbn [c_mem me]. rewrite !st_out by (simpl Z.of_nat; lia). reflexivity.
    + run.
      match goal with |- context[k ?c] => destruct (k c) as [[r' m']|] eqn:E; intros Hlive; [|discriminate Hlive] end.
      split.
      * intros r Hn. cbn [changed In] in Hn. eqbs.
        destruct (Z.eqb_spec r 0) as [->|]; [lia|]. destruct (Z.eqb_spec r 8) as [->|]; [lia|reflexivity].
      * eexists _, r', m'. split; [reflexivity|]. split; [exact E|]. split; reflexivity.
    + assert (Hsp' : u64 (g 31 - 32) = g 31 - 32) by (apply u64_id; lia).
      run. rewrite ?Hsp'. 
      match goal with |- context[k ?c] => destruct (k c) as [[r' m']|] eqn:E; intros Hlive; [|discriminate Hlive] end.
      pose proof (Hk _ _ _ E) as Hm. cbn [c_mem] in Hm.
      split.
      * intros r Hn. cbn [changed In] in Hn. eqbs.
        replace (u64 (g 31 - 32 + 32)) with (g 31) by (rewrite u64_id by lia; lia).
        destruct (Z.eqb_spec r 31) as [->|]; [reflexivity|].
        destruct (Z.eqb_spec r 1) as [->|].
        { etransitivity; [apply ld_ext; intros x Hx; apply Hm; simpl Z.of_nat in Hx; lia|]. apply ld8; lia. }
        destruct (Z.eqb_spec r 0) as [->|].
        { etransitivity; [apply ld_ext; intros x Hx; apply Hm; simpl Z.of_nat in Hx; lia|]. rewrite ld_st_disj by (simpl Z.of_nat; lia). apply ld8; lia. }
        destruct (Z.eqb_spec r 8) as [->|]; [lia|]. destruct (Z.eqb_spec r 2) as [->|]; [lia|reflexivity].
      * eexists _, r', m'. split; [reflexivity|]. split; [exact E|]. split; [reflexivity|].
        intros x Hx. cbn [scratch gp] in Hx. unfold ASP in Hx. cbn [c_mem me]. rewrite !st_out by (simpl Z.of_nat; lia). reflexivity.
Qed.

(** ** The greeting *)

Lemma low8_id old b : 0 <= old < 256 -> low8 old b = b mod 256.
Proof. intros H. unfold low8. rewrite (Z.mod_small old) by lia. lia. Qed.

Definition x86_said : list Z := [72; 101; 108; 108; 0; 0; 0; 0; 111; 10; 0; 0].
Definition a64_said : list Z := [72; 101; 108; 108; 111; 10; 0; 0].

(** Memory seen from an address. *)
Lemma st_shift n m p a v i : st n m (p + a) v (p + i) = st n (fun j => m (p + j)) a v i.
Proof.
  unfold st. replace (p + i - (p + a)) with (i - a) by lia.
  replace (p + a <=? p + i) with (a <=? i) by (apply eq_true_iff_eq; rewrite !Z.leb_le; lia).
  replace (p + i <? p + a + Z.of_nat n) with (i <? a + Z.of_nat n) by (apply eq_true_iff_eq; rewrite !Z.ltb_lt; lia).
  reflexivity.
Qed.
Lemma st_ext n m1 m2 a v i : m1 i = m2 i -> st n m1 a v i = st n m2 a v i.
Proof. intros H. unfold st. now rewrite H. Qed.
Lemma bytes_shift n : forall M f p q, (forall i, M (p + i) = f (q + i)) -> bytes_at M p n = bytes_at f q n.
Proof.
  induction n as [|n IH]; intros M f p q H; [reflexivity|]. cbn [bytes_at]. f_equal.
  - specialize (H 0). rewrite !Z.add_0_r in H. exact H.
  - apply IH. intros i. rewrite <- !Z.add_assoc. apply H.
Qed.

(** Instructions other than the system call, on a thread that runs. *)
Definition xpure (s : state) (i : xins) : state :=
  match i with
  | XMov o d => set s d (val s o)
  | XMov32 o d => set s d (u32 (val s o))
  | XMov8 r d => set s d (low8 (gp s d) (gp s r))
  | XImm v d => set s d (u64 v)
  | XImm8 v d => set s d (low8 (gp s d) v)
  | XZero d => set s d 0
  | XPush v => let a := u64 (gp s RSP - 8) in set (setm s (st 8 (me s) a v)) RSP a
  | XPop d => set (set s RSP (u64 (gp s RSP + 8))) d (ld 8 (me s) (gp s RSP))
  | XSyscall => s
  end.
Definition xcall (s : state) : call := Call (gp s RAX) [gp s RDI; gp s RSI; gp s RDX; gp s R10; gp s R8; gp s R9] (me s).
Definition xafter (rip fl : Z) (s : state) (r : Z) (m : mem) : state :=
  set (set (set (St (gp s) m (calls s ++ [xcall s]) true) RAX (u64 r)) RCX rip) R11 fl.

Lemma xpure_run k rip fl l : forall s, live s = true -> ~ In XSyscall l ->
  xrun k rip fl l s = fold_left xpure l s /\ live (fold_left xpure l s) = true /\ calls (fold_left xpure l s) = calls s.
Proof.
  induction l as [|i l IH]; intros s Hl Hn; [repeat split; assumption|].
  cbn [In] in Hn. unfold xrun in *. cbn [fold_left].
  replace (xstep k rip fl s i) with (xpure s i) by (unfold xstep; rewrite Hl; destruct i; try reflexivity; now contradiction Hn; left).
  destruct (IH (xpure s i)) as (A & B & C).
  - destruct i; exact Hl.
  - intros H. apply Hn. now right.
  - split; [exact A|]. split; [exact B|]. rewrite C. destruct i; reflexivity.
Qed.
Lemma xdead k rip fl l : forall s, live s = false -> xrun k rip fl l s = s.
Proof.
  induction l as [|i l IH]; intros s H; [reflexivity|]. unfold xrun in *. cbn [fold_left].
  replace (xstep k rip fl s i) with s by (unfold xstep; now rewrite H). now apply IH.
Qed.
Lemma xrun_call k rip fl pre post s : live s = true -> ~ In XSyscall pre -> ~ In XSyscall post ->
  xrun k rip fl (pre ++ XSyscall :: post) s =
  let s1 := fold_left xpure pre s in
  match k (xcall s1) with
  | None => St (gp s1) (me s1) (calls s ++ [xcall s1]) false
  | Some (r, m) => fold_left xpure post (xafter rip fl s1 r m)
  end.
Proof.
  intros Hl Hp Hq. destruct (xpure_run k rip fl pre s Hl Hp) as (A & B & C).
  unfold xrun in *. rewrite fold_left_app. cbn [fold_left]. rewrite A. cbv zeta. set (s1 := fold_left xpure pre s) in *. clearbody s1.
  unfold xstep at 2. rewrite B. cbn [negb]. fold (xcall s1). destruct (k (xcall s1)) as [[r m]|].
  - destruct (xpure_run k rip fl post (xafter rip fl s1 r m)) as (A' & _); [reflexivity|exact Hq|]. exact A'.
  - rewrite C. apply xdead. reflexivity.
Qed.
Lemma xpost_calls post s : ~ In XSyscall post -> live s = true -> calls (fold_left xpure post s) = calls s.
Proof. intros Hn Hl. apply (xpure_run (fun _ => None) 0 0 post s Hl Hn). Qed.

Definition apure (s : state) (i : ains) : state :=
  let sp := gp s ASP in
  match i with
  | AStp a b n => let t := u64 (sp - n) in set (setm s (st 8 (st 8 (me s) t (gp s a)) (t + 8) (gp s b))) ASP t
  | ALdp a b n => set (set (set s a (ld 8 (me s) sp)) b (ld 8 (me s) (sp + 8))) ASP (u64 (sp + n))
  | AMov d o => set s d (val s o)
  | AStr o n => setm s (st 8 (me s) (u64 (sp + n)) (val s o))
  | AStrb r n => setm s (st 1 (me s) (u64 (sp + n)) (gp s r))
  | ALdr d n => set s d (ld 8 (me s) (u64 (sp + n)))
  | AAddSp d n => set s d (u64 (sp + n))
  | ASvc => s
  end.
Definition acall (s : state) : call := Call (gp s 8) [gp s 0; gp s 1; gp s 2; gp s 3; gp s 4; gp s 5] (me s).
Definition aafter (s : state) (r : Z) (m : mem) : state := set (St (gp s) m (calls s ++ [acall s]) true) 0 (u64 r).

Lemma apure_run k l : forall s, live s = true -> ~ In ASvc l ->
  arun k l s = fold_left apure l s /\ live (fold_left apure l s) = true /\ calls (fold_left apure l s) = calls s.
Proof.
  induction l as [|i l IH]; intros s Hl Hn; [repeat split; assumption|].
  cbn [In] in Hn. unfold arun in *. cbn [fold_left].
  replace (astep k s i) with (apure s i) by (unfold astep; rewrite Hl; destruct i; try reflexivity; now contradiction Hn; left).
  destruct (IH (apure s i)) as (A & B & C).
  - destruct i; exact Hl.
  - intros H. apply Hn. now right.
  - split; [exact A|]. split; [exact B|]. rewrite C. destruct i; reflexivity.
Qed.
Lemma adead k l : forall s, live s = false -> arun k l s = s.
Proof.
  induction l as [|i l IH]; intros s H; [reflexivity|]. unfold arun in *. cbn [fold_left].
  replace (astep k s i) with s by (unfold astep; now rewrite H). now apply IH.
Qed.
Lemma arun_call k pre post s : live s = true -> ~ In ASvc pre -> ~ In ASvc post ->
  arun k (pre ++ ASvc :: post) s =
  let s1 := fold_left apure pre s in
  match k (acall s1) with
  | None => St (gp s1) (me s1) (calls s ++ [acall s1]) false
  | Some (r, m) => fold_left apure post (aafter s1 r m)
  end.
Proof.
  intros Hl Hp Hq. destruct (apure_run k pre s Hl Hp) as (A & B & C).
  unfold arun in *. rewrite fold_left_app. cbn [fold_left]. rewrite A. cbv zeta. set (s1 := fold_left apure pre s) in *. clearbody s1.
  unfold astep at 2. rewrite B. cbn [negb]. fold (acall s1). destruct (k (acall s1)) as [[r m]|].
  - destruct (apure_run k post (aafter s1 r m)) as (A' & _); [reflexivity|exact Hq|]. exact A'.
  - rewrite C. apply adead. reflexivity.
Qed.

(** The greeting on x86-64 in two parts. *)
Definition x86_hello_pre : list xins :=
  [XImm8 1 RAX; XMov8 RAX RDI; XPush 0x00000a6f; XPush 0x6c6c6548; XMov (Sreg RSP) RSI; XImm8 0xc RDX].
Lemma x86_hello_split : x86_hello = x86_hello_pre ++ XSyscall :: [XPop RSI; XPop RSI].
Proof. reflexivity. Qed.
Ltac nosys := cbv; intuition discriminate.
Ltac one := cbv [fold_left xpure apure set setm gp me val RAX RCX RDX RSP RSI RDI R8 R9 R10 R11 ASP x86_hello_pre Z.eqb Pos.eqb].

Lemma x86_pre_gp s : let s1 := fold_left xpure x86_hello_pre s in
  gp s1 RAX = low8 (gp s RAX) 1 /\ gp s1 RDI = low8 (gp s RDI) (low8 (gp s RAX) 1) /\ gp s1 RDX = low8 (gp s RDX) 12 /\
  gp s1 RSP = u64 (u64 (gp s RSP - 8) - 8) /\ gp s1 RSI = u64 (u64 (gp s RSP - 8) - 8).
Proof. cbv zeta. repeat split; one; reflexivity. Qed.
Lemma x86_pre_me s : me (fold_left xpure x86_hello_pre s) =
  st 8 (st 8 (me s) (u64 (gp s RSP - 8)) 2671) (u64 (u64 (gp s RSP - 8) - 8)) 1819043144.
Proof. one. reflexivity. Qed.
Lemma x86_pre_other s r : r <> RAX -> r <> RDI -> r <> RSI -> r <> RDX -> r <> RSP -> gp (fold_left xpure x86_hello_pre s) r = gp s r.
Proof.
  intros. unfold x86_hello_pre. cbn [fold_left xpure gp set setm].
  repeat match goal with H : r <> ?x |- _ => apply Z.eqb_neq in H; rewrite ?H; clear H end. reflexivity.
Qed.

Lemma x86_hello_call k rip fl s : live s = true -> (forall r, 0 <= gp s r < 2 ^ 64) -> 64 <= gp s RSP ->
  gp s RAX < 256 -> gp s RDI < 256 -> gp s RDX < 256 ->
  exists c, calls (hello X86_64 k rip fl s) = calls s ++ [c] /\ writes_bytes X86_64 c x86_said /\ arg c 1 = gp s RSP - 16.
Proof.
  intros Hl Hr Hsp Ha Hd Hx. pose proof (Hr RAX). pose proof (Hr RDI). pose proof (Hr RDX). pose proof (Hr RSP).
  assert (S1 : u64 (gp s RSP - 8) = gp s RSP - 8) by (apply u64_id; lia).
  assert (S2 : u64 (gp s RSP - 8 - 8) = gp s RSP - 16) by (rewrite u64_id; lia).
  assert (HM : bytes_at (st 8 (st 8 (me s) (gp s RSP - 8) 2671) (gp s RSP - 16) 1819043144) (gp s RSP - 16) 12 = x86_said).
  { set (p := gp s RSP - 16). replace (gp s RSP - 8) with (p + 8) by (unfold p; lia). set (m := me s).
    rewrite (bytes_shift 12 _ (st 8 (st 8 (fun j => m (p + j)) 8 2671) 0 1819043144) p 0); [reflexivity|].
    intros i. rewrite Z.add_0_l. replace (st 8 (st 8 m (p + 8) 2671) p 1819043144) with (st 8 (st 8 m (p + 8) 2671) (p + 0) 1819043144) by (f_equal; lia).
    rewrite st_shift. apply st_ext. apply st_shift. }
  destruct (x86_pre_gp s) as (E0 & E7 & E2 & E4 & E6). pose proof (x86_pre_me s) as Em. cbv zeta in *.
  rewrite S1, S2 in *. rewrite (low8_id (gp s RAX)), (low8_id (gp s RDI)), (low8_id (gp s RDX)) in * by lia.
  unfold hello. rewrite x86_hello_split, xrun_call by (try assumption; nosys). cbv zeta.
  set (s1 := fold_left xpure x86_hello_pre s) in *.
  assert (Hc1 : calls s1 = calls s) by (apply (xpure_run k rip fl x86_hello_pre s Hl); nosys).
  exists (xcall s1). split; [|split].
  - destruct (k (xcall s1)) as [[r m]|]; [|reflexivity]. rewrite xpost_calls by (try reflexivity; nosys).
    cbn [xafter set calls]. now rewrite Hc1.
  - unfold writes_bytes. cbn [xcall c_nr arg c_args nth c_mem]. rewrite E0, E7, E2, E6, Em.
    split; [reflexivity|]. split; [reflexivity|]. split; [reflexivity|exact HM].
  - exact E6.
Qed.

Lemma hello_frame_x86 k rip fl s : live s = true -> (forall r, 0 <= gp s r < 2 ^ 64) -> 64 <= gp s RSP ->
  live (hello X86_64 k rip fl s) = true ->
  (forall r, ~ In r (hello_changed X86_64) -> gp (hello X86_64 k rip fl s) r = gp s r) /\
  exists c res m, calls (hello X86_64 k rip fl s) = calls s ++ [c] /\ k c = Some (res, m) /\ me (hello X86_64 k rip fl s) = m /\
    (forall x, x < gp s RSP - 16 \/ gp s RSP <= x -> c_mem c x = me s x).
Proof.
  intros Hl Hr Hsp. pose proof (Hr RSP).
  assert (S1 : u64 (gp s RSP - 8) = gp s RSP - 8) by (apply u64_id; lia).
  assert (S2 : u64 (gp s RSP - 8 - 8) = gp s RSP - 16) by (rewrite u64_id; lia).
  assert (S3 : u64 (gp s RSP - 16 + 8) = gp s RSP - 8) by (rewrite u64_id; lia).
  assert (S4 : u64 (gp s RSP - 8 + 8) = gp s RSP) by (rewrite u64_id; lia).
  destruct (x86_pre_gp s) as (_ & _ & _ & E4 & _). pose proof (x86_pre_me s) as Em. cbv zeta in *. rewrite S1, S2 in *.
  unfold hello. rewrite x86_hello_split, xrun_call by (try assumption; nosys). cbv zeta.
  assert (Hc1 : calls (fold_left xpure x86_hello_pre s) = calls s) by (apply (xpure_run k rip fl x86_hello_pre s Hl); nosys).
  pose proof (x86_pre_other s) as Ho.
  set (s1 := fold_left xpure x86_hello_pre s) in *. clearbody s1.
  destruct (k (xcall s1)) as [[r m]|] eqn:E; [intros _|discriminate].
  split.
  - intros q Hn. cbv [hello_changed RAX RCX RDX RSP RSI RDI R11 In] in Hn.
    cbn [fold_left xpure xafter gp set]. cbv [RAX RCX RDX RSP RSI RDI R11]. cbv [RSP] in *. eqbs. rewrite E4, S3, S4.
    replace (q =? 6) with false by (symmetry; apply Z.eqb_neq; lia). replace (q =? 11) with false by (symmetry; apply Z.eqb_neq; lia).
    replace (q =? 1) with false by (symmetry; apply Z.eqb_neq; lia). replace (q =? 0) with false by (symmetry; apply Z.eqb_neq; lia).
    destruct (Z.eqb_spec q 4) as [->|]; [reflexivity|].
    apply Ho; unfold RAX, RDI, RSI, RDX, RSP; lia.
  - exists (xcall s1), r, m. rewrite xpost_calls by (try reflexivity; nosys). split; [cbn [xafter set calls]; now rewrite Hc1|].
    split; [exact E|]. split; [reflexivity|].
    intros x Hx. cbn [xcall c_mem]. rewrite Em. rewrite !st_out by (simpl Z.of_nat; lia). reflexivity.
Qed.

(** The memory at the call of the greeting on aarch64, [p] the stack pointer then. *)
Definition hello_mem (m : mem) (p a b : Z) : mem :=
  st 8 (st 1 (st 1 (st 1 (st 1 (st 1 (st 1 (st 8 (st 8 (st 8 m p a) (p + 8) b) (p + 16) (u64 0)) (p + 16) (u64 72)) (p + 17) (u64 101))
    (p + 18) (u64 108)) (p + 19) (u64 108)) (p + 20) (u64 111)) (p + 21) (u64 10)) (p + 24) (p + 16).
Lemma hello_mem_out m p a b x : x < p \/ p + 32 <= x -> hello_mem m p a b x = m x.
Proof. intros H. unfold hello_mem. do 10 (rewrite st_out by (simpl Z.of_nat; lia)). reflexivity. Qed.
Lemma hello_mem_low m p a b x : p <= x < p + 16 -> hello_mem m p a b x = st 8 (st 8 m p a) (p + 8) b x.
Proof. intros H. unfold hello_mem. do 8 (rewrite st_out by (simpl Z.of_nat; lia)). reflexivity. Qed.
Lemma hello_mem_29 m p a b : 0 <= a < 2 ^ 64 -> ld 8 (hello_mem m p a b) p = a.
Proof.
  intros H. etransitivity; [apply ld_ext; intros x Hx; apply hello_mem_low; simpl Z.of_nat in Hx; lia|].
  rewrite ld_st_disj by (simpl Z.of_nat; lia). now apply ld8.
Qed.
Lemma hello_mem_30 m p a b : 0 <= b < 2 ^ 64 -> ld 8 (hello_mem m p a b) (p + 8) = b.
Proof.
  intros H. etransitivity; [apply ld_ext; intros x Hx; apply hello_mem_low; simpl Z.of_nat in Hx; lia|]. now apply ld8.
Qed.

(** The greeting on aarch64. *)
Definition a64_hello_pre : list ains :=
  [AStp 29 30 32; AMov 29 (Sreg ASP); AStr (Simm 0) 16;
   AMov 0 (Simm 0x48); AStrb 0 16; AMov 0 (Simm 0x65); AStrb 0 17; AMov 0 (Simm 0x6c); AStrb 0 18;
   AMov 0 (Simm 0x6c); AStrb 0 19; AMov 0 (Simm 0x6f); AStrb 0 20; AMov 0 (Simm 0xa); AStrb 0 21;
   AAddSp 0 16; AStr (Sreg 0) 24; AMov 0 (Simm 1); ALdr 1 24; AMov 2 (Simm 8); AMov 8 (Simm 64)].
Lemma a64_hello_split : a64_hello = a64_hello_pre ++ ASvc :: [ALdp 29 30 32].
Proof. reflexivity. Qed.

(** The registers an instruction changes. *)
Definition awrites (i : ains) : list Z :=
  match i with
  | AStp _ _ _ => [ASP] | ALdp a b _ => [a; b; ASP] | AMov d _ => [d] | AStr _ _ | AStrb _ _ | ASvc => []
  | ALdr d _ => [d] | AAddSp d _ => [d]
  end.
Lemma apure_other i s r : ~ In r (awrites i) -> gp (apure s i) r = gp s r.
Proof.
  intros H. destruct i; cbn [awrites In] in H; cbn [apure set setm gp];
    repeat match goal with |- context[r =? ?x] => replace (r =? x) with false by (symmetry; apply Z.eqb_neq; intuition congruence) end; reflexivity.
Qed.
Lemma apures_other l : forall s r, ~ In r (flat_map awrites l) -> gp (fold_left apure l s) r = gp s r.
Proof.
  induction l as [|i l IH]; intros s r H; [reflexivity|]. cbn [flat_map] in H. rewrite in_app_iff in H.
  cbn [fold_left]. rewrite IH by tauto. apply apure_other. tauto.
Qed.

Lemma a64_pre s : (forall r, 0 <= gp s r < 2 ^ 64) -> 64 <= gp s ASP ->
  let s1 := fold_left apure a64_hello_pre s in
  me s1 = hello_mem (me s) (gp s ASP - 32) (gp s 29) (gp s 30) /\
  gp s1 ASP = gp s ASP - 32 /\ gp s1 0 = 1 /\ gp s1 1 = gp s ASP - 16 /\ gp s1 2 = 8 /\ gp s1 8 = 64 /\
  forall r, r <> 0 -> r <> 1 -> r <> 2 -> r <> 8 -> r <> 29 -> r <> ASP -> gp s1 r = gp s r.
Proof.
  intros Hr Hsp. destruct s as [g m cs l]. cbn [gp me] in *. set (s := St g m cs l). pose proof (Hr ASP).
  assert (S0 : u64 (g ASP - 32) = g ASP - 32) by (apply u64_id; lia).
  assert (S1 : forall n, 0 <= n < 32 -> u64 (g ASP - 32 + n) = g ASP - 32 + n) by (intros; apply u64_id; lia).
  cbv zeta.
  assert (Em : me (fold_left apure a64_hello_pre s) = hello_mem (m) (g ASP - 32) (g 29) (g 30)).
  { unfold s. cbv [a64_hello_pre]. one. cbv [ASP] in *. rewrite S0. rewrite !S1 by lia. reflexivity. }
  split; [exact Em|].
  assert (Esp : gp (fold_left apure a64_hello_pre s) ASP = g ASP - 32).
  { unfold s. cbv [a64_hello_pre]. one. exact S0. }
  split; [exact Esp|]. split; [reflexivity|]. split.
  { transitivity (ld 8 (me (fold_left apure a64_hello_pre s)) (u64 (gp (fold_left apure a64_hello_pre s) ASP + 24))).
    - unfold s. cbv [a64_hello_pre]. one. reflexivity.
    - rewrite Em, Esp, S1 by lia. unfold hello_mem. rewrite ld8 by lia. lia. }
  split; [reflexivity|]. split; [reflexivity|].
  intros r N0 N1 N2 N8 N29 NS. apply apures_other. cbn [a64_hello_pre flat_map awrites app In]. intuition.
Qed.

Lemma hello_mem_text m p a b : bytes_at (hello_mem m p a b) (p + 16) 8 = a64_said.
Proof.
  unfold hello_mem. set (B := st 8 (st 8 m p a) (p + 8) b).
  rewrite (bytes_shift 8 _ (st 8 (st 1 (st 1 (st 1 (st 1 (st 1 (st 1 (st 8 (fun j => B (p + j)) 16 (u64 0)) 16 (u64 72)) 17 (u64 101)) 18 (u64 108)) 19 (u64 108)) 20 (u64 111)) 21 (u64 10)) 24 (p + 16)) (p + 16) 16); [reflexivity|].
  intros i. rewrite <- Z.add_assoc. do 8 (rewrite st_shift; apply st_ext). reflexivity.
Qed.

Lemma a64_hello_call k rip fl s : live s = true -> (forall r, 0 <= gp s r < 2 ^ 64) -> 64 <= gp s ASP ->
  exists c, calls (hello AARCH64 k rip fl s) = calls s ++ [c] /\ writes_bytes AARCH64 c a64_said /\ arg c 1 = gp s ASP - 16.
Proof.
  intros Hl Hr Hsp. destruct (a64_pre s Hr Hsp) as (Em & _ & E0 & E1 & E2 & E8 & _). cbv zeta in *.
  unfold hello. rewrite a64_hello_split, arun_call by (try assumption; nosys). cbv zeta.
  assert (Hc1 : calls (fold_left apure a64_hello_pre s) = calls s) by (apply (apure_run k a64_hello_pre s Hl); nosys).
  set (s1 := fold_left apure a64_hello_pre s) in *. clearbody s1.
  exists (acall s1). split; [|split].
  - destruct (k (acall s1)) as [[r m]|]; [|reflexivity]. cbn [fold_left apure aafter set calls]. now rewrite Hc1.
  - unfold writes_bytes. cbn [acall c_nr arg c_args nth c_mem]. rewrite E0, E1, E2, E8, Em.
    split; [reflexivity|]. split; [reflexivity|]. split; [reflexivity|].
    replace (gp s ASP - 16) with (gp s ASP - 32 + 16) by lia. apply hello_mem_text.
  - exact E1.
Qed.

Definition a64_end (k : kernel) (cs : list call) (s1 : state) : state :=
  match k (acall s1) with
  | None => St (gp s1) (me s1) (cs ++ [acall s1]) false
  | Some (r, m) => fold_left apure [ALdp 29 30 32] (aafter s1 r m)
  end.
Lemma a64_end_frame k s s1 : (forall r, 0 <= gp s r < 2 ^ 64) -> 64 <= gp s ASP ->
  spares k (gp s ASP - 32) (gp s ASP) -> calls s1 = calls s ->
  me s1 = hello_mem (me s) (gp s ASP - 32) (gp s 29) (gp s 30) -> gp s1 ASP = gp s ASP - 32 ->
  (forall r, r <> 0 -> r <> 1 -> r <> 2 -> r <> 8 -> r <> 29 -> r <> ASP -> gp s1 r = gp s r) ->
  live (a64_end k (calls s) s1) = true ->
  (forall r, ~ In r (hello_changed AARCH64) -> gp (a64_end k (calls s) s1) r = gp s r) /\
  exists c res m, calls (a64_end k (calls s) s1) = calls s ++ [c] /\ k c = Some (res, m) /\ me (a64_end k (calls s) s1) = m /\
    (forall x, x < gp s ASP - 32 \/ gp s ASP <= x -> c_mem c x = me s x).
Proof.
  intros Hr Hsp Hk Hc1 Em Es Ho. pose proof (Hr ASP). pose proof (Hr 29). pose proof (Hr 30). unfold a64_end.
  destruct (k (acall s1)) as [[r m]|] eqn:E; [intros _|discriminate].
  pose proof (Hk _ _ _ E) as Hm. cbn [acall c_mem] in Hm. rewrite Em in Hm.
  split.
  - intros q Hn. cbn [hello_changed In] in Hn.
    cbn [fold_left apure aafter gp set me]. change (ASP =? 30) with false. change (ASP =? 29) with false. change (ASP =? 0) with false.
    cbv iota. rewrite Es.
    destruct (Z.eqb_spec q ASP) as [->|]; [rewrite u64_id; lia|].
    destruct (Z.eqb_spec q 30) as [->|].
    { etransitivity; [apply ld_ext; intros x Hx; apply Hm; simpl Z.of_nat in Hx; lia|]. now apply hello_mem_30. }
    destruct (Z.eqb_spec q 29) as [->|].
    { etransitivity; [apply ld_ext; intros x Hx; apply Hm; simpl Z.of_nat in Hx; lia|]. now apply hello_mem_29. }
    destruct (Z.eqb_spec q 0) as [->|]; [lia|]. apply Ho; lia.
  - exists (acall s1), r, m. cbn [fold_left apure aafter set calls me]. rewrite Hc1. split; [reflexivity|].
    split; [exact E|]. split; [reflexivity|].
    intros x Hx. cbn [acall c_mem]. rewrite Em. apply hello_mem_out. lia.
Qed.

Lemma hello_a64_end k rip fl s : live s = true -> hello AARCH64 k rip fl s = a64_end k (calls s) (fold_left apure a64_hello_pre s).
Proof. intros Hl. unfold hello. rewrite a64_hello_split, arun_call by (try assumption; nosys). reflexivity. Qed.

Lemma hello_frame_a64 k rip fl s : live s = true -> (forall r, 0 <= gp s r < 2 ^ 64) -> 64 <= gp s ASP ->
  spares k (gp s ASP - 32) (gp s ASP) ->
  live (hello AARCH64 k rip fl s) = true ->
  (forall r, ~ In r (hello_changed AARCH64) -> gp (hello AARCH64 k rip fl s) r = gp s r) /\
  exists c res m, calls (hello AARCH64 k rip fl s) = calls s ++ [c] /\ k c = Some (res, m) /\ me (hello AARCH64 k rip fl s) = m /\
    (forall x, x < gp s ASP - 32 \/ gp s ASP <= x -> c_mem c x = me s x).
Proof.
  intros Hl Hr Hsp Hk. rewrite (hello_a64_end k rip fl s Hl).
  destruct (a64_pre s Hr Hsp) as (Em & Es & _ & _ & _ & _ & Ho).
  apply a64_end_frame; try assumption.
  apply (apure_run k a64_hello_pre s Hl). nosys.
Qed.

Lemma hello_frame a k rip fl s : live s = true -> (forall r, 0 <= gp s r < 2 ^ 64) -> 64 <= gp s (sp_of a) ->
  (a = AARCH64 -> spares k (gp s ASP - 32) (gp s ASP)) ->
  live (hello a k rip fl s) = true ->
  (forall r, ~ In r (hello_changed a) -> gp (hello a k rip fl s) r = gp s r) /\
  exists c res m, calls (hello a k rip fl s) = calls s ++ [c] /\ k c = Some (res, m) /\ me (hello a k rip fl s) = m /\
    (forall x, x < gp s (sp_of a) - hello_depth a \/ gp s (sp_of a) <= x -> c_mem c x = me s x).
Proof.
  intros Hl Hr Hsp Hk. destruct a; [now apply hello_frame_x86|]. apply hello_frame_a64; auto.
Qed.
