(** Histories of sessions: patches are applied and removed while the target runs. *)
From Coq Require Import ZArith String List Bool Lia ZifyBool ZifyNat Permutation Sorted.
From Verif Require Import Word WordLemmas Str ElfDefs TextModel LdModel LdSpec LdProofs LdSyms LdMore ScModel ScSpec ScProofs PaModel PaSpec PaRead PaProofs PaMore PaKick PaLoad PaSess.
Import ListNotations.
Open Scope Z_scope.

(** One run of the tool: everything that may differ between runs. *)
Record run := Run {
  c_fuel : nat; c_a : arch; c_nn : nrs; c_x86 : bool; c_e : env; c_libc : Z; c_garbage : Z;
  c_lookup : list Z -> option Z; c_reloc : Z -> linfo -> mem -> Z -> Z * mem; c_jmp : Z; c_now : Z;
  c_ae : alloc_env; c_chown : Z; c_path : list Z; c_span : Z }.

Definition do_patch (c : run) (s : session) (w : world) :=
  init_patch (c_fuel c) (c_a c) (c_nn c) (c_x86 c) (c_e c) (c_libc c) (c_garbage c) (c_lookup c) (c_reloc c) (c_jmp c) (c_now c) s (c_ae c) (c_chown c) (c_path c) (c_span c) w.
Definition do_unpatch (c : run) (s : session) (w : world) :=
  delete_patch (c_fuel c) (c_a c) (c_nn c) (c_e c) (c_libc c) (c_garbage c) s w.

Inductive event := ERun | EPatch (hdr fn jmp : Z) | EFail | EUnpatch (hdr : Z).

(** The memory of the target and its patch mappings. *)
Definition state := (mem * list (Z * Z))%type.

Definition in_vmas (vs : list (Z * Z)) (x : Z) : Prop := exists v, In v vs /\ fst v <= x < snd v.

Section Hist.
(** The bytes in question: the target does not change them itself, and patches are mapped
    elsewhere. *)
Variable K : Z -> Prop.

(** The target changes neither these nor the patch mappings while the tool works, the
    remote calls work (C17) and the mappings can be read. *)
Definition quiet (c : run) (vs : list (Z * Z)) : Prop :=
  calm (c_e c) (c_a c) (c_libc c) /\ (forall x, K x \/ in_vmas vs x -> kept (c_e c) x) /\ Forall (readable (c_e c)) vs.

(** A patch file with a build id whose relocations stay inside its sections. *)
Definition good_file (c : run) (f : mem) (len : Z) : Prop :=
  alloc_patch_file (c_ae c) = Some (0, Some (f, len)) /\ byte_mem f /\ tidy f len /\
  (forall hdr li, setup_load_info f len = Some (inr li) -> reloc_safe (c_reloc c hdr li) f hdr) /\
  (forall li, setup_load_info f len = Some (inr li) -> li_bid li <> None).

Definition buffer (c : run) (w : world) (x : Z) : Prop := name_buffer (c_fuel c) (c_a c) (c_nn c) (c_e c) (c_libc c) (c_garbage c) w (c_path c) x.

(** The kernel maps the file and the buffer for its name where nothing else is. *)
Definition fresh (c : run) (w : world) (vs : list (Z * Z)) (hdr stop len : Z) : Prop :=
  shared hdr = true /\ hdr + len <= stop /\ stop - hdr < 2 ^ 64 /\
  (forall x, hdr <= x < stop -> ~ K x /\ ~ in_vmas vs x) /\
  (forall x, within hdr len x -> kept (c_e c) x) /\
  (forall x, K x \/ in_vmas vs x -> ~ buffer c w x).

Inductive step : state -> event -> state -> Prop :=
| s_run m m' vs : (forall x, K x \/ in_vmas vs x -> m' x = m x) -> step (m, vs) ERun (m', vs)
| s_patch c m vs vs' w s w1 f len src dst taddr hdr stop s' w2 log :
    quiet c vs -> t_mem (w_t w) = m -> Permutation vs vs' -> open_session (c_e c) w vs' = Some (s, w1) ->
    do_patch c s w1 = Some (0, s', Some hdr, w2, log) ->
    good_file c f len -> redirects f src dst -> c_lookup c dst = Some taddr ->
    fresh c w1 vs hdr stop len -> (forall x, within (taddr mod 2 ^ 64) 16 x -> K x) ->
    step (m, vs) (EPatch hdr (taddr mod 2 ^ 64) (c_jmp c)) (t_mem (w_t w2), (hdr, stop) :: vs)
| s_fail c m vs vs' w s w1 err h s' w2 log :
    quiet c vs -> t_mem (w_t w) = m -> Permutation vs vs' -> open_session (c_e c) w vs' = Some (s, w1) ->
    do_patch c s w1 = Some (err, s', h, w2, log) -> err <> 0 -> whole_writes (c_e c) ->
    (forall hdr f len, h = Some hdr -> alloc_patch_file (c_ae c) = Some (0, Some (f, len)) ->
       forall x, within hdr len x -> ~ K x /\ ~ in_vmas vs x) ->
    (forall x, K x \/ in_vmas vs x -> ~ buffer c w1 x) ->
    step (m, vs) EFail (t_mem (w_t w2), vs)
| s_unpatch c m vs vs' w s w1 w2 log u vs2 :
    quiet c vs -> t_mem (w_t w) = m -> Permutation vs vs' -> open_session (c_e c) w vs' = Some (s, w1) ->
    do_unpatch c s w1 = Some (0, w2, log, Some u) ->
    Permutation vs ((u_start u, u_end u) :: vs2) ->
    step (m, vs) (EUnpatch (u_start u)) (t_mem (w_t w2), vs2).

Inductive steps : state -> list event -> state -> Prop :=
| steps_nil s : steps s [] s
| steps_cons s1 e s2 es s3 : step s1 e s2 -> steps s2 es s3 -> steps s1 (e :: es) s3.

(** The patches (mapping, function, jump instruction) after the events, newest first; None
    if an event removes another one than the newest. *)
Fixpoint stack_after (es : list event) (st : list (Z * Z * Z)) : option (list (Z * Z * Z)) :=
  match es with
  | [] => Some st
  | ERun :: r | EFail :: r => stack_after r st
  | EPatch h v j :: r => stack_after r ((h, v, j) :: st)
  | EUnpatch h :: r => match st with (h', _, _) :: st' => if h =? h' then stack_after r st' else None | [] => None end
  end.

(** The memory [m0] with the jumps of the patches. *)
Fixpoint over (m0 : mem) (ps : list (applied * Z * Z)) (x : Z) : Z :=
  match ps with
  | [] => m0 x
  | (p, j, tgt) :: r => if inside (p_fun p) 16 x then nth (Z.to_nat (x - p_fun p)) (le_bytes 8 j ++ le_bytes 8 tgt) 0 else over m0 r x
  end.

Definition pa (q : applied * Z * Z) : applied := fst (fst q).
Definition triple (q : applied * Z * Z) : Z * Z * Z := (p_start (pa q), p_fun (pa q), snd (fst q)).

Fixpoint stacked (m0 : mem) (ps : list (applied * Z * Z)) : Prop :=
  match ps with
  | [] => True
  | q :: r =>
      p_id (pa q) = Z.of_nat (List.length r) + 1 /\
      (forall x, within (p_fun (pa q)) 16 x -> K x) /\
      (forall i, 0 <= i < 16 -> p_old (pa q) (p_fun (pa q) + i) = over m0 r (p_fun (pa q) + i)) /\
      (forall x, p_start (pa q) <= x < p_stop (pa q) -> ~ K x /\ ~ in_vmas (map (fun q => p_range (pa q)) r) x) /\
      stacked m0 r
  end.

Definition inv (m0 : mem) (st : state) (ps : list (applied * Z * Z)) : Prop :=
  Permutation (snd st) (map (fun q => p_range (pa q)) ps) /\
  Forall (present (fst st)) (map pa ps) /\
  (forall x, K x -> fst st x = over m0 ps x) /\
  stacked m0 ps.

Lemma in_vmas_perm vs vs' x : Permutation vs vs' -> in_vmas vs x -> in_vmas vs' x.
Proof. intros P (v & A & B). exists v. split; auto. eapply Permutation_in; eauto. Qed.

(** Patches whose mapping does not change stay present. *)
Lemma present_ext m m' p : (forall x, p_start p <= x < p_stop p -> m' x = m x) -> present m p -> present m' p.
Proof.
  intros A (F & S1 & S2). pose proof F as (Hb & T & _ & L & _). split; auto.
  assert (B : forall i, 0 <= i < p_len p -> m' (p_start p + i) = m (p_start p + i)) by (intros; apply A; lia).
  split; [intros x Hx; rewrite B by (apply (proj1 (proj2 T) x Hx)); auto|]. intros info Hi. destruct (S2 info Hi) as (Z1 & Z2 & Z3).
  assert (Ii : 0 <= info /\ info + 64 <= p_len p).
  { destruct Hi as (j & J1 & J2 & J3 & ->). split; [apply (ld_range 8); auto|apply (wf_info _ _ (proj1 T)); auto]. }
  split; [rewrite <- Z1; apply ld_ext; intros x Hx; apply A; lia|].
  split; [rewrite <- Z2; apply ld_ext; intros x Hx; apply A; lia|].
  intros i Hi16. rewrite <- Z3 by auto. apply A. lia.
Qed.

Lemma presents_ext m m' vs ps : Permutation vs (map (fun q => p_range (pa q)) ps) -> (forall x, in_vmas vs x -> m' x = m x) ->
  Forall (present m) (map pa ps) -> Forall (present m') (map pa ps).
Proof.
  intros P A F. rewrite Forall_forall in *. intros p Hp. apply (present_ext m); [|apply F; auto].
  intros x Hx. apply A. apply (in_vmas_perm _ _ _ (Permutation_sym P)). apply in_map_iff in Hp. destruct Hp as (q & <- & Hq).
  exists (p_range (pa q)). split; [apply (in_map (fun q => p_range (pa q))); auto|exact Hx].
Qed.

(** What a session sees. *)
Lemma open_inv m0 m vs ps e w vs' s w1 : inv m0 (m, vs) ps -> t_mem (w_t w) = m -> Forall (readable e) vs -> Permutation vs vs' ->
  open_session e w vs' = Some (s, w1) ->
  exists ps' us, Permutation (map pa ps) ps' /\ vs' = map p_range ps' /\ s = Sess (rev us ++ []) (max_of ps' 0) /\ Forall2 entry ps' us /\ w_t w1 = w_t w.
Proof.
  intros (P & F & _ & _) Em R Pv H. cbn [fst snd] in *.
  assert (P2 : Permutation (map p_range (map pa ps)) vs').
  { rewrite map_map. eapply Permutation_trans; [apply Permutation_sym, P|auto]. }
  destruct (Permutation_map_inv _ _ (Permutation_sym P2)) as (ps' & -> & P3).
  assert (F' : Forall (present (t_mem (w_t w))) ps') by (rewrite Em; eapply Permutation_Forall; [apply Permutation_sym, Permutation_sym; exact P3|auto]).
  assert (R' : Forall (fun p => readable e (p_range p)) ps').
  { assert (X : Forall (readable e) (map p_range ps')) by (eapply Permutation_Forall; eauto). rewrite Forall_map in X. exact X. }
  destruct (load_ulps_ok e ps' (Sess [] 0) w R' F') as (us & w' & E & G & Ew). unfold open_session in H. rewrite E in H.
  apply some_pair2 in H. destruct H as [<- <-]. exists ps', us. cbn [s_ulps s_max]. auto.
Qed.

Lemma stacked_ids m0 ps : stacked m0 ps -> Forall (fun q => 1 <= p_id (pa q) <= Z.of_nat (List.length ps)) ps.
Proof.
  induction ps as [|q ps IH]; intros S; constructor.
  - destruct S as (S & _). cbn [List.length]. lia.
  - destruct S as (_ & _ & _ & _ & S). eapply Forall_impl; [|apply IH; auto]. cbn [List.length]. intros r Hr. cbv beta in Hr. lia.
Qed.

Lemma max_is m0 ps ps' : stacked m0 ps -> Permutation (map pa ps) ps' -> max_of ps' 0 = Z.of_nat (List.length ps).
Proof.
  intros S P. assert (I := stacked_ids _ _ S).
  assert (Le : max_of ps' 0 <= Z.of_nat (List.length ps)).
  { destruct (max_of_in ps' 0) as [->|(p & Hp & ->)]; [lia|]. apply (Permutation_in _ (Permutation_sym P)) in Hp. apply in_map_iff in Hp.
    destruct Hp as (q & <- & Hq). rewrite Forall_forall in I. specialize (I q Hq). lia. }
  destruct ps as [|q ps]. { cbn [List.length] in *. pose proof (proj1 (max_of_ge ps' 0)). lia. }
  destruct (max_of_ge ps' 0) as [_ G]. rewrite Forall_forall in G. specialize (G (pa q) (Permutation_in _ P (or_introl eq_refl))).
  destruct S as (S & _). cbn [List.length] in *. lia.
Qed.

Lemma step_more m0 st ev st' ps : Z.of_nat (List.length ps) < 2 ^ 32 - 1 -> inv m0 st ps -> step st ev st' ->
  exists ps', inv m0 st' ps' /\ (List.length ps' <= S (List.length ps))%nat /\
    (forall es, stack_after (ev :: es) (map triple ps) = stack_after es (map triple ps')) /\
    match ev with ERun | EFail => ps' = ps | EPatch _ _ _ => exists q, ps' = q :: ps /\ forall info, info_at (p_file (pa q)) info -> snd q = ld 8 (fst st') (p_start (pa q) + info + 12) | EUnpatch _ => exists q, ps = q :: ps' end /\
    (forall x, in_vmas (snd st) x -> in_vmas (snd st') x -> fst st' x = fst st x).
Proof.
  intros Bd I H. destruct H as [m m' vs Hm|c m vs vs' w s w1 f len src dst taddr hdr stop s' w2 log Q Em P OS IP GF R L FR FK|c m vs vs' w s w1 err h s' w2 log Q Em P OS IP Ne WW HD NB|c m vs vs' w s w1 w2 log u vs2 Q Em P OS UP PV].
  - exists ps. split; [|split; [|split; [|split]]; auto]. destruct I as (A & B & C & D). split; auto. cbn [fst snd] in *. split; [|split; auto].
    + apply (presents_ext m _ vs); auto.
    + intros x Kx. rewrite Hm by auto. auto.
  - destruct Q as (CM & KP & RD). destruct (open_inv _ _ _ _ _ _ _ _ _ I Em RD P OS) as (ps' & us & P' & -> & -> & F2 & Ew).
    pose proof I as (A & B & C & D). cbn [fst snd] in *. assert (Mx := max_is _ _ _ D P').
    destruct GF as (AL & Hb & T & RS & BI). destruct FR as (Sh & Ls & Ls2 & Fr & Kh & Nb).
    set (v := taddr mod 2 ^ 64) in *.
    destruct (init_detail _ _ _ _ _ _ _ _ _ _ _ _ _ _ _ _ _ _ _ _ _ _ _ _ CM IP AL Sh Hb T (RS hdr)) as [IU IE].
    { intros src' dst' taddr' R' L'. pose proof (redirects_fun _ _ _ _ _ R R'). subst dst'. assert (taddr' = taddr) by congruence. subst taddr'. fold v.
      split; [|split].
      - intros x [Hx|Hx]; auto.
      - intros x Hx Hv. destruct (Fr x) as [X _]; [unfold within in Hx; lia|]. apply X, FK, Hv.
      - intros x Hx. apply Nb. left. auto. }
    destruct (IE eq_refl) as (li & src' & dst' & taddr' & SU & KN & R' & L' & _ & ST & JB). clear IE.
    pose proof (redirects_fun _ _ _ _ _ R R'). subst dst'. assert (taddr' = taddr) by congruence. subst taddr'. fold v in ST, JB.
    destruct (IU src dst taddr R L w2 (or_introl eq_refl)) as [Fx _]. fold v in Fx. clear IU. cbn [s_max] in *. rewrite Mx in ST.
    rewrite Z.mod_small in ST by lia. rewrite Ew, Em in *.
    destruct (li_bid li) as [bid|] eqn:Eb; [|exfalso; apply (BI li SU Eb)].
    set (n := List.length ps) in *. set (tgt := ld 8 (t_mem (w_t w2)) (hdr + li_info li + 12)) in *.
    set (p := Applied hdr stop f len bid (Z.of_nat n + 1) v m).
    assert (NotH : forall x, K x \/ in_vmas vs x -> ~ within hdr len x).
    { intros x Hx Hw. destruct (Fr x) as [X Y]; [unfold within in Hw; lia|]. tauto. }
    assert (Same : forall x, K x \/ in_vmas vs x -> ~ within v 16 x -> t_mem (w_t w2) x = m x).
    { intros x Hx Nv. apply Fx; auto. apply Nb. auto. }
    assert (NotV : forall x, in_vmas vs x -> ~ within v 16 x).
    { intros x Hx Hv. destruct Hx as (rg & Hr & Hi). apply (Permutation_in _ A) in Hr. apply in_map_iff in Hr. destruct Hr as (q & <- & Hq).
      assert (Ns : forall l, stacked m0 l -> In q l -> ~ K x).
      { induction l as [|q' l IH]; [intros _ []|]. intros (_ & _ & _ & S4 & S5) [->|Hl]; [|apply IH; auto]. apply (S4 x). exact Hi. }
      apply (Ns ps D Hq). apply FK, Hv. }
    exists ((p, c_jmp c, tgt) :: ps). split; [|split; [cbn [List.length]; lia|split; [reflexivity|split]]].
    2: { exists (p, c_jmp c, tgt). split; [reflexivity|]. unfold pa, p. cbn [fst snd p_file p_start]. intros info Hi.
         rewrite (proj2 (info_is f len li Hb SU) info Hi). reflexivity. }
    2: { cbn [fst snd]. intros x Hx _. apply Same; auto. }
    split; [|split; [|split]]; cbn [fst snd].
    + cbn [map]. unfold pa at 1, p, p_range at 1. cbn [fst p_start p_stop]. apply perm_skip. exact A.
    + cbn [map]. constructor.
      * split; [|exact ST]. unfold file_ok, p. unfold pa. cbn [fst p_file p_len p_start p_stop p_bid]. split; auto. split; auto. split; [eapply alloc_ok; eauto|]. split; auto. split; auto. exists li. split; auto.
      * apply (presents_ext m _ vs); auto.
    + intros x Kx. cbn [over]. unfold p at 1 2. cbn [p_fun]. destruct (inside v 16 x) eqn:Iv.
      * unfold inside in Iv. replace x with (v + (x - v)) at 1 by lia. apply JB. lia.
      * apply inside_false in Iv. rewrite <- C by auto. apply Same; auto.
    + cbn [stacked]. unfold pa at 1 2 3 4 5 6 7, p. cbn [fst p_id p_fun p_old p_start p_stop]. fold n. split; [lia|]. split; [exact FK|]. split; [|split; [|exact D]].
      * intros i Hi. apply C. apply FK. unfold within. lia.
      * intros x Hx. destruct (Fr x Hx) as [X Y]. split; auto. intros Z. apply Y. apply (in_vmas_perm _ _ _ (Permutation_sym A)). exact Z.
  - destruct Q as (CM & KP & RD). destruct (open_inv _ _ _ _ _ _ _ _ _ I Em RD P OS) as (ps' & us & P' & -> & -> & F2 & Ew).
    pose proof I as (A & B & C & D). cbn [fst snd] in *.
    destruct (init_frame _ _ _ _ _ _ _ _ _ _ _ _ _ _ _ _ _ _ _ _ _ _ CM IP) as (ff & Fx).
    assert (Same : forall x, K x \/ in_vmas vs x -> t_mem (w_t w2) x = m x).
    { intros x Hx. rewrite <- Em, <- Ew. apply (Fx w2); [left; auto|apply KP; auto|apply NB; auto| |auto|auto].
      intros hh f len Eh AL Hw. destruct (HD hh f len Eh AL x Hw). tauto. }
    exists ps. split; [|split; [|split; [|split]]; auto]. split; [exact A|]. cbn [fst snd]. split; [|split; auto].
    + apply (presents_ext m _ vs); auto.
    + intros x Kx. rewrite Same by auto. auto.
  - destruct Q as (CM & KP & RD). destruct (open_inv _ _ _ _ _ _ _ _ _ I Em RD P OS) as (ps' & us & P' & -> & -> & F2 & Ew).
    pose proof I as (A & B & C & D). cbn [fst snd] in *. assert (Mx := max_is _ _ _ D P').
    destruct (delete_detail _ _ _ _ _ _ _ _ _ _ _ _ CM UP) as (FL & Fx & FO). cbn [s_ulps s_max] in FL.
    destruct ps as [|q ps].
    { apply Permutation_nil in P'. subst ps'. inversion F2; subst. discriminate FL. }
    assert (Hid : p_id (pa q) = max_of ps' 0) by (rewrite Mx; destruct D as (D & _); cbn [List.length]; lia).
    destruct (find_last_ok ps' us (max_of ps' 0) F2 (pa q) (Permutation_in _ P' (or_introl eq_refl)) Hid) as (p & u' & Hp & Ip & En & FL').
    rewrite FL in FL'. assert (u' = u) by congruence. subst u'.
    assert (p = pa q).
    { apply (Permutation_in _ (Permutation_sym P')) in Hp. destruct Hp as [|Hp]; auto. exfalso. apply in_map_iff in Hp. destruct Hp as (q' & <- & Hq').
      destruct D as (_ & _ & _ & _ & D). assert (X := stacked_ids _ _ D). rewrite Forall_forall in X. specialize (X q' Hq'). rewrite Ip, Mx in X. cbn [List.length] in X. lia. }
    subst p. destruct En as (E1 & E2 & _ & _ & E5 & E6). rewrite E5 in *.
    destruct D as (D1 & D2 & D3 & D4 & D5).
    assert (PV' : Permutation vs2 (map (fun q => p_range (pa q)) ps)).
    { apply (Permutation_cons_inv (a := (u_start u, u_end u))). eapply Permutation_trans; [apply Permutation_sym, PV|].
      eapply Permutation_trans; [exact A|]. cbn [map]. unfold p_range at 1. rewrite E1, E2. apply Permutation_refl. }
    assert (Sub : forall x, in_vmas vs2 x -> in_vmas vs x).
    { intros x Hx. apply (in_vmas_perm _ _ _ (Permutation_sym PV)). destruct Hx as (rg & X & Y). exists rg. split; [right; auto|auto]. }
    assert (Same : forall x, in_vmas vs2 x -> t_mem (w_t w2) x = m x).
    { intros x Hx. rewrite <- Em, <- Ew. apply (Fx w2); [left; auto|apply KP; auto|].
      intros Hv. destruct Hx as (rg & Hr & Hi). apply (Permutation_in _ PV') in Hr. apply in_map_iff in Hr. destruct Hr as (q' & <- & Hq').
      assert (Ns : forall l, stacked m0 l -> In q' l -> ~ K x).
      { induction l as [|q2 l IH]; [intros _ []|]. intros (_ & _ & _ & S4 & S5) [->|Hl]; [|apply IH; auto]. apply (S4 x). exact Hi. }
      apply (Ns ps D5 Hq'). apply D2, Hv. }
    exists ps. split; [|split; [cbn [List.length]; lia|split; [|split; [eauto|cbn [fst snd]; intros x _; apply Same]]]].
    + split; [exact PV'|]. cbn [fst snd]. apply Forall_cons_iff in B. destruct B as [B1 B2]. split; [|split; auto].
      * apply (presents_ext m _ vs2); auto.
      * intros x Kx. destruct (within_dec (p_fun (pa q)) 16 x) as [Hw|Hw].
        -- unfold within in Hw. replace x with (p_fun (pa q) + (x - p_fun (pa q))) by lia. rewrite <- D3 by lia. rewrite <- E6 by lia.
           apply FO; [reflexivity|lia|]. apply KP. left. replace (p_fun (pa q) + (x - p_fun (pa q))) with x by lia. auto.
        -- rewrite (Fx w2 (or_introl eq_refl) x) by auto. rewrite Ew, Em, C by auto. destruct q as [[p j] tg]. cbn [over]. unfold pa in Hw. cbn [fst] in Hw.
           apply inside_false in Hw. rewrite Hw. reflexivity.
    + intros es. cbn [map stack_after]. unfold triple at 1. rewrite E1, Z.eqb_refl. reflexivity.
Qed.

Lemma step_inv m0 st ev st' ps : Z.of_nat (List.length ps) < 2 ^ 32 - 1 -> inv m0 st ps -> step st ev st' ->
  exists ps', inv m0 st' ps' /\ (List.length ps' <= S (List.length ps))%nat /\
    (forall es, stack_after (ev :: es) (map triple ps) = stack_after es (map triple ps')) /\
    match ev with ERun | EFail => ps' = ps | EPatch _ _ _ => exists q, ps' = q :: ps | EUnpatch _ => exists q, ps = q :: ps' end.
Proof.
  intros B I H. destruct (step_more m0 st ev st' ps B I H) as (ps' & A1 & A2 & A3 & A4 & _). exists ps'. split; [auto|]. split; [auto|]. split; [auto|].
  destruct ev; auto. destruct A4 as (q & A4 & _). eauto.
Qed.

Lemma steps_inv m0 st es st' ps : steps st es st' -> Z.of_nat (List.length ps) + Z.of_nat (List.length es) < 2 ^ 32 - 1 -> inv m0 st ps ->
  exists ps', inv m0 st' ps' /\ stack_after es (map triple ps) = Some (map triple ps').
Proof.
  intros H. revert ps. induction H as [s|s1 e s2 es s3 H1 H2 IH]; intros ps Bd I.
  - exists ps. split; auto.
  - cbn [List.length] in Bd. destruct (step_inv m0 s1 e s2 ps ltac:(lia) I H1) as (ps1 & I1 & L1 & X & _).
    destruct (IH ps1 ltac:(lia) I1) as (ps2 & I2 & Y). exists ps2. split; auto. rewrite X. exact Y.
Qed.

Lemma inv_start m0 : inv m0 (m0, []) [].
Proof. split; [constructor|]. split; [constructor|]. split; [reflexivity|exact I]. Qed.
End Hist.
