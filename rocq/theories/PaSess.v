(** Opening a session, applying and removing a patch. *)
From Coq Require Import ZArith String List Bool Lia ZifyBool ZifyNat.
From Verif Require Import Word WordLemmas Str ElfDefs TextModel LdModel LdSpec LdProofs LdSyms LdMore ScModel ScSpec ScProofs PaModel PaSpec PaRead PaProofs PaMore PaKick PaLoad.
Import ListNotations.
Open Scope Z_scope.

(** The file of the patch is a patch file with this build id. *)
Definition file_ok (p : applied) : Prop :=
  byte_mem (p_file p) /\ tidy (p_file p) (p_len p) /\ magic_ok (p_file p) = true /\
  p_start p + p_len p <= p_stop p /\ p_stop p - p_start p < 2 ^ 64 /\
  exists li, setup_load_info (p_file p) (p_len p) = Some (inr li) /\ li_bid li = Some (p_bid p).

Definition present (m : mem) (p : applied) : Prop := file_ok p /\ stored m (p_start p) (p_file p) (p_id p) (p_fun p) (p_old p).

(** The entry of the session for the patch. *)
Definition entry (p : applied) (u : ulp) : Prop :=
  u_start u = p_start p /\ u_end u = p_stop p /\ u_bid u = Some (p_bid p) /\
  ld 4 (u_info u) ui_id = p_id p /\ ld 8 (u_info u) ui_virtual = p_fun p /\
  forall i, 0 <= i < 16 -> u_info u (ui_orig + i) = p_old p (p_fun p + i).

Lemma read_whole e w dst src size : e_read e (w_n w) src size = Some size ->
  memcpy_from_task e w dst src size = (size, (fun i => if (0 <=? i) && (i <? size) then t_mem (w_t w) (src + i) else dst i), tick w).
Proof. intros H. unfold memcpy_from_task. rewrite H. reflexivity. Qed.

Lemma readback e s w p : readable e (p_range p) -> present (t_mem (w_t w)) p ->
  exists u w', vma_load_ulp e s w (p_range p) = Some (Sess (u :: s_ulps s) (Z.max (s_max s) (p_id p)), w') /\ entry p u /\ w_t w' = w_t w.
Proof.
  intros R ((Hb & T & Mg & L1 & L2 & li & SU & Bi) & St). destruct p as [start stop f len bid id v old]. unfold p_range in *. cbn [p_start p_stop p_file p_len p_bid p_id p_fun p_old fst snd] in *.
  assert (W := proj1 T). pose proof (wf_table _ _ W) as (T1 & T2 & T3).
  assert (Len : 64 <= len) by lia.
  destruct St as [SM SR].
  unfold vma_load_ulp. rewrite read_whole by (apply R).
  replace ((64 =? -1) || (64 <? 64)) with false by reflexivity.
  assert (Mg' : magic_ok (fun i => if (0 <=? i) && (i <? 64) then t_mem (w_t w) (start + i) else 0) = true).
  { revert Mg. unfold magic_ok. cbn [Z.leb Z.ltb Z.compare andb Pos.compare Pos.compare_cont].
    rewrite !SM by (left; lia). auto. }
  rewrite Mg'. cbn [negb]. rewrite read_whole by (apply R). cbn [tick w_t w_n w_conts].
  set (size := stop - start) in *. set (buf := fun i => if (0 <=? i) && (i <? size) then t_mem (w_t w) (start + i) else e_junk e i).
  replace ((size =? -1) || (size <? size)) with false by lia.
  assert (B : forall x, meta_byte f x -> buf x = f x).
  { intros x Hx. destruct (proj1 (proj2 T) x Hx) as [Hl _]. unfold buf. destruct ((0 <=? x) && (x <? size)) eqn:Ex; [auto|lia]. }
  assert (C : chk_load_info_len buf size = Some 0).
  { unfold chk_load_info_len, e_shoff, e_shnum. rewrite !rd_ok by lia.
    rewrite (ld_ext 8 buf f 40) by (intros x Hx; apply B; left; lia). rewrite (ld_ext 2 buf f 60) by (intros x Hx; apply B; left; lia).
    assert (N1 : 1 <= ld 2 f 60) by (pose proof (wf_strndx _ _ W); pose proof (ld_range 2 f 62 Hb); lia). unfold sizeof_shdr.
    unfold u64, wrap. rewrite !Z.mod_small by lia. destruct ((size <=? ld 8 f 40) || (size - ld 8 f 40 <? ld 2 f 60 * 64)) eqn:Ec; [lia|reflexivity]. }
  rewrite C. cbn [Z.eqb negb]. rewrite (setup_agree f buf len size (inr li) Hb W ltac:(lia) B SU). rewrite Bi.
  destruct (setup_facts _ _ _ Hb SU) as (_ & (I1 & I2 & I3 & I4) & _).
  assert (I0 : 0 <= li_info li) by (rewrite I4; apply (ld_range 8); auto).
  assert (Ie : li_info li + 64 <= len) by (rewrite I4; apply (wf_info _ _ W); auto; lia).
  assert (Ib : inb size (li_info li) 64 = true) by (unfold inb; lia). rewrite Ib.
  assert (IA : info_at f (li_info li)) by (exists (li_info_idx li); split; [lia|auto]).
  destruct (SR _ IA) as (R1 & R2 & R3).
  assert (Bf : forall x, 0 <= x < size -> buf x = t_mem (w_t w) (start + x)).
  { intros x Hx. unfold buf. destruct ((0 <=? x) && (x <? size)) eqn:Ex; [auto|lia]. }
  assert (Eid : ld 4 buf (li_info li) = id).
  { rewrite <- R1. symmetry. apply ld_shift. intros x Hx. symmetry. apply Bf. lia. }
  rewrite Eid. exists (Ulp start stop (copy_of buf (li_info li)) (Some bid)), (tick (tick w)). split; [reflexivity|]. split; [|reflexivity].
  unfold entry. cbn [u_start u_end u_bid u_info p_start p_stop p_bid p_id p_fun p_old]. split; [auto|]. split; [auto|]. split; [auto|].
  assert (Cp : forall n k, 0 <= k -> k + Z.of_nat n <= 64 -> ld n (copy_of buf (li_info li)) k = ld n (t_mem (w_t w)) (start + li_info li + k)).
  { intros n k H1 H2. symmetry. replace (start + li_info li + k) with ((start + li_info li) + k) by lia. apply ld_shift. intros x Hx. unfold copy_of. rewrite Bf by lia. f_equal. lia. }
  unfold ui_id, ui_virtual, ui_orig. split; [rewrite Cp by lia; rewrite <- R1; f_equal; lia|]. split; [rewrite Cp by lia; exact R2|].
  intros i Hi. rewrite <- R3 by lia. unfold copy_of. rewrite Bf by lia. f_equal. lia.
Qed.

Definition max_of (ps : list applied) (m : Z) : Z := fold_left (fun a p => Z.max a (p_id p)) ps m.

Lemma load_ulps_ok e : forall ps s w, Forall (fun p => readable e (p_range p)) ps -> Forall (present (t_mem (w_t w))) ps ->
  exists us w', load_ulps e s w (map p_range ps) = Some (Sess (rev us ++ s_ulps s) (max_of ps (s_max s)), w') /\ Forall2 entry ps us /\ w_t w' = w_t w.
Proof.
  induction ps as [|p ps IH]; intros s w R P.
  - exists [], w. cbn. split; [destruct s; reflexivity|]. split; auto.
  - apply Forall_cons_iff in R. apply Forall_cons_iff in P. destruct R as [R1 R2], P as [P1 P2].
    destruct (readback e s w p R1 P1) as (u & w1 & E & En & Ew). cbn [map load_ulps]. rewrite E.
    destruct (IH (Sess (u :: s_ulps s) (Z.max (s_max s) (p_id p))) w1 R2 ltac:(rewrite Ew; exact P2)) as (us & w2 & E2 & F & Ew2).
    exists (u :: us), w2. rewrite E2. cbn [s_ulps s_max]. split; [|split; [constructor; auto|congruence]].
    cbn [rev]. rewrite <- app_assoc. reflexivity.
Qed.

Lemma max_of_ge ps : forall m, m <= max_of ps m /\ Forall (fun p => p_id p <= max_of ps m) ps.
Proof.
  induction ps as [|p ps IH]; intros m; cbn [max_of fold_left]; [split; [lia|constructor]|].
  destruct (IH (Z.max m (p_id p))) as [A B]. fold (max_of ps (Z.max m (p_id p))). split; [lia|]. constructor; auto. lia.
Qed.
Lemma max_of_in ps : forall m, max_of ps m = m \/ exists p, In p ps /\ max_of ps m = p_id p.
Proof.
  induction ps as [|p ps IH]; intros m; cbn [max_of fold_left]; [auto|]. fold (max_of ps (Z.max m (p_id p))).
  destruct (IH (Z.max m (p_id p))) as [A|(q & Q & A)].
  - destruct (Z_le_gt_dec m (p_id p)); [right; exists p; split; [left; auto|lia]|left; lia].
  - right. exists q. split; [right; auto|auto].
Qed.

(** find_last gives the entry of a patch with the number. *)
Lemma find_last_ok ps us id : Forall2 entry ps us -> forall q, In q ps -> p_id q = id ->
  exists p u, In p ps /\ p_id p = id /\ entry p u /\ find_last (rev us ++ []) id = Some u.
Proof.
  intros F q Q Eq. rewrite app_nil_r.
  assert (F' : Forall2 entry (rev ps) (rev us)).
  { clear - F. induction F; cbn [rev]; [constructor|]. apply Forall2_app; auto. }
  apply in_rev in Q. assert (G : exists p u, In p (rev ps) /\ p_id p = id /\ entry p u /\ find_last (rev us) id = Some u).
  { revert Q F'. generalize (rev ps) (rev us). clear - Eq. intros l1 l2 Q F. induction F as [|p u l1 l2 En F IH]; [destruct Q|]. cbn [find_last].
    pose proof En as (_ & _ & _ & Ei & _). rewrite Ei. destruct (Z.eqb_spec (p_id p) id) as [X|X].
    - exists p, u. split; [left; auto|]. auto.
    - destruct Q as [->|Q]; [contradiction|]. destruct (IH Q) as (p' & u' & A & B). exists p', u'. split; [right; auto|auto]. }
  destruct G as (p & u & A & B). exists p, u. split; [apply in_rev; auto|auto].
Qed.

Lemma known_ok ps us bid : Forall2 entry ps us -> known (rev us ++ []) (Some bid) = Some (existsb (fun p => list_eqb (p_bid p) bid) ps).
Proof.
  intros F. rewrite app_nil_r.
  assert (F' : Forall2 entry (rev ps) (rev us)).
  { clear - F. induction F; cbn [rev]; [constructor|]. apply Forall2_app; auto. }
  replace (existsb (fun p => list_eqb (p_bid p) bid) ps) with (existsb (fun p => list_eqb (p_bid p) bid) (rev ps)).
  - revert F'. generalize (rev ps) (rev us). clear. intros l1 l2 F. induction F as [|p u l1 l2 En F IH]; [reflexivity|]. cbn [known existsb].
    destruct En as (_ & _ & -> & _). destruct (list_eqb (p_bid p) bid); auto.
  - clear. induction ps as [|p ps IH]; auto. cbn [rev existsb]. rewrite existsb_app, IH. cbn. rewrite orb_false_r. apply orb_comm.
Qed.

(** ** Removing *)
Lemma delete_detail fuel a nn e libc garbage s w err w' log u : calm e a libc ->
  delete_patch fuel a nn e libc garbage s w = Some (err, w', log, Some u) ->
  find_last (s_ulps s) (s_max s) = Some u /\
  (forall y, In y (w' :: log) -> forall x, kept e x -> ~ within (ld 8 (u_info u) ui_virtual) 16 x -> t_mem (w_t y) x = t_mem (w_t w) x) /\
  (err = 0 -> forall i, 0 <= i < 16 -> kept e (ld 8 (u_info u) ui_virtual + i) ->
     t_mem (w_t w') (ld 8 (u_info u) ui_virtual + i) = u_info u (ui_orig + i)).
Proof.
  intros C H. unfold delete_patch in H. destruct (find_last (s_ulps s) (s_max s)) as [u0|] eqn:Ef.
  2:{ apply some_quad in H. destruct H as (_ & _ & _ & X). discriminate. }
  destruct (task_attach fuel e w) as [[r1 w1]|] eqn:E1; [|discriminate]. cbv beta iota in H.
  assert (M1 : forall x, kept e x -> t_mem (w_t w1) x = t_mem (w_t w) x) by (intros x K; apply (attach_mem _ _ _ _ _ _ K E1)).
  destruct (negb (r1 =? 0)) eqn:Er1.
  { apply some_quad in H. destruct H as (<- & <- & <- & X). assert (u0 = u) by congruence. subst u0. split; auto. split; [|lia].
    intros y Hy x K _. assert (y = w1) by (cbn [In] in Hy; intuition). subst y. auto. }
  destruct (memcpy_to_task e w1 _ _ 16) as [n w2] eqn:E2.
  assert (M2 : forall x, kept e x -> ~ within (ld 8 (u_info u0) ui_virtual) 16 x -> t_mem (w_t w2) x = t_mem (w_t w) x).
  { intros x K N. rewrite (write_kept _ _ _ _ _ _ _ x (proj1 C) N E2). auto. }
  destruct ((n =? -1) || (n <? 16)) eqn:En.
  { apply some_quad in H. destruct H as (<- & <- & <- & X). assert (u0 = u) by congruence. subst u0. split; auto. split; [|unfold ENOEXEC; lia].
    intros y Hy x K N. assert (D : y = w1 \/ y = w2 \/ y = snd (task_detach e w2)) by (clear - Hy; cbn [In] in Hy; intuition).
    destruct D as [->|[->| ->]]; try rewrite detach_mem; auto. }
  destruct (task_munmap fuel a nn e libc garbage w2 _ _) as [[r3 w3]|] eqn:E3; [|discriminate]. cbv beta iota in H.
  assert (M3 : forall x, kept e x -> t_mem (w_t w3) x = t_mem (w_t w2) x) by (intros x K; apply (munmap_kept _ _ _ _ _ _ C _ _ _ _ _ x K E3)).
  apply some_quad in H. destruct H as (<- & <- & <- & X). assert (u0 = u) by congruence. subst u0. split; auto. split.
  - intros y Hy x K N. assert (D : y = w1 \/ y = w2 \/ y = w3 \/ y = snd (task_detach e w3)) by (clear - Hy; cbn [In] in Hy; destruct Hy as [<-|[<-|[<-|[<-|[<-|[]]]]]]; tauto).
    destruct D as [->|[->|[->| ->]]]; try rewrite detach_mem; auto; rewrite M3; auto.
  - intros E0 i Hi K. rewrite detach_mem, M3 by auto. rewrite (write_full _ _ _ _ _ _ _ (proj1 C) E2 En i Hi). reflexivity.
Qed.

(** ** Applying *)
Lemma alloc_ok ae f len : alloc_patch_file ae = Some (0, Some (f, len)) -> magic_ok f = true.
Proof.
  intros H. unfold alloc_patch_file in H. destruct (ae_file ae) as [l|]; [|discriminate]. cbv zeta in H.
  destruct (_ <? _); [discriminate|]. destruct (negb (ae_mmap ae) || _); [discriminate|]. destruct (negb (ae_copy ae)); [discriminate|].
  destruct (negb (magic_ok (of_bytes (firstn (Z.to_nat (u64 (s32 (TextModel.len l)))) l)))) eqn:Em; [discriminate|]. ob H. destruct (negb (z =? 0)); [discriminate|].
  apply some_inj in H. assert (f = of_bytes (firstn (Z.to_nat (u64 (s32 (TextModel.len l)))) l)) by congruence. subst f. destruct (magic_ok _); auto; discriminate.
Qed.

Section Init.
Variable fuel : nat.
Variable a : arch.
Variable nn : nrs.
Variable x86 : bool.
Variable e : env.
Variables libc garbage : Z.
Variable lookup : list Z -> option Z.
Variable reloc : Z -> linfo -> mem -> Z -> Z * mem.
Variables jmp now : Z.

Lemma init_detail s ae chown path span w err s' hdr w' log f len : calm e a libc ->
  init_patch fuel a nn x86 e libc garbage lookup reloc jmp now s ae chown path span w = Some (err, s', Some hdr, w', log) ->
  alloc_patch_file ae = Some (0, Some (f, len)) ->
  shared hdr = true -> byte_mem f -> tidy f len -> (forall li, setup_load_info f len = Some (inr li) -> reloc_safe (reloc hdr li) f hdr) ->
  (forall src dst taddr, redirects f src dst -> lookup dst = Some taddr ->
     (forall x, within hdr len x \/ within (taddr mod 2 ^ 64) 16 x -> kept e x) /\
     (forall x, within hdr len x -> ~ within (taddr mod 2 ^ 64) 16 x) /\
     (forall x, within (taddr mod 2 ^ 64) 16 x -> ~ name_buffer fuel a nn e libc garbage w path x)) ->
  (forall src dst taddr, redirects f src dst -> lookup dst = Some taddr ->
     forall u, In u (w' :: log) ->
       (forall x, kept e x -> ~ within hdr len x -> ~ within (taddr mod 2 ^ 64) 16 x -> ~ name_buffer fuel a nn e libc garbage w path x ->
          t_mem (w_t u) x = t_mem (w_t w) x) /\
       ((forall x, within (taddr mod 2 ^ 64) 16 x -> t_mem (w_t u) x = t_mem (w_t w) x) \/
        stored (t_mem (w_t u)) hdr f ((s_max s + 1) mod 2 ^ 32) (taddr mod 2 ^ 64) (t_mem (w_t w)))) /\
  (err = 0 -> exists li src dst taddr, setup_load_info f len = Some (inr li) /\ known (s_ulps s) (li_bid li) = Some false /\
     redirects f src dst /\ lookup dst = Some taddr /\ s' = Sess (s_ulps s) ((s_max s + 1) mod 2 ^ 32) /\
     stored (t_mem (w_t w')) hdr f ((s_max s + 1) mod 2 ^ 32) (taddr mod 2 ^ 64) (t_mem (w_t w)) /\
     forall i, 0 <= i < 16 -> t_mem (w_t w') (taddr mod 2 ^ 64 + i) = nth (Z.to_nat i) (le_bytes 8 jmp ++ le_bytes 8 (ld 8 (t_mem (w_t w')) (hdr + li_info li + 12))) 0).
Proof.
  intros C H AL Sh Hb T RS FN. unfold init_patch in H. rewrite AL in H. cbn [Z.eqb negb] in H.
  destruct (negb (chown =? 0)). { apply some_quint in H. destruct H as (_ & _ & X & _). discriminate. }
  ob H. destruct p as [[rt hd] w1]. cbv beta iota in H.
  destruct (negb (rt =? 0)) eqn:Er. { apply some_quint in H. destruct H as (_ & _ & X & _). discriminate. }
  ob H. rename z into h. cbv zeta in H. ob H. destruct p as [[[er2 s2] w2] lg]. cbv beta iota in H.
  set (w0 := sync h len f w1) in *.
  assert (Hh : h = hdr).
  { destruct (negb (er2 =? 0)); [ob H|]; apply some_quint in H; destruct H as (_ & _ & X & _); congruence. }
  subst h.
  assert (B : forall x, kept e x -> ~ name_buffer fuel a nn e libc garbage w path x -> ~ within hdr len x -> t_mem (w_t w0) x = t_mem (w_t w) x).
  { intros x K N Nh. unfold w0. rewrite sync_out by auto. apply (create_kept _ _ _ _ _ _ _ C _ _ _ _ _ _ _ x K N E). }
  destruct (load_detail _ _ _ _ _ _ _ _ _ _ _ _ _ _ _ (proj1 C) Sh Hb T RS (fun s1 d1 t1 R L => conj (proj1 (FN s1 d1 t1 R L)) (proj1 (proj2 (FN s1 d1 t1 R L)))) E1) as [LU LE].
  assert (Bv : forall src dst taddr, redirects f src dst -> lookup dst = Some taddr -> forall x, within (taddr mod 2 ^ 64) 16 x -> t_mem (w_t w0) x = t_mem (w_t w) x).
  { intros src dst taddr R L x Hx. destruct (FN _ _ _ R L) as (K & D & N). apply B; [apply K; auto|apply N; auto|]. intros Y. apply (D x); auto. }
  assert (Sto : forall m src dst taddr id, redirects f src dst -> lookup dst = Some taddr ->
     stored m hdr f id (taddr mod 2 ^ 64) (t_mem (w_t w0)) -> stored m hdr f id (taddr mod 2 ^ 64) (t_mem (w_t w))).
  { intros m src dst taddr id R L (X & Y). split; auto. intros info Hi. destruct (Y info Hi) as (Y1 & Y2 & Y3). split; auto. split; auto.
    intros i Hi16. rewrite Y3 by auto. apply (Bv src dst taddr R L). unfold within. lia. }
  assert (G : forall src dst taddr, redirects f src dst -> lookup dst = Some taddr ->
     forall u, In u (w2 :: w0 :: lg) ->
       (forall x, kept e x -> ~ within hdr len x -> ~ within (taddr mod 2 ^ 64) 16 x -> ~ name_buffer fuel a nn e libc garbage w path x ->
          t_mem (w_t u) x = t_mem (w_t w) x) /\
       ((forall x, within (taddr mod 2 ^ 64) 16 x -> t_mem (w_t u) x = t_mem (w_t w) x) \/
        stored (t_mem (w_t u)) hdr f ((s_max s + 1) mod 2 ^ 32) (taddr mod 2 ^ 64) (t_mem (w_t w)))).
  { intros src dst taddr R L u Hu. assert (D : u = w0 \/ In u (w2 :: lg)) by (clear - Hu; destruct Hu as [<-|[<-|Hu]]; cbn [In]; tauto). destruct D as [->|D].
    - split; [auto|]. left. apply (Bv src dst taddr R L).
    - destruct (LU src dst taddr R L u D) as [X Y]. split; [intros x K Nh Nv Nb; rewrite X by auto; apply B; auto|].
      destruct Y as [Y|Y]; [left|right; eapply Sto; eauto]. intros x Hx. rewrite Y by auto. apply (Bv src dst taddr R L); auto. }
  destruct (negb (er2 =? 0)) eqn:Er2.
  - ob H. rename w3 into wd. apply some_quint in H. destruct H as (<- & <- & _ & <- & <-). split; [|lia].
    intros src dst taddr R L u Hu.
    assert (D : u = wd \/ In u (w2 :: w0 :: lg)).
    { destruct Hu as [<-|Hu]; auto. cbn [app In] in Hu. destruct Hu as [<-|Hu]; [right; right; left; auto|]. apply in_app_or in Hu. destruct Hu as [Hu|[<-|[]]]; auto. right. right. right. auto. }
    destruct D as [->|D]; [|apply (G src dst taddr R L u D)].
    destruct (FN _ _ _ R L) as (K & Dj & N). destruct (G src dst taddr R L w2 ltac:(left; auto)) as [X Y].
    assert (Dk : forall x, kept e x -> t_mem (w_t wd) x = t_mem (w_t w2) x) by (intros x Kx; apply (delete_kept _ _ _ _ _ _ C _ _ _ _ x Kx E2)).
    split; [intros x Kx Nh Nv Nb; rewrite Dk by auto; auto|]. destruct Y as [Y|(Y1 & Y2)]; [left; intros x Hx; rewrite Dk by (apply K; auto); auto|].
    right. assert (Dh : forall i, 0 <= i < len -> t_mem (w_t wd) (hdr + i) = t_mem (w_t w2) (hdr + i)) by (intros i Hi; apply Dk, K; left; unfold within; lia).
    split; [intros x Hx; rewrite Dh by (apply (proj1 (proj2 T) x Hx)); auto|]. intros info Hi. destruct (Y2 info Hi) as (Z1 & Z2 & Z3).
    assert (Ii : 0 <= info /\ info + 64 <= len).
    { destruct Hi as (j & J1 & J2 & J3 & ->). split; [apply (ld_range 8); auto|apply (wf_info _ _ (proj1 T)); auto]. }
    split; [rewrite <- Z1; apply ld_ext; intros x Hx; replace x with (hdr + (x - hdr)) by lia; apply Dh; lia|].
    split; [rewrite <- Z2; apply ld_ext; intros x Hx; replace x with (hdr + (x - hdr)) by lia; apply Dh; lia|].
    intros i Hi16. rewrite <- Z3 by auto. replace (hdr + info + 28 + i) with (hdr + (info + 28 + i)) by lia. apply Dh. lia.
  - apply some_quint in H. destruct H as (<- & <- & _ & <- & <-). assert (er2 = 0) by lia. subst er2. split.
    + intros src dst taddr R L u Hu. apply (G src dst taddr R L). clear - Hu. cbn [app In] in *. tauto.
    + intros _. destruct (LE eq_refl) as (li & src & dst & taddr & X1 & X2 & X3 & X4 & X5 & X6 & X7). exists li, src, dst, taddr.
      split; auto. split; auto. split; auto. split; auto. split; auto. split; auto. eapply Sto; eauto.
Qed.
End Init.
