(** Sessions with any patches present: identifiers, duplicates, recovery. *)
From Coq Require Import ZArith String List Bool Lia ZifyBool ZifyNat Permutation Sorted.
From Verif Require Import Word WordLemmas Str ElfDefs TextModel LdModel LdSpec LdProofs LdSyms LdMore ScModel ScSpec ScProofs PaModel PaSpec PaRead PaProofs PaMore PaKick PaLoad PaSess PaHist PaFin.
Import ListNotations.
Open Scope Z_scope.

(** A session is opened while the patches [ps] are present (in the order of the memory map). *)
Definition opened (e : env) (w : world) (ps : list applied) (s : session) (w1 : world) : Prop :=
  Forall (fun p => readable e (p_range p)) ps /\ Forall (present (t_mem (w_t w))) ps /\ open_session e w (map p_range ps) = Some (s, w1).

Lemma opened_is e w ps s w1 : opened e w ps s w1 ->
  exists us, s = Sess (rev us ++ []) (max_of ps 0) /\ Forall2 entry ps us /\ w_t w1 = w_t w.
Proof.
  intros (R & P & H). destruct (load_ulps_ok e ps (Sess [] 0) w R P) as (us & w' & E & F & Ew). unfold open_session in H. rewrite E in H.
  apply some_pair2 in H. destruct H as [<- <-]. exists us. cbn [s_ulps s_max]. auto.
Qed.

Lemma opened_max e w ps s w1 : opened e w ps s w1 -> s_max s = max_of ps 0.
Proof. intros H. destruct (opened_is _ _ _ _ _ H) as (us & -> & _). reflexivity. Qed.

Lemma entries_ids ps us id : Forall2 entry ps us -> Forall (fun p => p_id p <> id) ps -> Forall (fun u => ld 4 (u_info u) ui_id <> id) (rev us).
Proof.
  intros F H. apply Forall_rev. induction F as [|p u ps us En F IH]; [constructor|]. apply Forall_cons_iff in H. destruct H as [H1 H2]. constructor; [|auto].
  destruct En as (_ & _ & _ & -> & _). auto.
Qed.

(** Removing the patch with the largest number. *)
Lemma remove_newest fuel a nn e libc garbage w ps s w1 p rest w' log u : calm e a libc -> opened e w ps s w1 -> Permutation (p :: rest) ps ->
  Forall (fun q => p_id q < p_id p) rest -> 0 <= p_id p ->
  delete_patch fuel a nn e libc garbage s w1 = Some (0, w', log, u) ->
  (exists v, u = Some v /\ u_start v = p_start p /\ u_end v = p_stop p) /\
  (forall y, In y (w' :: log) -> forall x, kept e x -> ~ within (p_fun p) 16 x -> t_mem (w_t y) x = t_mem (w_t w) x) /\
  forall i, 0 <= i < 16 -> kept e (p_fun p + i) -> t_mem (w_t w') (p_fun p + i) = p_old p (p_fun p + i).
Proof.
  intros C O Pm Big P0 H. destruct (opened_is _ _ _ _ _ O) as (us & -> & F & Ew).
  assert (Hp : In p ps) by (apply (Permutation_in _ Pm); left; auto). rewrite Forall_forall in Big.
  assert (Hq : forall q, In q ps -> q = p \/ In q rest) by (intros q Hq; apply (Permutation_in _ (Permutation_sym Pm)) in Hq; destruct Hq; auto).
  assert (Mx : max_of ps 0 = p_id p).
  { destruct (max_of_ge ps 0) as [G0 G]. rewrite Forall_forall in G. specialize (G p Hp). destruct (max_of_in ps 0) as [E|(q & Hi & E)]; [lia|].
    destruct (Hq q Hi) as [->|Hr]; [auto|]. specialize (Big q Hr). lia. }
  destruct (find_last_ok ps us (max_of ps 0) F p Hp (eq_sym Mx)) as (q & v & Hi & Iq & En & FL).
  assert (q = p). { destruct (Hq q Hi) as [->|Hr]; [auto|]. specialize (Big q Hr). lia. } subst q.
  destruct u as [u|].
  2:{ unfold delete_patch in H. cbn [s_ulps s_max] in H. rewrite FL in H. clear - H. exfalso. destruct (task_attach fuel e w1) as [[r1 w2]|]; [|discriminate]. cbv beta iota in H.
      destruct (negb (r1 =? 0)). { apply some_quad in H. destruct H as (_ & _ & _ & X). discriminate. }
      destruct (memcpy_to_task _ _ _ _ _) as [n w3]. destruct (_ || _). { apply some_quad in H. destruct H as (_ & _ & _ & X). discriminate. }
      destruct (task_munmap _ _ _ _ _ _ _ _ _) as [[r2 w4]|]; [|discriminate]. cbv beta iota zeta in H. apply some_quad in H. destruct H as (_ & _ & _ & X). discriminate. }
  destruct (delete_detail _ _ _ _ _ _ _ _ _ _ _ _ C H) as (FL' & Fx & FO). cbn [s_ulps s_max] in FL'. rewrite FL in FL'. assert (v = u) by congruence. subst v.
  destruct En as (E1 & E2 & _ & _ & E5 & E6). rewrite E5, Ew in *. split; [eauto|]. split; [exact Fx|].
  intros i Hi16 Ki. rewrite <- E6 by auto. apply FO; auto.
Qed.

(** A patch removed in the session in which it was applied: not found. *)
Lemma same_session fuel a nn e e2 libc garbage w w2 ps s w1 : opened e w ps s w1 -> max_of ps 0 < 2 ^ 32 - 1 ->
  delete_patch fuel a nn e2 libc garbage (Sess (s_ulps s) ((s_max s + 1) mod 2 ^ 32)) w2 = Some (- ENOENT, w2, [], None).
Proof.
  intros O B. destruct (opened_is _ _ _ _ _ O) as (us & -> & F & Ew). cbn [s_ulps s_max]. destruct (max_of_ge ps 0) as [G0 G].
  rewrite Z.mod_small by lia. unfold delete_patch. cbn [s_ulps s_max]. rewrite find_none; [reflexivity|]. rewrite app_nil_r. apply (entries_ids ps); auto.
  rewrite Forall_forall in *. intros p Hp. specialize (G p Hp). lia.
Qed.

(** One run of the tool applies a patch file made by the compiler: the conditions of
    [step] for a single run. *)
Record run_ok (c : run) (w : world) (ps : list applied) (f : mem) (len hdr stop : Z) : Prop := {
  r_calm : calm (c_e c) (c_a c) (c_libc c);
  r_file : good_file c f len;
  r_shared : shared hdr = true;
  r_stop : hdr + len <= stop /\ stop - hdr < 2 ^ 64;
  r_kept : forall x, within hdr len x \/ in_vmas (map p_range ps) x -> kept (c_e c) x;
  r_new : forall x, within hdr len x -> ~ in_vmas (map p_range ps) x;
  r_buf : forall x, in_vmas (map p_range ps) x -> ~ buffer c w x;
  r_fun : forall src dst taddr, redirects f src dst -> c_lookup c dst = Some taddr ->
     forall x, within (taddr mod 2 ^ 64) 16 x -> kept (c_e c) x /\ ~ within hdr len x /\ ~ in_vmas (map p_range ps) x /\ ~ buffer c w x }.

Lemma run_detail c w ps s w1 f len hdr stop err s' w2 log : opened (c_e c) w ps s w1 -> run_ok c w1 ps f len hdr stop ->
  do_patch c s w1 = Some (err, s', Some hdr, w2, log) ->
  (forall src dst taddr, redirects f src dst -> c_lookup c dst = Some taddr ->
     forall u, In u (w2 :: log) ->
       (forall x, kept (c_e c) x -> ~ within hdr len x -> ~ within (taddr mod 2 ^ 64) 16 x -> ~ buffer c w1 x -> t_mem (w_t u) x = t_mem (w_t w) x) /\
       ((forall x, within (taddr mod 2 ^ 64) 16 x -> t_mem (w_t u) x = t_mem (w_t w) x) \/
        stored (t_mem (w_t u)) hdr f ((max_of ps 0 + 1) mod 2 ^ 32) (taddr mod 2 ^ 64) (t_mem (w_t w)))) /\
  (err = 0 -> exists li src dst taddr, setup_load_info f len = Some (inr li) /\ known (s_ulps s) (li_bid li) = Some false /\
     redirects f src dst /\ c_lookup c dst = Some taddr /\ s' = Sess (s_ulps s) ((s_max s + 1) mod 2 ^ 32) /\
     stored (t_mem (w_t w2)) hdr f ((max_of ps 0 + 1) mod 2 ^ 32) (taddr mod 2 ^ 64) (t_mem (w_t w))).
Proof.
  intros O R H. assert (Mx := opened_max _ _ _ _ _ O). destruct (opened_is _ _ _ _ _ O) as (us & _ & _ & Ew). destruct R as [CM GF Sh St Kp Nw Bf Fn].
  destruct GF as (AL & Hb & T & RS & BI).
  destruct (init_detail _ _ _ _ _ _ _ _ _ _ _ _ _ _ _ _ _ _ _ _ _ _ _ _ CM H AL Sh Hb T (RS hdr)) as [IU IE].
  { intros src dst taddr R L. split; [|split].
    - intros x [Hx|Hx]; [apply Kp; auto|exact (proj1 (Fn src dst taddr R L x Hx))].
    - intros x Hx Hv. exact (proj1 (proj2 (Fn src dst taddr R L x Hv)) Hx).
    - intros x Hv. exact (proj2 (proj2 (proj2 (Fn src dst taddr R L x Hv)))). }
  rewrite Ew, Mx in *. split; [exact IU|]. intros E. destruct (IE E) as (li & src & dst & taddr & A & B & C & D & E' & F & _). exists li, src, dst, taddr. auto 10.
Qed.

(** The patches that were there, and the new one, in a state in which the record is written. *)
Lemma still_present c w ps s w1 f len hdr stop err s' w2 log u src dst taddr : opened (c_e c) w ps s w1 -> run_ok c w1 ps f len hdr stop ->
  do_patch c s w1 = Some (err, s', Some hdr, w2, log) -> In u (w2 :: log) -> redirects f src dst -> c_lookup c dst = Some taddr ->
  Forall (present (t_mem (w_t u))) ps.
Proof.
  intros O R H Hu Rd L. destruct (run_detail _ _ _ _ _ _ _ _ _ _ _ _ _ O R H) as [A _]. destruct (A src dst taddr Rd L u Hu) as [Fx _].
  pose proof O as (_ & P & _). rewrite Forall_forall in *. intros p Hp. apply (present_ext (fun _ => True) (t_mem (w_t w))); [|auto].
  intros x Hx. assert (V : in_vmas (map p_range ps) x) by (exists (p_range p); split; [apply in_map; auto|exact Hx]).
  apply Fx; [apply (r_kept _ _ _ _ _ _ _ R); auto| | |apply (r_buf _ _ _ _ _ _ _ R); auto].
  - intros Hw. apply (r_new _ _ _ _ _ _ _ R x Hw V).
  - intros Hv. destruct (r_fun _ _ _ _ _ _ _ R src dst taddr Rd L x Hv) as (_ & _ & X & _). auto.
Qed.

Lemma new_present c w1 ps f len hdr stop u li bid taddr w : run_ok c w1 ps f len hdr stop -> setup_load_info f len = Some (inr li) -> li_bid li = Some bid ->
  stored (t_mem (w_t u)) hdr f ((max_of ps 0 + 1) mod 2 ^ 32) (taddr mod 2 ^ 64) (t_mem (w_t w)) ->
  present (t_mem (w_t u)) (Applied hdr stop f len bid ((max_of ps 0 + 1) mod 2 ^ 32) (taddr mod 2 ^ 64) (t_mem (w_t w))).
Proof.
  intros R SU Eb St. split; [|exact St]. destruct (r_file _ _ _ _ _ _ _ R) as (AL & Hb & T & _). destruct (r_stop _ _ _ _ _ _ _ R).
  split; [exact Hb|]. split; [exact T|]. split; [eapply alloc_ok; eauto|]. split; [auto|]. split; [auto|]. exists li. split; auto.
Qed.
