(** A process and a history of patches for the examples. *)
From Coq Require Import ZArith String List Bool Lia ZifyBool ZifyNat Permutation Sorted.
From Verif Require Import Word WordLemmas Str ElfDefs TextModel LdModel LdSpec LdProofs LdSyms LdMore LdEx LdProps X86RelocModel ScModel ScSpec ScProofs ScProps PaModel PaSpec PaRead PaProofs PaMore PaKick PaLoad PaSess PaHist PaX86 PaEx PaFin PaThm.
Import ListNotations.
Open Scope Z_scope.

(** ** A process and runs of the tool for the examples *)
(** A kernel that maps patches at [at_] and buffers at
    0x5000000, and opens files as 3. *)
Definition pa_kernel (at_ : Z) : kernel := fun nr args m =>
  (if nr =? 9 then (if nth 4 args 0 =? 2 ^ 64 - 1 then 0x5000000 else at_) else if nr =? 2 then 3 else 0, m).
Definition pa_wait (at_ : Z) : nat -> regs -> mem -> Z -> wres := fun n r m sig =>
  match x86_exec (pa_kernel at_) r m with
  | Some (r', m') => WStopped SIGTRAP r' m'
  | None => WStopped SIGSEGV r m
  end.
Definition pa_env_w (at_ : Z) (wr : nat -> Z -> Z -> option Z) : env :=
  Env (fun _ => None) (fun _ => None) (fun _ _ s => Some s) wr (fun _ => None) (pa_wait at_)
      (fun _ => None) (fun _ r m => WStopped SIGSTOP r m) (fun _ => None) (fun _ => 0xa5).
Definition pa_env (at_ : Z) : env := pa_env_w at_ (fun _ _ s => Some s).
Definition pa_jmp := 0x90900000000225ff.
Definition pa_run (e : env) (file : list Z) : run :=
  Run 4 x86_arch x86_nrs true e 0x7000 0 ex_lookup x86_reloc pa_jmp 1700000000 (AEnv (Some file) true true) 0 (str "/tmp/ulp-1-x") 0.
Definition pa_w : world := W (Tg (fun i => if i =? RIP then 0x1000 else 100 + i) (fun x => x mod 256) false) 0 [].
Definition K0 (x : Z) : Prop := 0x400000 <= x < 0x410000.

Definition o_err {A B C D} (o : option (Z * A * B * C * D)) : Z := match o with Some (x, _, _, _, _) => x | None => 99 end.
Definition o_sess (o : option (Z * session * option Z * world * list world)) : session := match o with Some (_, s, _, _, _) => s | None => Sess [] 0 end.
Definition o_world {A B C D} (o : option (A * B * C * world * D)) : world := match o with Some (_, _, _, w, _) => w | None => pa_w end.
Definition o_log {A B C D} (o : option (A * B * C * D * list world)) : list world := match o with Some (_, _, _, _, l) => l | None => [] end.
Lemma o_get (o : option (Z * session * option Z * world * list world)) err h :
  match o with Some (e, _, Some x, _, _) => (e =? err) && (x =? h) | _ => false end = true ->
  o = Some (err, o_sess o, Some h, o_world o, o_log o).
Proof. destruct o as [[[[[e s] [x|]] w] l]|]; try discriminate. intros H. cbn. assert (e = err /\ x = h) as [-> ->] by lia. reflexivity. Qed.

Definition q_world (o : option (Z * world * list world * option ulp)) : world := match o with Some (_, w, _, _) => w | None => pa_w end.
Definition q_log (o : option (Z * world * list world * option ulp)) : list world := match o with Some (_, _, l, _) => l | None => [] end.
Definition q_ulp (o : option (Z * world * list world * option ulp)) : ulp := match o with Some (_, _, _, Some u) => u | _ => Ulp 0 0 (fun _ => 0) None end.
Lemma q_get o err : match o with Some (e, _, _, Some _) => e =? err | _ => false end = true -> o = Some (err, q_world o, q_log o, Some (q_ulp o)).
Proof. destruct o as [[[[e w] l] [u|]]|]; try discriminate. intros H. cbn. assert (e = err) as -> by lia. reflexivity. Qed.

Definition p_sess (o : option (session * world)) : session := match o with Some (s, _) => s | None => Sess [] 0 end.
Definition p_world (o : option (session * world)) : world := match o with Some (_, w) => w | None => pa_w end.
Lemma p_get o : match o with Some _ => true | None => false end = true -> o = Some (p_sess o, p_world o).
Proof. destruct o as [[s w]|]; [reflexivity|discriminate]. Qed.

Lemma pa_kept a wr x : kept (pa_env_w a wr) x.
Proof.
  split; [|intros n r m; reflexivity]. intros n r m sig. cbn. unfold pa_wait, x86_exec, pa_kernel.
  destruct ((m (r RIP) =? 15) && (m (r RIP + 1) =? 5)); [|reflexivity]. destruct (m (r RIP + 2) =? 204); reflexivity.
Qed.
Lemma pa_calm a : calm (pa_env a) x86_arch 0x7000.
Proof. split; [intros n x s k [H|H]; cbn in H; assert (s = k) by congruence; lia|]. intros n. split; reflexivity. Qed.
Lemma pa_readable a v : readable (pa_env a) v.
Proof. intros n. split; reflexivity. Qed.
Lemma pa_whole a : whole_writes (pa_env a).
Proof. intros n d s k H. cbn in H. congruence. Qed.
Lemma pa_quiet a f vs : quiet K0 (pa_run (pa_env a) f) vs.
Proof. split; [apply pa_calm|]. split; [intros; apply pa_kept|]. apply Forall_forall. intros. apply pa_readable. Qed.

Lemma pa_buffer c w N x :
  (match task_attach (c_fuel c) (c_e c) w with
   | Some (_, w1) => match task_malloc (c_fuel c) (c_a c) (c_nn c) (c_e c) (c_libc c) (c_garbage c) w1 (Z.of_nat (List.length (c_path c)) + 1) with Some (n, _) => n =? N | None => false end
   | None => false end) = true -> buffer c w x -> within N (Z.of_nat (List.length (c_path c)) + 1) x.
Proof.
  intros H (w1 & n & w2 & A & B & D). rewrite A in H. rewrite B in H. assert (n = N) by lia. subst n. exact D.
Qed.

Lemma string_check m p s : negb (existsb (Z.eqb 0) s) && forallb (fun i => m (p + Z.of_nat i) =? nth i s 0) (seq 0 (List.length s)) && (m (p + Z.of_nat (List.length s)) =? 0) = true -> string_at m p s.
Proof.
  rewrite !andb_true_iff. intros [[A B] C]. split; [|split].
  - intros I. apply negb_true_iff in A. assert (existsb (Z.eqb 0) s = true); [|congruence]. apply existsb_exists. exists 0. auto.
  - intros i Hi. rewrite forallb_forall in B. specialize (B i ltac:(apply in_seq; lia)). lia.
  - lia.
Qed.

Lemma lay_redirects m : layout m = true -> string_at m 144 (str ".ULPATCH") -> string_at m 153 (str "new_fn") -> string_at m 160 (str "old_fn") ->
  sec_named m ".ulpatch.strtab" 3 -> redirects m (str "new_fn") (str "old_fn").
Proof.
  intros L A B C N. destruct (lay_t m L) as (E1 & E2 & E3). exists 3. rewrite E1, E2. split; [lia|]. split; [exact N|]. split.
  - intros i Hi X. pose proof (lay_strtab m L i ltac:(lia) X). lia.
  - cbv zeta. rewrite (off3 m L). split; [exact A|]. split; [exact B|exact C].
Qed.
Lemma ex_redirects : redirects ex_img (str "new_fn") (str "old_fn").
Proof. apply lay_redirects; [apply ex_layout|..]; apply string_check; vm_compute; reflexivity. Qed.
Lemma ex_redirects2 : redirects ex_img2 (str "new_fn") (str "old_fn").
Proof. apply lay_redirects; [apply ex_layout2|..]; apply string_check; vm_compute; reflexivity. Qed.

Lemma pa_good a : good_file (pa_run (pa_env a) ex_file) ex_img ex_len.
Proof.
  split; [vm_compute; reflexivity|]. split; [apply ex_bytes|]. split; [apply ex_tidy|]. split.
  - intros hdr li S. apply (lay_safe _ ex_len); [apply ex_bytes|apply ex_layout|apply C82_ex|vm_compute; discriminate|exact S].
  - intros li S. destruct C82_ex as [_ S']. rewrite S' in S. assert (li = ex_li) by congruence. subst. discriminate.
Qed.
Lemma pa_good2 a : good_file (pa_run (pa_env a) ex_file2) ex_img2 ex_len.
Proof.
  split; [vm_compute; reflexivity|]. split; [apply ex_bytes2|]. split; [apply ex_tidy2|]. split.
  - intros hdr li S. apply (lay_safe _ ex_len); [apply ex_bytes2|apply ex_layout2|apply ex_wf2|vm_compute; discriminate|exact S].
  - intros li S. rewrite ex_setup2 in S. assert (li = ex_li2) by congruence. subst. discriminate.
Qed.

(** The history: patch, patch again with another file (same function), a failed attempt
    (the first file again), the target runs, both patches are removed. *)
Definition run1 := pa_run (pa_env 0x7000000) ex_file.
Definition run2 := pa_run (pa_env 0x7100000) ex_file2.
Definition run3 := pa_run (pa_env 0x7200000) ex_file.
Definition v1 : Z * Z := (0x7000000, 0x7001000).
Definition v2 : Z * Z := (0x7100000, 0x7101000).
Definition open1 := open_session (c_e run1) pa_w [].
Definition out1 := do_patch run1 (p_sess open1) (p_world open1).
Definition m1 := t_mem (w_t (o_world out1)).
Definition restart (m : mem) : world := W (Tg (fun i => if i =? RIP then 0x1000 else 100 + i) m false) 0 [].
Definition open2 := open_session (c_e run2) (restart m1) [v1].
Definition out2 := do_patch run2 (p_sess open2) (p_world open2).
Definition m2 := t_mem (w_t (o_world out2)).
Definition open3 := open_session (c_e run3) (restart m2) [v1; v2].
Definition out3 := do_patch run3 (p_sess open3) (p_world open3).
Definition m3 := t_mem (w_t (o_world out3)).
Definition m4 : mem := fun x => if x =? 0x600000 then 1 else m3 x.
Definition open5 := open_session (c_e run3) (restart m4) [v1; v2].
Definition out5 := do_unpatch run3 (p_sess open5) (p_world open5).
Definition m5 := t_mem (w_t (q_world out5)).
Definition open6 := open_session (c_e run3) (restart m5) [v1].
Definition out6 := do_unpatch run3 (p_sess open6) (p_world open6).
Definition m6 := t_mem (w_t (q_world out6)).
Definition ex_events := [EPatch 0x7000000 0x402000 pa_jmp; EPatch 0x7100000 0x402000 pa_jmp; EFail; ERun; EUnpatch 0x7100000; EUnpatch 0x7000000].

Lemma perm_v : Permutation [v2; v1] [v1; v2]. Proof. apply perm_swap. Qed.
Lemma in_v12 x : in_vmas [v2; v1] x -> 0x7000000 <= x < 0x7200000.
Proof. intros (v & [<-|[<-|[]]] & H); cbn in H; lia. Qed.

Lemma restart_mem m : t_mem (w_t (restart m)) = m. Proof. reflexivity. Qed.

Lemma mk_patch c m m' vs vs' w f len src dst taddr fn hdr stop jmp o1 o2 :
  t_mem (w_t w) = m -> quiet K0 c vs -> Permutation vs vs' -> open_session (c_e c) w vs' = o1 -> (match o1 with Some _ => true | None => false end = true) ->
  do_patch c (p_sess o1) (p_world o1) = o2 -> (match o2 with Some (e, _, Some x, _, _) => (e =? 0) && (x =? hdr) | _ => false end = true) ->
  good_file c f len -> redirects f src dst -> c_lookup c dst = Some taddr -> fresh K0 c (p_world o1) vs hdr stop len ->
  taddr mod 2 ^ 64 = fn -> c_jmp c = jmp -> (forall x, within fn 16 x -> K0 x) ->
  m' = t_mem (w_t (o_world o2)) -> step K0 (m, vs) (EPatch hdr fn jmp) (m', (hdr, stop) :: vs).
Proof.
  intros Em Q P E1 G1 E2 G2 GF R L F <- <- Fk ->. apply p_get in G1. apply o_get in G2. rewrite G1 in E1. rewrite G2 in E2.
  exact (s_patch K0 c _ vs vs' w _ _ f len src dst taddr hdr stop _ _ _ Q Em P E1 E2 GF R L F Fk).
Qed.

Lemma mk_fail c m m' vs vs' w hdr err o1 o2 :
  t_mem (w_t w) = m -> quiet K0 c vs -> Permutation vs vs' -> open_session (c_e c) w vs' = o1 -> (match o1 with Some _ => true | None => false end = true) ->
  do_patch c (p_sess o1) (p_world o1) = o2 -> (match o2 with Some (e, _, Some x, _, _) => (e =? err) && (x =? hdr) | _ => false end = true) -> err <> 0 ->
  whole_writes (c_e c) -> (forall f len x, alloc_patch_file (c_ae c) = Some (0, Some (f, len)) -> within hdr len x -> ~ K0 x /\ ~ in_vmas vs x) ->
  (forall x, K0 x \/ in_vmas vs x -> ~ buffer c (p_world o1) x) ->
  m' = t_mem (w_t (o_world o2)) -> step K0 (m, vs) EFail (m', vs).
Proof.
  intros Em Q P E1 G1 E2 G2 Ne W H B ->. apply p_get in G1. apply o_get in G2. rewrite G1 in E1. rewrite G2 in E2.
  apply (s_fail K0 c _ vs vs' w _ _ err (Some hdr) _ _ _ Q Em P E1 E2 Ne W); [|exact B]. intros h f len E. assert (hdr = h) by congruence. subst h. intros AL x. apply (H f len x AL).
Qed.

Lemma mk_unpatch c m m' vs vs' w hdr stop vs2 o1 o2 :
  t_mem (w_t w) = m -> quiet K0 c vs -> Permutation vs vs' -> open_session (c_e c) w vs' = o1 -> (match o1 with Some _ => true | None => false end = true) ->
  do_unpatch c (p_sess o1) (p_world o1) = o2 -> (match o2 with Some (e, _, _, Some u) => (e =? 0) && (u_start u =? hdr) && (u_end u =? stop) | _ => false end = true) ->
  Permutation vs ((hdr, stop) :: vs2) -> m' = t_mem (w_t (q_world o2)) -> step K0 (m, vs) (EUnpatch hdr) (m', vs2).
Proof.
  intros Em Q P E1 G1 E2 G2 P2 ->. apply p_get in G1. rewrite G1 in E1. destruct o2 as [[[[e w2] l] [u|]]|]; try discriminate.
  rewrite !andb_true_iff in G2. assert (e = 0 /\ u_start u = hdr /\ u_end u = stop) as (-> & <- & <-) by lia.
  exact (s_unpatch K0 c _ vs vs' w _ _ _ _ _ _ Q Em P E1 E2 P2).
Qed.

Lemma ex_step1 : step K0 (t_mem (w_t pa_w), []) (EPatch 0x7000000 0x402000 pa_jmp) (m1, [v1]).
Proof.
  refine (mk_patch run1 (t_mem (w_t pa_w)) m1 [] [] pa_w ex_img ex_len (str "new_fn") (str "old_fn") 0x402000 0x402000 0x7000000 0x7001000 pa_jmp open1 out1
    _ (pa_quiet _ _ _) (Permutation_refl _) _ _ _ _ (pa_good _) ex_redirects _ _ eq_refl eq_refl _ _).
  - reflexivity.
  - unfold open1. reflexivity.
  - vm_compute. reflexivity.
  - unfold out1. reflexivity.
  - vm_compute. reflexivity.
  - vm_compute. reflexivity.
  - split; [reflexivity|]. split; [vm_compute; discriminate|]. split; [reflexivity|]. split; [|split; [intros; apply pa_kept|]].
    + intros x Hx. split; [unfold K0; lia|]. intros (v & [] & _).
    + intros x Hx B. apply (pa_buffer _ _ 0x5000000) in B; [|vm_compute; reflexivity]. unfold within in B. cbn in B. destruct Hx as [Hx|(v & [] & _)]. unfold K0 in Hx. lia.
  - intros x Hx. unfold within in Hx. unfold K0. lia.
  - unfold m1. reflexivity.
Qed.

Lemma ex_step2 : step K0 (m1, [v1]) (EPatch 0x7100000 0x402000 pa_jmp) (m2, [v2; v1]).
Proof.
  refine (mk_patch run2 m1 m2 [v1] [v1] (restart m1) ex_img2 ex_len (str "new_fn") (str "old_fn") 0x402000 0x402000 0x7100000 0x7101000 pa_jmp open2 out2
    (restart_mem _) (pa_quiet _ _ _) (Permutation_refl _) _ _ _ _ (pa_good2 _) ex_redirects2 _ _ eq_refl eq_refl _ _).
  - unfold open2. reflexivity.
  - vm_compute. reflexivity.
  - unfold out2. reflexivity.
  - vm_compute. reflexivity.
  - vm_compute. reflexivity.
  - split; [reflexivity|]. split; [vm_compute; discriminate|]. split; [reflexivity|]. split; [|split; [intros; apply pa_kept|]].
    + intros x Hx. split; [unfold K0; lia|]. intros (v & [<-|[]] & X). cbn in X. lia.
    + intros x Hx B. apply (pa_buffer _ _ 0x5000000) in B; [|vm_compute; reflexivity]. unfold within in B. cbn in B.
      destruct Hx as [Hx|(v & [<-|[]] & X)]; [unfold K0 in Hx|cbn in X]; lia.
  - intros x Hx. unfold within in Hx. unfold K0. lia.
  - unfold m2. reflexivity.
Qed.

Lemma ex_step3 : step K0 (m2, [v2; v1]) EFail (m3, [v2; v1]).
Proof.
  refine (mk_fail run3 m2 m3 [v2; v1] [v1; v2] (restart m2) 0x7200000 (- EALREADY) open3 out3 (restart_mem _) (pa_quiet _ _ _) perm_v _ _ _ _ _ (pa_whole _) _ _ _).
  - unfold open3. reflexivity.
  - vm_compute. reflexivity.
  - unfold out3. reflexivity.
  - vm_compute. reflexivity.
  - discriminate.
  - intros f len x AL Hx.
    assert (len = ex_len) by (destruct (pa_good 0x7200000) as (AL' & _); change (alloc_patch_file (c_ae run3) = Some (0, Some (ex_img, ex_len))) in AL'; congruence). subst len.
    unfold within, ex_len in Hx. split; [unfold K0; lia|]. intros X. apply in_v12 in X. lia.
  - intros x Hx B. apply (pa_buffer _ _ 0x5000000) in B; [|vm_compute; reflexivity]. unfold within in B. cbn in B.
    destruct Hx as [Hx|X]; [unfold K0 in Hx|apply in_v12 in X]; lia.
  - unfold m3. reflexivity.
Qed.

Lemma ex_step4 : step K0 (m3, [v2; v1]) ERun (m4, [v2; v1]).
Proof.
  apply s_run. intros x Hx. unfold m4. destruct (Z.eqb_spec x 0x600000); [|reflexivity]. destruct Hx as [Hx|X]; [unfold K0 in Hx|apply in_v12 in X]; lia.
Qed.

Lemma ex_step5 : step K0 (m4, [v2; v1]) (EUnpatch 0x7100000) (m5, [v1]).
Proof.
  refine (mk_unpatch run3 m4 m5 [v2; v1] [v1; v2] (restart m4) 0x7100000 0x7101000 [v1] open5 out5 (restart_mem _) (pa_quiet _ _ _) perm_v _ _ _ _ (Permutation_refl _) _);
    [unfold open5; reflexivity|vm_compute; reflexivity|unfold out5; reflexivity|vm_compute; reflexivity|unfold m5; reflexivity].
Qed.

Lemma ex_step6 : step K0 (m5, [v1]) (EUnpatch 0x7000000) (m6, []).
Proof.
  refine (mk_unpatch run3 m5 m6 [v1] [v1] (restart m5) 0x7000000 0x7001000 [] open6 out6 (restart_mem _) (pa_quiet _ _ _) (Permutation_refl _) _ _ _ _ (Permutation_refl _) _);
    [unfold open6; reflexivity|vm_compute; reflexivity|unfold out6; reflexivity|vm_compute; reflexivity|unfold m6; reflexivity].
Qed.

Lemma ex_steps : steps K0 (t_mem (w_t pa_w), []) ex_events (m6, []).
Proof.
  exact (steps_cons K0 _ _ _ _ _ ex_step1 (steps_cons K0 _ _ _ _ _ ex_step2 (steps_cons K0 _ _ _ _ _ ex_step3 (steps_cons K0 _ _ _ _ _ ex_step4
    (steps_cons K0 _ _ _ _ _ ex_step5 (steps_cons K0 _ _ _ _ _ ex_step6 (steps_nil K0 _))))))).
Qed.

(** The conditions of single runs are met. *)
Strategy expand [open1 open2 open3 open5 open6 out1 out2 out3 out5 out6 m1 m2 m3 m5 m6].
Lemma ex_dst f src dst taddr : redirects f (str "new_fn") (str "old_fn") -> redirects f src dst -> ex_lookup dst = Some taddr -> taddr mod 2 ^ 64 = 0x402000.
Proof. intros R0 R L. pose proof (redirects_fun _ _ _ _ _ R0 R). subst dst. vm_compute in L. assert (taddr = 0x402000) by congruence. subst. reflexivity. Qed.

Definition ap1 : applied := Applied 0x7000000 0x7001000 ex_img ex_len (str "deadbeef") 1 0x402000 (t_mem (w_t pa_w)).
Definition ap2 : applied := Applied 0x7100000 0x7101000 ex_img2 ex_len (str "01020304") 2 0x402000 (t_mem (w_t (restart m1))).

Lemma opened1 : opened (c_e run1) pa_w [] (p_sess open1) (p_world open1).
Proof. split; [constructor|]. split; [constructor|]. unfold open1 at 1. apply p_get. vm_compute. reflexivity. Qed.

Lemma mk_ok a file w ps f hdr stop : good_file (pa_run (pa_env a) file) f ex_len -> redirects f (str "new_fn") (str "old_fn") -> shared hdr = true -> hdr + ex_len <= stop -> stop - hdr < 2 ^ 64 ->
  (forall x, in_vmas (map p_range ps) x -> ~ within hdr ex_len x /\ ~ within 0x5000000 100 x /\ ~ within 0x402000 16 x) ->
  (match task_attach 4 (pa_env a) w with
   | Some (_, w1) => match task_malloc 4 x86_arch x86_nrs (pa_env a) 0x7000 0 w1 (Z.of_nat (List.length (str "/tmp/ulp-1-x")) + 1) with Some (n, _) => n =? 0x5000000 | None => false end
   | None => false end) = true ->
  0x6000000 <= hdr -> run_ok (pa_run (pa_env a) file) w ps f ex_len hdr stop.
Proof.
  intros GF R Sh S1 S2 V B Hh.
  assert (Bf : forall x, buffer (pa_run (pa_env a) file) w x -> within 0x5000000 100 x).
  { intros x Hx. apply (pa_buffer _ _ 0x5000000) in Hx; [|exact B]. unfold within in *. cbn in Hx. lia. }
  constructor; auto.
  - apply pa_calm.
  - intros x _. apply pa_kept.
  - intros x Hx Hv. exact (proj1 (V x Hv) Hx).
  - intros x Hv Hb. exact (proj1 (proj2 (V x Hv)) (Bf x Hb)).
  - intros src dst taddr Rd L x. rewrite (ex_dst f src dst taddr R Rd L). intros Hx. split; [apply pa_kept|]. split; [unfold within in *; lia|].
    split; [intros Hv; exact (proj2 (proj2 (V x Hv)) Hx)|]. intros Hb. apply Bf in Hb. unfold within in *. lia.
Qed.

Lemma ok1 : run_ok run1 (p_world open1) [] ex_img ex_len 0x7000000 0x7001000.
Proof.
  apply mk_ok; [apply pa_good|apply ex_redirects|reflexivity|vm_compute; discriminate|reflexivity| |vm_compute; reflexivity|lia].
  intros x (v & [] & _).
Qed.

Lemma out1_is : do_patch run1 (p_sess open1) (p_world open1) = Some (0, o_sess out1, Some 0x7000000, o_world out1, o_log out1).
Proof.
  assert (G : out1 = Some (0, o_sess out1, Some 0x7000000, o_world out1, o_log out1)) by (apply o_get; vm_compute; reflexivity).
  unfold out1 at 1 in G. exact G.
Qed.

Lemma ap1_present : present m1 ap1.
Proof.
  unfold m1, ap1. apply (new_present run1 (p_world open1) [] ex_img ex_len 0x7000000 0x7001000 (o_world out1) ex_li (str "deadbeef") 0x402000 pa_w ok1);
    [apply C82_ex|reflexivity|].
  destruct (run_detail _ _ _ _ _ _ _ _ _ _ _ _ _ opened1 ok1 out1_is) as [_ A]. destruct (A eq_refl) as (li & src & dst & taddr & _ & _ & R & L & _ & S).
  rewrite (ex_dst ex_img src dst taddr ex_redirects R L) in S. exact S.
Qed.

Lemma opened2 : opened (c_e run2) (restart m1) [ap1] (p_sess open2) (p_world open2).
Proof. split; [constructor; [apply pa_readable|constructor]|]. split; [rewrite restart_mem; constructor; [exact ap1_present|constructor]|]. unfold open2 at 1. apply p_get. vm_compute. reflexivity. Qed.

Lemma ok2 : run_ok run2 (p_world open2) [ap1] ex_img2 ex_len 0x7100000 0x7101000.
Proof.
  apply mk_ok; [apply pa_good2|apply ex_redirects2|reflexivity|vm_compute; discriminate|reflexivity| |vm_compute; reflexivity|lia].
  intros x (v & [<-|[]] & X). cbn in X. unfold within, ex_len. lia.
Qed.

Lemma out2_is : do_patch run2 (p_sess open2) (p_world open2) = Some (0, o_sess out2, Some 0x7100000, o_world out2, o_log out2).
Proof.
  assert (G : out2 = Some (0, o_sess out2, Some 0x7100000, o_world out2, o_log out2)) by (apply o_get; vm_compute; reflexivity).
  unfold out2 at 1 in G. exact G.
Qed.

Lemma ap2_present : present m2 ap2.
Proof.
  unfold m2, ap2. apply (new_present run2 (p_world open2) [ap1] ex_img2 ex_len 0x7100000 0x7101000 (o_world out2) ex_li2 (str "01020304") 0x402000 (restart m1) ok2);
    [apply ex_setup2|reflexivity|].
  destruct (run_detail _ _ _ _ _ _ _ _ _ _ _ _ _ opened2 ok2 out2_is) as [_ A]. destruct (A eq_refl) as (li & src & dst & taddr & _ & _ & R & L & _ & S).
  rewrite (ex_dst ex_img2 src dst taddr ex_redirects2 R L) in S. exact S.
Qed.

Lemma lookup2 : c_lookup run2 (str "old_fn") = Some 0x402000.
Proof. vm_compute. reflexivity. Qed.

Lemma in_head A (x : A) l : In x (x :: l).
Proof. left. reflexivity. Qed.

Lemma ap1_still : present m2 ap1.
Proof.
  pose proof (still_present run2 (restart m1) [ap1] (p_sess open2) (p_world open2) ex_img2 ex_len 0x7100000 0x7101000 0 (o_sess out2) (o_world out2) (o_log out2) (o_world out2)
    (str "new_fn") (str "old_fn") 0x402000 opened2 ok2 out2_is (in_head _ _ _) ex_redirects2 lookup2) as F.
  unfold m2. exact (Forall_inv F).
Qed.

Lemma opened3 : opened (c_e run3) (restart m2) [ap1; ap2] (p_sess open3) (p_world open3).
Proof.
  split; [repeat constructor; apply pa_readable|]. split; [rewrite restart_mem; constructor; [exact ap1_still|constructor; [exact ap2_present|constructor]]|]. unfold open3 at 1. apply p_get. vm_compute. reflexivity.
Qed.
