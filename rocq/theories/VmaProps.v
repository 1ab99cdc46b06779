(** Properties of the memory map: C08-C11, C72-C75. *)
From Coq Require Import ZArith String List Bool Lia Sorted.
From Verif Require Import Word RbModel RbSpec RbPure RbWalk Str VmaModel VmaSpec VmaProofs.
Import ListNotations.
Open Scope Z_scope.

(** ** An example process: three mappings, reported in no particular order. *)
Definition ex_info (v : Z) : vinfo :=
  if v =? 16 then Vi 4202496 4206592 (str "/bin/a")
  else if v =? 32 then Vi 4194304 4202496 (str "/bin/a")
  else if v =? 48 then Vi 140000000000000 140000000004096 (str "[stack]")
  else if v =? 64 then Vi 4202496 4206592 (str "/bin/a")
  else if v =? 80 then Vi 4206592 4210688 (str "ulp-1")
  else Vi 0 0 [].
Definition ex_root : vroot :=
  Vr (Rbs (fun x => if (0 <? x) && (x mod 16 =? 0) then Some (Rbn 0 0 0) else None) 0) [] (fun _ => 0).

Lemma ex_map : memory_map ex_info [16; 32; 48].
Proof.
  split; [repeat constructor; vm_compute; congruence|]. split; [repeat constructor; cbn; intuition lia|].
  intros a b Ha Hb N. cbn in Ha, Hb.
  destruct Ha as [<-|[<-|[<-|[]]]], Hb as [<-|[<-|[<-|[]]]]; try congruence;
    ((left; vm_compute; congruence) || (right; vm_compute; congruence)).
Qed.

Lemma ex_alloc : allocated ex_root [16; 32; 48].
Proof. repeat constructor; cbn; discriminate. Qed.

(** ** C08 *)

Theorem C08_lookup_exact : forall info s vs fuel,
  rootp (v_rb s) = 0 -> memory_map info vs -> allocated s vs -> (List.length vs < fuel)%nat ->
  exists s', read_task_vmas fuel info false s vs = Some s' /\ lookup_exact fuel info s' vs.
Proof.
  intros info s vs fuel H M A F. destruct (read_map info s vs fuel H M A F) as (s' & l & E & I & S & _ & G & _).
  exists s'. split; auto. eapply exact_same; eauto. lia.
Qed.
Print Assumptions C08_lookup_exact.

Example C08_lookup_exact_ex :
  rootp (v_rb ex_root) = 0 /\ memory_map ex_info [16; 32; 48] /\ allocated ex_root [16; 32; 48] /\
  match read_task_vmas 4 ex_info false ex_root [16; 32; 48] with
  | Some s => find_vma 4 ex_info s 4202495 = Some 32 /\ find_vma 4 ex_info s 4202496 = Some 16 /\
              find_vma 4 ex_info s 4206592 = Some 0
  | None => False
  end.
Proof.
  split; [reflexivity|]. split; [exact ex_map|]. split; [exact ex_alloc|]. vm_compute. auto.
Qed.

(** Unmapping through the tool's own records keeps the answer exact. *)
Theorem C08_lookup_exact_after_unlink : forall info s vs fuel v,
  rootp (v_rb s) = 0 -> memory_map info vs -> allocated s vs -> (List.length vs < fuel)%nat -> In v vs ->
  exists s' s'', read_task_vmas fuel info false s vs = Some s' /\ unlink_vma fuel s' v = Some s'' /\
    lookup_exact fuel info s'' (remove Z.eq_dec v vs).
Proof.
  intros info s vs fuel v H M A F Hv. destruct (read_map info s vs fuel H M A F) as (s' & l & E & I & S & _ & G & _).
  destruct (unlink_step info s' l v fuel I (proj2 (S v) Hv) ltac:(lia)) as (s'' & L & R & U & -> & I' & _).
  exists s', s''. split; auto. split; auto. eapply exact_same; eauto.
  - rewrite app_length in *. cbn [List.length] in G. lia.
  - pose proof (index_nodup _ _ _ I) as Nd. pose proof (NoDup_remove_2 _ _ _ Nd) as N2.
    intros x. split; intros Hx.
    + apply in_in_remove; [intros ->; auto|]. apply S. apply in_app_iff in Hx. apply in_app_iff.
      destruct Hx; auto. right; right; auto.
    + apply in_remove in Hx. destruct Hx as [Hx Nx]. apply S in Hx. apply in_app_iff in Hx. apply in_app_iff.
      destruct Hx as [Hx|[Hx|Hx]]; auto. congruence.
Qed.
Print Assumptions C08_lookup_exact_after_unlink.

Example C08_lookup_exact_after_unlink_ex :
  match read_task_vmas 4 ex_info false ex_root [16; 32; 48] with
  | Some s => match unlink_vma 4 s 16 with
              | Some s' => find_vma 4 ex_info s' 4202496 = Some 0 /\ find_vma 4 ex_info s' 4202495 = Some 32
              | None => False
              end
  | None => False
  end.
Proof. vm_compute. auto. Qed.

(** ** C09 *)

(** For every index that holds the mappings of a non-empty map.  A non-zero answer
    is a free range; answer 0 means that no two neighbours leave enough room. *)
Theorem C09_hole_is_free : forall info s vs fuel size base,
  rootp (v_rb s) = 0 -> memory_map info vs -> vs <> [] -> allocated s vs -> (List.length vs < fuel)%nat ->
  0 <= size < 2 ^ 64 -> 0 <= base < 2 ^ 64 ->
  exists s' r, read_task_vmas fuel info false s vs = Some s' /\
    find_vma_span_area fuel fuel info s' size base = Some r /\
    (r <> 0 -> 0 < r /\ r + size < 2 ^ 64 /\
       forall x v, In v vs -> r <= x < r + size -> ~ covers info v x) /\
    (r = 0 -> forall a b, In a vs -> In b vs -> vm_end (info a) <= vm_start (info b) ->
       (forall v, In v vs -> vm_end (info v) <= vm_end (info a) \/ vm_start (info b) <= vm_start (info v)) ->
       vm_start (info b) - vm_end (info a) < size).
Proof.
  intros info s vs fuel size base H M Ne A F Hs Hb.
  destruct (read_map info s vs fuel H M A F) as (s' & l & E & I & S & _ & G & _).
  exists s'. destruct I as (t & Ht & Hrb & Hio & Hso & Hp).
  pose proof (height_size t) as Hh. unfold RbSpec.size in Hh. rewrite Hio in Hh.
  destruct l as [|a l].
  { exfalso. destruct vs as [|v vs]; [contradiction|]. apply (S v). left. auto. }
  assert (Fi : rb_first fuel (v_rb s') = Some a).
  { rewrite (rb_first_ok (v_rb s') t fuel Ht ltac:(cbn [List.length] in *; lia)). rewrite Hio. reflexivity. }
  assert (Za : a <> 0).
  { eapply index_nonzero; [exists t; eauto 10|left; auto]. }
  assert (Pa : proper info a) by (inversion Hp; auto).
  destruct (span_ok info s' (a :: l) t size fuel fuel l [] a Ht Hio Hso Hp ltac:(lia)
              ltac:(cbn [List.length] in *; lia) eq_refl ltac:(cbn [List.length] in *; lia)) as (r & R1 & R2).
  assert (Hall : forall r, (0 < r /\ r + size < 2 ^ 64 /\
                   forall v, In v (a :: l) -> vm_end (info v) <= r \/ r + size <= vm_start (info v)) ->
                 0 < r /\ r + size < 2 ^ 64 /\ forall x v, In v vs -> r <= x < r + size -> ~ covers info v x).
  { intros q (Q1 & Q2 & Q3). split; auto. split; auto. intros x v Hv Hx Hc. apply S in Hv. specialize (Q3 v Hv).
    unfold covers in Hc. lia. }
  assert (Hloop : exists r, span_loop fuel fuel info s' size a = Some r /\
    (r <> 0 -> 0 < r /\ r + size < 2 ^ 64 /\
       forall x v, In v vs -> r <= x < r + size -> ~ covers info v x) /\
    (r = 0 -> forall a b, In a vs -> In b vs -> vm_end (info a) <= vm_start (info b) ->
       (forall v, In v vs -> vm_end (info v) <= vm_end (info a) \/ vm_start (info b) <= vm_start (info v)) ->
       vm_start (info b) - vm_end (info a) < size)).
  { exists r. split; auto. destruct R2 as [[-> R2]|R2].
    - split; [intros C; congruence|]. intros _ u w Hu Hw Huw Hn.
      apply S in Hu. apply S in Hw. apply in_split in Hu. destruct Hu as (L & R & EL).
      assert (Hw2 : In w R).
      { pose proof Hso as S2. rewrite EL in S2, Hw. destruct (sorted_app_inv _ _ _ _ S2) as [F1 F2].
        rewrite Forall_forall in F1, F2.
        rewrite Forall_forall in Hp. assert (Pw : proper info w) by (apply Hp; rewrite EL; auto).
        assert (Pu : proper info u) by (apply Hp; rewrite EL; apply in_app_iff; right; left; auto).
        apply in_app_iff in Hw. destruct Hw as [Hw|[<-|Hw]]; auto; exfalso.
        - specialize (F1 w Hw). unfold before, proper in *. lia.
        - unfold proper in *. lia. }
      destruct R as [|z R]; [destruct Hw2|].
      specialize (R2 L u z R EL).
      assert (Hz : vm_start (info w) <= vm_start (info z)).
      { destruct (Hn z) as [Z1|Z1]; auto.
        { apply S. rewrite EL. apply in_app_iff. right; right; left; auto. }
        pose proof Hso as S2. rewrite EL in S2. destruct (sorted_app_inv _ _ _ _ S2) as [_ F2].
        inversion F2; subst. rewrite Forall_forall in Hp. assert (Pz : proper info z) by (apply Hp; rewrite EL; apply in_app_iff; right; right; left; auto).
        unfold before, proper in *. lia. }
      lia.
    - split; [intros _; apply Hall; auto|]. intros ->. lia. }
  unfold find_vma_span_area. rewrite Fi.
  destruct (negb (base =? 0) && (MIN_ULP_START_VMA_ADDR <=? base)) eqn:Bc.
  - destruct (Z.eqb_spec a 0) as [|_]; [contradiction|].
    destruct ((base <? vm_start (info a)) && (size <=? u64 (vm_start (info a) - base))) eqn:Bd.
    + exists base. split; auto. split; auto.
      apply andb_true_iff in Bc. destruct Bc as [B1 B2]. apply andb_true_iff in Bd. destruct Bd as [B3 B4].
      apply negb_true_iff, Z.eqb_neq in B1. apply Z.ltb_lt in B3. apply Z.leb_le in B4, B2.
      unfold u64, wrap in B4. rewrite Z.mod_small in B4 by (unfold proper in Pa; lia).
      split; [intros _; apply Hall|intros; congruence].
      split; [lia|]. split; [unfold proper in Pa; lia|]. intros v [<-|Hv]; [right; lia|].
      right. inversion Hso; subst. rewrite Forall_forall in H3. specialize (H3 v Hv). unfold before, proper in *. lia.
    + destruct Hloop as (q & Q1 & Q2). exists q. rewrite Q1. auto.
  - destruct Hloop as (q & Q1 & Q2). exists q. rewrite Q1. auto.
Qed.
Print Assumptions C09_hole_is_free.

Example C09_hole_is_free_ex :
  match read_task_vmas 4 ex_info false ex_root [16; 32; 48] with
  | Some s => find_vma_span_area 4 4 ex_info s 8192 4194304 = Some 4206592 /\
              find_vma_span_area 4 4 ex_info s (2 ^ 60) 4194304 = Some 0
  | None => False
  end.
Proof. vm_compute. auto. Qed.

(** ** C10 *)

Theorem C10_perms_to_prot : forall p0 p1 p2,
  (Z.testbit (vma_perms2prot p0 p1 p2) 0 = true <-> p0 = 114) /\
  (Z.testbit (vma_perms2prot p0 p1 p2) 1 = true <-> p1 = 119) /\
  (Z.testbit (vma_perms2prot p0 p1 p2) 2 = true <-> p2 = 120) /\
  (forall i, 3 <= i -> Z.testbit (vma_perms2prot p0 p1 p2) i = false).
Proof.
  intros p0 p1 p2. rewrite !prot_bits. 
  split; [destruct (Z.eqb_spec p0 114); cbn; intuition congruence|].
  split; [destruct (Z.eqb_spec p1 119); cbn; intuition congruence|].
  split; [destruct (Z.eqb_spec p2 120); cbn; intuition congruence|]. intros i Hi. rewrite prot_bits.
  rewrite (proj2 (Z.eqb_neq i 0)), (proj2 (Z.eqb_neq i 1)), (proj2 (Z.eqb_neq i 2)) by lia. reflexivity.
Qed.
Print Assumptions C10_perms_to_prot.

Example C10_perms_to_prot_ex : vma_perms2prot 114 45 120 = 5.
Proof. reflexivity. Qed.

Theorem C10_prot_to_flags : forall prot,
  (Z.testbit (vma_prot2flags prot) 2 = Z.testbit prot 0) /\
  (Z.testbit (vma_prot2flags prot) 1 = Z.testbit prot 1) /\
  (Z.testbit (vma_prot2flags prot) 0 = Z.testbit prot 2) /\
  (forall i, 3 <= i -> Z.testbit (vma_prot2flags prot) i = false).
Proof.
  intros prot. rewrite !flag_bits. cbn [Z.eqb andb orb]. rewrite ?orb_false_r.
  split; [reflexivity|]. split; [reflexivity|]. split; [reflexivity|]. intros i Hi. rewrite flag_bits.
  rewrite (proj2 (Z.eqb_neq i 0)), (proj2 (Z.eqb_neq i 1)), (proj2 (Z.eqb_neq i 2)) by lia. reflexivity.
Qed.
Print Assumptions C10_prot_to_flags.

Example C10_prot_to_flags_ex : vma_prot2flags 5 = 5 /\ vma_prot2flags 3 = 6 /\ vma_prot2flags 4 = 1.
Proof. repeat split. Qed.

(** ** C11 *)

(** mkstemp replaces the six X by letters and digits, never by a slash. *)
Theorem C11_patch_names_recognised : forall pid exe rnd,
  ~ In 47 rnd -> make_pid_ulpname pid rnd <> exe ->
  get_vma_type pid exe (make_pid_ulpname pid rnd) = VMA_ULPATCH.
Proof. exact ulpname_type. Qed.
Print Assumptions C11_patch_names_recognised.

Example C11_patch_names_recognised_ex :
  make_pid_ulpname 20298 (str "GLpgJM") = str "/tmp/ulpatch/20298/map_files/ulp-GLpgJM" /\
  ~ In 47 (str "GLpgJM") /\ make_pid_ulpname 20298 (str "GLpgJM") <> str "/usr/bin/sleep".
Proof. split; [reflexivity|]. split; [vm_compute; intuition discriminate|]. vm_compute. discriminate. Qed.

Theorem C11_others_not_patches : forall pid exe name,
  (name = exe \/ In name special_names \/
   exists p r, In p [str "libc.so"; str "libssp"; str "libc-"] /\ basename name = p ++ r) ->
  get_vma_type pid exe name <> VMA_ULPATCH.
Proof.
  intros pid exe name [->|[H|(p & r & Hp & Hr)]].
  - unfold get_vma_type. rewrite str_eqb_refl. discriminate.
  - apply special_type. auto.
  - destruct (libc_type pid exe name) as [G|G]; try (rewrite G; discriminate). exists p. split; eauto.
Qed.
Print Assumptions C11_others_not_patches.

Example C11_others_not_patches_ex :
  basename (str "/usr/lib64/libc.so.6") = str "libc.so" ++ str ".6" /\
  get_vma_type 6 (str "/bin/a") (str "/usr/lib64/ulp-6/libc.so.6") = VMA_LIBC.
Proof. split; reflexivity. Qed.

(** ** C72 *)

(** Refreshing never removes records and cannot replace a record whose range has
    changed: after a mapping [4202496, 4206592) is gone it is still found, and
    after it has grown the new part is not found. *)
Definition ex_grown (v : Z) : vinfo :=
  if v =? 16 then Vi 8192 12288 [] else if v =? 32 then Vi 8192 16384 [] else Vi 0 0 [].

Theorem C72_refresh_refuted : exists info s vs ws ws' fuel s1 s2 s3 x y,
  rootp (v_rb s) = 0 /\ memory_map info vs /\ allocated s vs /\
  memory_map info ws /\ allocated s ws /\ memory_map info ws' /\
  read_task_vmas fuel info false s vs = Some s1 /\
  read_task_vmas fuel info true s1 ws = Some s2 /\
  read_task_vmas fuel info true s1 ws' = Some s3 /\
  (exists v, In v ws /\ covers info v x) /\ find_vma fuel info s2 x = Some 0 /\
  (forall v, In v ws' -> ~ covers info v y) /\ (exists a, a <> 0 /\ find_vma fuel info s3 y = Some a).
Proof.
  exists ex_grown, ex_root, [16], [32], [], 4%nat.
  set (s1 := match read_task_vmas 4 ex_grown false ex_root [16] with Some s => s | None => ex_root end).
  set (s2 := match read_task_vmas 4 ex_grown true s1 [32] with Some s => s | None => ex_root end).
  exists s1, s2, s1, 12288, 8192.
  split; [reflexivity|]. split.
  { split; [repeat constructor; vm_compute; congruence|]. split; [repeat constructor; cbn; intuition lia|].
    intros a b [<-|[]] [<-|[]] N. congruence. }
  split; [repeat constructor; cbn; discriminate|]. split.
  { split; [repeat constructor; vm_compute; congruence|]. split; [repeat constructor; cbn; intuition lia|].
    intros a b [<-|[]] [<-|[]] N. congruence. }
  split; [repeat constructor; cbn; discriminate|]. split.
  { split; [constructor|]. split; [constructor|]. intros a b []. }
  split; [reflexivity|]. split; [reflexivity|]. split; [reflexivity|]. split.
  { exists 32. split; [left; auto|]. vm_compute. split; congruence. }
  split; [reflexivity|]. split; [intros v []|]. exists 16. split; [discriminate|reflexivity].
Qed.
Print Assumptions C72_refresh_refuted.

(** When mappings were only added since the last reading, refreshing is exact. *)
Theorem C72_refresh_partial : forall info s vs ws fuel,
  rootp (v_rb s) = 0 -> memory_map info vs -> allocated s vs ->
  (List.length vs + List.length ws < fuel)%nat ->
  memory_map info ws -> allocated s ws -> (forall v, In v ws -> ~ In v vs) ->
  (forall v, In v ws -> vm_start (info v) + 2 <= vm_end (info v)) ->
  (forall o, In o vs -> exists v, In v ws /\ same_range info o v) ->
  exists s1 s2, read_task_vmas fuel info false s vs = Some s1 /\
    read_task_vmas fuel info true s1 ws = Some s2 /\ lookup_current fuel info s2 ws.
Proof.
  intros info s vs ws fuel H M A F Mw Aw Hd H2 Ho.
  destruct (read_map info s vs fuel H M A ltac:(lia)) as (s1 & l & E & I & S & _ & G & K).
  destruct Mw as (W1 & W2 & W3).
  destruct (refresh info ws ws s1 0 l fuel W3 ltac:(auto) I W1 H2 W2) as (s2 & l2 & B1 & B2 & B3 & B4 & B5 & B6 & B7).
  - intros v Hv Hl. apply (Hd v Hv). apply S. auto.
  - unfold allocated in *. rewrite Forall_forall in *. intros v Hv. destruct (Aw v Hv). split; auto.
  - eapply index_nonzero; eauto.
  - intros o Hl. apply Ho. apply S. auto.
  - lia.
  - exists s1, s2. split; auto. split; auto. intros x.
    destruct (find_index info s2 l2 fuel x B2 ltac:(lia)) as (a & E1 & [[E2 E3]|[E2 E3]]); exists a; split; auto.
    + left. split; [auto|]. destruct (B3 a E2) as (v & V1 & V2). exists v. split; auto. split; auto.
      unfold covers, same_range in *. lia.
    + right. split; auto. intros v Hv Hc. destruct (B5 v Hv) as (o & O1 & O2). apply (E3 o O1).
      unfold covers, same_range in *. lia.
Qed.
Print Assumptions C72_refresh_partial.

(** A patch file (node 80) appeared next to the program. *)
Example C72_refresh_partial_ex :
  match read_task_vmas 9 ex_info false ex_root [16] with
  | Some s => match read_task_vmas 9 ex_info true s [64; 80] with
              | Some s' => find_vma 9 ex_info s' 4206592 = Some 80 /\ find_vma 9 ex_info s' 4202496 = Some 16
              | None => False
              end
  | None => False
  end /\ same_range ex_info 16 64 /\ memory_map ex_info [64; 80] /\ allocated ex_root [64; 80].
Proof.
  split; [vm_compute; auto|]. split; [split; reflexivity|]. split.
  - split; [repeat constructor; vm_compute; congruence|]. split; [repeat constructor; cbn; intuition lia|].
    intros a b Ha Hb N. cbn in Ha, Hb.
    destruct Ha as [<-|[<-|[]]], Hb as [<-|[<-|[]]]; try congruence;
      ((left; vm_compute; congruence) || (right; vm_compute; congruence)).
  - repeat constructor; cbn; discriminate.
Qed.

(** ** C73 *)

(** Every mapping of a run of consecutive equally named mappings has the first one
    of the run as its leader. *)
Theorem C73_leaders : forall info s vs fuel s',
  read_task_vmas fuel info false s vs = Some s' -> NoDup vs -> ~ In 0 vs ->
  forall L w M R, run_at info vs L w M R -> forall x, In x (w :: M) -> v_leader s' x = w.
Proof.
  intros info s vs fuel s' E Nd Z0 L w M R (E1 & E2 & E3) x Hx.
  destruct (read_leader info vs fuel s 0 s' E Nd Z0) as (_ & H & _).
  apply (H L w M R E1 E2); auto.
  destruct (rev L) as [|p q] eqn:Er; [auto|]. apply (E3 (rev q) p).
  apply (f_equal (@rev Z)) in Er. rewrite rev_involutive in Er. exact Er.
Qed.
Print Assumptions C73_leaders.

Example C73_leaders_ex :
  run_at ex_info [32; 16; 48] [] 32 [16] [48] /\ run_at ex_info [32; 16; 48] [32; 16] 48 [] [] /\
  match read_task_vmas 4 ex_info false ex_root [32; 16; 48] with
  | Some s => v_leader s 16 = 32 /\ v_leader s 48 = 48
  | None => False
  end.
Proof.
  split.
  { split; [reflexivity|]. split; [intros x [<-|[]]; reflexivity|]. intros L' p E. destruct L'; discriminate. }
  split; [|vm_compute; auto].
  split; [reflexivity|]. split; [intros x []|]. intros L' p E.
  change ([32] ++ [16] = L' ++ [p]) in E. apply app_inj_tail in E. destruct E as [_ <-]. vm_compute. discriminate.
Qed.

(** ** C74 *)

(** Walking the map with next_vma visits each mapping exactly once by ascending address. *)
Theorem C74_walk_ascending : forall info s vs fuel n,
  rootp (v_rb s) = 0 -> memory_map info vs -> allocated s vs -> (List.length vs < fuel)%nat -> (List.length vs < n)%nat ->
  exists s' a l, read_task_vmas fuel info false s vs = Some s' /\
    next_vma fuel s' 0 = Some a /\ walk (next_vma fuel s') n a = Some l /\
    ascending info l /\ NoDup l /\ (forall v, In v l <-> In v vs).
Proof.
  intros info s vs fuel n H M A F Hn. destruct (read_map info s vs fuel H M A F) as (s' & l & E & I & S & _ & G & _).
  destruct (walk_next_vma info s' l fuel n I ltac:(lia) ltac:(lia)) as (a & W1 & W2).
  exists s', a, l. split; auto. split; auto. split; auto. split; [|split; [eapply index_nodup; eauto|exact S]].
  destruct I as (t & _ & _ & _ & So & _). apply sorted_ascending. auto.
Qed.
Print Assumptions C74_walk_ascending.

Example C74_walk_ascending_ex :
  match read_task_vmas 4 ex_info false ex_root [16; 32; 48] with
  | Some s => next_vma 4 s 0 = Some 32 /\ walk (next_vma 4 s) 4 32 = Some [32; 16; 48]
  | None => False
  end.
Proof. vm_compute. auto. Qed.

(** ** C75 *)

(** A user's file is taken for a patch of process 1. *)
Theorem C75_foreign_names_refuted : exists pid exe name,
  0 < pid /\ (forall p rnd, name <> make_pid_ulpname p rnd) /\
    get_vma_type pid exe name = VMA_ULPATCH.
Proof.
  exists 1, (str "/sbin/init"), (str "/home/user/ulp-notes-2021.txt"). split; [lia|]. split; [|reflexivity].
  intros p rnd. vm_compute. discriminate.
Qed.
Print Assumptions C75_foreign_names_refuted.

(** What does hold: a name without the prefix or without the process id is never a patch. *)
Theorem C75_foreign_names_partial : forall pid exe name,
  (~ exists a b, name = a ++ PATCH_VMA_TEMP_PREFIX ++ b) \/ (~ exists a b, name = a ++ dec pid ++ b) ->
  get_vma_type pid exe name <> VMA_ULPATCH.
Proof.
  intros pid exe name H. unfold get_vma_type.
  assert (G : strstrb name PATCH_VMA_TEMP_PREFIX && strstrb name (dec pid) = false).
  { apply not_true_iff_false. rewrite andb_true_iff, !strstrb_iff. tauto. }
  rewrite G. repeat match goal with |- context [if ?b then _ else _] => destruct b end; discriminate.
Qed.
Print Assumptions C75_foreign_names_partial.

Example C75_foreign_names_partial_ex :
  (~ exists a b, str "/usr/share/x" = a ++ PATCH_VMA_TEMP_PREFIX ++ b) /\
    get_vma_type 7 (str "/sbin/init") (str "/usr/share/x") = VMA_NONE.
Proof.
  split; [|reflexivity]. rewrite <- strstrb_iff. vm_compute. discriminate.
Qed.
