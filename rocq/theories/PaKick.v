(** kick_target_process in detail: the backup, the image, the jump. *)
From Coq Require Import ZArith String List Bool Lia ZifyBool ZifyNat.
From Verif Require Import Word WordLemmas Str ElfDefs TextModel LdModel LdSpec LdProofs LdSyms LdMore ScModel ScSpec ScProofs PaModel PaSpec PaRead PaProofs PaMore.
Import ListNotations.
Open Scope Z_scope.

(** The image with the backup of the 16 bytes at [v] of memory [m]. *)
Definition backed (img m : mem) (info v : Z) : mem := fun i => if inside (info + 28) 16 i then m (v + (i - (info + 28))) else img i.

Lemma write_full e w dst src size n w' : sane e -> memcpy_to_task e w dst src size = (n, w') -> (n =? -1) || (n <? size) = false ->
  forall i, 0 <= i < size -> t_mem (w_t w') (dst + i) = src i.
Proof.
  intros S H Hn i Hi. unfold memcpy_to_task in H. destruct (e_write e (w_n w) dst size) as [k|] eqn:Ew.
  - assert (k <= size) by (eapply S; right; exact Ew). injection H as <- <-. cbn.
    destruct (Z.leb_spec dst (dst + i)), (Z.ltb_spec (dst + i) (dst + k)); cbn; try lia. f_equal. lia.
  - injection H as <- <-. cbn in Hn. lia.
Qed.

Lemma read_full e w dst src size n b w' : sane e -> memcpy_from_task e w dst src size = (n, b, w') -> (n =? -1) || (n <? size) = false ->
  forall i, 0 <= i < size -> b i = t_mem (w_t w) (src + i).
Proof.
  intros S H Hn i Hi. unfold memcpy_from_task in H. destruct (e_read e (w_n w) src size) as [k|] eqn:Ew.
  - assert (k <= size) by (eapply S; left; exact Ew). injection H as <- <- _.
    destruct (Z.leb_spec 0 i), (Z.ltb_spec i k); cbn; auto; lia.
  - injection H as <- _ _. cbn in Hn. lia.
Qed.

Lemma kick_detail fuel e jmp hdr len img li w err w' log v :
  sane e -> shared hdr = true -> 0 <= li_info li -> v = ld 8 img (li_info li + 20) ->
  (forall x, within hdr len x \/ within v 16 x -> kept e x) ->
  (forall x, within hdr len x -> ~ within v 16 x) ->
  kick_target_process fuel e jmp hdr len img li w = Some (err, w', log) ->
  let img1 := backed img (t_mem (w_t w)) (li_info li) v in
  li_info li + 44 <= len /\
  (forall u, In u (w' :: log) -> forall x, kept e x -> ~ within hdr len x -> ~ within v 16 x -> t_mem (w_t u) x = t_mem (w_t w) x) /\
  (forall u, In u (w' :: log) ->
     (forall x, within v 16 x -> t_mem (w_t u) x = t_mem (w_t w) x) \/
     (forall i, 0 <= i < len -> t_mem (w_t u) (hdr + i) = img1 i)) /\
  (err = 0 -> (forall i, 0 <= i < len -> t_mem (w_t w') (hdr + i) = img1 i) /\
     (forall i, 0 <= i < 16 -> t_mem (w_t w') (v + i) = nth (Z.to_nat i) (le_bytes 8 jmp ++ le_bytes 8 (ld 8 img (li_info li + 12))) 0)).
Proof.
  intros S Sh I0 Hv K Dj H. unfold kick_target_process in H. ob H. ob H. pose proof (rd_inv _ _ _ _ _ E0) as (Ez0 & _ & _).
  pose proof (rd_inv _ _ _ _ _ E) as (Ez & _ & _). unfold ui_patch, ui_virtual, ui_orig in *. rewrite <- Hv in Ez0. subst z0.
  destruct (negb (inb len (li_info li + 28) 16)) eqn:Ei; [discriminate|]. unfold inb in Ei.
  assert (LE : li_info li + 44 <= len) by lia.
  assert (WI : forall i, 0 <= i < len -> within hdr len (hdr + i)) by (intros; unfold within; lia).
  destruct (memcpy_from_task e w _ v 16) as [[n buf] w0] eqn:Er. pose proof (read_t _ _ _ _ _ _ _ _ Er) as Er0. cbv zeta in H.
  set (imgk := fun x => if inside (li_info li + 28) 16 x then buf (x - (li_info li + 28)) else img x) in *.
  set (w1 := sync hdr len imgk w0) in *. cbv zeta. set (img1 := backed img (t_mem (w_t w)) (li_info li) v).
  assert (M1 : forall x, within v 16 x -> t_mem (w_t w1) x = t_mem (w_t w) x).
  { intros x Hx. unfold w1. rewrite sync_out by (intros X; apply (Dj x X Hx)). rewrite Er0. reflexivity. }
  assert (X1 : forall x, ~ within hdr len x -> t_mem (w_t w1) x = t_mem (w_t w) x).
  { intros x Hx. unfold w1. rewrite sync_out by auto. rewrite Er0. reflexivity. }
  destruct ((n =? -1) || (n <? 16)) eqn:En.
  { apply some_triple in H. destruct H as (<- & <- & <-). split; [exact LE|split; [|split]].
    - intros u Hu x Kx Nh Nv. assert (u = w1) by (cbn [In] in Hu; intuition). subst u. auto.
    - intros u Hu. assert (u = w1) by (cbn [In] in Hu; intuition). subst u. left. auto.
    - intros X. unfold ENOEXEC in X. lia. }
  assert (KI : forall i, imgk i = img1 i).
  { intros i. unfold imgk, img1, backed. destruct (inside (li_info li + 28) 16 i) eqn:Ii; auto. unfold inside in Ii.
    apply (read_full _ _ _ _ _ _ _ _ S Er En). lia. }
  destruct (memcpy_to_task e w1 hdr imgk len) as [n2 w2] eqn:E2.
  assert (M2 : forall x, within v 16 x -> t_mem (w_t w2) x = t_mem (w_t w) x).
  { intros x Hx. rewrite (write_kept _ _ _ _ _ _ _ x S (fun X => Dj x X Hx) E2). auto. }
  assert (X2 : forall x, ~ within hdr len x -> t_mem (w_t w2) x = t_mem (w_t w) x).
  { intros x Hx. rewrite (write_kept _ _ _ _ _ _ _ x S Hx E2). auto. }
  destruct ((n2 =? -1) || (n2 <? len)) eqn:En2.
  { apply some_triple in H. destruct H as (<- & <- & <-). split; [exact LE|split; [|split]].
    - intros u Hu x Kx Nh Nv. assert (D : u = w1 \/ u = w2) by (cbn [In] in Hu; intuition). destruct D; subst u; auto.
    - intros u Hu. assert (D : u = w1 \/ u = w2) by (cbn [In] in Hu; intuition). left. destruct D; subst u; auto.
    - intros X. unfold ENOEXEC in X. lia. }
  assert (I2 : forall i, 0 <= i < len -> t_mem (w_t w2) (hdr + i) = img1 i).
  { intros i Hi. rewrite (write_full _ _ _ _ _ _ _ S E2 En2 i Hi). auto. }
  destruct (task_attach fuel e w2) as [[r3 w3]|] eqn:E3; [|discriminate].
  assert (M3 : forall x, within v 16 x -> t_mem (w_t w3) x = t_mem (w_t w) x).
  { intros x Hx. rewrite (attach_mem _ _ _ _ _ _ (K x (or_intror Hx)) E3). auto. }
  assert (I3 : forall i, 0 <= i < len -> t_mem (w_t w3) (hdr + i) = img1 i).
  { intros i Hi. rewrite (attach_mem _ _ _ _ _ (hdr + i) (K (hdr + i) (or_introl (WI i Hi))) E3). auto. }
  assert (X3 : forall x, kept e x -> ~ within hdr len x -> t_mem (w_t w3) x = t_mem (w_t w) x).
  { intros x Kx Hx. rewrite (attach_mem _ _ _ _ _ _ Kx E3). auto. }
  destruct (negb (r3 =? 0)) eqn:Er3.
  { apply some_triple in H. destruct H as (<- & <- & <-). split; [exact LE|split; [|split]].
    - intros u Hu x Kx Nh Nv. assert (D : u = w1 \/ u = w2 \/ u = w3) by (cbn [In] in Hu; intuition). destruct D as [->|[->| ->]]; auto.
    - intros u Hu. assert (D : u = w1 \/ u = w2 \/ u = w3) by (cbn [In] in Hu; intuition). left. destruct D as [->|[->| ->]]; auto.
    - intros X. lia. }
  ob H. pose proof (rd_inv _ _ _ _ _ E1) as (Ez1 & B1 & B2).
  assert (Ev : z0 = v).
  { rewrite Ez1, Hv. apply ld_ext. intros x Hx. unfold view. rewrite Sh. cbn [andb].
    assert (Ix : inside 0 len x = true) by (unfold inside; lia). rewrite Ix, I3 by lia. unfold img1, backed.
    destruct (inside (li_info li + 28) 16 x) eqn:Io; auto. unfold inside in Io. lia. }
  clear Ez1. subst z0.
  destruct (memcpy_to_task e w3 v (of_list (jmp_bytes jmp z)) 16) as [n4 w4] eqn:E4.
  apply some_triple in H. destruct H as (He & <- & <-).
  assert (I4 : forall i, 0 <= i < len -> t_mem (w_t w4) (hdr + i) = img1 i).
  { intros i Hi. rewrite (write_kept _ _ _ _ _ _ _ (hdr + i) S (Dj (hdr + i) (WI i Hi)) E4). auto. }
  assert (X4 : forall x, kept e x -> ~ within hdr len x -> ~ within v 16 x -> t_mem (w_t w4) x = t_mem (w_t w) x).
  { intros x Kx Hx Nv. rewrite (write_kept _ _ _ _ _ _ _ x S Nv E4). auto. }
  split; [exact LE|split; [|split]].
  - intros u Hu x Kx Nh Nv. assert (D : u = w1 \/ u = w2 \/ u = w3 \/ u = w4 \/ u = snd (task_detach e w4)) by (clear - Hu; cbn [In] in Hu; destruct Hu as [<-|[<-|[<-|[<-|[<-|[<-|[]]]]]]]; tauto).
    destruct D as [->|[->|[->|[->| ->]]]]; try rewrite detach_mem; auto.
  - intros u Hu. assert (D : u = w1 \/ u = w2 \/ u = w3 \/ u = w4 \/ u = snd (task_detach e w4)) by (clear - Hu; cbn [In] in Hu; destruct Hu as [<-|[<-|[<-|[<-|[<-|[<-|[]]]]]]]; tauto).
    destruct D as [->|[->|[->|[->| ->]]]]; try (left; assumption); right; auto. rewrite detach_mem. auto.
  - intros Z0. assert (Hn4 : (n4 =? -1) || (n4 <? 16) = false) by (destruct ((n4 =? -1) || (n4 <? 16)); auto; unfold ENOEXEC in He; lia).
    rewrite !detach_mem. split; [exact I4|]. intros i Hi. rewrite (write_full _ _ _ _ _ _ _ S E4 Hn4 i Hi).
    unfold of_list. replace (Z.of_nat (List.length (jmp_bytes jmp z))) with 16 by (unfold jmp_bytes; rewrite app_length, !le_bytes_length; reflexivity).
    destruct (Z.leb_spec 0 i), (Z.ltb_spec i 16); cbn [andb]; try lia. unfold jmp_bytes. rewrite Ez. reflexivity.
Qed.
