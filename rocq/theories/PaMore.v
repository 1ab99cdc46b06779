(** Applying and removing patches: load_patch, init_patch, delete_patch. *)
From Coq Require Import ZArith String List Bool Lia ZifyBool ZifyNat.
From Verif Require Import Word WordLemmas Str ElfDefs TextModel LdModel LdSpec LdProofs LdSyms LdMore ScModel ScSpec ScProofs PaModel PaSpec PaRead PaProofs.
Import ListNotations.
Open Scope Z_scope.

Section More.
Variable fuel : nat.
Variable a : arch.
Variable nn : nrs.
Variable x86 : bool.
Variable e : env.
Variables libc garbage : Z.
Variable lookup : list Z -> option Z.
Variable reloc : Z -> linfo -> mem -> Z -> Z * mem.
Variables jmp now : Z.

(** Outside the mapping and the 16 bytes at [f], the kept bytes of [u] are those of [w]. *)
Definition same_but (hdr len f : Z) (err : Z) (w u : world) : Prop :=
  forall x, kept e x -> ~ within hdr len x ->
    (~ within f 16 x -> t_mem (w_t u) x = t_mem (w_t w) x) /\
    (err <> 0 -> whole_writes e -> t_mem (w_t u) x = t_mem (w_t w) x).

Lemma same_sync hdr len f err w u img : same_but hdr len f err w u -> same_but hdr len f err w (sync hdr len img u).
Proof. intros H x K N. rewrite sync_out by auto. apply H; auto. Qed.
Lemma same_refl hdr len f err w : same_but hdr len f err w w.
Proof. intros x K N. auto. Qed.

Lemma load_frame s hdr len img w err s' w' log : sane e ->
  load_patch fuel e lookup reloc jmp now s hdr len img w = Some (err, s', w', log) ->
  exists f, forall u, In u (w' :: log) -> same_but hdr len f err w u.
Proof.
  intros S H. unfold load_patch in H. ob H. destruct s0 as [er|li].
  { apply some_quad in H. destruct H as (_ & _ & <- & <-). exists 0. intros u [<-|[]]. apply same_refl. }
  ob H. destruct b. { apply some_quad in H. destruct H as (_ & _ & <- & <-). exists 0. intros u [<-|[]]. apply same_refl. }
  ob H. destruct p as [er1 img1]. cbv zeta beta iota in H. set (w1 := sync hdr len img1 w) in *.
  assert (S1 : forall f er, same_but hdr len f er w w1) by (intros; apply same_sync, same_refl).
  destruct (negb (er1 =? 0)). { apply some_quad in H. destruct H as (_ & _ & <- & <-). exists 0. intros u [<-|[<-|[]]]; apply S1. }
  ob H. destruct p as [er2 img2]. cbv zeta beta iota in H. set (w2 := sync hdr len img2 w1) in *.
  assert (S2 : forall f er, same_but hdr len f er w w2) by (intros; apply same_sync, S1).
  destruct (er2 <? 0). { apply some_quad in H. destruct H as (_ & _ & <- & <-). exists 0. intros u [<-|[<-|[<-|[]]]]; auto. }
  ob H. destruct p as [er3 img3]. cbv zeta beta iota in H. set (w3 := sync hdr len img3 w2) in *.
  assert (S3 : forall f er, same_but hdr len f er w w3) by (intros; apply same_sync, S2).
  destruct (er3 <? 0). { apply some_quad in H. destruct H as (_ & _ & <- & <-). exists 0. intros u [<-|[<-|[<-|[<-|[]]]]]; auto. }
  ob H. destruct p as [[er4 img4] mx]. cbv zeta beta iota in H. set (w4 := sync hdr len img4 w3) in *.
  assert (S4 : forall f er, same_but hdr len f er w w4) by (intros; apply same_sync, S3).
  destruct (er4 <? 0). { apply some_quad in H. destruct H as (_ & _ & <- & <-). exists 0. intros u [<-|[<-|[<-|[<-|[<-|[]]]]]]; auto. }
  ob H. destruct p as [[er5 w5] lg]. cbv beta iota in H. apply some_quad in H. destruct H as (<- & _ & <- & <-).
  destruct (kick_frame _ _ _ S _ _ _ _ _ _ _ _ E5) as (f & F). exists f.
  assert (Base : forall x, ~ within hdr len x -> t_mem (w_t w4) x = t_mem (w_t w) x).
  { intros x Hx. unfold w4, w3, w2, w1. rewrite !sync_out by auto. reflexivity. }
  intros u Hu. assert (D : u = w1 \/ u = w2 \/ u = w3 \/ u = w4 \/ In u (w5 :: lg)).
  { destruct Hu as [<-|Hu]; [do 4 right; left; auto|]. cbn [app] in Hu. destruct Hu as [<-|[<-|[<-|[<-|Hu]]]]; auto. do 4 right. right. auto. }
  destruct D as [->|[->|[->|[->|D]]]]; auto. intros x K N. rewrite <- Base by auto. apply (F u D x K N).
Qed.

Lemma init_frame s ae chown path span w ret s' hdr w' log : calm e a libc ->
  init_patch fuel a nn x86 e libc garbage lookup reloc jmp now s ae chown path span w = Some (ret, s', hdr, w', log) ->
  exists f, forall u, In u (w' :: log) ->
    forall x, kept e x -> ~ name_buffer fuel a nn e libc garbage w path x ->
      (forall h m l, hdr = Some h -> alloc_patch_file ae = Some (0, Some (m, l)) -> ~ within h l x) ->
      (~ within f 16 x -> t_mem (w_t u) x = t_mem (w_t w) x) /\
      (ret <> 0 -> whole_writes e -> t_mem (w_t u) x = t_mem (w_t w) x).
Proof.
  intros C H. unfold init_patch in H. ob H. destruct p as [er o]. cbv beta iota in H.
  destruct (negb (er =? 0)) eqn:Ner. { apply some_quint in H. destruct H as (_ & _ & _ & <- & <-). exists 0. intros u [<-|[]]. auto. }
  assert (er = 0) by lia. subst er.
  destruct (negb (chown =? 0)). { apply some_quint in H. destruct H as (_ & _ & _ & <- & <-). exists 0. intros u [<-|[]]. auto. }
  ob H. destruct p as [img len]. cbv beta iota in H. ob H. destruct p as [[rt hd] w1]. cbv beta iota in H.
  destruct (negb (rt =? 0)).
  { apply some_quint in H. destruct H as (_ & _ & <- & <- & <-). exists 0. intros u Hu x K N _. assert (u = w1) by (cbn in Hu; intuition). subst u.
    rewrite (create_kept _ _ _ _ _ _ _ C _ _ _ _ _ _ _ x K N E1). auto. }
  ob H. rename z into h. cbv zeta in H. ob H. destruct p as [[[er2 s2] w2] lg]. cbv beta iota in H.
  destruct (load_frame _ _ _ _ _ _ _ _ _ (proj1 C) E3) as (f & F). exists f.
  set (w0 := sync h len img w1) in *.
  assert (B : forall x, kept e x -> ~ name_buffer fuel a nn e libc garbage w path x -> ~ within h len x -> t_mem (w_t w0) x = t_mem (w_t w) x).
  { intros x K N Nh. unfold w0. rewrite sync_out by auto. apply (create_kept _ _ _ _ _ _ _ C _ _ _ _ _ _ _ x K N E1). }
  destruct (negb (er2 =? 0)) eqn:Ne2.
  - ob H. rename w3 into wd. apply some_quint in H. destruct H as (<- & _ & <- & <- & <-). intros u Hu x K N Hm.
    specialize (Hm h img len eq_refl eq_refl).
    assert (D : u = wd \/ u = w0 \/ In u (w2 :: lg)).
    { destruct Hu as [<-|Hu]; auto. cbn [app] in Hu. destruct Hu as [<-|Hu]; auto. apply in_app_or in Hu. destruct Hu as [Hu|[<-|[]]]; auto. right. right. right. auto. }
    destruct D as [->|[->|D]].
    + rewrite (delete_kept _ _ _ _ _ _ C _ _ _ _ x K E4). rewrite <- B by auto. apply (F w2); auto. left. auto.
    + rewrite B by auto. auto.
    + rewrite <- B by auto. apply (F u D); auto.
  - apply some_quint in H. destruct H as (<- & _ & <- & <- & <-). intros u Hu x K N Hm. specialize (Hm h img len eq_refl eq_refl).
    assert (er2 = 0) by lia. subst er2.
    assert (D : u = w0 \/ In u (w2 :: lg)).
    { destruct Hu as [<-|Hu]; [right; left; auto|]. cbn [app] in Hu. destruct Hu as [<-|Hu]; auto. right. right. auto. }
    destruct D as [->|D]; rewrite <- B by auto; auto. apply (F u D); auto.
Qed.
End More.
