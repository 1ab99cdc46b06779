(** Proofs about handles of ELF files. *)
From Coq Require Import ZArith List Bool Lia ZifyBool ZifyNat.
From Verif Require Import Word Str ElfFile.
Import ListNotations.
Open Scope Z_scope.

Lemma res_eqb_eq a b : res_eqb a b = true <-> a = b.
Proof.
  destruct a, b; cbn; try rewrite Nat.eqb_eq; split; intros H; try discriminate; try congruence; auto.
Qed.

Definition memr (x : res) (l : list res) : bool := existsb (res_eqb x) l.

Lemma memr_in x l : memr x l = true <-> In x l.
Proof.
  unfold memr. rewrite existsb_exists. split.
  - intros (y & H & E). apply res_eqb_eq in E. congruence.
  - intros H. exists x. split; auto. apply res_eqb_eq; auto.
Qed.

Lemma owns_at l : forall o id i x, owns o id l i x = if Nat.eqb i id && memr x l then true else o i x.
Proof.
  induction l as [|r l IH]; intros o id i x; cbn.
  - rewrite andb_false_r. auto.
  - unfold owns in IH. rewrite IH. unfold own. destruct (Nat.eqb i id), (res_eqb x r); cbn [andb orb]; auto.
    + destruct (memr x l); auto.
Qed.

Lemma releases_at l : forall o id, NoDup l -> (forall r, In r l -> o id r = true) ->
  exists o', releases o id l = Some o' /\ forall i x, o' i x = if Nat.eqb i id && memr x l then false else o i x.
Proof.
  induction l as [|r l IH]; intros o id Nd H.
  - exists o. split; auto. intros i x. cbn. rewrite andb_false_r. auto.
  - inversion Nd; subst. cbn [releases]. unfold release at 1. rewrite (H r (or_introl eq_refl)).
    set (o1 := fun i x => if Nat.eqb i id && res_eqb x r then false else o i x).
    destruct (IH o1 id) as (o' & E & G); auto.
    { intros q Hq. unfold o1. destruct (res_eqb q r) eqn:Q; [apply res_eqb_eq in Q; congruence|]. rewrite andb_false_r. apply H. right; auto. }
    exists o'. split; auto. intros i x. rewrite G. unfold o1. cbn [memr existsb]. fold (memr x l).
    destruct (Nat.eqb i id), (res_eqb x r), (memr x l); auto.
Qed.

Lemma own_at o id r i x : own o id r i x = if Nat.eqb i id && memr x [r] then true else o i x.
Proof. unfold own, memr. cbn [existsb]. rewrite orb_false_r. reflexivity. Qed.

Lemma NoDup_app_add {A} (l : list A) x : NoDup l -> ~ In x l -> NoDup (l ++ [x]).
Proof.
  intros H N. induction H as [|a l Ha Hl IH]; cbn [app].
  - constructor; auto. constructor.
  - constructor.
    + rewrite in_app_iff. cbn [In]. intros [G|[->|[]]]; auto. apply N. left; auto.
    + apply IH. intros G. apply N. right; auto.
Qed.

(** ** The invariant *)
Definition einv (s : est) (paths : list (list Z)) : Prop :=
  map h_path (handles s) = paths /\ NoDup paths /\ NoDup (map h_id (handles s)) /\
  (forall h, In h (handles s) -> (h_id h < next s)%nat /\ h_bid h = BStr 0 /\ (h_mc h <= 1)%nat) /\
  number s = Z.of_nat (List.length paths) /\ (Z.of_nat (List.length paths) <= 65535) /\
  (forall i r, owned s i r = true <-> exists h, In h (handles s) /\ h_id h = i /\ needs h r).

Lemma find_closed s p paths : map h_path (handles s) = paths -> ~ In p paths -> elf_file_find s p = None.
Proof.
  intros <- H. unfold elf_file_find. destruct (find _ _) as [h|] eqn:E; auto. apply find_some in E. destruct E as [E1 E2].
  apply str_eqb_eq in E2. exfalso. apply H. apply in_map_iff. eauto.
Qed.

Ltac rel := match goal with |- context [releases ?o ?id ?l] =>
  let o' := fresh "o'" in let E := fresh "E" in let G := fresh "G" in
  destruct (releases_at l o id) as (o' & E & G); [| |rewrite E] end.

Lemma string_cases n : (n <= 1)%nat -> n = 0%nat \/ n = 1%nat.
Proof. lia. Qed.


Fixpoint nodupb (l : list res) : bool := match l with [] => true | x :: l => negb (memr x l) && nodupb l end.
Lemma nodupb_ok l : nodupb l = true -> NoDup l.
Proof.
  induction l as [|x l IH]; cbn [nodupb]; [constructor|]. rewrite andb_true_iff, negb_true_iff. intros [A B]. constructor; auto.
  intros H. apply memr_in in H. congruence.
Qed.

(** What one open does to the owned resources. *)
Lemma open_new s p f paths : einv s paths -> ~ In p paths -> ordinary f -> Z.of_nat (List.length paths) < 65535 ->
  exists r s', elf_file_open s p f = Some (r, s') /\ einv s' (if opens f then paths ++ [p] else paths) /\
    (opens f = true -> r = Some (next s)) /\ (opens f = false -> r = None).
Proof.
  intros (I1 & I2 & I3 & I4 & I5 & I6 & I7) Hp (F1 & F2 & F3) Hn.
  assert (Fresh : forall r, owned s (next s) r = false).
  { intros r. destruct (owned s (next s) r) eqn:E; auto. apply I7 in E. destruct E as (h & H1 & H2 & _). apply I4 in H1. lia. }
  assert (Fail : forall o, (forall i x, o i x = owned s i x) -> einv (St (handles s) (number s) o (S (next s))) paths).
  { intros o Ho. split; [auto|]. split; [auto|]. split; [auto|]. cbn [handles number owned next].
    split. { intros h Hh. apply I4 in Hh. intuition lia. }
    split; auto. split; auto. intros i r. rewrite Ho. apply I7. }
  unfold elf_file_open, opens. destruct (f_exist f); cbn [negb andb].
  2: { exists None, s. split; auto. split; [|split; [discriminate|auto]]. repeat split; auto; apply I4 || apply I7; auto. }
  rewrite (find_closed s p paths I1 Hp). cbv zeta. set (id := next s) in *.
  destruct (f_begin f); cbn [negb andb].
  2: { unfold release. rewrite own_at, Nat.eqb_refl. cbn [memr existsb res_eqb andb orb]. eexists. eexists. split; [reflexivity|].
       split; [|split; [discriminate|auto]]. apply Fail. intros i x. rewrite own_at. cbn [memr existsb]. rewrite orb_false_r.
       destruct (Nat.eqb_spec i id) as [->|]; cbn [andb]; auto. destruct (res_eqb x RFd); auto. }
  destruct (f_ident f); cbn [negb andb].
  2: { rel; [apply nodupb_ok; reflexivity| |].
       - intros r Hr. rewrite !own_at, Nat.eqb_refl. cbn [andb]. apply memr_in in Hr. revert Hr. destruct r; cbn; auto; discriminate.
       - eexists. eexists. split; [reflexivity|]. split; [|split; [discriminate|auto]]. apply Fail. intros i x. rewrite G, !own_at.
         destruct (Nat.eqb_spec i id) as [->|]; cbn [andb]; auto. rewrite Fresh. destruct x; reflexivity. }
  destruct (f_ehdr f); cbn [negb andb].
  2: { rel; [apply nodupb_ok; reflexivity| |].
       - intros r Hr. rewrite !owns_at, !own_at, Nat.eqb_refl. cbn [andb]. apply memr_in in Hr. revert Hr. destruct r; cbn; auto; discriminate.
       - eexists. eexists. split; [reflexivity|]. split; [|split; [discriminate|auto]]. apply Fail. intros i x. rewrite G, !owns_at, !own_at.
         destruct (Nat.eqb_spec i id) as [->|]; cbn [andb]; auto. rewrite Fresh. destruct x; reflexivity. }
  destruct (f_shdr f); cbn [negb andb].
  2: { rel; [apply nodupb_ok; reflexivity| |].
       - intros r Hr. rewrite !owns_at, !own_at, Nat.eqb_refl. cbn [andb]. apply memr_in in Hr. revert Hr. destruct r; cbn; auto; discriminate.
       - eexists. eexists. split; [reflexivity|]. split; [|split; [discriminate|auto]]. apply Fail. intros i x. rewrite G, !owns_at, !own_at.
         destruct (Nat.eqb_spec i id) as [->|]; cbn [andb]; auto. rewrite Fresh. destruct x; reflexivity. }
  destruct (f_sections f); cbn [negb andb].
  2: { destruct (string_cases _ F1) as [Eb|Eb]; rewrite Eb; cbn [strings seq map last_bid app];
       (rel; [apply nodupb_ok; reflexivity| |]);
       [intros r Hr; rewrite !owns_at, !own_at, Nat.eqb_refl; cbn [andb]; apply memr_in in Hr; revert Hr; destruct r as [| | | | | | |[|k]|k|]; cbn; auto; discriminate
       |eexists; eexists; split; [reflexivity|]; split; [|split; [discriminate|auto]]; apply Fail; intros i x; rewrite G, !owns_at, !own_at;
         (destruct (Nat.eqb_spec i id) as [->|]; cbn [andb]; [|solve [auto]]); rewrite Fresh; destruct x as [| | | | | | |[|k]|k|]; reflexivity
       |intros r Hr; rewrite !owns_at, !own_at, Nat.eqb_refl; cbn [andb]; apply memr_in in Hr; revert Hr; destruct r as [| | | | | | |[|k]|k|]; cbn; auto; discriminate
       |eexists; eexists; split; [reflexivity|]; split; [|split; [discriminate|auto]]; apply Fail; intros i x; rewrite G, !owns_at, !own_at;
         (destruct (Nat.eqb_spec i id) as [->|]; cbn [andb]; [|solve [auto]]); rewrite Fresh; destruct x as [| | | | | | |[|k]|k|]; reflexivity]. }
  rewrite (F3 eq_refl). cbn [Nat.eqb negb orb]. rewrite orb_true_r.
  eexists. eexists. split; [reflexivity|]. split; [|split; [auto|discriminate]].
  split. { cbn [handles]. rewrite map_app, I1. reflexivity. }
  split. { apply NoDup_app_add; auto. }
  split. { cbn [handles]. rewrite map_app. apply NoDup_app_add; auto. intros H. apply in_map_iff in H.
           destruct H as (h & H1 & H2). apply I4 in H2. cbn [h_id] in H1. unfold id in *. lia. }
  split. { intros h Hh. cbn [handles next] in *. apply in_app_iff in Hh. destruct Hh as [Hh|[<-|[]]].
           - apply I4 in Hh. unfold id in *. intuition lia.
           - cbn [h_id h_bid h_mc]. auto. }
  split. { cbn [number]. rewrite I5, app_length. cbn [List.length]. rewrite Z.mod_small; lia. }
  split. { rewrite app_length. cbn [List.length]. lia. }
  intros i r. cbn [owned handles]. rewrite !owns_at, !own_at, !owns_at, !own_at.
  destruct (Nat.eqb_spec i id) as [->|Ni]; cbn [andb].
  - rewrite Fresh. split.
    + intros H. exists (Hd id p (BStr 0) (f_mcs f)). split; [apply in_app_iff; right; left; auto|]. split; auto.
      destruct (string_cases _ F2) as [Em|Em]; rewrite Em in *; destruct r as [| | | | | | |[|k]|[|k]|]; cbn in H |- *; auto; discriminate.
    + intros (h & H1 & H2 & H3). apply in_app_iff in H1. destruct H1 as [H1|[<-|[]]]; [apply I4 in H1; unfold id in *; lia|].
      destruct (string_cases _ F2) as [Em|Em]; rewrite Em in *; destruct r as [| | | | | | |[|k]|[|k]|]; cbn in H3 |- *; auto; discriminate.
  - rewrite I7. split; intros (h & H1 & H2 & H3); exists h; split; auto.
    + apply in_app_iff; auto.
    + apply in_app_iff in H1. destruct H1 as [H1|[<-|[]]]; auto. cbn [h_id] in H2. congruence.
Qed.

Lemma NoDup_map_inj_in {A B} (f : A -> B) l x y : NoDup (map f l) -> In x l -> In y l -> f x = f y -> x = y.
Proof.
  induction l as [|a l IH]; intros N Hx Hy E; [destruct Hx|]. cbn [map] in N. inversion N; subst.
  destruct Hx as [->|Hx], Hy as [->|Hy]; auto; exfalso; apply H1; apply in_map_iff; eauto.
Qed.

Lemma filter_paths (hs : list handle) h : NoDup (map h_path hs) -> NoDup (map h_id hs) -> In h hs ->
  map h_path (filter (fun x => negb (Nat.eqb (h_id x) (h_id h))) hs) = filter (fun q => negb (str_eqb q (h_path h))) (map h_path hs).
Proof.
  intros N1 N2 Hh.
  assert (Hi : forall x, In x hs -> (Nat.eqb (h_id x) (h_id h) = str_eqb (h_path x) (h_path h))).
  { intros x Hx. destruct (Nat.eqb_spec (h_id x) (h_id h)) as [E|E].
    - assert (x = h) as ->. { eapply (NoDup_map_inj_in h_id); eauto. } symmetry. apply str_eqb_eq. auto.
    - destruct (str_eqb (h_path x) (h_path h)) eqn:Q; auto. apply str_eqb_eq in Q. exfalso. apply E.
      assert (x = h) as ->; auto. eapply (NoDup_map_inj_in h_path); eauto. }
  clear N1 N2 Hh. induction hs as [|x hs IH]; auto. cbn [filter map]. rewrite (Hi x (or_introl eq_refl)).
  destruct (str_eqb (h_path x) (h_path h)); cbn [negb]; rewrite <- IH by (intros; apply Hi; right; auto); reflexivity.
Qed.

Lemma filter_none_in (paths : list (list Z)) p : ~ In p paths -> filter (fun q => negb (str_eqb q p)) paths = paths.
Proof.
  induction paths as [|q l IH]; intros H; auto. cbn [filter]. destruct (str_eqb q p) eqn:E.
  - apply str_eqb_eq in E. exfalso. apply H. left; auto.
  - cbn [negb]. f_equal. apply IH. intros G. apply H. right; auto.
Qed.

Lemma filter_one_len (paths : list (list Z)) p : NoDup paths -> In p paths ->
  S (List.length (filter (fun q => negb (str_eqb q p)) paths)) = List.length paths.
Proof.
  induction paths as [|q l IH]; intros N H; [destruct H|]. inversion N; subst. cbn [filter]. destruct (str_eqb q p) eqn:E.
  - apply str_eqb_eq in E. subst q. cbn [negb]. rewrite filter_none_in by auto. reflexivity.
  - cbn [negb List.length]. f_equal. apply IH; auto. destruct H as [->|H]; auto.
    assert (str_eqb p p = true) by (apply str_eqb_eq; auto). congruence.
Qed.

Lemma find_open s p paths : einv s paths -> In p paths -> exists h, elf_file_find s p = Some h /\ In h (handles s) /\ h_path h = p.
Proof.
  intros (I1 & _) H. unfold elf_file_find. destruct (find _ _) as [h|] eqn:E.
  - apply find_some in E. destruct E as [E1 E2]. apply str_eqb_eq in E2. eauto.
  - rewrite <- I1 in H. apply in_map_iff in H. destruct H as (h & H1 & H2). pose proof (find_none _ _ E h H2) as G. cbv beta in G.
    assert (str_eqb (h_path h) p = true) by (apply str_eqb_eq; auto). congruence.
Qed.

Lemma close_ok s p paths : einv s paths ->
  exists r s', elf_file_close s p = Some (r, s') /\ einv s' (filter (fun q => negb (str_eqb q p)) paths) /\
    (r = 0 <-> In p paths).
Proof.
  intros I. assert (Dec : In p paths \/ ~ In p paths).
  { destruct (in_dec (list_eq_dec Z.eq_dec) p paths); auto. }
  destruct Dec as [Hp|Hp].
  2: { unfold elf_file_close. exists (- ENOENT), s. rewrite filter_none_in by auto.
       assert (elf_file_find s p = None) as -> by (apply (find_closed s p paths); [apply I|auto]).
       split; [destruct (number s <=? 0); auto|]. split; auto. split; [discriminate|tauto]. }
  destruct (find_open s p paths I Hp) as (h & F & Hh & Ep). destruct I as (I1 & I2 & I3 & I4 & I5 & I6 & I7).
  assert (Pos : (0 < List.length paths)%nat). { destruct paths; [destruct Hp|cbn; lia]. }
  destruct (I4 h Hh) as (J1 & J2 & J3). unfold elf_file_close.
  destruct (Z.leb_spec (number s) 0); [lia|]. rewrite F, J2. set (id := h_id h) in *.
  assert (Own : forall r, owned s id r = true <-> needs h r).
  { intros r. rewrite I7. split.
    - intros (h' & H1 & H2 & H3). assert (h' = h) as -> by (eapply (NoDup_map_inj_in h_id); eauto). auto.
    - intros H3. exists h. auto. }
  assert (all : exists o, match releases (owned s) id (RBid 0 :: [RNames; RShdrs; RPhdrs; REhdr] ++ (match h_mc h with O => [] | S k => [RMc k] end) ++ [RSyms; RFd; RLib; RObj]) with
            | Some o' => Some o' | None => None end = Some o /\ forall i x, o i x = if Nat.eqb i id && memr x (RBid 0 :: [RNames; RShdrs; RPhdrs; REhdr] ++ (match h_mc h with O => [] | S k => [RMc k] end) ++ [RSyms; RFd; RLib; RObj]) then false else owned s i x).
  { destruct (string_cases _ J3) as [Em|Em]; rewrite Em; cbn [app]; (rel; [apply nodupb_ok; reflexivity| |eauto]);
      intros r Hr; apply Own; repeat (destruct Hr as [<-|Hr]; [solve [exact I|exact J2|exact Em|cbn; auto]|]); destruct Hr. }
  destruct all as (o & E & G).
  assert (E' : match release (owned s) id (RBid 0) with
    | Some o1 => match releases o1 id [RNames; RShdrs; RPhdrs; REhdr] with
      | Some o2 => match (match h_mc h with O => Some o2 | S k => release o2 id (RMc k) end) with
        | Some o3 => releases o3 id [RSyms; RFd; RLib; RObj] | None => None end | None => None end | None => None end = Some o).
  { destruct (h_mc h) as [|k]; cbn [app releases] in E |- *;
    repeat match goal with |- context [match release ?a ?b ?c with _ => _ end] => destruct (release a b c); [|discriminate] end; exact E. }
  destruct (release (owned s) id (RBid 0)) as [o1|]; [|discriminate].
  destruct (releases o1 id [RNames; RShdrs; RPhdrs; REhdr]) as [o2|]; [|discriminate].
  destruct (match h_mc h with O => Some o2 | S k => release o2 id (RMc k) end) as [o3|]; [|discriminate]. rewrite E'.
  eexists. eexists. split; [reflexivity|]. split; [|split; auto].
  assert (Hf : map h_path (filter (fun x => negb (Nat.eqb (h_id x) id)) (handles s)) = filter (fun q => negb (str_eqb q p)) paths).
  { unfold id. rewrite <- Ep, <- I1. apply filter_paths; auto. rewrite I1. auto. }
  split; [exact Hf|]. split; [apply NoDup_filter; auto|]. split.
  { cbn [handles]. clear - I3. revert I3. generalize (handles s) as l. induction l as [|x l IH]; intros N; cbn [filter map] in *; [constructor|].
    inversion N; subst. destruct (negb (Nat.eqb (h_id x) id)); [|auto]. cbn [map]. constructor; auto.
    intros Q. apply H1. apply in_map_iff in Q. destruct Q as (y & Y1 & Y2). apply filter_In in Y2. apply in_map_iff. exists y. tauto. }
  split. { intros x Hx. cbn [handles next] in *. apply filter_In in Hx. apply I4. tauto. }
  pose proof (filter_one_len paths p I2 Hp) as L.
  split. { cbn [number]. rewrite I5. rewrite Z.mod_small; lia. }
  split; [lia|].
  intros i r. cbn [owned handles]. rewrite G. destruct (Nat.eqb_spec i id) as [->|Ni]; cbn [andb].
  - split.
    + intros Q. exfalso. destruct (memr r _) eqn:M; [discriminate|]. apply Own in Q.
      assert (T : memr r (RBid 0 :: [RNames; RShdrs; RPhdrs; REhdr] ++ match h_mc h with O => [] | S k => [RMc k] end ++ [RSyms; RFd; RLib; RObj]) = true).
      { clear M. destruct r; cbn [needs] in Q; try (apply memr_in; cbn [app]; destruct (h_mc h); cbn; tauto).
        - rewrite J2 in Q. injection Q as <-. apply memr_in. left. auto.
        - rewrite Q. apply memr_in. cbn [app In]. tauto. }
      congruence.
    + intros (x & X1 & X2 & _). apply filter_In in X1. destruct X1 as [_ X1]. rewrite X2, Nat.eqb_refl in X1. discriminate.
  - rewrite I7. split; intros (x & X1 & X2 & X3); exists x; split; auto.
    + apply filter_In. split; auto. rewrite X2. destruct (Nat.eqb_spec i id); [congruence|auto].
    + apply filter_In in X1. tauto.
Qed.

Lemma run_ok l : forall s paths, einv s paths -> disciplined l paths ->
  exists s', erun s l = Some s' /\ einv s' (open_paths l paths).
Proof.
  induction l as [|o l IH]; intros s paths I D; cbn [erun open_paths].
  - eauto.
  - destruct o as [p f|p]; cbn [estep disciplined] in *.
    + destruct D as (D1 & D2 & D3 & D4). destruct (open_new s p f paths I D1 D2 D3) as (r & s' & E & I' & _). rewrite E. cbn [snd]. eauto.
    + destruct (close_ok s p paths I) as (r & s' & E & I' & _). rewrite E. cbn [snd]. eauto.
Qed.

Lemma einv0 : einv est0 [].
Proof.
  split; auto. split; [constructor|]. split; [constructor|]. split; [intros h []|]. split; auto. split; [cbn; lia|].
  intros i r. cbn. split; [discriminate|]. intros (h & [] & _).
Qed.

(** ** Many handles *)
Definition plain_file : fenv := Fe true true true true true true 1 0 false.
Definition many (n : nat) : list eop := map (fun k => Open [Z.of_nat k + 1] plain_file) (seq 0 n).

Lemma erun_app a b s : erun s (a ++ b) = match erun s a with Some s' => erun s' b | None => None end.
Proof. revert s. induction a as [|o a IH]; intros s; auto. cbn [app erun]. destruct (estep s o); auto. Qed.

Lemma many_ok n : exists s, erun est0 (many n) = Some s /\
  map h_path (handles s) = map (fun k => [Z.of_nat k + 1]) (seq 0 n) /\ number s = Z.of_nat n mod 65536.
Proof.
  induction n as [|n (s & E & P & N)].
  - exists est0. auto.
  - unfold many in *. rewrite seq_S, map_app, erun_app, E. cbn [map Nat.add erun estep].
    unfold elf_file_open. cbn [plain_file f_exist negb].
    rewrite (find_closed s [Z.of_nat n + 1] _ P).
    2: { intros Q. apply in_map_iff in Q. destruct Q as (k & K1 & K2). apply in_seq in K2. injection K1. lia. }
    cbn [plain_file f_begin f_ident f_ehdr f_shdr f_sections f_bids f_mcs f_rel negb]. cbv zeta. cbn [snd].
    eexists. split; [reflexivity|]. cbn [handles number]. rewrite map_app, P, map_app. split; auto.
    rewrite N. rewrite Zplus_mod_idemp_l. f_equal. lia.
Qed.
