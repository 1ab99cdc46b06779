(** C strings as lists of bytes (without the terminating NUL) and the libc
    string functions the models use.  libc itself is trusted; these are its
    documented meanings. *)
From Coq Require Import ZArith String Ascii List Bool Lia.
Import ListNotations.
Open Scope Z_scope.

(** String literals. *)
Fixpoint str (s : string) : list Z :=
  match s with
  | EmptyString => []
  | String c s' => Z.of_nat (nat_of_ascii c) :: str s'
  end.

(** strcmp(a, b) == 0. *)
Fixpoint str_eqb (a b : list Z) : bool :=
  match a, b with
  | [], [] => true
  | x :: a', y :: b' => (x =? y) && str_eqb a' b'
  | _, _ => false
  end.

(** strcmp(a, b): the difference of the first differing bytes; a string ends
    with a NUL byte. *)
Fixpoint strcmp (a b : list Z) : Z :=
  match a, b with
  | [], [] => 0
  | [], y :: _ => - y
  | x :: _, [] => x
  | x :: a', y :: b' => if x =? y then strcmp a' b' else x - y
  end.

(** strncmp(s, p, strlen(p)) == 0. *)
Fixpoint prefixb (p s : list Z) : bool :=
  match p, s with
  | [], _ => true
  | x :: p', y :: s' => (x =? y) && prefixb p' s'
  | _ :: _, [] => false
  end.

(** strstr(s, p) != NULL. *)
Fixpoint strstrb (s p : list Z) : bool :=
  prefixb p s || match s with [] => false | _ :: s' => strstrb s' p end.

(** basename(3), the POSIX one of libgen.h: the component after the last slash,
    trailing slashes ignored; "." for the empty string, "/" for only slashes. *)
Fixpoint last_comp (s acc : list Z) : list Z :=
  match s with
  | [] => acc
  | c :: s' => if c =? 47 then last_comp s' s' else last_comp s' acc
  end.
Fixpoint drop_slashes (s : list Z) : list Z :=
  match s with
  | c :: s' => if c =? 47 then drop_slashes s' else s
  | [] => []
  end.
Definition basename (s : list Z) : list Z :=
  match s with
  | [] => [46]
  | _ => match drop_slashes (rev s) with
         | [] => [47]
         | r => last_comp (rev r) (rev r)
         end
  end.

(** The digits of "%d" and "%lu". *)
Fixpoint digits (fuel : nat) (base n : Z) : list Z :=
  match fuel with
  | O => []
  | S f => if n <? base then [n] else digits f base (n / base) ++ [n mod base]
  end.
Definition dec_nat (n : Z) : list Z := map (fun d => 48 + d) (digits (S (Z.to_nat (Z.log2 n))) 10 n).
Definition dec (n : Z) : list Z := if n <? 0 then 45 :: dec_nat (- n) else dec_nat n.

(** ** Meanings *)

Lemma str_eqb_eq a b : str_eqb a b = true <-> a = b.
Proof.
  revert b. induction a as [|x a IH]; intros [|y b]; cbn; split; intros H; try discriminate; auto.
  - apply andb_true_iff in H. destruct H as [H1 H2]. apply Z.eqb_eq in H1. apply IH in H2. congruence.
  - injection H as -> ->. rewrite Z.eqb_refl. cbn. apply IH. reflexivity.
Qed.

Lemma str_eqb_refl a : str_eqb a a = true.
Proof. apply str_eqb_eq. reflexivity. Qed.

Lemma str_eqb_neq a b : a <> b -> str_eqb a b = false.
Proof. intros H. destruct (str_eqb a b) eqn:E; auto. apply str_eqb_eq in E. contradiction. Qed.

Lemma prefixb_iff p s : prefixb p s = true <-> exists r, s = p ++ r.
Proof.
  revert s. induction p as [|x p IH]; intros s; cbn.
  - split; eauto.
  - destruct s as [|y s]; split; try discriminate.
    + intros [r E]. discriminate.
    + intros H. apply andb_true_iff in H. destruct H as [H1 H2]. apply Z.eqb_eq in H1. apply IH in H2.
      destruct H2 as [r ->]. exists r. cbn. congruence.
    + intros [r E]. injection E as -> ->. rewrite Z.eqb_refl. cbn. apply IH. eauto.
Qed.

Lemma strstrb_iff s p : strstrb s p = true <-> exists a b, s = a ++ p ++ b.
Proof.
  induction s as [|c s IH]; cbn.
  - rewrite orb_false_r, prefixb_iff. split.
    + intros [r E]. exists [], r. exact E.
    + intros (a & b & E). destruct a as [|x a]; [exists b; exact E|discriminate].
  - rewrite orb_true_iff, prefixb_iff, IH. split.
    + intros [[r E]|(a & b & E)].
      * exists [], r. exact E.
      * exists (c :: a), b. cbn. congruence.
    + intros (a & b & E). destruct a as [|x a].
      * left. exists b. exact E.
      * right. injection E as -> ->. exists a, b. reflexivity.
Qed.

Lemma strcmp_0 a b : Forall (fun c => 0 < c) a -> Forall (fun c => 0 < c) b -> (strcmp a b = 0 <-> a = b).
Proof.
  revert b. induction a as [|x a IH]; intros [|y b] Ha Hb; cbn; try (split; congruence).
  - inversion Hb; subst. split; intros H; [lia|discriminate].
  - inversion Ha; subst. split; intros H; [lia|discriminate].
  - inversion Ha; inversion Hb; subst. destruct (Z.eqb_spec x y) as [->|N].
    + rewrite IH by auto. split; congruence.
    + split; intros H; [lia|congruence].
Qed.

Lemma last_comp_noslash s acc : ~ In 47 s -> last_comp s acc = acc.
Proof.
  revert acc. induction s as [|c s IH]; intros acc H; cbn; auto.
  destruct (Z.eqb_spec c 47) as [->|N]; [exfalso; apply H; left; auto|]. apply IH. intros K. apply H. right. auto.
Qed.

Lemma last_comp_app d f acc : ~ In 47 f -> last_comp (d ++ 47 :: f) acc = f.
Proof.
  intros H. revert acc. induction d as [|c d IH]; intros acc; cbn.
  - apply last_comp_noslash. auto.
  - destruct (c =? 47); apply IH.
Qed.

Lemma basename_app d f : f <> [] -> ~ In 47 f -> basename (d ++ 47 :: f) = f.
Proof.
  intros N H. unfold basename. destruct (d ++ 47 :: f) as [|x l] eqn:E; [destruct d; discriminate|].
  rewrite <- E. clear E x l.
  assert (D : drop_slashes (rev (d ++ 47 :: f)) = rev (d ++ 47 :: f)).
  { rewrite rev_app_distr. cbn. rewrite <- !app_assoc.
    destruct (rev f) as [|c r] eqn:E.
    - apply (f_equal (@rev Z)) in E. rewrite rev_involutive in E. contradiction.
    - cbn. destruct (Z.eqb_spec c 47) as [->|Nc]; [|reflexivity].
      exfalso. apply H. apply in_rev. rewrite E. left. reflexivity. }
  rewrite D. destruct (rev (d ++ 47 :: f)) eqn:E.
  - apply (f_equal (@rev Z)) in E. rewrite rev_involutive in E. destruct d; discriminate.
  - rewrite <- E, rev_involutive. apply last_comp_app. auto.
Qed.

Lemma basename_noslash f : f <> [] -> ~ In 47 f -> basename f = f.
Proof.
  intros N H. unfold basename. destruct f as [|x l] eqn:E; [contradiction|]. rewrite <- E in *. clear E x l.
  assert (D : drop_slashes (rev f) = rev f).
  { destruct (rev f) as [|c r] eqn:E; [reflexivity|].
    cbn. destruct (Z.eqb_spec c 47) as [->|Nc]; [|reflexivity].
    exfalso. apply H. apply in_rev. rewrite E. left. reflexivity. }
  rewrite D. destruct (rev f) eqn:E.
  - apply (f_equal (@rev Z)) in E. rewrite rev_involutive in E. contradiction.
  - rewrite <- E, rev_involutive. apply last_comp_noslash. auto.
Qed.
