(** Command lines as their manual describes them. *)
From Coq Require Import ZArith String List Bool Lia.
From Verif Require Import Word Str.
From Verif Require Import ArModel.
Import ListNotations.
Open Scope Z_scope.

(** [n] names the long option [o]: its name, or a beginning of it that no option differing from it shares. *)
Definition begins (n s : list Z) : Prop := exists r, s = n ++ r.
Definition names (tab : list lopt) (n : list Z) (o : lopt) : Prop :=
  ~ In 61 n /\ In o tab /\
  (l_name o = n \/
   ((forall o', In o' tab -> l_name o' <> n) /\ begins n (l_name o) /\
    forall o', In o' tab -> begins n (l_name o') -> l_arg o' = l_arg o /\ l_val o' = l_val o)).

(** Short options. *)
Definition is_short (stab : list sopt) (k : argument) (c : Z) : Prop := In (So c k) stab.
Definition flag (c : Z) : event := Opt c None.

Definition dash := 45.
(** The words of a command line and the options they say, in order. *)
Inductive says (tab : list lopt) (stab : list sopt) : list (list Z) -> list event -> Prop :=
| says_nil : says tab stab [] []
| says_end ws : says tab stab ([dash; dash] :: ws) []
| says_word w ws es : (w = [] \/ w = [dash] \/ exists c r, w = c :: r /\ c <> dash) -> says tab stab ws es -> says tab stab (w :: ws) es
| says_long n o ws es : n <> [] -> names tab n o -> l_arg o = false -> says tab stab ws es ->
    says tab stab (([dash; dash] ++ n) :: ws) (Opt (l_val o) None :: es)
| says_long_eq n o v ws es : names tab n o -> l_arg o = true -> says tab stab ws es ->
    says tab stab (([dash; dash] ++ n ++ [61] ++ v) :: ws) (Opt (l_val o) (Some v) :: es)
| says_long_sep n o v ws es : n <> [] -> names tab n o -> l_arg o = true -> says tab stab ws es ->
    says tab stab (([dash; dash] ++ n) :: v :: ws) (Opt (l_val o) (Some v) :: es)
| says_flags fs ws es : fs <> [] -> hd 0 fs <> dash -> Forall (is_short stab NoArg) fs -> says tab stab ws es ->
    says tab stab (([dash] ++ fs) :: ws) (map flag fs ++ es)
| says_glued fs c v ws es : hd 0 (fs ++ [c]) <> dash -> Forall (is_short stab NoArg) fs -> is_short stab Required c -> v <> [] -> says tab stab ws es ->
    says tab stab (([dash] ++ fs ++ [c] ++ v) :: ws) (map flag fs ++ Opt c (Some v) :: es)
| says_sep fs c v ws es : hd 0 (fs ++ [c]) <> dash -> Forall (is_short stab NoArg) fs -> is_short stab Required c -> says tab stab ws es ->
    says tab stab (([dash] ++ fs ++ [c]) :: v :: ws) (map flag fs ++ Opt c (Some v) :: es)
| says_optional fs c v ws es : hd 0 (fs ++ [c]) <> dash -> Forall (is_short stab NoArg) fs -> is_short stab Optional c -> says tab stab ws es ->
    says tab stab (([dash] ++ fs ++ [c] ++ v) :: ws) (map flag fs ++ Opt c (match v with [] => None | _ => Some v end) :: es).

(** Tables in which no two entries are for the same name. *)
Definition distinct_long (tab : list lopt) : Prop := NoDup (map l_name tab).
Definition distinct_short (stab : list sopt) : Prop := NoDup (map s_char stab).

(** The argument of the last of the options [v]. *)
Fixpoint last_arg (v : Z) (es : list event) : option (option (list Z)) :=
  match es with
  | [] => None
  | e :: r => match last_arg v r with
              | Some a => Some a
              | None => match e with Opt w a => if w =? v then Some a else None | Unknown => None end
              end
  end.
Definition given (v : Z) (es : list event) : Prop := exists a, In (Opt v a) es.

(** The status with which the process ends. *)
Definition status (code : Z) : Z := code mod 256.

(** ** Sub-options *)

(** One sub-option: a word, or a word with a value. *)
Record sub := Su { u_name : list Z; u_val : option (list Z) }.
Definition sub_text (u : sub) : list Z := u_name u ++ match u_val u with None => [] | Some v => [61] ++ v end.
Definition sub_ok (u : sub) : Prop :=
  u_name u <> [] /\ ~ In 61 (u_name u) /\ ~ In 44 (u_name u) /\ match u_val u with None => True | Some v => ~ In 44 v end.
Fixpoint joined (us : list sub) : list Z :=
  match us with [] => [] | [u] => sub_text u | u :: r => sub_text u ++ [44] ++ joined r end.
(** The value of the last of the sub-options with a name; is there one? *)
Fixpoint last_sub (n : list Z) (us : list sub) : option (option (list Z)) :=
  match us with
  | [] => None
  | u :: r => match last_sub n r with Some a => Some a | None => if str_eqb (u_name u) n then Some (u_val u) else None end
  end.
Definition has (n : string) (us : list sub) : Prop := exists u, In u us /\ u_name u = str n.
Definition num_of (n : string) (us : list sub) (f : list Z -> Z) (before : Z) : Z :=
  match last_sub (str n) us with Some (Some v) => f v | Some None => 0 | None => before end.
Definition hasb (n : string) (us : list sub) : bool := existsb (fun u => str_eqb (u_name u) (str n)) us.
Definition only (ns : list string) (us : list sub) : Prop := Forall (fun u => exists n, In n ns /\ u_name u = str n) us.
Definition b2 (b : bool) (v : Z) : Z := if b then v else 0.
