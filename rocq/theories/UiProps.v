(** What "ulpinfo -i FILE" prints: C211. *)
From Coq Require Import ZArith String List Bool Lia.
From Verif Require EcModel.
From Verif Require Import Word WordLemmas Str ElfDefs TextSpec LdModel LdSpec LdProofs LdMore LdEx LdProps PaSpec PaEx MpSpec DsSpec DsModel DsProofs DsProps LiProps UiModel UiSpec UiProofs.
Import ListNotations.
Open Scope Z_scope.

(** The claim is what C211_shown_partial says, without [shown_inside] and without the bound
    on the number.  The name of the author of a file that the tool takes for a patch is
    read from wherever the header of its section says. *)
Definition far_file : list Z := Eval vm_compute in patch_list LdEx.ex_file (480 + 64 * 4 + 24) (le_bytes 8 5000).
Definition far_img : mem := of_bytes far_file.
Lemma far_wf : well_formed far_img ex_len.
Proof.
  assert (N : ld 2 far_img 60 = 11) by (vm_compute; reflexivity). constructor.
  - vm_compute. repeat split; discriminate.
  - vm_compute. reflexivity.
  - rewrite N. use11; exists 477; vm_compute; repeat split; discriminate.
  - rewrite N. use11; intros (_ & F & _); first [vm_compute; discriminate|specialize (F 9%nat ltac:(vm_compute; lia)); vm_compute in F; discriminate F].
  - rewrite N. use11; intros (_ & F & _); pose proof (F 1%nat ltac:(vm_compute; lia)) as F1; specialize (F 10%nat ltac:(vm_compute; lia));
      first [vm_compute in F; discriminate F|vm_compute in F1; discriminate F1|exists 152, 159; vm_compute; repeat split; discriminate].
  - rewrite N. use11; intros (_ & F & _); specialize (F 1%nat ltac:(vm_compute; lia));
      first [vm_compute in F; discriminate F|vm_compute; discriminate].
  - rewrite N. use11; intros F; first [vm_compute in F; discriminate F|vm_compute; reflexivity].
Qed.

Theorem C211_author_refuted : exists signed date opened cs host file m len li,
  byte_mem m /\ well_formed m len /\ setup_load_info m len = Some (inr li) /\ (forall t, date t <> None) /\
  show_file_patch_info signed date opened cs host file m len = None.
Proof.
  exists true, (fun _ => Some (str "1970/01/01 00:00:00")), true, ex_cs, 0x5000, (str "a.ulp"), far_img, ex_len. eexists.
  split; [apply of_bytes_byte, bytes_check; vm_compute; reflexivity|]. split; [exact far_wf|]. split; [vm_compute; reflexivity|].
  split; [discriminate|]. vm_compute. reflexivity.
Qed.
Print Assumptions C211_author_refuted.

(** A number of 2^31 and more is shown as a negative one. *)
Definition big_file : list Z := Eval vm_compute in patch_list LdEx.ex_file 80 [255; 255; 255; 255].
Definition big_img : mem := of_bytes big_file.
Theorem C211_number_refuted : exists signed date opened cs host file m len info a b,
  byte_mem m /\ info_at m info /\ ld 4 m info = 2 ^ 32 - 1 /\
  show_file_patch_info signed date opened cs host file m len = Some (0, a ++ [9] ++ str "ID         : -1" ++ [10] ++ b).
Proof.
  assert (Hb : byte_mem big_img) by (apply of_bytes_byte, bytes_check; vm_compute; reflexivity).
  exists true, (fun _ => Some (str "1970/01/01 00:00:00")), true, ex_cs, 0x5000, (str "a.ulp"), big_img, ex_len, 80.
  set (t := match show_file_patch_info true (fun _ => Some (str "1970/01/01 00:00:00")) true ex_cs 0x5000 (str "a.ulp") big_img ex_len with Some (_, x) => x | None => [] end).
  exists (firstn 113 t), (skipn 130 t). split; [exact Hb|]. split; [|split; [vm_compute; reflexivity|vm_compute; reflexivity]].
  assert (SU : exists li, setup_load_info big_img ex_len = Some (inr li) /\ li_info li = 80 /\ li_info_idx li = 2) by (eexists; split; [vm_compute; reflexivity|split; reflexivity]).
  destruct SU as (li & SU & L1 & L2). destruct (PaLoad.setup_facts _ _ _ Hb SU) as (_ & (A & B & C & D) & _). rewrite L2 in *. rewrite L1 in *. exists 2. split; [lia|]. auto.
Qed.
Print Assumptions C211_number_refuted.

(** Missing: files whose strings or record are not inside them, numbers of 2^31 and more,
    times that have no date. *)
Theorem C211_shown_partial : forall one cs signed date opened host file m len,
  proper_decoder one -> engine one cs -> byte_mem m -> 0 <= host < 2 ^ 64 ->
  (forall info, info_at m info -> ld 4 m info < 2 ^ 31) ->
  (forall text, show_file_patch_info signed date opened cs host file m len = Some (0, text) -> file_shown one signed date file m text) /\
  (shown_inside m len -> (forall info, info_at m info -> date (s64 (ld 8 m (info + 44))) <> None) ->
   forall li, setup_load_info m len = Some (inr li) ->
   exists text, show_file_patch_info signed date opened cs host file m len = Some (0, text)).
Proof.
  intros one cs signed date opened host file m len Pd En Hb Hh Hid. split.
  - intros text H. eapply shown_ok; eauto.
  - intros Hs Hd li SU. eapply answers; eauto.
Qed.
Print Assumptions C211_shown_partial.

(** A file that is no patch: an error, and nothing is shown.  Otherwise something is. *)
Theorem C211_refused : forall signed date opened cs host file m len r text,
  show_file_patch_info signed date opened cs host file m len = Some (r, text) -> (r <> 0 <-> text = []).
Proof.
  intros signed date opened cs host file m len r text H. unfold show_file_patch_info in H. ob H. destruct s as [e|li].
  - apply some_inj in H. apply pair_equal_spec in H. destruct H as [<- <-]. apply PaLoad.setup_err in E. split; intros _; [reflexivity|lia].
  - ob H. ob H. ob H. ob H. apply some_inj in H. apply pair_equal_spec in H. destruct H as [<- <-]. split; [congruence|]. intros X. discriminate X.
Qed.
Print Assumptions C211_refused.

(** A patch with the code of the function it has replaced. *)
Definition orig_file : list Z := Eval vm_compute in
  patch_list (patch_list LdEx.ex_file 80 [7; 0; 0; 0; 0; 32; 64]) 108 (repeat 0x90 14 ++ [0xc3; 0]).
Definition orig_img : mem := of_bytes orig_file.
Definition is_at (m : mem) (name : string) (k : Z) : Prop := forall j, 0 <= j < 11 -> sec_named m name j -> j = k.
Lemma orig_names : is_at orig_img ".ulpatch.info" 2 /\ is_at orig_img ".ulpatch.strtab" 3 /\ is_at orig_img ".ulpatch.author" 4 /\ is_at orig_img ".ulpatch.license" 5.
Proof.
  unfold is_at. split; [|split; [|split]]; use11; intros N;
  (eapply named_check in N; [|vm_compute; reflexivity]); vm_compute in N; first [discriminate N|reflexivity].
Qed.
Lemma at_one m name k : ld 2 m 60 = 11 -> is_at m name k -> forall o, first_named m name o -> o = sh_offset (section m (ld 8 m 40) k).
Proof. intros N A o (j & J1 & J2 & _ & ->). rewrite N in J1. rewrite (A j J1 J2). reflexivity. Qed.
Example C211_ex : byte_mem orig_img /\ shown_inside orig_img ex_len /\ (forall info, info_at orig_img info -> ld 4 orig_img info < 2 ^ 31 /\ a_date (s64 (ld 8 orig_img (info + 44))) <> None) /\
  (exists li, setup_load_info orig_img ex_len = Some (inr li)) /\
  exists rows, show_file_patch_info true a_date true ex_cs 0x5000 (str "a.ulp") orig_img ex_len =
   Some (0, [9] ++ str "File: a.ulp" ++ [10] ++
            [9] ++ str "Magic      : .ULPATCH" ++ [10] ++
            [9] ++ str "SrcFunc    : new_fn" ++ [10] ++
            [9] ++ str "DstFunc    : old_fn" ++ [10] ++
            [9] ++ str "Author     : me" ++ [10] ++
            [9] ++ str "License    : GPL" ++ [10] ++
            [9] ++ str "ID         : 7" ++ [10] ++
            [9] ++ str "TargetAddr : 0x00000000402000" ++ [10] ++
            [9] ++ str "PatchAddr  : 0000000000000000" ++ [10] ++
            [9] ++ str "VirtAddr   : 0000000000000000" ++ [10] ++
            [9] ++ str "OrigVal    : 0x9090909090909090,0xc3909090909090" ++ [10] ++
            [9] ++ str "             ----- orig code ------" ++ [10] ++ rows ++
            [9] ++ str "InsertTime : 0000000000000000 (2026/11/16 10:00:00)" ++ [10] ++
            [9] ++ str "Flags      : 00000000" ++ [10] ++
            [9] ++ str "Version    : 0x000005" ++ [10] ++
            [9] ++ str "Pad[4]     : [17,34,51,68]" ++ [10] ++
            [9] ++ str "BuildID    : deadbeef" ++ [10]).
Proof.
  assert (N : ld 2 orig_img 60 = 11) by (vm_compute; reflexivity). destruct orig_names as (A1 & A2 & A3 & A4).
  assert (B1 := at_one _ _ _ N A1). assert (B2 := at_one _ _ _ N A2). assert (B3 := at_one _ _ _ N A3). assert (B4 := at_one _ _ _ N A4).
  split; [apply of_bytes_byte, bytes_check; vm_compute; reflexivity|]. split; [|split; [|split]].
  - split; [|split; [|split]].
    + intros o Ho. rewrite (B1 o Ho). vm_compute. discriminate.
    + intros o Ho. rewrite (B2 o Ho). exists 152, 159, 166. vm_compute. repeat split; discriminate.
    + intros o Ho. rewrite (B3 o Ho). exists 170. vm_compute. repeat split; discriminate.
    + intros o Ho. rewrite (B4 o Ho). exists 179. vm_compute. repeat split; discriminate.
  - intros info Hi. rewrite (B1 info Hi). vm_compute. split; [reflexivity|discriminate].
  - eexists. vm_compute. reflexivity.
  - eexists (fst (fdisasm true ex_cs ([9] ++ repeat 32 13) 0x402000 0x5000 (repeat 0x90 14 ++ [0xc3; 0]))). vm_compute. reflexivity.
Qed.
