(** * The directory of ListDirExamples.v with a torn first index record, for the examples of PropsListHoled.v. *)
From Verif Require Import Base Dev Types Record DataRuns Stream NonResident Resident Attribute File Structured AttrList Upcase Index
  Spec SpecMisc SpecValues SpecIndex SpecAttrList SpecListDir BaseProofs AttributeProofs FileProofs AttrListProofs AttrListIterProofs
  StreamExamples FileExamples ValueExamples IndexExamples AttrListExamples ListDirExamples PropsHoled.

Definition ex_lt_vol : list Z :=
  zrepeat 0 1024 ++ ex_record (ex_nonresident 128 1 4096 [17; 8; 2; 0; 0; 0; 0; 0]) ++ ex_ld_base ++ ex_ld_rec2 ++ ex_ld_rec3 ++ ex_torn_node ++ ex_dir_node2.

Lemma ex_lt_bytes : bytes_okb ex_lt_vol = true.
Proof. vm_compute. reflexivity. Qed.
Lemma ex_lt_len : zlen ex_lt_vol = 7168.
Proof. vm_compute. reflexivity. Qed.
Lemma ex_lt_stored n prot f : 0 <= n < 4 -> slice ex_lt_vol (1024 + n * 1024) (1024 + n * 1024 + 1024) = prot -> zlen prot = 1024 ->
    field 2 prot 4 = 48 -> field 2 prot 6 = 3 -> file_of_bytes prot (Some (1024 + n * 1024)) n = Ok f ->
    record_stored ex_lt_vol ex_ld_ntfs ex_al_extents n (1024 + n * 1024) (f_data f).
Proof. intros H1 H2 H3 H4 H5 H6. destruct (ex_al_stored ex_lt_vol ex_lt_bytes ex_lt_len n prot f H1 H2 H3 H4 H5 H6) as [K1 K2 K3 K4 K5]. split; assumption. Qed.
Lemma ex_lt_stored2 : record_stored ex_lt_vol ex_ld_ntfs ex_al_extents 2 3072 (f_data ex_ld_f2).
Proof. apply (ex_lt_stored 2 ex_ld_rec2 ex_ld_f2); try lia; vm_compute; reflexivity. Qed.
Lemma ex_lt_stored3 : record_stored ex_lt_vol ex_ld_ntfs ex_al_extents 3 4096 (f_data ex_ld_f3).
Proof. apply (ex_lt_stored 3 ex_ld_rec3 ex_ld_f3); try lia; vm_compute; reflexivity. Qed.
Lemma ex_lt_valid l : Forall (extent_fits 512) l -> Forall (extent_on_device 512 ex_lt_vol) l -> lcns_distinct 0 l -> valid_extents 512 ex_lt_vol l.
Proof. apply ex_al_valid. exact ex_lt_len. Qed.

Lemma ex_lt_file : file_with_list ex_lt_vol ex_ld_ntfs ex_al_extents ex_ld_f1 [56] 88 [] true ex_ld_list [0; 32; 64; 96] ListDone ex_ld_views.
Proof.
  split.
  - apply bytes_okb_ok; exact ex_lt_bytes.
  - exists 1024, (f_data ex_al_mft). split; [reflexivity|]. apply ex_al_mft_at; [exact ex_lt_len|vm_compute; reflexivity].
  - unfold U16_MAX; cbn; lia.
  - apply ex_al_mft_valid; exact ex_lt_len.
  - split; [apply bytes_okb_ok; vm_compute; reflexivity|vm_compute; discriminate].
  - assert (E : f_position ex_ld_f1 = Some 2048) by (vm_compute; reflexivity). assert (El : zlen (f_data ex_ld_f1) = 1024) by (vm_compute; reflexivity).
    rewrite E, El. intros v Hv. injection Hv as <-. unfold U64_MAX. lia.
  - apply walkb_ok. vm_compute. reflexivity.
  - apply Forall_cons; [vm_compute; discriminate|apply Forall_nil].
  - constructor.
  - reflexivity.
  - apply ac_resident; [reflexivity|vm_compute; discriminate|]. split; [vm_compute; discriminate|vm_compute; reflexivity].
  - vm_compute; discriminate.
  - apply (lwalk_ok 9); vm_compute; reflexivity.
  - discriminate.
  - change (f_number ex_ld_f1) with 1. change (entries_of (f_data ex_ld_f1) 88 [0; 32; 64; 96] ListDone) with [0; 32; 64; 96].
    apply ls_own; [apply known_type_spec; vm_compute; reflexivity|vm_compute; reflexivity|].
    apply ls_resident_n; [vm_compute; reflexivity|shown_now|exact ex_lt_stored2| |vm_compute; reflexivity|].
    { exists [], [240], true. split; [exact ex_ld_walk2|]. split; [constructor|]. split; vm_compute; reflexivity. }
    apply ls_nonresident_n; [vm_compute; reflexivity|shown_now|exact ex_lt_stored2| |vm_compute; discriminate|].
    { exists [56], [], true. split; [exact ex_ld_walk2|]. split; [apply Forall_cons; [|constructor]|split; vm_compute; reflexivity]. split; [apply known_type_spec; reflexivity|left; vm_compute; discriminate]. }
    apply ls_part; [apply known_type_spec; vm_compute; reflexivity|vm_compute; discriminate|vm_compute; reflexivity|]. apply ls_end.
Qed.

Lemma ex_lt_connected : connected ex_lt_vol ex_ld_ntfs ex_al_extents ex_ld_list 160 5 ListDone [64; 96] ex_ld_parts.
Proof.
  eapply con_part; [reflexivity|reflexivity|exact ex_lt_stored2| |discriminate| |].
  { exists [56], 240, [], true. split; [exact ex_ld_walk2|].
    split; [constructor; [|constructor]; split; [apply known_type_spec; reflexivity|left; vm_compute; discriminate]|].
    split; [reflexivity|]. split; [reflexivity|]. split; [vm_compute; discriminate|]. split; [vm_compute; discriminate|]. split; [vm_compute; discriminate|].
    apply (enc_data 0 10 2 [2] [10] [] [0; 0; 0; 0; 0]); [apply ubytes1, byte1; lia|apply sbytes1; lia|constructor]. }
  { apply ex_lt_valid; [repeat constructor; vm_compute; discriminate| |repeat split; discriminate]. repeat constructor; unfold extent_on_device; rewrite ?ex_lt_len; cbn; lia. }
  eapply con_part; [reflexivity|reflexivity|exact ex_lt_stored3| |discriminate| |].
  { exists [], 56, [], true. split; [exact ex_ld_walk3|]. split; [constructor|].
    split; [reflexivity|]. split; [reflexivity|]. split; [vm_compute; discriminate|]. split; [vm_compute; discriminate|]. split; [vm_compute; discriminate|].
    apply (enc_data 0 12 2 [2] [12] [] [0; 0; 0; 0; 0]); [apply ubytes1, byte1; lia|apply sbytes1; lia|constructor]. }
  { apply ex_lt_valid; [repeat constructor; vm_compute; discriminate| |repeat split; discriminate]. repeat constructor; unfold extent_on_device; rewrite ?ex_lt_len; cbn; lia. }
  apply con_end. discriminate.
Qed.

Lemma ex_lt_directory : listed_directory ex_lt_vol ex_ld_ntfs ex_al_extents ex_ld_f1 ex_ld_list ListDone (map VBase [56] ++ ex_ld_views ++ map VBase [])
  ex_dir_root (ex_dir_alloc ex_torn_img).
Proof.
  assert (Hoth : is_other (f_data ex_ld_f1) 144 (Some I30) None 56 /\ is_other (f_data ex_ld_f1) 160 (Some I30) None 56 /\ is_other (f_data ex_ld_f2) 160 (Some I30) None 56).
  { split; [|split]; (split; [apply known_type_spec; vm_compute; reflexivity|left; vm_compute; discriminate]). }
  destruct Hoth as (O1 & O2 & O3).
  split.
  - split; [vm_compute; discriminate|vm_compute; reflexivity].
  - exists (VOther 2 3072 (f_data ex_ld_f2) 56), (f_data ex_ld_f2), 56. split.
    { exists [VBase 56]. eexists. split; [reflexivity|]. split; [apply Forall_cons; [exact O1|apply Forall_nil]|].
      split; [vm_compute; reflexivity|]. split; [discriminate|]. intros n E. assert (n = I30) by congruence. subst n. exists ex_i30. split; [name_at|apply ex_i30_units]. }
    split; [reflexivity|]. split; [vm_compute; reflexivity|]. split; [vm_compute; discriminate|]. split; vm_compute; [discriminate|reflexivity].
  - apply ex_dir_is_directory.
  - change (root_is_large ex_dir_root) with true. cbv iota. exists (VParts 2 3072 (f_data ex_ld_f2) 240 [64; 96]). split.
    { exists [VBase 56; VOther 2 3072 (f_data ex_ld_f2) 56]. eexists. split; [reflexivity|]. split; [apply Forall_cons; [exact O2|apply Forall_cons; [exact O3|apply Forall_nil]]|].
      split; [vm_compute; reflexivity|]. split; [discriminate|]. intros n E. assert (n = I30) by congruence. subst n. exists ex_i30. split; [name_at|apply ex_i30_units]. }
    exists ex_ld_parts. split; [vm_compute; discriminate|]. split; [exact ex_lt_connected|]. split; [vm_compute; discriminate|]. vm_compute. reflexivity.
  - intros _. vm_compute. split; discriminate.
Qed.
