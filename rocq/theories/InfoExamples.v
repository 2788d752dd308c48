(** * Concrete files for the examples of PropsInfo.v. *)
From Verif Require Import Base Dev Types Record DataRuns Stream NonResident Resident BootSector Attribute File Structured AttrList Upcase Index Time Volume Shell
  Spec SpecMisc SpecValues SpecIndex SpecAttrList SpecVolume SpecInfo
  BaseProofs ReaderProofs RecordProofs AttributeProofs FileProofs AttrListIterProofs StreamExamples FileExamples ValueExamples IndexExamples AttrListExamples VolumeExamples.

(** A device that fails. *)
Definition ex_info_dev : dev := mkDev [] 3 [RErr OtherIo] [].

(** A file with standard information and an attribute list. *)
Definition ex_al_base6 := ex_record (ex_resident 16 0 [] exv_std ++ ex_resident 32 1 [] ex_al_list5).
Definition ex_al_vol6 := ex_al_vol ex_al_base6 (ex_record (ex_al_attrs1 5)) ex_al_b.
Definition ex_al_n1 := ex_al_rec ex_al_base6 2048 1.
Lemma ex_al_vol6_bytes : bytes_okb ex_al_vol6 = true.
Proof. vm_compute. reflexivity. Qed.
Lemma ex_al_vol6_len : zlen ex_al_vol6 = 7168.
Proof. vm_compute. reflexivity. Qed.
Lemma ex_al_stored6_2 : record_stored ex_al_vol6 (ex_al_ntfs ex_al_vol6) ex_al_extents 2 3072 (f_data ex_al_f2).
Proof. apply (ex_al_stored ex_al_vol6 ex_al_vol6_bytes ex_al_vol6_len 2 (ex_record (ex_al_attrs1 5)) ex_al_f2); try lia; vm_compute; reflexivity. Qed.
Lemma ex_al_stored6_3 : record_stored ex_al_vol6 (ex_al_ntfs ex_al_vol6) ex_al_extents 3 4096 (f_data ex_al_m3).
Proof. apply (ex_al_stored ex_al_vol6 ex_al_vol6_bytes ex_al_vol6_len 3 ex_al_b ex_al_m3); try lia; vm_compute; reflexivity. Qed.
Lemma ex_al_locates_f2 : locates (f_data ex_al_f2) 128 5 56.
Proof. exists [], [], true. split; [exact ex_al_walk_f2|]. split; [constructor|]. split; vm_compute; reflexivity. Qed.
Lemma ex_al_file6 : file_with_list ex_al_vol6 (ex_al_ntfs ex_al_vol6) ex_al_extents ex_al_n1 [56] 128 [] true ex_al_list5 [0; 32; 64] ListDone ex_al_views5.
Proof.
  split.
  - apply bytes_okb_ok; exact ex_al_vol6_bytes.
  - exists 1024, (f_data ex_al_mft). split; [reflexivity|]. apply ex_al_mft_at; [exact ex_al_vol6_len|vm_compute; reflexivity].
  - unfold U16_MAX; cbn; lia.
  - apply ex_al_mft_valid; exact ex_al_vol6_len.
  - split; [apply bytes_okb_ok; vm_compute; reflexivity|vm_compute; discriminate].
  - assert (E : f_position ex_al_n1 = Some 2048) by (vm_compute; reflexivity). assert (El : zlen (f_data ex_al_n1) = 1024) by (vm_compute; reflexivity).
    rewrite E, El. intros v Hv. injection Hv as <-. unfold U64_MAX. lia.
  - apply walkb_ok; vm_compute; reflexivity.
  - apply Forall_cons; [vm_compute; discriminate|apply Forall_nil].
  - constructor.
  - reflexivity.
  - apply ac_resident; [reflexivity|vm_compute; discriminate|]. split; [vm_compute; discriminate|vm_compute; reflexivity].
  - vm_compute; discriminate.
  - apply (lwalk_ok 9); vm_compute; reflexivity.
  - discriminate.
  - change (f_number ex_al_n1) with 1. change (SpecAttrList.entries_of (f_data ex_al_n1) 128 [0; 32; 64] ListDone) with [0; 32; 64].
    apply ls_own; [apply known_type_spec; vm_compute; reflexivity|vm_compute; reflexivity|].
    apply ls_nonresident_n; [vm_compute; reflexivity|shown_now|exact ex_al_stored6_2|exact ex_al_locates_f2|vm_compute; discriminate|].
    apply ls_part; [apply known_type_spec; vm_compute; reflexivity|vm_compute; discriminate|vm_compute; reflexivity|]. apply ls_end.
Qed.
Lemma ex_al_entries6 : Forall (entry_whole ex_al_vol6 (ex_al_ntfs ex_al_vol6) ex_al_extents ex_al_list5 1) [0; 32; 64].
Proof.
  apply Forall_cons; [left; vm_compute; reflexivity|]. apply Forall_cons.
  { right. exists 3072, (f_data ex_al_f2), 56. split; [exact ex_al_stored6_2|]. split; [exact ex_al_locates_f2|].
    split; [vm_compute; auto 20|eexists; left; split; [right; vm_compute; reflexivity|reflexivity]|vm_compute; discriminate|].
    intros _. split; [vm_compute; discriminate|]. split; [vm_compute; discriminate|]. exists ex_part1.
    split; [match goal with |- encodes _ _ ?x => replace x with ex_runs1 by (vm_compute; reflexivity) end; exact ex_enc1|].
    split; [repeat constructor; cbn; lia|]. repeat (apply Forall_cons; [vm_compute; intuition discriminate|]); apply Forall_nil. }
  apply Forall_cons; [|apply Forall_nil].
  right. exists 4096, (f_data ex_al_m3), 56. split; [exact ex_al_stored6_3|]. split; [exact ex_al_locates5|]. whole_named.
Qed.
(** Standard information, names, streams. *)
Ltac info_std := split; [intros _|intros E; vm_compute in E; discriminate E|intros E; vm_compute in E; discriminate E];
  split; [vm_compute; reflexivity|]; split; [vm_compute; discriminate|]; eexists; split; [split; [vm_compute; discriminate|reflexivity]|vm_compute; discriminate].
Ltac info_name := split; [intros E; vm_compute in E; discriminate E|intros _|intros E; vm_compute in E; discriminate E];
  split; [vm_compute; reflexivity|]; split; [vm_compute; discriminate|]; eexists; split; [split; [vm_compute; discriminate|reflexivity]|];
  split; [vm_compute; discriminate|split; vm_compute; discriminate].
Ltac info_stream := split; [intros E; vm_compute in E; discriminate E|intros E; vm_compute in E; discriminate E|intros _];
  split; [eexists; first [left; split; [right; vm_compute; reflexivity|reflexivity]|name_at]|vm_compute; discriminate].
Lemma ex_al_info6 : Forall (at_view (f_data ex_al_n1) info_whole) (map VBase [56] ++ ex_al_views5 ++ map VBase []).
Proof. apply Forall_cons; [cbn [at_view view_at]; info_std|]. apply Forall_cons; [|apply Forall_nil]. cbn [at_view view_at]. info_stream. Qed.
Lemma exv_info11 : Forall (info_whole (exv_data exv_rec11 11)) [56; 128; 224; 320; 348].
Proof. apply Forall_cons; [info_std|]. do 2 (apply Forall_cons; [info_name|]). do 2 (apply Forall_cons; [info_stream|]). apply Forall_nil. Qed.
Lemma exv_whole13 : Forall (attr_whole 512 (exv_data exv_rec13 13)) [56; 152].
Proof.
  pose proof exv_mft_sub as Hm. apply ((proj1 exv_whole) 13 (mkObject [mkLink 12 1 exv_in] [([], exv_content)] None)); [reflexivity|rec_at exv_rec13|apply walkb_ok; vm_compute; reflexivity].
Qed.
