(** * A directory with an attribute list, for the example of PropsListDir.v. *)
From Verif Require Import Base Dev Types Record DataRuns Stream NonResident Resident Attribute File Structured AttrList Upcase Index
  Spec SpecMisc SpecValues SpecIndex SpecAttrList SpecListDir BaseProofs AttributeProofs FileProofs AttrListProofs AttrListIterProofs
  StreamExamples FileExamples ValueExamples IndexExamples AttrListExamples.

(** The record 1 is the directory: it has a list, which names $INDEX_ROOT and the first half of $INDEX_ALLOCATION in record 2, and the second
    half in record 3. The index is that of C27_example. *)
Definition ex_ld_list := ex_le32 16 0 1 0 ++ ex_le32 144 0 2 2 ++ ex_le32 160 0 2 5 ++ ex_le32 160 2 3 5.
Definition ex_ld_flagged (prot : list Z) : list Z := ztake 22 prot ++ [3; 0] ++ zdrop 24 prot.
Definition ex_ld_base := ex_ld_flagged (ex_al_base ex_ld_list []).
Definition ex_ld_alloc (size : Z) (runs : list Z) : list Z :=
  [160; 0; 0; 0; 80; 0; 0; 0; 1; 4; 64; 0; 0; 0; 5; 0] ++ zrepeat 0 16 ++ [72; 0; 0; 0; 0; 0; 0; 0] ++ zrepeat 0 8 ++ [0; size; 0; 0; 0; 0; 0; 0] ++ zrepeat 0 8 ++
  ex_i30 ++ runs.
Definition ex_ld_rec2 := ex_record (ex_resident 144 2 ex_i30 ex_dir_root ++ ex_ld_alloc 8 [17; 2; 10; 0; 0; 0; 0; 0]).
Definition ex_ld_rec3 := ex_record (ex_ld_alloc 0 [17; 2; 12; 0; 0; 0; 0; 0]).
Definition ex_ld_vol : list Z :=
  zrepeat 0 1024 ++ ex_record (ex_nonresident 128 1 4096 [17; 8; 2; 0; 0; 0; 0; 0]) ++ ex_ld_base ++ ex_ld_rec2 ++ ex_ld_rec3 ++ ex_dir_node0 ++ ex_dir_node2.
Definition ex_ld_ntfs : ntfs := mkNtfs 512 512 (zlen ex_ld_vol) (Some 1024) 1024 99 (Some ex_dir_table).
Definition ex_ld_dev : dev := mkDev ex_ld_vol 3 [RShort 10; RShort 100] [None].
Definition ex_ld_f1 := ex_al_rec ex_ld_base 2048 1.
Definition ex_ld_f2 := ex_al_rec ex_ld_rec2 3072 2.
Definition ex_ld_f3 := ex_al_rec ex_ld_rec3 4096 3.
Definition ex_ld_parts := [[mkExtent (Some 10) 2]; [mkExtent (Some 12) 2]].
Definition ex_ld_views := [VOther 2 3072 (f_data ex_ld_f2) 56; VParts 2 3072 (f_data ex_ld_f2) 240 [64; 96]].

Lemma ex_ld_bytes : bytes_okb ex_ld_vol = true.
Proof. vm_compute. reflexivity. Qed.
Lemma ex_ld_len : zlen ex_ld_vol = 7168.
Proof. vm_compute. reflexivity. Qed.
Lemma ex_ld_stored n prot f : 0 <= n < 4 -> slice ex_ld_vol (1024 + n * 1024) (1024 + n * 1024 + 1024) = prot -> zlen prot = 1024 ->
    field 2 prot 4 = 48 -> field 2 prot 6 = 3 -> file_of_bytes prot (Some (1024 + n * 1024)) n = Ok f ->
    record_stored ex_ld_vol ex_ld_ntfs ex_al_extents n (1024 + n * 1024) (f_data f).
Proof. intros H1 H2 H3 H4 H5 H6. destruct (ex_al_stored ex_ld_vol ex_ld_bytes ex_ld_len n prot f H1 H2 H3 H4 H5 H6) as [K1 K2 K3 K4 K5]. split; assumption. Qed.
Lemma ex_ld_stored2 : record_stored ex_ld_vol ex_ld_ntfs ex_al_extents 2 3072 (f_data ex_ld_f2).
Proof. apply (ex_ld_stored 2 ex_ld_rec2 ex_ld_f2); try lia; vm_compute; reflexivity. Qed.
Lemma ex_ld_stored3 : record_stored ex_ld_vol ex_ld_ntfs ex_al_extents 3 4096 (f_data ex_ld_f3).
Proof. apply (ex_ld_stored 3 ex_ld_rec3 ex_ld_f3); try lia; vm_compute; reflexivity. Qed.
Lemma ex_ld_walk2 : attr_walk (f_data ex_ld_f2) 56 [56; 240] true.
Proof. apply walkb_ok. vm_compute. reflexivity. Qed.
Lemma ex_ld_walk3 : attr_walk (f_data ex_ld_f3) 56 [56] true.
Proof. apply walkb_ok. vm_compute. reflexivity. Qed.
Lemma ex_ld_valid l : Forall (extent_fits 512) l -> Forall (extent_on_device 512 ex_ld_vol) l -> lcns_distinct 0 l -> valid_extents 512 ex_ld_vol l.
Proof. apply ex_al_valid. exact ex_ld_len. Qed.

Lemma ex_ld_file : file_with_list ex_ld_vol ex_ld_ntfs ex_al_extents ex_ld_f1 [56] 88 [] true ex_ld_list [0; 32; 64; 96] ListDone ex_ld_views.
Proof.
  split.
  - apply bytes_okb_ok; exact ex_ld_bytes.
  - exists 1024, (f_data ex_al_mft). split; [reflexivity|]. apply ex_al_mft_at; [exact ex_ld_len|vm_compute; reflexivity].
  - unfold U16_MAX; cbn; lia.
  - apply ex_al_mft_valid; exact ex_ld_len.
  - split; [apply bytes_okb_ok; vm_compute; reflexivity|vm_compute; discriminate].
  - assert (E : f_position ex_ld_f1 = Some 2048) by (vm_compute; reflexivity). assert (El : zlen (f_data ex_ld_f1) = 1024) by (vm_compute; reflexivity).
    rewrite E, El. intros v Hv. injection Hv as <-. unfold U64_MAX. lia.
  - apply walkb_ok. vm_compute. reflexivity.
  - apply Forall_cons; [vm_compute; discriminate|apply Forall_nil].
  - constructor.
  - reflexivity.
  - apply ac_resident; [reflexivity|vm_compute; discriminate|]. split; [vm_compute; discriminate|vm_compute; reflexivity].
  - vm_compute; discriminate.
  - apply (lwalk_ok 9); vm_compute; reflexivity.
  - discriminate.
  - change (f_number ex_ld_f1) with 1. change (entries_of (f_data ex_ld_f1) 88 [0; 32; 64; 96] ListDone) with [0; 32; 64; 96].
    apply ls_own; [apply known_type_spec; vm_compute; reflexivity|vm_compute; reflexivity|].
    apply ls_resident_n; [vm_compute; reflexivity|shown_now|exact ex_ld_stored2| |vm_compute; reflexivity|].
    { exists [], [240], true. split; [exact ex_ld_walk2|]. split; [constructor|]. split; vm_compute; reflexivity. }
    apply ls_nonresident_n; [vm_compute; reflexivity|shown_now|exact ex_ld_stored2| |vm_compute; discriminate|].
    { exists [56], [], true. split; [exact ex_ld_walk2|]. split; [apply Forall_cons; [|constructor]|split; vm_compute; reflexivity]. split; [apply known_type_spec; reflexivity|left; vm_compute; discriminate]. }
    apply ls_part; [apply known_type_spec; vm_compute; reflexivity|vm_compute; discriminate|vm_compute; reflexivity|]. apply ls_end.
Qed.

Lemma ex_ld_connected : connected ex_ld_vol ex_ld_ntfs ex_al_extents ex_ld_list 160 5 ListDone [64; 96] ex_ld_parts.
Proof.
  eapply con_part; [reflexivity|reflexivity|exact ex_ld_stored2| |discriminate| |].
  { exists [56], 240, [], true. split; [exact ex_ld_walk2|].
    split; [constructor; [|constructor]; split; [apply known_type_spec; reflexivity|left; vm_compute; discriminate]|].
    split; [reflexivity|]. split; [reflexivity|]. split; [vm_compute; discriminate|]. split; [vm_compute; discriminate|]. split; [vm_compute; discriminate|].
    apply (enc_data 0 10 2 [2] [10] [] [0; 0; 0; 0; 0]); [apply ubytes1, byte1; lia|apply sbytes1; lia|constructor]. }
  { apply ex_ld_valid; [repeat constructor; vm_compute; discriminate| |repeat split; discriminate]. repeat constructor; unfold extent_on_device; rewrite ?ex_ld_len; cbn; lia. }
  eapply con_part; [reflexivity|reflexivity|exact ex_ld_stored3| |discriminate| |].
  { exists [], 56, [], true. split; [exact ex_ld_walk3|]. split; [constructor|].
    split; [reflexivity|]. split; [reflexivity|]. split; [vm_compute; discriminate|]. split; [vm_compute; discriminate|]. split; [vm_compute; discriminate|].
    apply (enc_data 0 12 2 [2] [12] [] [0; 0; 0; 0; 0]); [apply ubytes1, byte1; lia|apply sbytes1; lia|constructor]. }
  { apply ex_ld_valid; [repeat constructor; vm_compute; discriminate| |repeat split; discriminate]. repeat constructor; unfold extent_on_device; rewrite ?ex_ld_len; cbn; lia. }
  apply con_end. discriminate.
Qed.

Lemma ex_ld_directory : listed_directory ex_ld_vol ex_ld_ntfs ex_al_extents ex_ld_f1 ex_ld_list ListDone (map VBase [56] ++ ex_ld_views ++ map VBase [])
  ex_dir_root (ex_dir_alloc ex_dir_img).
Proof.
  assert (Hoth : is_other (f_data ex_ld_f1) 144 (Some I30) None 56 /\ is_other (f_data ex_ld_f1) 160 (Some I30) None 56 /\ is_other (f_data ex_ld_f2) 160 (Some I30) None 56).
  { split; [|split]; (split; [apply known_type_spec; vm_compute; reflexivity|left; vm_compute; discriminate]). }
  destruct Hoth as (O1 & O2 & O3).
  split.
  - split; [vm_compute; discriminate|vm_compute; reflexivity].
  - exists (VOther 2 3072 (f_data ex_ld_f2) 56), (f_data ex_ld_f2), 56. split.
    { exists [VBase 56]. eexists. split; [reflexivity|]. split; [apply Forall_cons; [exact O1|apply Forall_nil]|].
      split; [vm_compute; reflexivity|]. split; [discriminate|]. intros n E. assert (n = I30) by congruence. subst n. exists ex_i30. split; [name_at|apply ex_i30_units]. }
    split; [reflexivity|]. split; [vm_compute; reflexivity|]. split; [vm_compute; discriminate|]. split; vm_compute; [discriminate|reflexivity].
  - apply ex_dir_is_directory.
  - change (root_is_large ex_dir_root) with true. cbv iota. exists (VParts 2 3072 (f_data ex_ld_f2) 240 [64; 96]). split.
    { exists [VBase 56; VOther 2 3072 (f_data ex_ld_f2) 56]. eexists. split; [reflexivity|]. split; [apply Forall_cons; [exact O2|apply Forall_cons; [exact O3|apply Forall_nil]]|].
      split; [vm_compute; reflexivity|]. split; [discriminate|]. intros n E. assert (n = I30) by congruence. subst n. exists ex_i30. split; [name_at|apply ex_i30_units]. }
    exists ex_ld_parts. split; [vm_compute; discriminate|]. split; [exact ex_ld_connected|]. split; [vm_compute; discriminate|]. vm_compute. reflexivity.
  - intros _. vm_compute. split; discriminate.
Qed.

(** ** The same index, with $INDEX_ROOT and the first half of $INDEX_ALLOCATION in the directory's own record *)
Definition ex_lf_list := ex_le32 16 0 1 0 ++ ex_le32 144 0 1 2 ++ ex_le32 160 0 1 5 ++ ex_le32 160 2 3 5.
Definition ex_lf_base := ex_ld_flagged (ex_al_base ex_lf_list (ex_resident 144 2 ex_i30 ex_dir_root ++ ex_ld_alloc 8 [17; 2; 10; 0; 0; 0; 0; 0])).
Definition ex_lf_vol : list Z :=
  zrepeat 0 1024 ++ ex_record (ex_nonresident 128 1 4096 [17; 8; 2; 0; 0; 0; 0; 0]) ++ ex_lf_base ++ zrepeat 0 1024 ++ ex_ld_rec3 ++ ex_dir_node0 ++ ex_dir_node2.
Definition ex_lf_dev : dev := mkDev ex_lf_vol 3 [RShort 10; RShort 100] [None].
Definition ex_lf_f1 := ex_al_rec ex_lf_base 2048 1.
Definition ex_lf_views := [VParts 3 4096 (f_data ex_ld_f3) 56 [96]].
Lemma ex_lf_bytes : bytes_okb ex_lf_vol = true.
Proof. vm_compute. reflexivity. Qed.
Lemma ex_lf_len : zlen ex_lf_vol = 7168.
Proof. vm_compute. reflexivity. Qed.
Lemma ex_lf_walk : attr_walk (f_data ex_lf_f1) (field 2 (f_data ex_lf_f1) 20) [56; 88; 240; 424] true.
Proof. apply walkb_ok. vm_compute. reflexivity. Qed.
Lemma ex_lf_stored1 : record_stored ex_lf_vol (ex_al_ntfs ex_lf_vol) ex_al_extents 1 2048 (f_data ex_lf_f1).
Proof. apply (ex_al_stored ex_lf_vol ex_lf_bytes ex_lf_len 1 ex_lf_base ex_lf_f1); try lia; vm_compute; reflexivity. Qed.
Lemma ex_lf_stored3 : record_stored ex_lf_vol (ex_al_ntfs ex_lf_vol) ex_al_extents 3 4096 (f_data ex_ld_f3).
Proof. apply (ex_al_stored ex_lf_vol ex_lf_bytes ex_lf_len 3 ex_ld_rec3 ex_ld_f3); try lia; vm_compute; reflexivity. Qed.
Lemma ex_lf_file : file_with_list ex_lf_vol (ex_al_ntfs ex_lf_vol) ex_al_extents ex_lf_f1 [56] 88 [240; 424] true ex_lf_list [0; 32; 64; 96] ListDone ex_lf_views.
Proof.
  split.
  - apply bytes_okb_ok; exact ex_lf_bytes.
  - exists 1024, (f_data ex_al_mft). split; [reflexivity|]. apply ex_al_mft_at; [exact ex_lf_len|vm_compute; reflexivity].
  - unfold U16_MAX; cbn; lia.
  - apply ex_al_mft_valid; exact ex_lf_len.
  - split; [apply bytes_okb_ok; vm_compute; reflexivity|vm_compute; discriminate].
  - assert (E : f_position ex_lf_f1 = Some 2048) by (vm_compute; reflexivity). assert (El : zlen (f_data ex_lf_f1) = 1024) by (vm_compute; reflexivity).
    rewrite E, El. intros v Hv. injection Hv as <-. unfold U64_MAX. lia.
  - exact ex_lf_walk.
  - apply Forall_cons; [vm_compute; discriminate|apply Forall_nil].
  - apply Forall_cons; [vm_compute; discriminate|apply Forall_cons; [vm_compute; discriminate|apply Forall_nil]].
  - reflexivity.
  - apply ac_resident; [reflexivity|vm_compute; discriminate|]. split; [vm_compute; discriminate|vm_compute; reflexivity].
  - vm_compute; discriminate.
  - apply (lwalk_ok 9); vm_compute; reflexivity.
  - discriminate.
  - change (f_number ex_lf_f1) with 1. change (entries_of (f_data ex_lf_f1) 88 [0; 32; 64; 96] ListDone) with [0; 32; 64; 96].
    do 3 (apply ls_own; [apply known_type_spec; vm_compute; reflexivity|vm_compute; reflexivity|]).
    apply ls_nonresident_n; [vm_compute; reflexivity|shown_now|exact ex_lf_stored3| |vm_compute; discriminate|apply ls_end].
    exists [], [], true. split; [exact ex_ld_walk3|]. split; [constructor|]. split; vm_compute; reflexivity.
Qed.
Lemma ex_lf_connected : connected ex_lf_vol (ex_al_ntfs ex_lf_vol) ex_al_extents ex_lf_list 160 5 ListDone [64; 96] ex_ld_parts.
Proof.
  eapply con_part; [reflexivity|reflexivity|exact ex_lf_stored1| |discriminate| |].
  { exists [56; 88; 240], 424, [], true. split; [exact ex_lf_walk|].
    split; [repeat (constructor; [split; [apply known_type_spec; reflexivity|left; vm_compute; discriminate]|]); constructor|].
    split; [reflexivity|]. split; [reflexivity|]. split; [vm_compute; discriminate|]. split; [vm_compute; discriminate|]. split; [vm_compute; discriminate|].
    apply (enc_data 0 10 2 [2] [10] [] [0; 0; 0; 0; 0]); [apply ubytes1, byte1; lia|apply sbytes1; lia|constructor]. }
  { apply (ex_al_valid ex_lf_vol ex_lf_len); [repeat constructor; vm_compute; discriminate| |repeat split; discriminate]. repeat constructor; unfold extent_on_device; rewrite ?ex_lf_len; cbn; lia. }
  eapply con_part; [reflexivity|reflexivity|exact ex_lf_stored3| |discriminate| |].
  { exists [], 56, [], true. split; [exact ex_ld_walk3|]. split; [constructor|].
    split; [reflexivity|]. split; [reflexivity|]. split; [vm_compute; discriminate|]. split; [vm_compute; discriminate|]. split; [vm_compute; discriminate|].
    apply (enc_data 0 12 2 [2] [12] [] [0; 0; 0; 0; 0]); [apply ubytes1, byte1; lia|apply sbytes1; lia|constructor]. }
  { apply (ex_al_valid ex_lf_vol ex_lf_len); [repeat constructor; vm_compute; discriminate| |repeat split; discriminate]. repeat constructor; unfold extent_on_device; rewrite ?ex_lf_len; cbn; lia. }
  apply con_end. discriminate.
Qed.
Lemma ex_lf_root : first_match (f_data ex_lf_f1) [56; 88; 240; 424] 144 I30 240 /\ first_match (f_data ex_lf_f1) [56; 88; 240; 424] 160 I30 424.
Proof.
  assert (Hm : forall ty o, attr_type_at (f_data ex_lf_f1) o = ty -> (o = 240 \/ o = 424) -> is_match (f_data ex_lf_f1) ty (Some I30) None o).
  { intros ty o Ht Ho. split; [exact Ht|]. split; [discriminate|]. intros n E. assert (n = I30) by congruence. subst n. exists ex_i30. split; [|apply ex_i30_units].
    destruct Ho as [->| ->]; name_at. }
  split.
  - exists [56; 88], [424]. split; [reflexivity|]. split; [repeat (constructor; [split; [apply known_type_spec; reflexivity|left; vm_compute; discriminate]|]); constructor|]. apply Hm; auto.
  - exists [56; 88; 240], []. split; [reflexivity|]. split; [repeat (constructor; [split; [apply known_type_spec; reflexivity|left; vm_compute; discriminate]|]); constructor|]. apply Hm; auto.
Qed.
