(** * Volumes with files whose value is spread over several file records, for the examples and counterexamples of PropsAttrList.v. *)
From Verif Require Import Base Dev Types Record DataRuns Stream NonResident Resident Attribute File Structured AttrList Upcase
  Spec SpecIndex SpecValues SpecAttrList BaseProofs AttributeProofs FileProofs AttrListIterProofs StreamExamples FileExamples.

Definition ex_lentry (ty len vcn ref inst : Z) (name : list Z) : list Z :=
  [ty; 0; 0; 0; len; 0; zlen name / 2; 26; vcn; 0; 0; 0; 0; 0; 0; 0; ref; 0; 0; 0; 0; 0; 7; 0; inst; 0] ++ name.
Definition ex_le32 (ty vcn ref inst : Z) : list Z := ex_lentry ty 32 vcn ref inst [] ++ zrepeat 0 6.

(** Clusters of 512 bytes: the MFT is in the clusters 2 to 9 (four records of 1024 bytes), data is in the clusters 10 to 13. *)
Definition ex_al_vol (rec1 rec2 rec3 : list Z) : list Z :=
  zrepeat 0 1024 ++ ex_record (ex_nonresident 128 1 4096 [17; 8; 2; 0; 0; 0; 0; 0]) ++ rec1 ++ rec2 ++ rec3 ++
  zrepeat 1 512 ++ zrepeat 9 512 ++ zrepeat 2 512 ++ zrepeat 3 512.
Definition ex_al_extents := [mkExtent (Some 2) 8].
Definition ex_al_ntfs (vol : list Z) : ntfs := mkNtfs 512 512 (zlen vol) (Some 1024) 1024 99 None.
Definition ex_al_dev (vol : list Z) : dev := mkDev vol 3 [RShort 10; RShort 100] [None].
Definition ex_al_rec (prot : list Z) (p n : Z) : file := match file_of_bytes prot (Some p) n with Ok f => f | _ => mkFile (mkRecord [] None) 0 end.

(** The two halves of a value: one cluster and a hole of one cluster, then two clusters. *)
Definition ex_part1 := [mkExtent (Some 10) 1; mkExtent None 1].
Definition ex_part2 := [mkExtent (Some 12) 2].
Definition ex_runs1 := [17; 1; 10; 1; 1; 0; 0; 0].
Definition ex_runs2 := [17; 2; 12; 0; 0; 0; 0; 0].
Definition ex_al_attrs1 (inst : Z) := ex_nonresident 128 inst 1600 ex_runs1.
Definition ex_al_attrs2 (inst : Z) := ex_resident 16 3 [] [1; 2; 3; 4; 5; 6; 7; 8] ++ ex_nonresident 128 inst 0 ex_runs2.

Section Facts.
  Context (vol : list Z) (Hb : bytes_okb vol = true) (Hl : zlen vol = 7168).
  Context (Hm : slice vol 1024 (1024 + 1024) = ex_record (ex_nonresident 128 1 4096 [17; 8; 2; 0; 0; 0; 0; 0])).
  Notation nt := (ex_al_ntfs vol).
  Definition ex_al_mft : file := ex_al_rec (ex_record (ex_nonresident 128 1 4096 [17; 8; 2; 0; 0; 0; 0; 0])) 1024 0.

  Lemma ex_al_valid l : Forall (extent_fits 512) l -> Forall (extent_on_device 512 vol) l -> lcns_distinct 0 l -> valid_extents 512 vol l.
  Proof. intros. split; auto; [lia|]. rewrite Hl. vm_compute. discriminate. Qed.
  Lemma ex_al_mft_valid : valid_extents 512 vol ex_al_extents.
  Proof.
    apply ex_al_valid; [repeat constructor; vm_compute; discriminate| |repeat split; discriminate].
    repeat constructor; unfold extent_on_device; rewrite ?Hl; cbn; lia.
  Qed.
  Lemma ex_al_part1_valid : valid_extents 512 vol ex_part1.
  Proof.
    apply ex_al_valid; [repeat constructor; vm_compute; discriminate| |repeat split; discriminate].
    repeat constructor; unfold extent_on_device; rewrite ?Hl; cbn; lia.
  Qed.
  Lemma ex_al_part2_valid : valid_extents 512 vol ex_part2.
  Proof.
    apply ex_al_valid; [repeat constructor; vm_compute; discriminate| |repeat split; discriminate].
    repeat constructor; unfold extent_on_device; rewrite ?Hl; cbn; lia.
  Qed.

  Lemma ex_al_mft_at : mft_at vol 1024 1024 (f_data ex_al_mft) ex_al_extents.
  Proof.
    split.
    - rewrite Hl. lia.
    - rewrite Hm. apply (ex_stored _ (Some 1024) 0); try (vm_compute; reflexivity). apply bytes_okb_ok. vm_compute. reflexivity.
    - rewrite Hm. exact ex_array_clear.
    - exists [], 56, [], true. cbn [app]. change (field 2 (f_data ex_al_mft) 20) with 56. split; [|split; [constructor|]].
      + apply walk_attr; [vm_compute; discriminate|apply fits_dec; vm_compute; reflexivity|].
        apply walk_marker; vm_compute; [discriminate|reflexivity].
      + split; [vm_compute; reflexivity|]. split; [vm_compute; discriminate|]. split; [vm_compute; discriminate|]. split; [vm_compute; reflexivity|].
        split; [vm_compute; discriminate|]. change (slice (f_data ex_al_mft) _ _) with [17; 8; 2; 0; 0; 0; 0; 0].
        apply (enc_data 0 2 8 [8] [2] [] [0; 0; 0; 0; 0]); [apply ubytes1, byte1; lia|apply sbytes1; lia|constructor].
  Qed.

  Lemma ex_al_stored n prot f : 0 <= n < 4 -> slice vol (1024 + n * 1024) (1024 + n * 1024 + 1024) = prot -> zlen prot = 1024 ->
    field 2 prot 4 = 48 -> field 2 prot 6 = 3 -> file_of_bytes prot (Some (1024 + n * 1024)) n = Ok f ->
    record_stored vol nt ex_al_extents n (1024 + n * 1024) (f_data f).
  Proof.
    intros Hn Hs Hpl H4 H6 Hf. split.
    - cbn. unfold U64_MAX. lia.
    - cbn [ex_al_ntfs cluster_size file_record_size ex_al_extents disk_position e_count e_lcn].
      destruct (n * 1024 <? 8 * 512) eqn:E; [f_equal; lia|lia].
    - cbn [ex_al_ntfs file_record_size]. rewrite Hl. lia.
    - cbn [ex_al_ntfs file_record_size]. rewrite Hs, H4, H6. exact ex_array_clear.
    - cbn [ex_al_ntfs file_record_size]. rewrite Hs. apply (ex_stored prot (Some (1024 + n * 1024)) n); auto.
      rewrite <- Hs. apply bytes_ok_slice. apply bytes_okb_ok. exact Hb.
  Qed.
End Facts.

Lemma ex_enc1 : encodes 0 ex_part1 ex_runs1.
Proof.
  apply (enc_data 0 10 1 [1] [10] [mkExtent None 1] [1; 1; 0; 0; 0]); [apply ubytes1, byte1; lia|apply sbytes1; lia|].
  apply (enc_hole 10 1 [1] [] [0; 0; 0]); [apply ubytes1, byte1; lia|constructor].
Qed.
Lemma ex_enc2 : encodes 0 ex_part2 ex_runs2.
Proof. apply (enc_data 0 12 2 [2] [12] [] [0; 0; 0; 0; 0]); [apply ubytes1, byte1; lia|apply sbytes1; lia|constructor]. Qed.

(** A base record with the list [lst] and the attributes [more]. *)
Definition ex_al_base (lst more : list Z) := ex_record (ex_resident 16 0 [] [1; 2; 3; 4; 5; 6; 7; 8] ++ ex_resident 32 1 [] lst ++ more).

(** ** Both parts in records of their own, with the same instance *)
Definition ex_al_list := ex_le32 16 0 1 0 ++ ex_le32 128 0 2 5 ++ ex_le32 128 2 3 5 ++ ex_le32 144 0 1 9.
Definition ex_al_vol1 := ex_al_vol (ex_al_base ex_al_list []) (ex_record (ex_al_attrs1 5)) (ex_record (ex_al_attrs2 5)).
Definition ex_al_f1 := ex_al_rec (ex_al_base ex_al_list []) 2048 1.
Definition ex_al_f2 := ex_al_rec (ex_record (ex_al_attrs1 5)) 3072 2.
Definition ex_al_f3 := ex_al_rec (ex_record (ex_al_attrs2 5)) 4096 3.
Lemma ex_al_holds1 : holds_extents (f_data ex_al_f2) 128 5 ex_part1.
Proof.
  exists [], 56, [], true. cbn [app]. change (field 2 (f_data ex_al_f2) 20) with 56. split.
  - apply walk_attr; [vm_compute; discriminate|apply fits_dec; vm_compute; reflexivity|].
    apply walk_marker; vm_compute; [discriminate|reflexivity].
  - split; [constructor|]. split; [reflexivity|]. split; [reflexivity|]. split; [vm_compute; discriminate|]. split; [vm_compute; discriminate|].
    split; [vm_compute; discriminate|]. exact ex_enc1.
Qed.
Lemma ex_al_holds2 : holds_extents (f_data ex_al_f3) 128 5 ex_part2.
Proof.
  exists [56], 88, [], true. cbn [app]. change (field 2 (f_data ex_al_f3) 20) with 56. split.
  - apply walk_attr; [vm_compute; discriminate|apply fits_dec; vm_compute; reflexivity|].
    change (56 + attr_len_at (f_data ex_al_f3) 56) with 88.
    apply walk_attr; [vm_compute; discriminate|apply fits_dec; vm_compute; reflexivity|].
    apply walk_marker; vm_compute; [discriminate|reflexivity].
  - split; [constructor; [|constructor]; split; [apply known_type_spec; reflexivity|left; vm_compute; discriminate]|].
    split; [reflexivity|]. split; [reflexivity|]. split; [vm_compute; discriminate|]. split; [vm_compute; discriminate|].
    split; [vm_compute; discriminate|]. exact ex_enc2.
Qed.
Lemma ex_al_vol1_bytes : bytes_okb ex_al_vol1 = true.
Proof. vm_compute. reflexivity. Qed.
Lemma ex_al_vol1_len : zlen ex_al_vol1 = 7168.
Proof. vm_compute. reflexivity. Qed.
Lemma ex_al_connected : connected ex_al_vol1 (ex_al_ntfs ex_al_vol1) ex_al_extents ex_al_list 128 5 ListDone [32; 64; 96] [ex_part1; ex_part2].
Proof.
  eapply con_part; [reflexivity|reflexivity| |exact ex_al_holds1|discriminate|apply ex_al_part1_valid; exact ex_al_vol1_len|].
  { apply (ex_al_stored ex_al_vol1 ex_al_vol1_bytes ex_al_vol1_len 2 (ex_record (ex_al_attrs1 5)) ex_al_f2); try lia; vm_compute; reflexivity. }
  eapply con_part; [reflexivity|reflexivity| |exact ex_al_holds2|discriminate|apply ex_al_part2_valid; exact ex_al_vol1_len|].
  { apply (ex_al_stored ex_al_vol1 ex_al_vol1_bytes ex_al_vol1_len 3 (ex_record (ex_al_attrs2 5)) ex_al_f3); try lia; vm_compute; reflexivity. }
  apply con_other. left. vm_compute. discriminate.
Qed.

(** ** The same, with a list that is stored in cluster 11 *)
Definition ex_al_list_runs := [17; 1; 11; 0; 0; 0; 0; 0].
Definition ex_al_list_extents := [mkExtent (Some 11) 1].
Definition ex_al_base_far := ex_record (ex_resident 16 0 [] [1; 2; 3; 4; 5; 6; 7; 8] ++ ex_nonresident 32 1 128 ex_al_list_runs).
Definition ex_al_vol_far : list Z :=
  zrepeat 0 1024 ++ ex_record (ex_nonresident 128 1 4096 [17; 8; 2; 0; 0; 0; 0; 0]) ++ ex_al_base_far ++ ex_record (ex_al_attrs1 5) ++ ex_record (ex_al_attrs2 5) ++
  zrepeat 1 512 ++ (ex_al_list ++ zrepeat 9 384) ++ zrepeat 2 512 ++ zrepeat 3 512.
Definition ex_al_far := ex_al_rec ex_al_base_far 2048 1.
Lemma ex_al_vol_far_bytes : bytes_okb ex_al_vol_far = true.
Proof. vm_compute. reflexivity. Qed.
Lemma ex_al_vol_far_len : zlen ex_al_vol_far = 7168.
Proof. vm_compute. reflexivity. Qed.
Lemma ex_al_list_encodes : encodes 0 ex_al_list_extents ex_al_list_runs.
Proof. apply (enc_data 0 11 1 [1] [11] [] [0; 0; 0; 0; 0]); [apply ubytes1, byte1; lia|apply sbytes1; lia|constructor]. Qed.
Lemma ex_al_list_valid : valid_extents 512 ex_al_vol_far ex_al_list_extents.
Proof.
  apply ex_al_valid; [exact ex_al_vol_far_len|repeat constructor; vm_compute; discriminate| |repeat split; discriminate].
  repeat constructor; unfold extent_on_device; rewrite ?ex_al_vol_far_len; cbn; lia.
Qed.
Lemma ex_al_list_content : file_content 512 ex_al_vol_far ex_al_list_extents 128 = ex_al_list.
Proof. vm_compute. reflexivity. Qed.
Definition ex_al_list_value : nrv := match nr_new 512 ex_al_list_runs (Some 2200) 128 with Ok v => v | _ => mkNrv 0 [] None druns_start (ss_new 0) end.
Lemma ex_al_connected_far : connected ex_al_vol_far (ex_al_ntfs ex_al_vol_far) ex_al_extents ex_al_list 128 5 ListDone [32; 64; 96] [ex_part1; ex_part2].
Proof.
  eapply con_part; [reflexivity|reflexivity| |exact ex_al_holds1|discriminate|apply ex_al_part1_valid; exact ex_al_vol_far_len|].
  { apply (ex_al_stored ex_al_vol_far ex_al_vol_far_bytes ex_al_vol_far_len 2 (ex_record (ex_al_attrs1 5)) ex_al_f2); try lia; vm_compute; reflexivity. }
  eapply con_part; [reflexivity|reflexivity| |exact ex_al_holds2|discriminate|apply ex_al_part2_valid; exact ex_al_vol_far_len|].
  { apply (ex_al_stored ex_al_vol_far ex_al_vol_far_bytes ex_al_vol_far_len 3 (ex_record (ex_al_attrs2 5)) ex_al_f3); try lia; vm_compute; reflexivity. }
  apply con_other. left. vm_compute. discriminate.
Qed.

(** ** The first part in the base record *)
Definition ex_al_list2 := ex_le32 16 0 1 0 ++ ex_le32 128 0 1 5 ++ ex_le32 128 2 2 5.
Definition ex_al_base2 := ex_al_base ex_al_list2 (ex_al_attrs1 5).
Definition ex_al_vol2 := ex_al_vol ex_al_base2 (ex_record (ex_al_attrs2 5)) (zrepeat 0 1024).
Definition ex_al_g1 := ex_al_rec ex_al_base2 2048 1.
Definition ex_al_g2 := ex_al_rec (ex_record (ex_al_attrs2 5)) 3072 2.
Lemma ex_al_vol2_bytes : bytes_okb ex_al_vol2 = true.
Proof. vm_compute. reflexivity. Qed.
Lemma ex_al_vol2_len : zlen ex_al_vol2 = 7168.
Proof. vm_compute. reflexivity. Qed.
Lemma ex_al_holds3 : holds_extents (f_data ex_al_g1) 128 5 ex_part1.
Proof.
  exists [56; 88], 208, [], true. cbn [app]. change (field 2 (f_data ex_al_g1) 20) with 56. split.
  - apply walk_attr; [vm_compute; discriminate|apply fits_dec; vm_compute; reflexivity|].
    change (56 + attr_len_at (f_data ex_al_g1) 56) with 88.
    apply walk_attr; [vm_compute; discriminate|apply fits_dec; vm_compute; reflexivity|].
    change (88 + attr_len_at (f_data ex_al_g1) 88) with 208.
    apply walk_attr; [vm_compute; discriminate|apply fits_dec; vm_compute; reflexivity|].
    apply walk_marker; vm_compute; [discriminate|reflexivity].
  - split; [repeat (constructor; [split; [apply known_type_spec; reflexivity|left; vm_compute; discriminate]|]); constructor|].
    split; [reflexivity|]. split; [reflexivity|]. split; [vm_compute; discriminate|]. split; [vm_compute; discriminate|].
    split; [vm_compute; discriminate|]. exact ex_enc1.
Qed.
Lemma ex_al_connected2 : connected ex_al_vol2 (ex_al_ntfs ex_al_vol2) ex_al_extents ex_al_list2 128 5 ListDone [32; 64] [ex_part1; ex_part2].
Proof.
  eapply con_part; [reflexivity|reflexivity| |exact ex_al_holds3|discriminate|apply ex_al_part1_valid; exact ex_al_vol2_len|].
  { apply (ex_al_stored ex_al_vol2 ex_al_vol2_bytes ex_al_vol2_len 1 ex_al_base2 ex_al_g1); try lia; vm_compute; reflexivity. }
  eapply con_part; [reflexivity|reflexivity| |exact ex_al_holds2|discriminate|apply ex_al_part2_valid; exact ex_al_vol2_len|].
  { apply (ex_al_stored ex_al_vol2 ex_al_vol2_bytes ex_al_vol2_len 2 (ex_record (ex_al_attrs2 5)) ex_al_g2); try lia; vm_compute; reflexivity. }
  apply con_end. discriminate.
Qed.

(** ** Parts with different instances *)
Definition ex_al_list3 := ex_le32 16 0 1 0 ++ ex_le32 128 0 2 5 ++ ex_le32 128 2 3 6.
Definition ex_al_vol3 := ex_al_vol (ex_al_base ex_al_list3 []) (ex_record (ex_al_attrs1 5)) (ex_record (ex_al_attrs2 6)).
Definition ex_al_h1 := ex_al_rec (ex_al_base ex_al_list3 []) 2048 1.
Definition ex_al_h3 := ex_al_rec (ex_record (ex_al_attrs2 6)) 4096 3.
Lemma ex_al_vol3_bytes : bytes_okb ex_al_vol3 = true.
Proof. vm_compute. reflexivity. Qed.
Lemma ex_al_vol3_len : zlen ex_al_vol3 = 7168.
Proof. vm_compute. reflexivity. Qed.
Lemma ex_al_holds4 : holds_extents (f_data ex_al_h3) 128 6 ex_part2.
Proof.
  exists [56], 88, [], true. cbn [app]. change (field 2 (f_data ex_al_h3) 20) with 56. split.
  - apply walk_attr; [vm_compute; discriminate|apply fits_dec; vm_compute; reflexivity|].
    change (56 + attr_len_at (f_data ex_al_h3) 56) with 88.
    apply walk_attr; [vm_compute; discriminate|apply fits_dec; vm_compute; reflexivity|].
    apply walk_marker; vm_compute; [discriminate|reflexivity].
  - split; [constructor; [|constructor]; split; [apply known_type_spec; reflexivity|left; vm_compute; discriminate]|].
    split; [reflexivity|]. split; [reflexivity|]. split; [vm_compute; discriminate|]. split; [vm_compute; discriminate|].
    split; [vm_compute; discriminate|]. exact ex_enc2.
Qed.

(** What opening the unnamed stream of [f] gives. *)
Definition ex_al_item (vol : list Z) (f : file) : attr_item :=
  match snd (file_data 9 (ex_al_ntfs vol) f [] (ex_al_dev vol)) with Ok (Some i) => i | _ => mkItem f None 0 None end.
Definition ex_al_attr (vol : list Z) (f : file) : attribute := match item_to_attribute (ex_al_item vol f) with Ok a => a | _ => mkAttr f 0 None end.
Lemma ex_al_opened vol f :
  match snd (file_data 9 (ex_al_ntfs vol) f [] (ex_al_dev vol)) with Ok (Some i) => match item_to_attribute i with Ok _ => true | _ => false end | _ => false end = true ->
  file_data 9 (ex_al_ntfs vol) f [] (ex_al_dev vol) = (fst (file_data 9 (ex_al_ntfs vol) f [] (ex_al_dev vol)), Ok (Some (ex_al_item vol f))) /\
  item_to_attribute (ex_al_item vol f) = Ok (ex_al_attr vol f).
Proof.
  unfold ex_al_attr, ex_al_item. destruct (file_data 9 (ex_al_ntfs vol) f [] (ex_al_dev vol)) as [d r]. cbn [fst snd].
  destruct r as [[i|]| | |]; try discriminate. destruct (item_to_attribute i) as [a| | |]; try discriminate. auto.
Qed.

(** ** A list with entries of all kinds, and attributes on both sides of it *)
Definition ex_al_list4 := ex_le32 16 0 1 0 ++ ex_le32 128 0 2 5 ++ ex_le32 128 2 3 5 ++ ex_le32 16 0 3 3 ++ ex_le32 128 0 77 1 ++ ex_le32 5 0 3 1 ++ ex_le32 64 0 3 1.
Definition ex_al_base4 := ex_al_base ex_al_list4 (ex_resident 144 9 [] [1; 1; 1; 1; 1; 1; 1; 1]).
Definition ex_al_vol4 := ex_al_vol ex_al_base4 (ex_record (ex_al_attrs1 5)) (ex_record (ex_al_attrs2 5)).
Definition ex_al_k1 := ex_al_rec ex_al_base4 2048 1.
Lemma ex_al_vol4_bytes : bytes_okb ex_al_vol4 = true.
Proof. vm_compute. reflexivity. Qed.
Lemma ex_al_vol4_len : zlen ex_al_vol4 = 7168.
Proof. vm_compute. reflexivity. Qed.
Definition ex_al_views4 := [VParts 2 3072 (f_data ex_al_f2) 56 [32; 64; 96; 128; 160; 192]; VOther 3 4096 (f_data ex_al_f3) 56; VBroken; VBroken; VBroken].
Lemma ex_al_walk_k1 : attr_walk (f_data ex_al_k1) 56 [56; 88; 336] true.
Proof.
  apply walk_attr; [vm_compute; discriminate|apply fits_dec; vm_compute; reflexivity|].
  change (56 + attr_len_at (f_data ex_al_k1) 56) with 88.
  apply walk_attr; [vm_compute; discriminate|apply fits_dec; vm_compute; reflexivity|].
  change (88 + attr_len_at (f_data ex_al_k1) 88) with 336.
  apply walk_attr; [vm_compute; discriminate|apply fits_dec; vm_compute; reflexivity|].
  apply walk_marker; vm_compute; [discriminate|reflexivity].
Qed.
Lemma ex_al_walk_f3 : attr_walk (f_data ex_al_f3) 56 [56; 88] true.
Proof.
  apply walk_attr; [vm_compute; discriminate|apply fits_dec; vm_compute; reflexivity|].
  change (56 + attr_len_at (f_data ex_al_f3) 56) with 88.
  apply walk_attr; [vm_compute; discriminate|apply fits_dec; vm_compute; reflexivity|].
  apply walk_marker; vm_compute; [discriminate|reflexivity].
Qed.
Lemma ex_al_walk_f2 : attr_walk (f_data ex_al_f2) 56 [56] true.
Proof.
  apply walk_attr; [vm_compute; discriminate|apply fits_dec; vm_compute; reflexivity|].
  apply walk_marker; vm_compute; [discriminate|reflexivity].
Qed.
Lemma ex_al_stored4_2 : record_stored ex_al_vol4 (ex_al_ntfs ex_al_vol4) ex_al_extents 2 3072 (f_data ex_al_f2).
Proof. apply (ex_al_stored ex_al_vol4 ex_al_vol4_bytes ex_al_vol4_len 2 (ex_record (ex_al_attrs1 5)) ex_al_f2); try lia; vm_compute; reflexivity. Qed.
Lemma ex_al_stored4_3 : record_stored ex_al_vol4 (ex_al_ntfs ex_al_vol4) ex_al_extents 3 4096 (f_data ex_al_f3).
Proof. apply (ex_al_stored ex_al_vol4 ex_al_vol4_bytes ex_al_vol4_len 3 (ex_record (ex_al_attrs2 5)) ex_al_f3); try lia; vm_compute; reflexivity. Qed.
Ltac shown_now := split; [apply known_type_spec; vm_compute; reflexivity|split; [vm_compute; discriminate|unfold continues; vm_compute; discriminate]].
Lemma ls_nonresident_n img nt ml bs self cur o offs vs n p data a : entry_number bs o = n -> shown bs self cur o -> record_stored img nt ml n p data ->
  locates data (entry_type bs o) (entry_instance bs o) a -> ~ attr_resident_at data a ->
  listed img nt ml bs self (Some (entry_type bs o, entry_instance bs o)) offs vs -> listed img nt ml bs self cur (o :: offs) (VParts n p data a (o :: offs) :: vs).
Proof. intros <-. apply ls_nonresident. Qed.
Lemma ls_resident_n img nt ml bs self cur o offs vs n p data a : entry_number bs o = n -> shown bs self cur o -> record_stored img nt ml n p data ->
  locates data (entry_type bs o) (entry_instance bs o) a -> attr_resident_at data a ->
  listed img nt ml bs self None offs vs -> listed img nt ml bs self cur (o :: offs) (VOther n p data a :: vs).
Proof. intros <-. apply ls_resident. Qed.
Lemma walk_fun data off l b : attr_walk data off l b -> forall l' b', attr_walk data off l' b' -> l = l' /\ b = b'.
Proof.
  induction 1 as [off H|off H Hm|off H Hm Hf|off l b Hm Hf W IH]; intros l' b' W'; inversion W' as [? K|? K Km|? K Km Kf|? l2 ? Km Kf W2]; subst; auto; try lia; try tauto;
    try (destruct Kf as (? & ? & ?); lia); try (destruct Hf as (? & ? & ?); lia). destruct (IH _ _ W2). subst. auto.
Qed.
Lemma ex_al_listed4 : listed ex_al_vol4 (ex_al_ntfs ex_al_vol4) ex_al_extents ex_al_list4 1 None [0; 32; 64; 96; 128; 160; 192] ex_al_views4.
Proof.
  apply ls_own; [apply known_type_spec; vm_compute; reflexivity|vm_compute; reflexivity|].
  apply ls_nonresident_n; [vm_compute; reflexivity|shown_now|exact ex_al_stored4_2| |vm_compute; discriminate|].
  { exists [], [], true. split; [exact ex_al_walk_f2|]. split; [constructor|]. split; vm_compute; reflexivity. }
  apply ls_part; [apply known_type_spec; vm_compute; reflexivity|vm_compute; discriminate|vm_compute; reflexivity|].
  apply ls_resident_n; [vm_compute; reflexivity|shown_now|exact ex_al_stored4_3| |vm_compute; reflexivity|].
  { exists [], [88], true. split; [exact ex_al_walk_f3|]. split; [constructor|]. split; vm_compute; reflexivity. }
  apply ls_absent; [shown_now|right; vm_compute; reflexivity|].
  apply ls_unknown; [rewrite <- known_type_spec; vm_compute; discriminate|].
  apply (ls_missing _ _ _ _ _ _ 192 [] _ 4096 (f_data ex_al_f3)); [shown_now|exact ex_al_stored4_3| |apply ls_end].
  intros a (l1 & l2 & b & W & _ & T & _). destruct (walk_fun _ _ _ _ ex_al_walk_f3 _ _ W) as [E _].
  assert (Hi : In a [56; 88]) by (rewrite E; apply in_or_app; right; now left).
  destruct Hi as [<-|[<-|[]]]; vm_compute in T; discriminate.
Qed.
Lemma ex_al_file4 : file_with_list ex_al_vol4 (ex_al_ntfs ex_al_vol4) ex_al_extents ex_al_k1 [56] 88 [336] true ex_al_list4 [0; 32; 64; 96; 128; 160; 192] ListDone ex_al_views4.
Proof.
  split.
  - apply bytes_okb_ok; exact ex_al_vol4_bytes.
  - exists 1024, (f_data ex_al_mft). split; [reflexivity|]. apply ex_al_mft_at; [exact ex_al_vol4_len|vm_compute; reflexivity].
  - unfold U16_MAX; cbn; lia.
  - apply ex_al_mft_valid; exact ex_al_vol4_len.
  - split; [apply bytes_okb_ok; vm_compute; reflexivity|vm_compute; discriminate].
  - assert (E : f_position ex_al_k1 = Some 2048) by (vm_compute; reflexivity). assert (El : zlen (f_data ex_al_k1) = 1024) by (vm_compute; reflexivity).
    rewrite E, El. intros v Hv. injection Hv as <-. unfold U64_MAX. lia.
  - exact ex_al_walk_k1.
  - apply Forall_cons; [vm_compute; discriminate|apply Forall_nil].
  - apply Forall_cons; [vm_compute; discriminate|apply Forall_nil].
  - reflexivity.
  - apply ac_resident; [reflexivity|vm_compute; discriminate|]. split; [vm_compute; discriminate|vm_compute; reflexivity].
  - vm_compute; discriminate.
  - apply (lwalk_ok 9); vm_compute; reflexivity.
  - discriminate.
  - exact ex_al_listed4.
Qed.

(** ** Two different streams with the same instance, in different records *)
Definition ex_al_list5 := ex_le32 16 0 1 0 ++ ex_le32 128 0 2 5 ++ ex_le32 128 0 3 5.
Definition ex_al_base5 := ex_al_base ex_al_list5 [].
Definition ex_al_b := ex_record (ex_resident 128 5 [98; 0] [1; 2; 3; 4; 5; 6]).
Definition ex_al_vol5 := ex_al_vol ex_al_base5 (ex_record (ex_al_attrs1 5)) ex_al_b.
Definition ex_al_m1 := ex_al_rec ex_al_base5 2048 1.
Definition ex_al_m3 := ex_al_rec ex_al_b 4096 3.
Lemma ex_al_vol5_bytes : bytes_okb ex_al_vol5 = true.
Proof. vm_compute. reflexivity. Qed.
Lemma ex_al_vol5_len : zlen ex_al_vol5 = 7168.
Proof. vm_compute. reflexivity. Qed.
Lemma ex_al_stored5_2 : record_stored ex_al_vol5 (ex_al_ntfs ex_al_vol5) ex_al_extents 2 3072 (f_data ex_al_f2).
Proof. apply (ex_al_stored ex_al_vol5 ex_al_vol5_bytes ex_al_vol5_len 2 (ex_record (ex_al_attrs1 5)) ex_al_f2); try lia; vm_compute; reflexivity. Qed.
Lemma ex_al_stored5_3 : record_stored ex_al_vol5 (ex_al_ntfs ex_al_vol5) ex_al_extents 3 4096 (f_data ex_al_m3).
Proof. apply (ex_al_stored ex_al_vol5 ex_al_vol5_bytes ex_al_vol5_len 3 ex_al_b ex_al_m3); try lia; vm_compute; reflexivity. Qed.
Definition ex_al_views5 := [VParts 2 3072 (f_data ex_al_f2) 56 [32; 64]].
Lemma ex_al_file5 : file_with_list ex_al_vol5 (ex_al_ntfs ex_al_vol5) ex_al_extents ex_al_m1 [56] 88 [] true ex_al_list5 [0; 32; 64] ListDone ex_al_views5.
Proof.
  split.
  - apply bytes_okb_ok; exact ex_al_vol5_bytes.
  - exists 1024, (f_data ex_al_mft). split; [reflexivity|]. apply ex_al_mft_at; [exact ex_al_vol5_len|vm_compute; reflexivity].
  - unfold U16_MAX; cbn; lia.
  - apply ex_al_mft_valid; exact ex_al_vol5_len.
  - split; [apply bytes_okb_ok; vm_compute; reflexivity|vm_compute; discriminate].
  - assert (E : f_position ex_al_m1 = Some 2048) by (vm_compute; reflexivity). assert (El : zlen (f_data ex_al_m1) = 1024) by (vm_compute; reflexivity).
    rewrite E, El. intros v Hv. injection Hv as <-. unfold U64_MAX. lia.
  - change (field 2 (f_data ex_al_m1) 20) with 56. cbn [app]. apply walk_attr; [vm_compute; discriminate|apply fits_dec; vm_compute; reflexivity|].
    change (56 + attr_len_at (f_data ex_al_m1) 56) with 88.
    apply walk_attr; [vm_compute; discriminate|apply fits_dec; vm_compute; reflexivity|].
    apply walk_marker; vm_compute; [discriminate|reflexivity].
  - apply Forall_cons; [vm_compute; discriminate|apply Forall_nil].
  - constructor.
  - reflexivity.
  - apply ac_resident; [reflexivity|vm_compute; discriminate|]. split; [vm_compute; discriminate|vm_compute; reflexivity].
  - vm_compute; discriminate.
  - apply (lwalk_ok 9); vm_compute; reflexivity.
  - discriminate.
  - change (f_number ex_al_m1) with 1. change (entries_of (f_data ex_al_m1) 88 [0; 32; 64] ListDone) with [0; 32; 64].
    apply ls_own; [apply known_type_spec; vm_compute; reflexivity|vm_compute; reflexivity|].
    apply ls_nonresident_n; [vm_compute; reflexivity|shown_now|exact ex_al_stored5_2| |vm_compute; discriminate|].
    { exists [], [], true. split; [exact ex_al_walk_f2|]. split; [constructor|]. split; vm_compute; reflexivity. }
    apply ls_part; [apply known_type_spec; vm_compute; reflexivity|vm_compute; discriminate|vm_compute; reflexivity|]. apply ls_end.
Qed.
Lemma ex_al_locates5 : locates (f_data ex_al_m3) 128 5 56.
Proof.
  exists [], [], true. split; [|split; [constructor|split; vm_compute; reflexivity]].
  change (field 2 (f_data ex_al_m3) 20) with 56. cbn [app]. apply walk_attr; [vm_compute; discriminate|apply fits_dec; vm_compute; reflexivity|].
  apply walk_marker; vm_compute; [discriminate|reflexivity].
Qed.
