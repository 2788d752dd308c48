(** * Concrete file records and a small volume for the examples and counterexamples of PropsAttr.v and PropsFile.v. *)
From Verif Require Import Base Dev Types Record DataRuns Stream NonResident Resident Attribute File Spec BaseProofs ReaderProofs
  RecordProofs NonResidentProofs AttributeProofs FileProofs StreamExamples.

(** A file record of 1024 bytes as stored on disk: header, update sequence (number 7 7, original block ends 9 9 and 0 0),
    attributes [attrs] from byte 56 on, end marker. *)
Definition ex_record (attrs : list Z) : list Z :=
  let body := [70; 73; 76; 69; 48; 0; 3; 0] ++ zrepeat 0 8 ++ [1; 0; 1; 0; 56; 0; 1; 0; 0; 2; 0; 0; 0; 4; 0; 0] ++ zrepeat 0 16 ++
    [7; 7; 9; 9; 0; 0; 0; 0] ++ attrs ++ [255; 255; 255; 255] in
  let full := body ++ zrepeat 0 (1024 - zlen body) in
  ztake 510 full ++ [7; 7] ++ slice full 512 1022 ++ [7; 7].

(** A resident attribute of type [ty] with a UTF-16 name of [nl] units and a value; lengths are multiples of 8. *)
Definition ex_resident (ty inst : Z) (name value : list Z) : list Z :=
  let len := 24 + zlen name + zlen value in
  [ty; 0; 0; 0; len mod 256; len / 256; 0; 0; 0; zlen name / 2; 24; 0; 0; 0; inst; 0] ++
  [zlen value mod 256; zlen value / 256; 0; 0; 24 + zlen name; 0; 0; 0] ++ name ++ value.
(** A non-resident attribute with 8 bytes of mapping pairs. *)
Definition ex_nonresident (ty inst size : Z) (runs : list Z) : list Z :=
  [ty; 0; 0; 0; 72; 0; 0; 0; 1; 0; 0; 0; 0; 0; inst; 0] ++ zrepeat 0 16 ++ [64; 0; 0; 0; 0; 0; 0; 0] ++ zrepeat 0 8 ++
  [size mod 256; size / 256; 0; 0; 0; 0; 0; 0] ++ zrepeat 0 8 ++ runs.

(** Three attributes: $STANDARD_INFORMATION-like, unnamed $DATA, $DATA named "AB". *)
Definition ex_attrs : list Z :=
  ex_resident 16 0 [] [1; 2; 3; 4; 5; 6; 7; 8] ++ ex_resident 128 3 [] [104; 105; 0; 0; 0; 0; 0; 0] ++
  ex_resident 128 4 [65; 0; 66; 0] [9; 8; 7; 6].
Definition ex_file : file := match file_of_bytes (ex_record ex_attrs) (Some 4096) 40 with Ok f => f | _ => mkFile (mkRecord [] None) 0 end.

Lemma ex_array_clear : array_clear 48 2.
Proof. intros k Hk (i & Hi & Hb). unfold block_end in Hb. lia. Qed.

Lemma ex_file_ok : file_of_bytes (ex_record ex_attrs) (Some 4096) 40 = Ok ex_file.
Proof. vm_compute. reflexivity. Qed.
Lemma ex_file_bytes : bytes_ok (f_data ex_file) /\ zlen (f_data ex_file) = 1024.
Proof. split; [apply bytes_okb_ok; vm_compute; reflexivity|vm_compute; reflexivity]. Qed.

Lemma fits_dec data off : (off + 16 <=? zlen data) && (16 <=? attr_len_at data off) && (off + attr_len_at data off <=? zlen data) = true -> attr_fits data off.
Proof. unfold attr_fits. lia. Qed.

Lemma ex_walk : attr_walk (f_data ex_file) (field 2 (f_data ex_file) 20) [56; 88; 120] true.
Proof.
  change (field 2 (f_data ex_file) 20) with 56.
  apply walk_attr; [vm_compute; discriminate|apply fits_dec; vm_compute; reflexivity|].
  change (56 + attr_len_at (f_data ex_file) 56) with 88.
  apply walk_attr; [vm_compute; discriminate|apply fits_dec; vm_compute; reflexivity|].
  change (88 + attr_len_at (f_data ex_file) 88) with 120.
  apply walk_attr; [vm_compute; discriminate|apply fits_dec; vm_compute; reflexivity|].
  apply walk_marker; vm_compute; [discriminate|reflexivity].
Qed.

(** A record whose last attribute is a bare 16 byte header at the very end. *)
Definition ex_bad_record : list Z :=
  let full := [70; 73; 76; 69; 48; 0; 3; 0] ++ zrepeat 0 8 ++ [1; 0; 1; 0; 56; 0; 1; 0; 0; 4; 0; 0; 0; 4; 0; 0] ++ zrepeat 0 16 ++
    [7; 7; 0; 0; 0; 0; 0; 0] ++ [16; 0; 0; 0; 184; 3; 0; 0] ++ zrepeat 0 944 ++ [128; 0; 0; 0; 16; 0; 0; 0; 1; 0; 0; 0; 0; 0; 0; 0] in
  ztake 510 full ++ [7; 7] ++ slice full 512 1022 ++ [7; 7].
Definition ex_bad_file : file := match file_of_bytes ex_bad_record (Some 4096) 40 with Ok f => f | _ => mkFile (mkRecord [] None) 0 end.

Lemma ex_bad_panics : exists prot f o l, bytes_ok prot /\ zlen prot = 1024 /\ file_of_bytes prot (Some 4096) 40 = Ok f /\
  attr_walk (f_data f) (field 2 (f_data f) 20) [56; o] true /\ l = iterate (raw_next f) 2 56 /\
  nth_error l 1 = Some (Some (Ok (mkAttr f o None))) /\
  attr_value_length (mkAttr f o None) = Panic /\ attr_value_simple 512 (mkAttr f o None) = Panic.
Proof.
  exists ex_bad_record, ex_bad_file, 1008. eexists. split; [apply bytes_okb_ok; vm_compute; reflexivity|]. split; [vm_compute; reflexivity|].
  split; [vm_compute; reflexivity|]. split.
  { change (field 2 (f_data ex_bad_file) 20) with 56.
    apply walk_attr; [vm_compute; discriminate|apply fits_dec; vm_compute; reflexivity|].
    change (56 + attr_len_at (f_data ex_bad_file) 56) with 1008.
    apply walk_attr; [vm_compute; discriminate|apply fits_dec; vm_compute; reflexivity|].
    apply walk_short. vm_compute. reflexivity. }
  split; [reflexivity|]. split; [vm_compute; reflexivity|]. split; vm_compute; reflexivity.
Qed.

(** ** A volume: clusters of 512 bytes, MFT of two extents of three clusters (LCN 2 and LCN 8), three records of 1024 bytes;
    the second record straddles the extents.  [junk] fills the clusters 5 to 7. *)
Definition ex_rec0 : list Z := ex_record (ex_nonresident 128 1 3072 [17; 3; 2; 17; 3; 6; 0; 0]).
Definition ex_rec1 : list Z := ex_record (ex_resident 128 5 [] [1; 1; 1; 1; 1; 1; 1; 1]).
Definition ex_junk : list Z := zrepeat 238 510 ++ [7; 7] ++ zrepeat 0 1024.
Definition ex_vol : list Z := zrepeat 0 1024 ++ ex_rec0 ++ ztake 512 ex_rec1 ++ ex_junk ++ zdrop 512 ex_rec1 ++ ex_record ex_attrs.
Definition ex_vol_extents := [mkExtent (Some 2) 3; mkExtent (Some 8) 3].
Definition ex_ntfs : ntfs := mkNtfs 512 512 (zlen ex_vol) (Some 1024) 1024 99 None.
Definition ex_vol_dev : dev := mkDev ex_vol 3 [RShort 10; RShort 100] [None].

Definition ex_mft : file := match file_of_bytes ex_rec0 (Some 1024) 0 with Ok f => f | _ => mkFile (mkRecord [] None) 0 end.

Lemma ex_vol_bytes : bytes_ok ex_vol.
Proof. apply bytes_okb_ok. vm_compute. reflexivity. Qed.
Lemma ex_vol_valid : valid_extents 512 ex_vol ex_vol_extents.
Proof.
  split.
  - lia.
  - vm_compute; discriminate.
  - repeat constructor; vm_compute; discriminate.
  - repeat constructor; vm_compute; discriminate.
  - repeat split; discriminate.
Qed.

Lemma ex_stored prot p n f : bytes_ok prot -> zlen prot = 1024 -> field 2 prot 4 = 48 -> field 2 prot 6 = 3 -> file_of_bytes prot p n = Ok f ->
  stored_as (f_data f) prot /\ file_record_ok (f_data f).
Proof.
  intros Hb Hl H4 H6 H. apply file_of_bytes_spec in H; auto.
  - destruct H as (data & -> & H). exact H.
  - rewrite Hl. unfold U16_MAX. lia.
  - rewrite H4, H6. exact ex_array_clear.
Qed.

Lemma ex_vol_mft : mft_at ex_vol 1024 1024 (f_data ex_mft) ex_vol_extents.
Proof.
  assert (E : slice ex_vol 1024 (1024 + 1024) = ex_rec0) by (vm_compute; reflexivity).
  split.
  - vm_compute. split; discriminate.
  - rewrite E. apply (ex_stored ex_rec0 (Some 1024) 0); try (vm_compute; reflexivity). apply bytes_okb_ok. vm_compute. reflexivity.
  - rewrite E. change (field 2 ex_rec0 4) with 48. change (field 2 ex_rec0 6 - 1) with 2. exact ex_array_clear.
  - exists [], 56, [], true. cbn [app]. change (field 2 (f_data ex_mft) 20) with 56. split; [|split; [constructor|]].
    + apply walk_attr; [vm_compute; discriminate|apply fits_dec; vm_compute; reflexivity|].
      apply walk_marker; vm_compute; [discriminate|reflexivity].
    + split; [vm_compute; reflexivity|]. split; [vm_compute; discriminate|]. split; [vm_compute; discriminate|]. split; [vm_compute; reflexivity|].
      split; [vm_compute; discriminate|]. change (slice (f_data ex_mft) _ _) with [17; 3; 2; 17; 3; 6; 0; 0].
      apply (enc_data 0 2 3 [3] [2] [mkExtent (Some 8) 3] [17; 3; 6; 0; 0]); [apply ubytes1, byte1; lia|apply sbytes1; lia|].
      apply (enc_data 2 8 3 [3] [6] [] [0; 0]); [apply ubytes1, byte1; lia|apply sbytes1; lia|constructor].
Qed.

Lemma ex_straddle : exists img nt mp mdata l d data d' f,
  bytes_ok img /\ faultless d /\ d_img d = img /\ mft_position nt = Some mp /\ 32 <= file_record_size nt <= U16_MAX /\
  mft_at img mp (file_record_size nt) mdata l /\ valid_extents (cluster_size nt) img l /\
  let frs := file_record_size nt in
  frs + frs <= extents_size (cluster_size nt) l /\
  stored_as data (slice (concat (map (extent_bytes (cluster_size nt) img) l)) frs (frs + frs)) /\ file_record_ok data /\
  ntfs_file nt 1 d = (d', Ok f) /\ f_data f <> data.
Proof.
  pose (f1 := match file_of_bytes ex_rec1 None 0 with Ok f => f | _ => mkFile (mkRecord [] None) 0 end).
  exists ex_vol, ex_ntfs, 1024, (f_data ex_mft), ex_vol_extents, ex_vol_dev, (f_data f1). do 2 eexists.
  split; [exact ex_vol_bytes|]. split; [split; repeat constructor|]. split; [reflexivity|]. split; [reflexivity|]. split; [unfold U16_MAX; cbn; lia|].
  split; [exact ex_vol_mft|]. split; [exact ex_vol_valid|]. cbn zeta. split; [vm_compute; discriminate|].
  assert (E : slice (concat (map (extent_bytes (cluster_size ex_ntfs) ex_vol) ex_vol_extents)) (file_record_size ex_ntfs) (file_record_size ex_ntfs + file_record_size ex_ntfs) = ex_rec1)
    by (vm_compute; reflexivity).
  rewrite E. assert (Hs : stored_as (f_data f1) ex_rec1 /\ file_record_ok (f_data f1)).
  { apply (ex_stored ex_rec1 None 0); try (vm_compute; reflexivity). apply bytes_okb_ok. vm_compute. reflexivity. }
  split; [apply Hs|]. split; [apply Hs|]. split; [vm_compute; reflexivity|]. vm_compute. discriminate.
Qed.
