(** * Property C62: what the error messages say about the bytes. *)
From Verif Require Import Base Dev Types Record DataRuns Stream NonResident Resident BootSector Attribute File Structured AttrList Index Spec SpecIndex SpecAttrList SpecErrors
  BaseProofs AttributeProofs FileProofs StructuredProofs StreamProofs NodeProofs AttrListIterProofs ErrorProofs MoreErrorProofs PropsRecord StreamExamples FileExamples IndexExamples
  AttrListExamples.
From Coq Require Import Lia.

(** [l] with the bytes from [o] on replaced by [bs]. *)
Definition ex_put (l : list Z) (o : Z) (bs : list Z) : list Z := ztake o l ++ bs ++ zdrop (o + zlen bs) l.
Definition ex_boot_dev (o : Z) (bs : list Z) : dev := mkDev (ex_put example_boot o bs) 0 [RShort 3; RShort 0] [].

(** C62. Opening. *)
Theorem C62_open_partial : forall d e, bytes_ok (d_img d) -> faultless d -> 512 <= zlen (d_img d) -> snd (ntfs_new d) = Err e ->
  boot_message (ztake 512 (d_img d)) e \/ boot_misleading (ztake 512 (d_img d)) e.
Proof. exact open_error. Qed.
Print Assumptions C62_open_partial.
(** Refuted: a sector size of 768 bytes is said to be outside of 512 to 4096. *)
Theorem C62_open_refuted : exists d e, bytes_ok (d_img d) /\ faultless d /\ zlen (d_img d) = 512 /\ snd (ntfs_new d) = Err e /\ ~ boot_message (d_img d) e.
Proof.
  exists (ex_boot_dev 11 [0; 3]), (EUnsupportedSectorSize 512 4096 768). split; [apply bytes_okb_ok; vm_compute; reflexivity|]. split; [split; cbn; repeat constructor|].
  split; [vm_compute; reflexivity|]. split; [vm_compute; reflexivity|]. intros (_ & _ & _ & K). apply K. lia.
Qed.
Print Assumptions C62_open_refuted.
Example C62_open_example : snd (ntfs_new (ex_boot_dev 510 [85; 171])) = Err (EInvalidTwoByteSignature (Some 510) [85; 171]) /\
  snd (ntfs_new (ex_boot_dev 13 [3])) = Err (EInvalidSectorsPerCluster 3) /\ snd (ntfs_new (ex_boot_dev 11 [0; 32])) = Err (EUnsupportedSectorSize 512 4096 8192) /\
  snd (ntfs_new (ex_boot_dev 11 [0; 16; 244])) = Err (EUnsupportedClusterSize 512 2097152 16777216) /\
  snd (ntfs_new (ex_boot_dev 40 [0; 0; 0; 0; 0; 0; 128; 0])) = Err (ETotalSectorsTooBig 36028797018963968) /\
  snd (ntfs_new (ex_boot_dev 64 [255])) = Err (EInvalidRecordSizeInfo (-1) 4096) /\ snd (ntfs_new (ex_boot_dev 48 [0])) = Err EInvalidMftLcn /\
  snd (ntfs_new (ex_boot_dev 55 [16])) = Err (ELcnTooBig 1152921504606846980) /\
  bytes_ok (d_img (ex_boot_dev 510 [85; 171])) /\ faultless (ex_boot_dev 510 [85; 171]) /\ 512 <= zlen (d_img (ex_boot_dev 510 [85; 171])).
Proof. repeat (split; [vm_compute; reflexivity|]). split; [apply bytes_okb_ok; vm_compute; reflexivity|]. split; [split; cbn; repeat constructor|vm_compute; discriminate]. Qed.

(** C62. Records: undoing the update sequence, file records, index records. *)
Theorem C62_record_partial : forall data p r e, bytes_ok data -> 8 <= zlen data <= U16_MAX -> 0 < p -> p + zlen data <= TWO64 ->
  fixup (mkRecord data (Some p)) = (r, Err e) -> record_message data p e \/ record_misleading data p e.
Proof. exact fixup_error. Qed.
Print Assumptions C62_record_partial.
Theorem C62_file_partial : forall nt p n d e, faultless d -> bytes_ok (d_img d) -> 0 < p -> 32 <= file_record_size nt <= U16_MAX ->
  p + file_record_size nt <= zlen (d_img d) -> zlen (d_img d) <= TWO64 -> snd (file_new nt p n d) = Err e ->
  file_message (slice (d_img d) p (p + file_record_size nt)) p e \/ record_misleading (slice (d_img d) p (p + file_record_size nt)) p e.
Proof. exact file_error. Qed.
Print Assumptions C62_file_partial.
Theorem C62_index_record_partial : forall data p e, bytes_ok data -> 40 <= zlen data <= U16_MAX -> 0 < p -> p + zlen data <= TWO64 -> irec_of_bytes data (Some p) = Err e ->
  (index_record_message data p e /\ exchanged e = e) \/ (index_record_message data p (exchanged e) /\ exchanged e <> e) \/ record_misleading data p e.
Proof. exact index_record_error. Qed.
Print Assumptions C62_index_record_partial.
(** Refuted: the bytes that differ from the update sequence number are said to be at the position of the array entry. *)
Theorem C62_sector_refuted : exists data p e, bytes_ok data /\ zlen data = 1024 /\ 0 < p /\ file_of_bytes data (Some p) 40 = Err e /\ ~ file_message data p e /\
  e = EUpdateSequenceNumberMismatch (Some (p + 52)) [7; 7] [7; 8] /\ slice data 1022 1024 = [7; 8] /\ slice data 52 54 = [0; 0].
Proof.
  exists (ex_put (ex_record ex_attrs) 1022 [7; 8]), 4096, (EUpdateSequenceNumberMismatch (Some 4148) [7; 7] [7; 8]). split; [apply bytes_okb_ok; vm_compute; reflexivity|].
  split; [vm_compute; reflexivity|]. split; [lia|]. split; [vm_compute; reflexivity|]. split; [|repeat split; vm_compute; reflexivity].
  intros (_ & _ & i & Hi & K & _). assert (4148 = 4096 + block_end i) as K' by congruence. unfold block_end in K'. lia.
Qed.
Print Assumptions C62_sector_refuted.
(** Refuted: the array is said to have entries for 2 blocks, with only 1024 bytes in the record; the array starts too late. *)
Theorem C62_array_refuted : exists data p e, bytes_ok data /\ zlen data = 1024 /\ 0 < p /\ file_of_bytes data (Some p) 40 = Err e /\ ~ file_message data p e.
Proof.
  exists (ex_put (ex_record ex_attrs) 4 [252; 3]), 4096, (EUpdateSequenceArrayExceedsRecordSize (Some 4096) 2 1024). split; [apply bytes_okb_ok; vm_compute; reflexivity|].
  split; [vm_compute; reflexivity|]. split; [lia|]. split; [vm_compute; reflexivity|]. intros (_ & _ & _ & K). vm_compute in K. discriminate K.
Qed.
Print Assumptions C62_array_refuted.
(** Refuted: an index record of 1024 bytes that claims 1025 is said to claim 1024 and to have 1025. *)
Theorem C62_index_record_refuted : exists data p e, bytes_ok data /\ zlen data = 1024 /\ 0 < p /\ irec_of_bytes data (Some p) = Err e /\ ~ index_record_message data p e /\
  e = EInvalidIndexAllocatedSize (Some p) 1024 1025 /\ 24 + field 4 data 32 = 1025.
Proof.
  exists (ex_put ex_dir_node0 32 [233]), 4096, (EInvalidIndexAllocatedSize (Some 4096) 1024 1025). split; [apply bytes_okb_ok; vm_compute; reflexivity|].
  split; [vm_compute; reflexivity|]. split; [lia|]. split; [vm_compute; reflexivity|]. split; [|repeat split; vm_compute; reflexivity]. intros (_ & _ & _ & K). lia.
Qed.
Print Assumptions C62_index_record_refuted.
Example C62_record_example :
  file_of_bytes (ex_put (ex_record ex_attrs) 0 [66; 65; 65; 68]) (Some 4096) 40 = Err (EInvalidFileSignature (Some 4096) [66; 65; 65; 68]) /\
  file_of_bytes (ex_put (ex_record ex_attrs) 28 [1; 4]) (Some 4096) 40 = Err (EInvalidFileAllocatedSize (Some 4096) 1025 1024) /\
  file_of_bytes (ex_put (ex_record ex_attrs) 24 [1; 4]) (Some 4096) 40 = Err (EInvalidFileUsedSize (Some 4096) 1025 1024) /\
  file_of_bytes (ex_put (ex_record ex_attrs) 6 [4]) (Some 4096) 40 = Err (EUpdateSequenceArrayExceedsRecordSize (Some 4096) 3 1024) /\
  file_of_bytes (ex_put (ex_record ex_attrs) 6 [0]) (Some 4096) 40 = Err (EInvalidUpdateSequenceCount (Some 4096) 0) /\
  file_of_bytes (ex_put (ex_record ex_attrs) 4 [255; 3]) (Some 4096) 40 = Err (EInvalidUpdateSequenceNumberRange (Some 4096) 1023 1025 1024) /\
  irec_of_bytes (ex_put ex_dir_node0 0 [66; 65; 65; 68]) (Some 4096) = Err (EInvalidIndexSignature (Some 4096) [66; 65; 65; 68]) /\
  bytes_ok (ex_put (ex_record ex_attrs) 28 [1; 4]) /\ 32 <= zlen (ex_put (ex_record ex_attrs) 28 [1; 4]) <= U16_MAX.
Proof. repeat (split; [vm_compute; reflexivity|]). split; [apply bytes_okb_ok; vm_compute; reflexivity|]. vm_compute. split; discriminate. Qed.

(** C62. The iterator over the attributes: an error names the attribute at which the walk ends. *)
Theorem C62_attributes_partial : forall f p n e, f_position f = Some p -> 0 < p -> p + zlen (f_data f) + 65536 <= TWO64 -> bytes_ok (f_data f) ->
  In (Some (Err e)) (iterate (raw_next f) n (field 2 (f_data f) 20)) ->
  exists l, attr_walk (f_data f) (field 2 (f_data f) 20) l false /\
    (attr_message (f_data f) p (walk_end (f_data f) (field 2 (f_data f) 20) l) e \/ attr_misleading (f_data f) p (walk_end (f_data f) (field 2 (f_data f) 20) l) e).
Proof. intros f p n e H1 H2 H3 H4. apply (raw_errors f p H1 H2 H3 n). apply field2_bound. exact H4. Qed.
Print Assumptions C62_attributes_partial.
(** The accessors of an attribute of the record: all their errors are true of its bytes. *)
Theorem C62_accessors : forall f p o en, f_position f = Some p -> 0 < p -> p + zlen (f_data f) + 65536 <= TWO64 -> bytes_ok (f_data f) -> 0 <= o -> attr_fits (f_data f) o ->
  (forall e, attr_ty (mkAttr f o en) = Err e -> attr_message (f_data f) p o e) /\
  (forall e, attr_name (mkAttr f o en) = Err e -> attr_message (f_data f) p o e) /\
  (forall ty e, attr_ensure_ty (mkAttr f o en) ty = Err e -> attr_message (f_data f) p o e) /\
  (o + 22 <= zlen (f_data f) -> attr_resident_at (f_data f) o -> forall e, attr_resident_value (mkAttr f o en) = Err e -> attr_message (f_data f) p o e) /\
  (o + 22 <= zlen (f_data f) -> forall ty e, attr_resident_structured (mkAttr f o en) ty = Err e -> attr_message (f_data f) p o e).
Proof.
  intros f p o en H1 H2 H3 H4 H5 H6. split; [|split; [|split; [|split]]]; intros.
  - now apply (attr_ty_error f p H1 H2 H3 o en).
  - now apply (attr_name_error f p H1 H2 H3 H4 o en).
  - now apply (attr_ensure_ty_error f p H1 H2 H3 o en) with ty.
  - now apply (attr_resident_value_error f p H1 H2 H3 H4 o en).
  - now apply (attr_structured_error f p H1 H2 H3 H4 o en) with ty.
Qed.
Print Assumptions C62_accessors.
(** The only error for the data runs of an attribute is the misleading one. *)
Theorem C62_data_runs_partial : forall f p o en e, f_position f = Some p -> 0 < p -> p + zlen (f_data f) + 65536 <= TWO64 -> bytes_ok (f_data f) -> 0 <= o -> attr_fits (f_data f) o ->
  o + 34 <= zlen (f_data f) -> ~ attr_resident_at (f_data f) o -> attr_nr_data_and_position (mkAttr f o en) = Err e -> attr_misleading (f_data f) p o e.
Proof. intros f p o en e H1 H2 H3 H4 H5 H6. now apply attr_runs_error. Qed.
Print Assumptions C62_data_runs_partial.
(** Looking up an attribute: none is found, or an attribute on the way is malformed. *)
Theorem C62_find_partial : forall f p ty name inst e, f_position f = Some p -> 0 < p -> p + zlen (f_data f) + 65536 <= TWO64 -> bytes_ok (f_data f) -> 42 <= zlen (f_data f) ->
  find_resident_attribute f ty name inst = Err e ->
  exists l b, attr_walk (f_data f) (field 2 (f_data f) 20) l b /\
  ((e = EAttributeNotFound (Some p) ty /\ b = true /\ Forall (is_other (f_data f) ty name inst) l) \/
   exists o, (In o l \/ b = false /\ o = walk_end (f_data f) (field 2 (f_data f) 20) l) /\ (attr_message (f_data f) p o e \/ attr_misleading (f_data f) p o e)).
Proof. intros f p ty name inst e H1 H2 H3 H4 H5. now apply find_error. Qed.
Print Assumptions C62_find_partial.
Definition ex_err_file (o : Z) (bs : list Z) : file :=
  match file_of_bytes (ex_put (ex_record (ex_attrs ++ ex_nonresident 128 5 100 [17; 1; 10; 0; 0; 0; 0; 0])) o bs) (Some 4096) 40 with Ok f => f | _ => mkFile (mkRecord [] None) 0 end.
(** Refuted: an attribute whose length field is 8 is said to have a length of 16, with 8 bytes left in the record. *)
Theorem C62_attributes_refuted : exists f e, bytes_ok (f_data f) /\ f_position f = Some 4096 /\ zlen (f_data f) = 1024 /\
  iterate (raw_next f) 2 (field 2 (f_data f) 20) = [Some (Ok (mkAttr f 56 None)); Some (Err e)] /\ ~ attr_message (f_data f) 4096 88 e /\ attr_len_at (f_data f) 88 = 8.
Proof.
  exists (ex_err_file 92 [8]), (EInvalidAttributeLength (Some 4184) 16 8). split; [apply bytes_okb_ok; vm_compute; reflexivity|]. split; [vm_compute; reflexivity|].
  split; [vm_compute; reflexivity|]. split; [vm_compute; reflexivity|]. split; [|vm_compute; reflexivity]. intros (_ & K & _). vm_compute in K. discriminate K.
Qed.
Print Assumptions C62_attributes_refuted.
(** Refuted: data runs that start behind the end of the attribute are said to exceed the record. *)
Theorem C62_data_runs_refuted : exists f e, bytes_ok (f_data f) /\ f_position f = Some 4096 /\ zlen (f_data f) = 1024 /\ attr_fits (f_data f) 152 /\ ~ attr_resident_at (f_data f) 152 /\
  attr_nr_data_and_position (mkAttr f 152 None) = Err e /\ ~ attr_message (f_data f) 4096 152 e.
Proof.
  exists (ex_err_file 184 [80]), (EInvalidNonResidentValueDataRange (Some 4328) 232 224 1024). split; [apply bytes_okb_ok; vm_compute; reflexivity|]. split; [vm_compute; reflexivity|].
  split; [vm_compute; reflexivity|]. split; [apply fits_dec; vm_compute; reflexivity|]. split; [intros K; vm_compute in K; discriminate K|]. split; [vm_compute; reflexivity|].
  intros (_ & _ & _ & _ & _ & K). lia.
Qed.
Print Assumptions C62_data_runs_refuted.
(** Refuted: a file with a $DATA attribute named "AB" is said to have no attribute of that type, if "CD" is looked for. *)
Theorem C62_find_refuted : exists f o, bytes_ok (f_data f) /\ f_position f = Some 4096 /\ zlen (f_data f) = 1024 /\
  find_resident_attribute f 128 (Some [67; 68]) None = Err (EAttributeNotFound (Some 4096) 128) /\
  In (Some (Ok (mkAttr f o None))) (iterate (raw_next f) 9 (field 2 (f_data f) 20)) /\ attr_type_at (f_data f) o = 128.
Proof.
  exists ex_file, 120. split; [apply ex_file_bytes|]. split; [vm_compute; reflexivity|]. split; [vm_compute; reflexivity|]. split; [vm_compute; reflexivity|].
  split; [|vm_compute; reflexivity]. apply nth_error_In with 2%nat. vm_compute. reflexivity.
Qed.
Print Assumptions C62_find_refuted.
Example C62_attributes_example :
  nth_error (iterate (raw_next (ex_err_file 92 [0; 4])) 2 56) 1 = Some (Some (Err (EInvalidAttributeLength (Some 4184) 1024 936))) /\
  attr_ty (mkAttr (ex_err_file 88 [17]) 88 None) = Err (EUnsupportedAttributeType (Some 4184) 17) /\
  attr_name (mkAttr (ex_err_file 130 [40]) 120 None) = Err (EInvalidAttributeNameOffset (Some 4216) 40 32) /\
  attr_name (mkAttr (ex_err_file 129 [5]) 120 None) = Err (EInvalidAttributeNameLength (Some 4216) 34 32) /\
  attr_resident_value (mkAttr (ex_err_file 108 [33]) 88 None) = Err (EInvalidResidentAttributeValueOffset (Some 4184) 33 32) /\
  attr_resident_value (mkAttr (ex_err_file 104 [9]) 88 None) = Err (EInvalidResidentAttributeValueLength (Some 4184) 9 24 32) /\
  attr_ensure_ty (mkAttr ex_file 88 None) 16 = Err (EAttributeOfDifferentType (Some 4184) 16 128) /\
  attr_resident_structured (mkAttr (ex_err_file 0 []) 152 None) 128 = Err (EUnexpectedNonResidentAttribute (Some 4248)) /\
  find_resident_attribute ex_file 160 None None = Err (EAttributeNotFound (Some 4096) 160) /\
  bytes_ok (f_data (ex_err_file 104 [9])) /\ f_position (ex_err_file 104 [9]) = Some 4096 /\ attr_fits (f_data (ex_err_file 104 [9])) 88 /\
  4096 + zlen (f_data (ex_err_file 104 [9])) + 65536 <= TWO64 /\ attr_resident_at (f_data (ex_err_file 104 [9])) 88.
Proof.
  repeat (split; [vm_compute; reflexivity|]). split; [apply bytes_okb_ok; vm_compute; reflexivity|]. split; [vm_compute; reflexivity|].
  split; [apply fits_dec; vm_compute; reflexivity|]. split; [vm_compute; discriminate|vm_compute; reflexivity].
Qed.

(** C62. Index roots and index entries. *)
Theorem C62_index_root_partial : forall s p e, bytes_ok s -> ir_new s (Some p) = Err e -> root_message s p e \/ root_misleading s p e.
Proof. exact root_error. Qed.
Print Assumptions C62_index_root_partial.
Theorem C62_entry_partial : forall s p e, bytes_ok s -> zlen s <= U16_MAX -> ie_new s (Some p) = Err e -> entry_message s p e \/ entry_misleading s p e.
Proof. exact entry_error. Qed.
Print Assumptions C62_entry_partial.
(** The parts of an entry: the error is true, or it is an error of the key (or data) type about the bytes of the key (or data). *)
Theorem C62_entry_parts : forall s p, bytes_ok s -> 16 <= zlen s <= U16_MAX ->
  (forall D (dp : list Z -> position -> res D) e, ie_data dp (mkIE s (Some p)) = Some (Err e) ->
     entry_data_message s p e \/ dp (slice s (field 2 s 0) (field 2 s 0 + field 2 s 2)) (pos_add (Some p) (field 2 s 0)) = Err e) /\
  (forall K (kp : list Z -> position -> res K) e, ie_key kp (mkIE s (Some p)) = Some (Err e) ->
     entry_data_message s p e \/ kp (slice s 16 (16 + field 2 s 10)) (pos_add (Some p) 16) = Err e) /\
  (forall e, ie_subnode_vcn (mkIE s (Some p)) = Some (Err e) -> entry_data_message s p e).
Proof.
  intros s p Hb Hl. split; [intros D dp e; now apply entry_data_error|]. split; [intros K kp e; now apply entry_key_error|]. intros e. now apply entry_subnode_error.
Qed.
Print Assumptions C62_entry_parts.
(** Refuted: 16 bytes are said to be expected of an index root of 20 bytes, and 16 bytes to be reported by an entry that reports 0. *)
Theorem C62_index_refuted : exists root entry p, bytes_ok root /\ bytes_ok entry /\ zlen root = 20 /\ zlen entry = 10 /\ field 2 entry 8 = 0 /\
  ir_new root (Some p) = Err (EInvalidStructuredValueSize (Some p) 144 16 20) /\ ~ root_message root p (EInvalidStructuredValueSize (Some p) 144 16 20) /\
  ie_new entry (Some p) = Err (EInvalidIndexEntrySize (Some p) 16 10) /\ ~ entry_message entry p (EInvalidIndexEntrySize (Some p) 16 10).
Proof.
  exists (zrepeat 0 20), (zrepeat 0 10), 4096. split; [apply bytes_okb_ok; vm_compute; reflexivity|]. split; [apply bytes_okb_ok; vm_compute; reflexivity|].
  repeat (split; [vm_compute; reflexivity|]). split; [intros (_ & _ & K & _); discriminate K|]. split; [vm_compute; reflexivity|]. intros (_ & K & _). vm_compute in K. discriminate K.
Qed.
Print Assumptions C62_index_refuted.
Example C62_index_example :
  ir_new (ex_put ex_dir_root 16 [200]) (Some 4096) = Err (EInvalidIndexRootEntriesOffset (Some 4096) 216 (zlen ex_dir_root)) /\
  ir_new (ex_put ex_dir_root 20 [200]) (Some 4096) = Err (EInvalidIndexRootUsedSize (Some 4096) 216 (zlen ex_dir_root)) /\
  ie_new (ztake 87 (ex_entry 30 0 (ex_key 97) [])) (Some 4096) = Err (EInvalidIndexEntrySize (Some 4096) 88 87) /\
  ie_key fn_from_slice (mkIE (ex_put (ex_entry 30 0 (ex_key 97) []) 10 [73]) (Some 4096)) = Some (Err (EInvalidIndexEntryDataRange (Some 4096) 16 89 88)) /\
  ie_subnode_vcn (mkIE (ex_put (ztake 20 (ex_entry 30 0 (ex_key 97) [])) 8 [20; 0; 0; 0; 1]) (Some 4096)) = Some (Err (EInvalidIndexEntryDataRange (Some 4096) 16 24 20)).
Proof. repeat split; vm_compute; reflexivity. Qed.

(** C62. Data runs: the first error is true of the run at which it occurs. *)
Theorem C62_runs : forall cs data p n runs e rest, 1 <= cs -> bytes_ok data -> 0 < p -> p + zlen data <= TWO64 ->
  iterate (druns_next cs data (Some p)) n druns_start = map (fun r => Some (Ok r)) runs ++ Some (Err e) :: rest ->
  exists o lcn, runs_before data o lcn /\ run_message cs data p o lcn e.
Proof.
  intros cs data p n runs e rest Hcs Hb Hp Hp2 H. apply (runs_error cs data p Hcs Hb Hp Hp2 runs e rest n druns_start); auto; cbn [druns_start dr_off dr_prev]; unfold U64_MAX; try lia.
  apply rb_start.
Qed.
Print Assumptions C62_runs.
Example C62_runs_example :
  nth_error (iterate (druns_next 512 [17; 3; 2; 25; 3; 6] (Some 4096)) 3 druns_start) 1 = Some (Some (Err (EInvalidByteCountInDataRunHeader (Some 4099) 9 8))) /\
  nth_error (iterate (druns_next 512 [17; 3; 2; 17; 0; 6] (Some 4096)) 3 druns_start) 1 = Some (Some (Err (EInvalidClusterCountInDataRunHeader (Some 4099) 0))) /\
  nth_error (iterate (druns_next 512 [17; 3; 2; 17; 1; 128] (Some 4096)) 3 druns_start) 1 = Some (Some (Err (EInvalidVcnInDataRunHeader (Some 4099) (-128) 2))) /\
  nth_error (iterate (druns_next 512 [17; 3; 2; 129; 1; 0; 0; 0; 0; 0; 0; 0; 1] (Some 4096)) 3 druns_start) 1 = Some (Some (Err (ELcnTooBig 72057594037927938))) /\
  nth_error (iterate (druns_next 512 [17; 3; 2; 33; 1; 2] (Some 4096)) 3 druns_start) 1 = Some (Some (Err (EIo UnexpectedEof))).
Proof. repeat split; vm_compute; reflexivity. Qed.

(** C62. Structured values that are read from their bytes. *)
Theorem C62_values : forall bs p, bytes_ok bs -> zlen bs <= U64_MAX ->
  (forall e, from_slice si_new bs p = Err e -> value_message 16 bs p (zlen bs) e) /\
  (forall e, from_slice vn_new bs p = Err e -> value_message 96 bs p (zlen bs) e) /\
  (forall e, from_slice oi_new bs p = Err e -> value_message 64 bs p (zlen bs) e).
Proof.
  intros bs p Hb Hl. split; [|split]; intros e; apply from_slice_error; auto; intros At Ha s d.
  - now apply si_error.
  - now apply vn_error.
  - now apply oi_error.
Qed.
Print Assumptions C62_values.
(** File names and volume information: the numbers may be exchanged, and the type is that of standard information. *)
Theorem C62_values_partial : forall bs p, bytes_ok bs -> zlen bs <= U64_MAX ->
  (forall e, from_slice fn_new bs p = Err e -> value_message 48 bs p (zlen bs) e \/ value_message 48 bs p (zlen bs) (exchanged e) /\ exchanged e <> e) /\
  (forall e, from_slice vi_new bs p = Err e -> e = EInvalidStructuredValueSize p 16 12 (zlen bs) /\ zlen bs < 12).
Proof.
  intros bs p Hb Hl. split; intros e.
  - apply (from_slice_error fn_new (fun e => value_message 48 bs p (zlen bs) e \/ value_message 48 bs p (zlen bs) (exchanged e) /\ exchanged e <> e)); auto. intros At Ha s d. now apply fn_error.
  - apply (from_slice_error vi_new (fun e => e = EInvalidStructuredValueSize p 16 12 (zlen bs) /\ zlen bs < 12)); auto. intros At Ha s d. now apply (vi_error cursor_exact At bs Ha).
Qed.
Print Assumptions C62_values_partial.
(** Refuted: a file name of 68 bytes with a name of 2 units, and volume information of 11 bytes. *)
Theorem C62_values_refuted : exists name info p, bytes_ok name /\ bytes_ok info /\ zlen name = 68 /\ zlen info = 11 /\
  from_slice fn_new name p = Err (EInvalidStructuredValueSize p 48 68 70) /\ ~ value_message 48 name p 68 (EInvalidStructuredValueSize p 48 68 70) /\
  from_slice vi_new info p = Err (EInvalidStructuredValueSize p 16 12 11) /\ ~ value_message 112 info p 11 (EInvalidStructuredValueSize p 16 12 11).
Proof.
  exists (ex_put (ex_key 97) 64 [2]), (zrepeat 0 11), (Some 4096). split; [apply bytes_okb_ok; vm_compute; reflexivity|]. split; [apply bytes_okb_ok; vm_compute; reflexivity|].
  repeat (split; [vm_compute; reflexivity|]). split; [intros (_ & _ & K & _); discriminate K|]. split; [vm_compute; reflexivity|]. intros (_ & K & _). discriminate K.
Qed.
Print Assumptions C62_values_refuted.
Example C62_values_example :
  from_slice si_new (zrepeat 0 47) (Some 4096) = Err (EInvalidStructuredValueSize (Some 4096) 16 48 47) /\
  from_slice vn_new (zrepeat 0 258) (Some 4096) = Err (EInvalidStructuredValueSize (Some 4096) 96 256 258) /\
  from_slice oi_new (zrepeat 0 15) (Some 4096) = Err (EInvalidStructuredValueSize (Some 4096) 64 16 15) /\
  from_slice fn_new (zrepeat 0 67) (Some 4096) = Err (EInvalidStructuredValueSize (Some 4096) 48 68 67) /\
  from_slice fn_new (ex_put (ex_key 97) 65 [4]) (Some 4096) = Err (EUnsupportedFileNamespace (Some 4096) 4).
Proof. repeat split; vm_compute; reflexivity. Qed.

(** C62. Attribute lists: every error of the iterator is about the entry at which the walk ends; if it is about sizes, then the two numbers are
    exchanged. Errors about types are true. *)
Theorem C62_list_partial : forall bs p d n x, bytes_ok bs -> zlen bs <= U64_MAX -> position_sane p (zlen bs) ->
  In (Some (Err x)) (iterate (with_dev alist_next) n (alist_of_sval (SVRes (res_new bs p)), d)) ->
  exists offs, list_walk bs 0 offs ListMalformed /\ let o := list_walk_end bs 0 offs in list_entry_message bs o (pos_add p o) (exchanged x).
Proof. exact list_errors_resident. Qed.
Print Assumptions C62_list_partial.
Theorem C62_nonresident_list_partial : forall cs img l enc p size v d n x,
  valid_extents cs img l -> encodes 0 l enc -> 0 <= size <= extents_size cs l -> size + U16_MAX <= U64_MAX ->
  bytes_ok (file_content cs img l size) -> nr_new cs enc p size = Ok v -> faultless d -> d_img d = img ->
  let bs := file_content cs img l size in
  In (Some (Err x)) (iterate (with_dev alist_next) n (alist_of_sval (SVNr v), d)) ->
  exists offs, list_walk bs 0 offs ListMalformed /\ let o := list_walk_end bs 0 offs in list_entry_message bs o (disk_position cs l o) (exchanged x).
Proof. intros cs img l enc p size v d n x H1 H2 H3 H4 H5. now apply list_errors_nonresident with (1 := H1) (2 := H2). Qed.
Print Assumptions C62_nonresident_list_partial.
Theorem C62_list_type : forall bs o e x, bytes_ok bs -> list_entry_fits bs o -> decodes_list_entry bs o e -> le_ty e = Err x -> list_entry_message bs o (le_position e) x.
Proof. intros. now apply le_ty_message. Qed.
Print Assumptions C62_list_type.
(** Refuted: an entry of 26 bytes with a name of 2 units, which needs 30 bytes, is said to have 30 bytes where 26 are expected. *)
Definition ex_short_list : list Z := ex_le32 16 0 40 0 ++ ex_lentry 128 26 0 41 3 [97; 0; 98; 0].
Theorem C62_list_refuted : exists bs x, bytes_ok bs /\ zlen bs <= U64_MAX /\ position_sane (Some 4096) (zlen bs) /\
  (forall d, nth_error (iterate (with_dev alist_next) 2 (alist_of_sval (SVRes (res_new bs (Some 4096))), d)) 1 = Some (Some (Err x))) /\
  list_walk bs 0 [0] ListMalformed /\ field 2 bs (32 + 4) = 26 /\ 26 + 2 * field 1 bs (32 + 6) = 30 /\
  x = EInvalidStructuredValueSize (Some 4128) 32 26 30 /\ ~ list_entry_message bs 32 (Some 4128) x.
Proof.
  exists ex_short_list, (EInvalidStructuredValueSize (Some 4128) 32 26 30). split; [apply bytes_okb_ok; vm_compute; reflexivity|]. split; [vm_compute; discriminate|].
  split; [intros v [= <-]; vm_compute; split; (reflexivity || discriminate)|]. split; [intros d; vm_compute; reflexivity|]. split; [apply (lwalk_ok 5); vm_compute; reflexivity|].
  split; [vm_compute; reflexivity|]. split; [vm_compute; reflexivity|]. split; [reflexivity|]. intros (_ & _ & _ & K & _). vm_compute in K. discriminate K.
Qed.
Print Assumptions C62_list_refuted.
(** The same list in an extent of a device that reads short, and an entry of an unknown type. *)
Definition ex_short_img : list Z := zrepeat 9 128 ++ ex_short_list ++ zrepeat 9 100.
Example C62_list_example :
  (exists v, nr_new 64 [17; 1; 2; 0] None 62 = Ok v /\
     nth_error (iterate (with_dev alist_next) 2 (alist_of_sval (SVNr v), mkDev ex_short_img 0 [RShort 3; RShort 0] [])) 1 = Some (Some (Err (EInvalidStructuredValueSize (Some 160) 32 26 30)))) /\
  valid_extents 64 ex_short_img [mkExtent (Some 2) 1] /\ encodes 0 [mkExtent (Some 2) 1] [17; 1; 2; 0] /\ extents_size 64 [mkExtent (Some 2) 1] = 64 /\
  file_content 64 ex_short_img [mkExtent (Some 2) 1] 62 = ex_short_list /\
  (exists e, snd (snd (le_new cursor_exact (Some 4096) (res_new (ex_le32 17 0 40 0) (Some 4096)) no_dev)) = Ok e /\ le_ty e = Err (EUnsupportedAttributeType (Some 4096) 17)).
Proof.
  split; [eexists; split; [vm_compute; reflexivity|vm_compute; reflexivity]|]. split.
  { split; [lia|vm_compute; discriminate|repeat constructor; vm_compute; discriminate|repeat constructor; vm_compute; discriminate|repeat split; discriminate]. }
  split.
  { apply (enc_data 0 2 1 [1] [2] [] [0]); [split; [repeat constructor; lia|split; [vm_compute; split; discriminate|reflexivity]]| |constructor].
    split; [repeat constructor; lia|]. split; [vm_compute; split; discriminate|]. split; [vm_compute; split; (reflexivity || discriminate)|reflexivity]. }
  split; [reflexivity|]. split; [vm_compute; reflexivity|]. eexists. split; [vm_compute; reflexivity|vm_compute; reflexivity].
Qed.

(** C62. Index allocations: every error of looking up an index record by its VCN. *)
Theorem C62_allocation_partial : forall nt img f o l size vcn fuel d, bytes_ok img -> bytes_ok (f_data f) -> 0 <= o -> attr_fits (f_data f) o ->
  ~ attr_resident_at (f_data f) o -> o + 56 <= zlen (f_data f) -> field 2 (f_data f) (o + 32) <= attr_len_at (f_data f) o ->
  valid_extents (cluster_size nt) img l -> encodes 0 l (slice (f_data f) (o + field 2 (f_data f) (o + 32)) (o + attr_len_at (f_data f) o)) ->
  field 8 (f_data f) (o + 48) <= extents_size (cluster_size nt) l -> 0 < field 8 (f_data f) (o + 48) -> 40 <= size <= U16_MAX -> faultless d -> d_img d = img ->
  let alloc := file_content (cluster_size nt) img l (field 8 (f_data f) (o + 48)) in
  let p := disk_position (cluster_size nt) l 0 in let rp := disk_position (cluster_size nt) l (vcn * cluster_size nt) in
  (forall x, rp = Some x -> 0 < x /\ x + size <= TWO64) ->
  forall v d' e, attr_value nt (mkAttr f o None) d = (d, Ok v) -> record_from_vcn fuel nt v size vcn d = (d', Err e) ->
  allocation_message (cluster_size nt) (ntfs_size nt) size alloc p rp vcn e \/ allocation_misleading (cluster_size nt) (ntfs_size nt) size alloc p rp vcn e.
Proof. exact allocation_errors. Qed.
Print Assumptions C62_allocation_partial.
(** Refuted: VCN 4, behind an allocation of 4 clusters, is said to exceed a filesystem of 128 clusters. *)
Definition ex_vcn_error (img : list Z) (vcn : Z) : res record :=
  let d := mkDev img 0 [RShort 100; RShort 3] [] in
  match attr_value ex_dir_ntfs (mkAttr ex_dir 240 None) d with (_, Ok v) => snd (record_from_vcn 0 ex_dir_ntfs v 1024 vcn d) | _ => Panic end.
Theorem C62_allocation_refuted : ex_vcn_error ex_dir_img 4 = Err (EVcnOutOfBoundsInIndexAllocation (Some 1024) 4) /\ ntfs_size ex_dir_ntfs = 128 * cluster_size ex_dir_ntfs /\
  attr_fits (f_data ex_dir) 240 /\ field 8 (f_data ex_dir) (240 + 48) = 4 * cluster_size ex_dir_ntfs /\
  ~ allocation_message 512 65536 1024 (ex_dir_alloc ex_dir_img) (Some 1024) None 4 (EVcnOutOfBoundsInIndexAllocation (Some 1024) 4).
Proof.
  split; [vm_compute; reflexivity|]. split; [reflexivity|]. split; [apply fits_dec; vm_compute; reflexivity|]. split; [vm_compute; reflexivity|].
  intros (_ & _ & _ & K). vm_compute in K. apply K. reflexivity.
Qed.
Print Assumptions C62_allocation_refuted.
(** All the other errors, with the hypotheses of the theorem; one node has a wrong VCN, one a wrong signature. *)
Example C62_allocation_example :
  ex_vcn_error ex_dir_img 200 = Err (EVcnOutOfBoundsInIndexAllocation (Some 1024) 200) /\
  ex_vcn_error ex_dir_img (2 ^ 62) = Err (EVcnTooBig (2 ^ 62)) /\ ex_vcn_error ex_dir_img (-1) = Err (EIo InvalidInput) /\ ex_vcn_error ex_dir_img 3 = Err (EIo UnexpectedEof) /\
  ex_vcn_error (ex_put ex_dir_img 2064 [5]) 2 = Err (EVcnMismatchInIndexAllocation (Some 1024) 2 5) /\
  ex_vcn_error (ex_put ex_dir_img 2048 [66; 65; 65; 68]) 2 = Err (EInvalidIndexSignature (Some 2048) [66; 65; 65; 68]) /\
  ~ attr_resident_at (f_data ex_dir) 240 /\ 240 + 56 <= zlen (f_data ex_dir) /\ field 2 (f_data ex_dir) (240 + 32) <= attr_len_at (f_data ex_dir) 240 /\
  valid_extents 512 (ex_put ex_dir_img 2064 [5]) ex_dir_extents /\
  encodes 0 ex_dir_extents (slice (f_data ex_dir) (240 + field 2 (f_data ex_dir) (240 + 32)) (240 + attr_len_at (f_data ex_dir) 240)) /\
  field 8 (f_data ex_dir) (240 + 48) <= extents_size 512 ex_dir_extents /\ disk_position 512 ex_dir_extents (2 * 512) = Some 2048.
Proof.
  repeat (split; [vm_compute; reflexivity|]). split; [vm_compute; discriminate|]. split; [vm_compute; discriminate|]. split; [vm_compute; discriminate|].
  split; [apply ex_valid; vm_compute; reflexivity|].
  split; [match goal with |- encodes _ _ ?x => replace x with [17; 4; 2; 0; 0; 0; 0; 0] by (vm_compute; reflexivity) end; apply ex_encodes|].
  split; [vm_compute; discriminate|vm_compute; reflexivity].
Qed.
