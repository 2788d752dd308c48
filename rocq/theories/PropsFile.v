(** * C23, C24: reading file records. *)
From Verif Require Import Base Dev Types Record DataRuns Stream NonResident Resident Attribute File Spec BaseProofs AttributeProofs FileProofs FileExamples.

(** C23. [l] are the extents of the MFT. Record [n] is read at the disk position of byte [n * frs] of the MFT. *)
Theorem C23_file_record : forall img nt mp mdata l d n,
  bytes_ok img -> faultless d -> d_img d = img -> mft_position nt = Some mp -> 32 <= file_record_size nt <= U16_MAX ->
  mft_at img mp (file_record_size nt) mdata l -> valid_extents (cluster_size nt) img l -> 0 <= n <= U64_MAX ->
  let frs := file_record_size nt in
  (U64_MAX < n * frs \/ disk_position (cluster_size nt) l (n * frs) = None -> snd (ntfs_file nt n d) = Err (EInvalidFileRecordNumber n)) /\
  (forall p, n * frs <= U64_MAX -> disk_position (cluster_size nt) l (n * frs) = Some p ->
     let prot := slice img p (p + frs) in
     (zlen img < p + frs -> snd (ntfs_file nt n d) = Err (EIo UnexpectedEof)) /\
     (p + frs <= zlen img -> returns (snd (ntfs_file nt n d)) /\
        (array_clear (field 2 prot 4) (field 2 prot 6 - 1) -> forall f, snd (ntfs_file nt n d) = Ok f <->
           exists data, f = mkFile (mkRecord data (Some p)) n /\ stored_as data prot /\ file_record_ok data))).
Proof. exact ntfs_file_outcome. Qed.
Print Assumptions C23_file_record.
(** The record determined by its on-disk form is unique. *)
Theorem C23_stored_unique : forall d1 d2 prot, bytes_ok prot -> stored_as d1 prot -> stored_as d2 prot -> d1 = d2.
Proof. exact stored_unique. Qed.
Print Assumptions C23_stored_unique.
(** A volume with a fragmented MFT; record 2 is in the second extent. *)
Example C23_example : bytes_ok ex_vol /\ faultless ex_vol_dev /\ d_img ex_vol_dev = ex_vol /\ mft_position ex_ntfs = Some 1024 /\
  mft_at ex_vol 1024 1024 (f_data ex_mft) ex_vol_extents /\ valid_extents 512 ex_vol ex_vol_extents /\
  disk_position 512 ex_vol_extents (2 * 1024) = Some 4608 /\
  snd (ntfs_file ex_ntfs 2 ex_vol_dev) = Ok (mkFile (mkRecord (f_data ex_file) (Some 4608)) 2) /\
  snd (ntfs_file ex_ntfs 3 ex_vol_dev) = Err (EInvalidFileRecordNumber 3).
Proof.
  split; [exact ex_vol_bytes|]. split; [split; repeat constructor|]. split; [reflexivity|]. split; [reflexivity|].
  split; [exact ex_vol_mft|]. split; [exact ex_vol_valid|]. split; [vm_compute; reflexivity|]. split; vm_compute; reflexivity.
Qed.

(** C24, for records that lie in one extent - which is the case for all records if the cluster size is a multiple of the
    record size.  Missing: records that straddle two extents, for which the code is wrong (C24_straddling_refuted). *)
Theorem C24_record_in_one_extent_partial : forall img nt mp mdata l d n data,
  bytes_ok img -> faultless d -> d_img d = img -> mft_position nt = Some mp -> 32 <= file_record_size nt <= U16_MAX ->
  mft_at img mp (file_record_size nt) mdata l -> valid_extents (cluster_size nt) img l -> 0 <= n <= U64_MAX ->
  let frs := file_record_size nt in let content := concat (map (extent_bytes (cluster_size nt) img) l) in
  let prot := slice content (n * frs) (n * frs + frs) in
  n * frs <= U64_MAX -> (in_one_extent (cluster_size nt) l (n * frs) (n * frs + frs) \/
    (frs | cluster_size nt) /\ disk_position (cluster_size nt) l (n * frs) <> None) ->
  array_clear (field 2 prot 4) (field 2 prot 6 - 1) -> stored_as data prot -> file_record_ok data ->
  exists p, snd (ntfs_file nt n d) = Ok (mkFile (mkRecord data (Some p)) n) /\ disk_position (cluster_size nt) l (n * frs) = Some p.
Proof. exact ntfs_file_one_extent. Qed.
Print Assumptions C24_record_in_one_extent_partial.
Example C24_example : in_one_extent 512 ex_vol_extents (2 * 1024) (2 * 1024 + 1024).
Proof.
  exists [mkExtent (Some 2) 3], (mkExtent (Some 8) 3), []. split; [reflexivity|]. split; [discriminate|]. vm_compute. repeat split; discriminate.
Qed.

(** The full property fails: record 1 of this volume straddles two extents, and a record with other bytes is returned. *)
Theorem C24_straddling_refuted : exists img nt mp mdata l d data d' f,
  bytes_ok img /\ faultless d /\ d_img d = img /\ mft_position nt = Some mp /\ 32 <= file_record_size nt <= U16_MAX /\
  mft_at img mp (file_record_size nt) mdata l /\ valid_extents (cluster_size nt) img l /\
  let frs := file_record_size nt in
  frs + frs <= extents_size (cluster_size nt) l /\
  stored_as data (slice (concat (map (extent_bytes (cluster_size nt) img) l)) frs (frs + frs)) /\ file_record_ok data /\
  ntfs_file nt 1 d = (d', Ok f) /\ f_data f <> data.
Proof. exact ex_straddle. Qed.
Print Assumptions C24_straddling_refuted.
