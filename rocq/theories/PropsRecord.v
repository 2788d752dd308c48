(** * C01-C04: opening a volume and record fix-up. *)
From Verif Require Import Base Dev Types BootSector Record Spec BaseProofs RecordProofs BootSectorProofs.

(** C01. For every device content: opening succeeds exactly for the boot sectors that describe a geometry, and reports exactly
    this geometry; otherwise it fails with an error, never with a panic. *)
Theorem C01_open : forall d, bytes_ok (d_img d) -> faultless d ->
  (zlen (d_img d) < 512 -> snd (ntfs_new d) = Err (EIo UnexpectedEof)) /\
  (512 <= zlen (d_img d) ->
     match snd (ntfs_new d) with
     | Ok n => exists mft, boot_describes (ztake 512 (d_img d)) (sector_size n) (cluster_size n) (ntfs_size n) mft (file_record_size n)
                             (serial_number n) /\ mft_position n = Some mft /\ 0 < mft /\ power_of_two (cluster_size n)
     | Err _ => forall sector cluster size mft record serial,
                  ~ boot_describes (ztake 512 (d_img d)) sector cluster size mft record serial
     | _ => False
     end).
Proof. exact open_spec. Qed.
Print Assumptions C01_open.

(** The geometry described by a boot sector is unique, so [Ok n] above determines all fields. *)
Theorem C01_geometry_unique : forall b a1 b1 c1 d1 e1 f1 a2 b2 c2 d2 e2 f2,
  boot_describes b a1 b1 c1 d1 e1 f1 -> boot_describes b a2 b2 c2 d2 e2 f2 ->
  (a1, b1, c1, d1, e1, f1) = (a2, b2, c2, d2, e2, f2).
Proof. exact boot_describes_fun. Qed.
Print Assumptions C01_geometry_unique.

(** A boot sector: 512 byte sectors, 8 sectors per cluster, 0x1000 sectors, MFT at cluster 4, record size code -10. *)
Definition example_boot : list Z :=
  zrepeat 0 11 ++ [0; 2; 8] ++ zrepeat 0 26 ++ [0; 16; 0; 0; 0; 0; 0; 0] ++ [4; 0; 0; 0; 0; 0; 0; 0] ++ zrepeat 0 8 ++
  [246] ++ zrepeat 0 7 ++ [1; 2; 3; 4; 5; 6; 7; 8] ++ zrepeat 0 430 ++ [85; 170].
Example C01_example : snd (ntfs_new (mkDev example_boot 0 [RShort 3; RShort 0] [])) =
  Ok (mkNtfs 4096 512 2097152 (Some 16384) 1024 578437695752307201 None).
Proof. vm_compute. reflexivity. Qed.
Example C01_example_hypotheses : bytes_ok example_boot /\ faultless (mkDev example_boot 0 [RShort 3; RShort 0] []) /\ 512 <= zlen example_boot.
Proof. split; [apply bytes_okb_ok; vm_compute; reflexivity|]. split; [split; cbn; repeat constructor|vm_compute; discriminate]. Qed.

(** C02. *)
Theorem C02_fixup_restores : forall orig prot off count usn p,
  bytes_ok prot -> 8 <= zlen prot <= U16_MAX -> field 2 prot 4 = off -> field 2 prot 6 = count + 1 ->
  0 <= count -> off + 2 + 2 * count <= zlen prot -> 512 * count <= zlen prot -> array_clear off count ->
  is_protected orig prot off count usn ->
  exists data, fixup (mkRecord prot p) = (mkRecord data p, Ok tt) /\ zlen data = zlen orig /\
    (forall k, 0 <= k -> ~ off <= k < off + 2 + 2 * count -> byte_at data k = byte_at orig k) /\
    (forall k, off <= k < off + 2 + 2 * count -> byte_at data k = byte_at prot k).
Proof. exact fixup_protected. Qed.
Print Assumptions C02_fixup_restores.

(** C03. *)
Theorem C03_fixup_exact : forall data p r' out,
  bytes_ok data -> 8 <= zlen data <= U16_MAX -> fixup (mkRecord data p) = (r', out) ->
  let off := field 2 data 4 in let count := field 2 data 6 - 1 in
  let intact i := slice data (block_end i) (block_end i + 2) = slice data off (off + 2) in
  (out = Ok tt <-> usa_fits data /\ forall i, 0 <= i < count -> intact i) /\
  (out = Ok tt -> zlen (rec_data r') = zlen data /\
     (forall k, 0 <= k -> ~ at_block_end count k -> byte_at (rec_data r') k = byte_at data k) /\
     (array_clear off count -> forall i, 0 <= i < count ->
        slice (rec_data r') (block_end i) (block_end i + 2) = slice data (off + 2 + 2 * i) (off + 4 + 2 * i))) /\
  (usa_fits data -> (exists i, 0 <= i < count /\ ~ intact i) ->
     exists i, 0 <= i < count /\ ~ intact i /\ (forall j, 0 <= j < i -> intact j) /\
       out = Err (EUpdateSequenceNumberMismatch (pos_add p (off + 2 + 2 * i)) (slice data off (off + 2)) (slice data (block_end i) (block_end i + 2)))).
Proof. exact fixup_exact. Qed.
Print Assumptions C03_fixup_exact.

(** C04. *)
Theorem C04_fixup_no_panic : forall data p, bytes_ok data -> 8 <= zlen data <= U16_MAX ->
  match snd (fixup (mkRecord data p)) with
  | Ok _ => True
  | Err (EInvalidUpdateSequenceNumberRange _ _ _ _) | Err (EInvalidUpdateSequenceCount _ _)
  | Err (EUpdateSequenceArrayExceedsRecordSize _ _ _) | Err (EUpdateSequenceNumberMismatch _ _ _) => True
  | _ => False
  end.
Proof. exact fixup_outcome. Qed.
Print Assumptions C04_fixup_no_panic.

(** The size limit is needed: a 64 KiB record (possible with file record sizes given in clusters) can make it panic. *)
Theorem C04_large_record_refuted : exists data p, bytes_ok data /\ zlen data = 65536 /\ snd (fixup (mkRecord data p)) = Panic.
Proof. exact fixup_large_panic. Qed.
Print Assumptions C04_large_record_refuted.

(** A two block record: USN 7 0 at 48, saved bytes 1 2 and 3 4. *)
Definition example_prot : list Z :=
  [70; 73; 76; 69; 48; 0; 3; 0] ++ zrepeat 9 40 ++ [7; 0; 1; 2; 3; 4] ++ zrepeat 9 456 ++ [7; 0] ++ zrepeat 9 510 ++ [7; 0].
Definition example_orig : list Z :=
  [70; 73; 76; 69; 48; 0; 3; 0] ++ zrepeat 9 40 ++ [0; 0; 0; 0; 0; 0] ++ zrepeat 9 456 ++ [1; 2] ++ zrepeat 9 510 ++ [3; 4].
Example C02_example : exists data, fixup (mkRecord example_prot None) = (mkRecord data None, Ok tt) /\
  slice data 510 512 = [1; 2] /\ slice data 1022 1024 = [3; 4].
Proof. eexists. split; [vm_compute; reflexivity|]. split; vm_compute; reflexivity. Qed.
Example C02_example_hypotheses : bytes_ok example_prot /\ 8 <= zlen example_prot <= U16_MAX /\ field 2 example_prot 4 = 48 /\
  field 2 example_prot 6 = 2 + 1 /\ 48 + 2 + 2 * 2 <= zlen example_prot /\ 512 * 2 <= zlen example_prot /\ array_clear 48 2 /\
  is_protected example_orig example_prot 48 2 [7; 0].
Proof.
  split; [apply bytes_okb_ok; vm_compute; reflexivity|]. split; [split; vm_compute; discriminate|].
  split; [vm_compute; reflexivity|]. split; [vm_compute; reflexivity|]. split; [vm_compute; discriminate|]. split; [vm_compute; discriminate|].
  split. { unfold array_clear, at_block_end, block_end. intros k Hk (i & Hi & Hi2). lia. }
  split.
  - vm_compute; reflexivity.
  - reflexivity.
  - vm_compute; reflexivity.
  - intros i Hi. assert (i = 0 \/ i = 1) as [->| ->] by lia; vm_compute; reflexivity.
  - intros i Hi. assert (i = 0 \/ i = 1) as [->| ->] by lia; vm_compute; reflexivity.
  - apply (rest_check _ _ _ _ 1024); vm_compute; reflexivity.
Qed.
Example C03_example_torn : exists p, snd (fixup (mkRecord (update_range example_prot 1022 [8; 8]) None)) =
  Err (EUpdateSequenceNumberMismatch p [7; 0] [8; 8]).
Proof. eexists. vm_compute. reflexivity. Qed.
