(** * Boot sector: src/boot_sector.rs and [Ntfs::new] of src/ntfs.rs. *)
From Verif Require Import Base Dev Types.

(** src/boot_sector.rs 18-42 and 190-198: the fields that the code uses, decoded from the 512 bytes of the sector
    (offset 11 is the end of [bootjmp] and [oem_name]). *)
Record boot_sector := mkBoot {
  bs_sector_size : Z;
  bs_sectors_per_cluster : Z;
  bs_total_sectors : Z;
  bs_mft_lcn : Z;
  bs_file_record_size_info : Z;   (* i8 *)
  bs_serial_number : Z;
  bs_signature : list Z
}.

(** src/boot_sector.rs 19-42, the [i8] field: reinterpretation of a byte. *)
Definition to_i8 (x : Z) : Z := if x <=? 127 then x else x - 256.

(** src/boot_sector.rs 19-42, 192-198: [binrw] decoding of [BootSector] (little endian, packed).  Simplification: one 512 byte read. *)
Definition decode_boot (b : list Z) : boot_sector := {|
  bs_sector_size := field 2 b 11;
  bs_sectors_per_cluster := field 1 b 13;
  bs_total_sectors := field 8 b 40;
  bs_mft_lcn := field 8 b 48;
  bs_file_record_size_info := to_i8 (field 1 b 64);
  bs_serial_number := field 8 b 72;
  bs_signature := slice b 510 512
|}.

(** src/boot_sector.rs 122-142, 144-179: [uN::is_power_of_two] (core::num: exactly one bit set). *)
Definition is_power_of_two (n : Z) : bool := (0 <? n) && (Z.land n (n - 1) =? 0).

(** src/boot_sector.rs 122-142 [sector_size]. *)
Definition bpb_sector_size (b : boot_sector) : res Z :=
  let s := bs_sector_size b in
  if negb ((512 <=? s) && (s <=? 4096)) || negb (is_power_of_two s)
  then Err (EUnsupportedSectorSize 512 4096 s)
  else Ok s.

(** src/boot_sector.rs 144-179 [sectors_per_cluster]. *)
Definition bpb_sectors_per_cluster (b : boot_sector) : res Z :=
  let c := bs_sectors_per_cluster b in
  if 128 <? c then
    let exponent := - to_i8 c in
    if 12 <? exponent then Err (EInvalidSectorsPerCluster c)
    else Ok (Z.shiftl 1 exponent)
  else if (c <? 1) || negb (is_power_of_two c) then Err (EInvalidSectorsPerCluster c)
  else Ok c.

(** src/boot_sector.rs 46-68 [cluster_size] (the u32 product is checked for the debug-build overflow panic). *)
Definition bpb_cluster_size (b : boot_sector) : res Z :=
  let? spc := bpb_sectors_per_cluster b in
  let? s := bpb_sector_size b in
  let c := spc * s in
  if U32_MAX <? c then Panic
  else if negb ((512 <=? c) && (c <=? 2097152)) then Err (EUnsupportedClusterSize 512 2097152 c)
  else Ok c.

(** src/boot_sector.rs 84-120 [record_size]. *)
Definition bpb_record_size (b : boot_sector) (size_info : Z) : res Z :=
  let? c := bpb_cluster_size b in
  if 0 <? size_info then
    (if c * size_info <=? U32_MAX then Ok (c * size_info) else Err (EInvalidRecordSizeInfo size_info c))
  else
    let exponent := Z.abs size_info in
    if negb ((10 <=? exponent) && (exponent <=? 12)) then Err (EInvalidRecordSizeInfo size_info c)
    else Ok (Z.shiftl 1 exponent).

(** src/boot_sector.rs 75-81 [mft_lcn]. *)
Definition bpb_mft_lcn (b : boot_sector) : res Z :=
  if 0 <? bs_mft_lcn b then Ok (bs_mft_lcn b) else Err EInvalidMftLcn.

(** src/boot_sector.rs 205-217 [BootSector::validate]. *)
Definition boot_validate (b : boot_sector) : res unit :=
  if negb (list_eqb (bs_signature b) [85; 170])
  then Err (EInvalidTwoByteSignature (pos_new 510) (bs_signature b))
  else Ok tt.

(** src/ntfs.rs 47-73: everything [Ntfs::new] does after having read the sector. *)
Definition ntfs_of_boot (b : boot_sector) : res ntfs :=
  let? _u := boot_validate b in
  let? cs := bpb_cluster_size b in
  let? ss := bpb_sector_size b in
  let total := bs_total_sectors b in
  let? size := (match checked_mul64 total ss with
                | Some v => Ok v | None => Err (ETotalSectorsTooBig total) end) in
  let? frs := bpb_record_size b (bs_file_record_size_info b) in
  let? lcn := bpb_mft_lcn b in
  let? mftpos := lcn_position cs lcn in
  Ok (mkNtfs cs ss size mftpos frs (bs_serial_number b) None).

(** src/ntfs.rs 41-74 [Ntfs::new]. *)
Definition ntfs_new : M ntfs :=
  do _u <- dev_seek 0;
  do b <- dev_read_exact 512;
  mlift (ntfs_of_boot (decode_boot b)).
