(** * Reading file records: src/file.rs, src/ntfs.rs. *)
From Verif Require Import Base Dev Types Record DataRuns Stream NonResident Resident Attribute.

(** src/file.rs 162-165 [allocated_size], 250-253 [data_size], 410-413 [flags], 416-419 [hard_link_count],
    504-507 [sequence_number], 431-433 [is_directory]. *)
Definition f_allocated_size (f : file) : res Z := rd_u32 (f_data f) 28.
(** src/file.rs 250-253 [data_size]. *)
Definition f_data_size (f : file) : res Z := rd_u32 (f_data f) 24.
(** src/file.rs 410-413 [flags] ([from_bits_truncate] of IN_USE 1, IS_DIRECTORY 2). *)
Definition f_flags (f : file) : res Z := let? x := rd_u16 (f_data f) 22 in Ok (Z.land x 3).
(** src/file.rs 416-419 [hard_link_count]. *)
Definition f_hard_link_count (f : file) : res Z := rd_u16 (f_data f) 18.
(** src/file.rs 504-507 [sequence_number]. *)
Definition f_sequence_number (f : file) : res Z := rd_u16 (f_data f) 16.
(** src/file.rs 431-433 [is_directory]. *)
Definition f_is_directory (f : file) : res bool := let? x := f_flags f in Ok (Z.testbit x 1).

(** src/file.rs 509-522 [validate_signature] ("FILE"). *)
Definition file_validate_signature (r : record) : res unit :=
  let? s := rec_signature r in
  if list_eqb s [70; 73; 76; 69] then Ok tt else Err (EInvalidFileSignature (rec_position r) s).

(** src/file.rs 524-542 [validate_sizes]. *)
Definition file_validate_sizes (f : file) : res unit :=
  let? a := f_allocated_size f in
  if zlen (f_data f) <? a then Err (EInvalidFileAllocatedSize (f_position f) a (zlen (f_data f)))
  else
    let? s := f_data_size f in
    if a <? s then Err (EInvalidFileUsedSize (f_position f) s a) else Ok tt.

(** src/file.rs 145-158: everything [NtfsFile::new] does after having read the bytes. *)
Definition file_of_bytes (data : list Z) (p : position) (number : Z) : res file :=
  let r := mkRecord data p in
  let? _u := file_validate_signature r in
  match fixup r with
  | (r', Ok _) =>
      let f := mkFile r' number in
      let? _v := file_validate_sizes f in Ok f
  | (_, Err e) => Err e
  | (_, Panic) => Panic
  | (_, OutOfFuel) => OutOfFuel
  end.

(** src/file.rs 134-159 [NtfsFile::new]; [p] is nonzero. *)
Definition file_new (nt : ntfs) (p : Z) (number : Z) : M file :=
  do _u <- dev_seek p;
  do data <- dev_read_exact (file_record_size nt);
  mlift (file_of_bytes data (Some p) number).

(** src/ntfs.rs 85-110 [Ntfs::file]. *)
Definition ntfs_file (nt : ntfs) (n : Z) : M file :=
  match checked_mul64 n (file_record_size nt) with
  | None => mlift (Err (EInvalidFileRecordNumber n))
  | Some offset =>
      match mft_position nt with
      | None => mlift Panic
      | Some mp =>
          do mft <- file_new nt mp 0;
          try a <- find_resident_attribute mft TY_Data None None;
          try v <- attr_value_simple (cluster_size nt) a;
          fun d =>
            match sv_seek v (SStart offset) d with
            | (d', (v', Ok _)) =>
                match sv_data_position v' with
                | None => (d', Err (EInvalidFileRecordNumber n))
                | Some p => file_new nt p n d'
                end
            | (d', (_, Err e)) => (d', Err e)
            | (d', (_, Panic)) => (d', Panic)
            | (d', (_, OutOfFuel)) => (d', OutOfFuel)
            end
      end
  end.

(** src/ntfs.rs 138-143 [root_directory]. *)
Definition ntfs_root_directory (nt : ntfs) : M file := ntfs_file nt 5.

(** src/file.rs 393-402 [find_resident_attribute_structured_value], up to the parsing function. *)
Definition find_resident_structured (f : file) (ty : Z) (match_name : option (list Z)) : res resv :=
  let? a := find_resident_attribute f ty match_name None in attr_resident_structured a ty.
