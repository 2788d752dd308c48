(** * Structured values: src/structured_values/*.rs, src/file_reference.rs.

    A structured value is parsed from a reader: [std::io::Cursor] over the bytes of a resident value or index key, or an
    attached attribute value.  Reading a [#[derive(BinRead)]] struct is one [read_exact] of its size. *)
From Verif Require Import Base Dev Types DataRuns Stream NonResident Resident Attribute Guid.

(** No code: computations on a reader state and the device. *)
Definition RM (S A : Type) := S -> dev -> dev * (S * res A).
Definition rm_ret {S A} (a : A) : RM S A := fun s d => (d, (s, Ok a)).
Definition rm_err {S A} (e : err) : RM S A := fun s d => (d, (s, Err e)).
Definition rm_bind {S A B} (m : RM S A) (f : A -> RM S B) : RM S B := fun s d =>
  match m s d with
  | (d', (s', Ok a)) => f a s' d'
  | (d', (s', Err e)) => (d', (s', Err e))
  | (d', (s', Panic)) => (d', (s', Panic))
  | (d', (s', OutOfFuel)) => (d', (s', OutOfFuel))
  end.
Notation "'rdo' x <- m ; k" := (rm_bind m (fun x => k))
  (at level 200, x name, m at level 100, k at level 200, right associativity).

(** src/error.rs 249-257 [From<NtfsError> for io::Error]. *)
Definition flatten_err (e : err) : err := match e with EIo k => EIo k | _ => EIo OtherIo end.

(** The [Read] implementations of the [...Attached] readers (src/attribute_value/mod.rs 146-153,
    src/attribute_value/non_resident.rs 242-249),
    and [read_exact] on them. *)
Definition attached {S} (read : S -> Z -> dev -> dev * (S * res (list Z))) (s : S) (n : Z) (d : dev) : dev * (S * res (list Z)) :=
  match read s n d with
  | (d', (s', Err e)) => (d', (s', Err (flatten_err e)))
  | x => x
  end.
(** src/attribute_value/mod.rs 146-153 with [Read::read_exact] of the standard library. *)
Definition attached_exact {S} (read : S -> Z -> dev -> dev * (S * res (list Z))) (n : Z) : RM S (list Z) :=
  fun s d => rs_read_exact (attached read) s n d.

(** src/structured_values/standard_information.rs 165-171: [std::io::Cursor::read_exact] over a byte slice: like the resident value reader, [UnexpectedEof] when too short. *)
Definition cursor_exact (n : Z) : RM resv (list Z) := fun s d => rs_read_exact res_read s n d.

(** ** src/file_reference.rs: a reference is its 8 bytes. *)
(** src/file_reference.rs 26-28 [file_record_number]. *)
Definition fr_number (r : list Z) : Z := Z.land (le_val r) 281474976710655.
(** src/file_reference.rs 33-35 [sequence_number] (with [as u16]). *)
Definition fr_sequence (r : list Z) : Z := (Z.shiftr (le_val r) 48) mod 65536.

(** ** src/structured_values/standard_information.rs *)
(** src/structured_values/standard_information.rs 32-40 [StandardInformationDataNtfs3]. *)
Record std_info3 := mkSI3 {
  si3_maximum_versions : Z; si3_version : Z; si3_class_id : Z; si3_owner_id : Z; si3_security_id : Z; si3_quota_charged : Z; si3_usn : Z }.
(** src/structured_values/standard_information.rs 23-29, 51-54 [NtfsStandardInformation]. *)
Record std_info := mkSI {
  si_creation_time : Z; si_modification_time : Z; si_mft_record_modification_time : Z; si_access_time : Z; si_attributes : Z;
  si_ntfs3 : option std_info3 }.
(** src/structured_values/mod.rs 33-76: all flags of [NtfsFileAttributeFlags]. *)
Definition FILE_ATTRIBUTE_FLAGS : Z := 268468199.
(** src/structured_values/standard_information.rs 100-102 [file_attributes] ([from_bits_truncate]). *)
Definition si_file_attributes (v : std_info) : Z := Z.land (si_attributes v) FILE_ATTRIBUTE_FLAGS.

(** src/structured_values/standard_information.rs 23-29: the fields in order. *)
Definition si1_of_bytes (b : list Z) (x : option std_info3) : std_info :=
  mkSI (field 8 b 0) (field 8 b 8) (field 8 b 16) (field 8 b 24) (field 4 b 32) x.
(** src/structured_values/standard_information.rs 32-40: the fields in order. *)
Definition si3_of_bytes (b : list Z) : std_info3 :=
  mkSI3 (field 4 b 0) (field 4 b 4) (field 4 b 8) (field 4 b 12) (field 4 b 16) (field 8 b 20) (field 8 b 28).

(** src/structured_values/standard_information.rs 57-81 [new]; [rx] is [read_exact] of the reader. *)
Definition si_new {S} (rx : Z -> RM S (list Z)) (p : position) (value_length : Z) : RM S std_info :=
  if value_length <? 48 then rm_err (EInvalidStructuredValueSize p TY_StandardInformation 48 value_length)
  else
    rdo b1 <- rx 36;
    if 72 <=? value_length then rdo b3 <- rx 36; rm_ret (si1_of_bytes b1 (Some (si3_of_bytes b3)))
    else rm_ret (si1_of_bytes b1 None).

(** ** src/structured_values/volume_information.rs *)
(** src/structured_values/volume_information.rs 22-27 [VolumeInformationData]. *)
Record vol_info := mkVI { vi_major_version : Z; vi_minor_version : Z; vi_raw_flags : Z }.
(** src/structured_values/volume_information.rs 86-88 [flags] ([from_bits_truncate] of 0x0001..0x0020, 0x4000, 0x8000). *)
Definition vi_flags (v : vol_info) : Z := Z.land (vi_raw_flags v) 49215.
(** src/structured_values/volume_information.rs 67-83 [new]. The error names the type StandardInformation. *)
Definition vi_new {S} (rx : Z -> RM S (list Z)) (p : position) (value_length : Z) : RM S vol_info :=
  if value_length <? 12 then rm_err (EInvalidStructuredValueSize p TY_StandardInformation 12 value_length)
  else rdo b <- rx 12; rm_ret (mkVI (field 1 b 8) (field 1 b 9) (field 2 b 10)).

(** ** src/structured_values/volume_name.rs 37-57 [new]: the bytes of the name. *)
Definition vn_new {S} (rx : Z -> RM S (list Z)) (p : position) (value_length : Z) : RM S (list Z) :=
  if 256 <? value_length then rm_err (EInvalidStructuredValueSize p TY_VolumeName 256 value_length)
  else rx value_length.

(** ** src/structured_values/object_id.rs *)
(** src/structured_values/object_id.rs 24-29 [NtfsObjectId]. *)
Record object_id := mkOI { oi_object_id : guid; oi_birth_volume_id : option guid; oi_birth_object_id : option guid; oi_domain_id : option guid }.
(** src/structured_values/object_id.rs 32-68 [new]. *)
Definition oi_new {S} (rx : Z -> RM S (list Z)) (p : position) (value_length : Z) : RM S object_id :=
  if value_length <? 16 then rm_err (EInvalidStructuredValueSize p TY_ObjectId 16 value_length)
  else
    rdo b0 <- rx 16;
    rdo b1 <- (if 32 <=? value_length then rdo b <- rx 16; rm_ret (Some (guid_of_bytes b)) else rm_ret None);
    rdo b2 <- (if 48 <=? value_length then rdo b <- rx 16; rm_ret (Some (guid_of_bytes b)) else rm_ret None);
    rdo b3 <- (if 64 <=? value_length then rdo b <- rx 16; rm_ret (Some (guid_of_bytes b)) else rm_ret None);
    rm_ret (mkOI (guid_of_bytes b0) b1 b2 b3).

(** ** src/structured_values/file_name.rs *)
(** src/structured_values/file_name.rs 33-45, 80-83 [NtfsFileName] with its header. *)
Record file_name := mkFN {
  fn_parent : list Z; fn_creation_time : Z; fn_modification_time : Z; fn_mft_record_modification_time : Z; fn_access_time : Z;
  fn_allocated_size : Z; fn_data_size : Z; fn_attributes : Z; fn_raw_name_length : Z; fn_raw_namespace : Z; fn_name : list Z }.
(** src/structured_values/file_name.rs 179-181 [file_attributes], 184-187 [is_directory]. *)
Definition fn_file_attributes (v : file_name) : Z := Z.land (fn_attributes v) FILE_ATTRIBUTE_FLAGS.
(** src/structured_values/file_name.rs 184-187 [is_directory]. *)
Definition fn_is_directory (v : file_name) : bool := Z.testbit (fn_file_attributes v) 28.
(** src/structured_values/file_name.rs 217-219 [name_length], in bytes. *)
Definition fn_name_length (v : file_name) : Z := fn_raw_name_length v * 2.
(** src/structured_values/file_name.rs 222-224 [namespace]: [unwrap] of [NtfsFileNamespace::n] (0..3). *)
Definition fn_namespace (v : file_name) : res Z := if fn_raw_namespace v <=? 3 then Ok (fn_raw_namespace v) else Panic.

(** src/structured_values/file_name.rs 33-45: the fields in order. *)
Definition fn_of_header (h : list Z) (name : list Z) : file_name :=
  mkFN (slice h 0 8) (field 8 h 8) (field 8 h 16) (field 8 h 24) (field 8 h 32) (field 8 h 40) (field 8 h 48) (field 4 h 56)
       (field 1 h 64) (field 1 h 65) name.

(** src/structured_values/file_name.rs 86-110 [new], 231-242 [read_name], 244-257 [validate_name_length], 259-268 [validate_namespace]. *)
Definition fn_new {S} (rx : Z -> RM S (list Z)) (p : position) (value_length : Z) : RM S file_name :=
  if value_length <? 68 then rm_err (EInvalidStructuredValueSize p TY_FileName 68 value_length)
  else
    rdo h <- rx 66;
    let nl := field 1 h 64 * 2 in
    if value_length <? 66 + nl then rm_err (EInvalidStructuredValueSize p TY_FileName value_length (66 + nl))
    else if 3 <? field 1 h 65 then rm_err (EUnsupportedFileNamespace p (field 1 h 65))
    else rdo name <- rx nl; rm_ret (fn_of_header h name).

(** [from_resident_attribute_value] of each type (e.g. src/structured_values/standard_information.rs 165-171), and
    src/structured_values/file_name.rs 288-293
    [key_from_slice]: a cursor over the bytes.  No device is involved. *)
Definition no_dev : dev := mkDev [] 0 [] [].
(** src/structured_values/file_name.rs 288-293 [key_from_slice]: a cursor over a slice. *)
Definition from_slice {A} (new : (Z -> RM resv (list Z)) -> position -> Z -> RM resv A) (data : list Z) (p : position) : res A :=
  snd (snd (new cursor_exact p (zlen data) (res_new data p) no_dev)).
(** src/structured_values/standard_information.rs 165-171 [from_resident_attribute_value]. *)
Definition from_resident {A} (new : (Z -> RM resv (list Z)) -> position -> Z -> RM resv A) (v : resv) : res A :=
  from_slice new (rv_data v) (res_data_position v).
(** src/structured_values/file_name.rs 288-293 [key_from_slice]. *)
Definition fn_from_slice (data : list Z) (p : position) : res file_name := from_slice (@fn_new resv) data p.
