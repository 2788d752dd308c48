(** * Cluster numbers and the [Ntfs] object: src/types.rs, src/ntfs.rs 16-33. *)
From Verif Require Import Base Dev.

(** src/ntfs.rs 18-33.  [mft_position] is an [NtfsPosition]. *)
Record ntfs := mkNtfs {
  cluster_size : Z;
  sector_size : Z;
  ntfs_size : Z;
  mft_position : position;
  file_record_size : Z;
  serial_number : Z;
  upcase_table : option (list Z)
}.

(** src/types.rs 164-172 [Lcn::checked_add]: [vcn.wrapping_neg() as u64] of a negative i64 is its absolute value. *)
Definition lcn_checked_add (lcn vcn : Z) : option Z :=
  if 0 <=? vcn then checked_add64 lcn vcn
  else checked_sub64 lcn ((- vcn) mod TWO64).

(** src/types.rs 175-181 [Lcn::position]. *)
Definition lcn_position (cs : Z) (lcn : Z) : res position :=
  match checked_mul64 lcn cs with
  | Some v => Ok (pos_new v)
  | None => Err (ELcnTooBig lcn)
  end.

(** src/types.rs 214-218 [Vcn::offset] (i64 checked_mul). *)
Definition vcn_offset (cs : Z) (vcn : Z) : res Z :=
  let v := vcn * cs in
  if (I64_MIN <=? v) && (v <=? I64_MAX) then Ok v else Err (EVcnTooBig vcn).
