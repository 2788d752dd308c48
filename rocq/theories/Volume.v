(** * Information about files and the volume: src/file.rs, src/ntfs.rs. *)
From Verif Require Import Base Dev Types Record DataRuns Stream NonResident Resident Attribute File Guid Structured.

(** src/attribute.rs 339-353 [resident_structured_value]. *)
Definition resident_structured {A} (new : (Z -> RM resv (list Z)) -> position -> Z -> RM resv A) (ty : Z) (a : attribute) : res A :=
  let? v := attr_resident_structured a ty in from_resident new v.

(** src/file.rs 393-402 [find_resident_attribute_structured_value]. *)
Definition find_structured {A} (new : (Z -> RM resv (list Z)) -> position -> Z -> RM resv A) (ty : Z) (f : file) (match_name : option (list Z)) : res A :=
  let? v := find_resident_structured f ty match_name in from_resident new v.

(** src/file.rs 426-428 [info]. *)
Definition file_info (f : file) : res std_info := find_structured si_new TY_StandardInformation f None.

(** src/ntfs.rs 173-179 [volume_info]; the $Volume file has number 3. *)
Definition volume_info (nt : ntfs) : M vol_info :=
  do f <- ntfs_file nt 3;
  mlift (find_structured vi_new TY_VolumeInformation f None).

(** src/ntfs.rs 186-197 [volume_name]. *)
Definition volume_name (nt : ntfs) (d : dev) : dev * item (list Z) :=
  match ntfs_file nt 3 d with
  | (d', Ok f) =>
      (d', match find_structured vn_new TY_VolumeName f None with
           | Ok n => Some (Ok n)
           | Err (EAttributeNotFound _ _) => None
           | x => Some x
           end)
  | (d', Err e) => (d', Some (Err e))
  | (d', Panic) => (d', Some Panic)
  | (d', OutOfFuel) => (d', Some OutOfFuel)
  end.
