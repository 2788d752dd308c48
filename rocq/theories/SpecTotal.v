(** * Specification vocabulary for termination on any content (C55). *)
From Verif Require Import Base Dev Types BootSector Attribute File Structured AttrList Index Shell Spec.

(** The loops of the model are bounded by a fuel [k]; one that has used it up returns [OutOfFuel]. That a loop of the code ends means:
    from some fuel on the outcome [F k] is always the same one, and it meets [P] (in particular, it is not [OutOfFuel]). *)
Definition settles {A} (F : nat -> A) (P : A -> Prop) : Prop := exists N x, P x /\ forall k, (N <= k)%nat -> F k = x.

(** An [Ntfs] object: opened from any device (with any schedule of faults), with or without an upper case table. *)
Definition with_table (nt : ntfs) (t : option (list Z)) : ntfs :=
  mkNtfs (cluster_size nt) (sector_size nt) (ntfs_size nt) (mft_position nt) (file_record_size nt) (serial_number nt) t.
Definition opened (nt : ntfs) : Prop := exists d d' nt0 t, bytes_ok (d_img d) /\ ntfs_new d = (d', Ok nt0) /\ nt = with_table nt0 t.
(** A file: read by its number, from any device. *)
Definition file_read_from (nt : ntfs) (f : file) : Prop := exists d d' n, bytes_ok (d_img d) /\ 0 <= n /\ ntfs_file nt n d = (d', Ok f).

(** Everything one can do with the value of an attribute ends: getting it, any history of reads and seeks on it, reading it as one of
    the structured values. *)
Definition op_ended (r : opres) : Prop := r <> RBytes OutOfFuel /\ r <> RPos OutOfFuel.
Definition value_ends (nt : ntfs) (a : attribute) : Prop := forall d, bytes_ok (d_img d) ->
  snd (attr_value nt a d) <> OutOfFuel /\
  (forall d1 v, attr_value nt a d = (d1, Ok v) -> forall ops d2, bytes_ok (d_img d2) -> Forall op_ok ops ->
     settles (fun k => reader_run (av_read k) (av_seek k) v d2 ops) (Forall op_ended)) /\
  settles (fun k => attr_structured k nt fn_new TY_FileName a d) (fun y => snd y <> OutOfFuel) /\
  settles (fun k => attr_structured k nt si_new TY_StandardInformation a d) (fun y => snd y <> OutOfFuel) /\
  settles (fun k => attr_structured k nt vi_new TY_VolumeInformation a d) (fun y => snd y <> OutOfFuel) /\
  settles (fun k => attr_structured k nt vn_new TY_VolumeName a d) (fun y => snd y <> OutOfFuel) /\
  settles (fun k => attr_structured k nt oi_new TY_ObjectId a d) (fun y => snd y <> OutOfFuel).
Definition item_ends (nt : ntfs) (i : attr_item) : Prop :=
  item_to_attribute i <> OutOfFuel /\ forall a, item_to_attribute i = Ok a -> value_ends nt a.

(** Commands of the example program that do not look up a name in a directory. *)
Definition direct (c : command) : Prop :=
  match c with
  | DoCd arg => arg = [] \/ arg = [46; 46]
  | DoDir => False
  | DoGet arg | DoAttr _ arg | DoFileinfo arg => arg = [] \/ exists t, arg = 47 :: t
  | DoFsinfo | DoHelp _ | DoNothing | DoUnknown _ => True
  end.
