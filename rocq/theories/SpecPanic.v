(** * Specification vocabulary for the absence of panics on any content (C65). *)
From Verif Require Import Base Dev Types Record DataRuns Stream NonResident Resident BootSector Attribute File Structured AttrList Upcase Index Shell Spec SpecMisc SpecIndex SpecTotal.

(** The four shapes of a volume on which the library is known to panic are these: file records of more than 65535 bytes
    (C04_large_record_refuted), attributes that lie so near to the end of their record that their header is cut off
    (C20_short_attribute_refuted), data runs that reach beyond byte 2^64 (C43_panic_refuted), and malformed index nodes
    (C30_no_panic_refuted). What follows says that a volume has none of them; nothing else is assumed of it. *)

(** The header of the attribute at [o] is inside of the record: 22 bytes of it if it is resident, 56 if it is not. *)
Definition has_room (data : list Z) (o : Z) : Prop := o + 56 <= zlen data \/ attr_resident_at data o /\ o + 22 <= zlen data.
(** No data run that the mapping pairs [runs] yield reaches beyond byte 2^64. *)
Definition runs_in_range (cs : Z) (runs : list Z) : Prop := forall n r q,
  In (Some (Ok r)) (iterate (druns_next cs runs None) n druns_start) -> r_pos r = Some q -> q + r_alloc r <= 2 ^ 64.
(** The entries of an $INDEX_ROOT do not end before they start. *)
Definition root_ordered (data : list Z) (o : Z) : Prop := attr_type_at data o = 144 -> forall root, attr_value_at data o root -> 32 <= zlen root ->
  field 4 root 16 <= field 4 root 20.
(** A file record without these shapes. *)
Definition tame (cs : Z) (data : list Z) : Prop := forall offs clean o,
  attr_walk data (field 2 data 20) offs clean -> In o offs ->
  has_room data o /\
  (~ attr_resident_at data o -> runs_in_range cs (slice data (o + field 2 data (o + 32)) (o + attr_len_at data o))) /\
  root_ordered data o.

(** The file records that the library gets to see: the one where the boot sector says that the MFT begins, and those it returns
    for some number, on a device that stores [img] (and may fail in whatever way). *)
Definition seen (nt : ntfs) (img : list Z) (f : file) : Prop :=
  (exists mp d d', mft_position nt = Some mp /\ d_img d = img /\ file_new nt mp 0 d = (d', Ok f)) \/
  (exists n d d', 0 <= n /\ d_img d = img /\ ntfs_file nt n d = (d', Ok f)).
Definition tame_volume (nt : ntfs) (img : list Z) : Prop :=
  bytes_ok img /\ file_record_size nt <= 65535 /\ forall f, seen nt img f -> tame (cluster_size nt) (f_data f).

(** A file that was read by its number. *)
Definition read_on (nt : ntfs) (img : list Z) (f : file) : Prop := exists n d d', 0 <= n /\ d_img d = img /\ ntfs_file nt n d = (d', Ok f).

(** Everything that one can do with the attribute [a] on a device that stores [img] ends without a panic (or has used up the fuel
    [k], which is any; see SpecTotal.v): its accessors, getting its value, any history of reads and seeks on it, reading it as one of the structured values. *)
Definition op_calm (r : opres) : Prop := r <> RBytes Panic /\ r <> RPos Panic.
Definition value_calm (nt : ntfs) (img : list Z) (a : attribute) : Prop :=
  attr_ty a <> Panic /\ attr_name a <> Panic /\ attr_instance a <> Panic /\ attr_flags a <> Panic /\ attr_is_resident a <> Panic /\ attr_value_length a <> Panic /\
  forall k d, d_img d = img ->
  snd (attr_value nt a d) <> Panic /\
  (forall d1 v, attr_value nt a d = (d1, Ok v) -> forall ops d2, d_img d2 = img -> Forall op_ok ops ->
     Forall op_calm (reader_run (av_read k) (av_seek k) v d2 ops)) /\
  snd (attr_structured k nt fn_new TY_FileName a d) <> Panic /\
  snd (attr_structured k nt si_new TY_StandardInformation a d) <> Panic /\
  snd (attr_structured k nt vi_new TY_VolumeInformation a d) <> Panic /\
  snd (attr_structured k nt vn_new TY_VolumeName a d) <> Panic /\
  snd (attr_structured k nt oi_new TY_ObjectId a d) <> Panic.
Definition item_calm (nt : ntfs) (img : list Z) (i : attr_item) : Prop :=
  item_to_attribute i <> Panic /\ forall a, item_to_attribute i = Ok a -> value_calm nt img a.

(** Everything that one can do with an entry of an attribute list ends without a panic: its type, its file record, and its attribute there. *)
Definition list_entry_calm (nt : ntfs) (img : list Z) (e : list_entry) : Prop := le_ty e <> Panic /\ forall d, d_img d = img ->
  snd (le_to_file nt e d) <> Panic /\
  forall d' f, le_to_file nt e d = (d', Ok f) -> le_to_attribute e f <> Panic /\ forall a, le_to_attribute e f = Ok a -> value_calm nt img a.

(** ** Indexes *)
(** No entry of a node is too short for its flags. *)
Definition tame_node (data : list Z) (first stop : Z) : Prop := forall offs e, node_walk data stop first offs e -> e <> NodeTooShort.
(** The bytes of an index record as stored (they begin with "INDX"): the size fields can be increased by 24 in 32 bits, and its node is tame (after the fixup). *)
Definition tame_record (bs : list Z) : Prop := slice bs 0 4 = [73; 78; 68; 88] ->
  24 + field 4 bs 28 <= 4294967295 /\ 24 + field 4 bs 32 <= 4294967295 /\
  forall p r, irec_of_bytes bs p = Ok r -> tame_node (rec_data r) (24 + field 4 (rec_data r) 24) (24 + field 4 (rec_data r) 28).
(** An opened index: records of a size that an index record can have, a tame root node, and tame records in the index allocation, wherever a VCN leads. *)
Definition tame_index (nt : ntfs) (img : list Z) (ix : index) : Prop :=
  36 <= ix_record_size ix <= 65535 /\
  tame_node (rg_data (ix_root ix)) 0 (zlen (rg_data (ix_root ix))) /\
  forall i a d1 d2 v, ix_alloc ix = Some i -> item_to_attribute i = Ok a -> d_img d1 = img -> attr_value nt a d1 = (d2, Ok v) ->
  forall k vcn d3 d4 w q, d_img d3 = img -> av_seek k v (SCurrent (vcn * cluster_size nt)) d3 = (d4, (w, Ok q)) ->
  forall d5 w' bs, rs_read_exact (av_read k) w (ix_record_size ix) d4 = (d5, (w', Ok bs)) -> tame_record bs.
(** Everything that one can do with an entry ends without a panic. *)
Definition entry_calm (nt : ntfs) (img : list Z) (e : ientry) : Prop :=
  ie_length e <> Panic /\ ie_flags e <> Panic /\ ie_key_length e <> Panic /\ ie_file_reference e <> Panic /\
  ie_key fn_from_slice e <> Some Panic /\ ie_subnode_vcn e <> Some Panic /\
  forall d, d_img d = img -> snd (ie_to_file nt e d) <> Panic.

(** ** Names and sessions of the example program *)
(** A volume object whose upper case table has been read, so that names (UTF-16 code units) can be compared. *)
Definition has_table (nt : ntfs) : Prop := exists t, upcase_table nt = Some t /\ zlen t = 65536.
(** All directories that can be opened are tame, and the entries that they list have a key. *)
Definition tame_directories (nt : ntfs) (img : list Z) : Prop := forall f k d d' ix,
  seen nt img f -> d_img d = img -> directory_index k nt f d = (d', Ok ix) ->
  tame_index nt img ix /\
  forall j n d1 e, d_img d1 = img -> In (Some (Ok e)) (iterate (with_dev (entries_next j nt ix)) n (index_entries ix, d1)) -> ie_key_length e <> Ok 0.
(** No file has a name with a backslash (92). *)
Definition plain_files (nt : ntfs) (img : list Z) : Prop := forall f k ns parent d d' fn,
  seen nt img f -> d_img d = img -> file_name_of k nt f ns parent d = (d', Ok (Some fn)) -> ~ In 92 (units (fn_name fn)).
(** All of this, for whatever volume object one gets from the image. *)
Definition tame_image (img : list Z) : Prop := bytes_ok img /\ forall d d' nt0 t,
  d_img d = img -> ntfs_new d = (d', Ok nt0) -> let nt := with_table nt0 t in tame_volume nt img /\ tame_directories nt img /\ plain_files nt img.
(** The texts of the user are code units. *)
Definition texts_ok (c : command) : Prop :=
  match c with
  | DoCd arg | DoGet arg | DoAttr _ arg | DoFileinfo arg => Forall unit_ok arg
  | _ => True
  end.
