(** * Specification of structured values: where the documented fields are.

    The record types of the model are used only as tuples of the results of the accessors. *)
From Verif Require Import Base Dev Guid Structured Spec.

(** $STANDARD_INFORMATION: at least 48 bytes; the NTFS 3.x fields exist if there are at least 72. *)
Record decodes_std_info (bs : list Z) (v : std_info) : Prop := {
  dsi_size : 48 <= zlen bs;
  dsi_creation : si_creation_time v = field 8 bs 0;
  dsi_modification : si_modification_time v = field 8 bs 8;
  dsi_mft : si_mft_record_modification_time v = field 8 bs 16;
  dsi_access : si_access_time v = field 8 bs 24;
  dsi_attributes : forall i, 0 <= i -> Z.testbit (si_file_attributes v) i = true <->
     Z.testbit (field 4 bs 32) i = true /\ In i [0; 1; 2; 5; 6; 7; 8; 9; 10; 11; 12; 13; 14; 28];
  dsi_old : zlen bs < 72 -> si_ntfs3 v = None;
  dsi_new : 72 <= zlen bs -> exists x, si_ntfs3 v = Some x /\
    si3_maximum_versions x = field 4 bs 36 /\ si3_version x = field 4 bs 40 /\ si3_class_id x = field 4 bs 44 /\
    si3_owner_id x = field 4 bs 48 /\ si3_security_id x = field 4 bs 52 /\ si3_quota_charged x = field 8 bs 56 /\ si3_usn x = field 8 bs 64
}.

(** $FILE_NAME: a header of 66 bytes and at least one character; the name must lie in the value, the namespace is 0 to 3. *)
Record decodes_file_name (bs : list Z) (v : file_name) : Prop := {
  dfn_size : 68 <= zlen bs;
  dfn_name_size : 66 + 2 * field 1 bs 64 <= zlen bs;
  dfn_namespace_ok : field 1 bs 65 <= 3;
  dfn_parent : fn_parent v = slice bs 0 8;
  dfn_creation : fn_creation_time v = field 8 bs 8;
  dfn_modification : fn_modification_time v = field 8 bs 16;
  dfn_mft : fn_mft_record_modification_time v = field 8 bs 24;
  dfn_access : fn_access_time v = field 8 bs 32;
  dfn_allocated : fn_allocated_size v = field 8 bs 40;
  dfn_data : fn_data_size v = field 8 bs 48;
  dfn_attributes : forall i, 0 <= i -> Z.testbit (fn_file_attributes v) i = true <->
     Z.testbit (field 4 bs 56) i = true /\ In i [0; 1; 2; 5; 6; 7; 8; 9; 10; 11; 12; 13; 14; 28];
  dfn_directory : fn_is_directory v = Z.testbit (field 4 bs 56) 28;
  dfn_namespace : fn_namespace v = Ok (field 1 bs 65);
  dfn_name_length : fn_name_length v = 2 * field 1 bs 64;
  dfn_name : fn_name v = slice bs 66 (66 + 2 * field 1 bs 64)
}.

(** $VOLUME_INFORMATION: at least 12 bytes. *)
Record decodes_vol_info (bs : list Z) (v : vol_info) : Prop := {
  dvi_size : 12 <= zlen bs;
  dvi_major : vi_major_version v = field 1 bs 8;
  dvi_minor : vi_minor_version v = field 1 bs 9;
  dvi_flags : forall i, 0 <= i -> Z.testbit (vi_flags v) i = true <->
     Z.testbit (field 2 bs 10) i = true /\ In i [0; 1; 2; 3; 4; 5; 14; 15]
}.

(** $VOLUME_NAME: the whole value, at most 256 bytes. *)
Definition decodes_vol_name (bs name : list Z) : Prop := zlen bs <= 256 /\ name = bs.

(** $OBJECT_ID: a GUID, followed by up to three more if they fit. *)
Definition guid_at (bs : list Z) (off : Z) (g : guid) : Prop :=
  g1 g = field 4 bs off /\ g2 g = field 2 bs (off + 4) /\ g3 g = field 2 bs (off + 6) /\ g4 g = slice bs (off + 8) (off + 16).
Definition guid_if_fits (bs : list Z) (off : Z) (g : option guid) : Prop :=
  match g with Some x => off + 16 <= zlen bs /\ guid_at bs off x | None => zlen bs < off + 16 end.
Record decodes_object_id (bs : list Z) (v : object_id) : Prop := {
  doi_size : 16 <= zlen bs;
  doi_id : guid_at bs 0 (oi_object_id v);
  doi_birth_volume : guid_if_fits bs 16 (oi_birth_volume_id v);
  doi_birth_object : guid_if_fits bs 32 (oi_birth_object_id v);
  doi_domain : guid_if_fits bs 48 (oi_domain_id v)
}.

(** A parser that returns exactly what the bytes encode, and an error if they encode nothing. *)
Definition decodes_exactly {A} (decodes : list Z -> A -> Prop) (bs : list Z) (r : res A) : Prop :=
  match r with
  | Ok v => decodes bs v
  | Err _ => forall v, ~ decodes bs v
  | _ => False
  end.

(** The content of the attribute at [o] of a record: its resident value, or what its extents hold on the device. *)
Inductive attr_content (cs : Z) (img data : list Z) (o : Z) : list Z -> Prop :=
| ac_resident bs : attr_resident_at data o -> o + 22 <= zlen data -> attr_value_at data o bs -> attr_content cs img data o bs
| ac_nonresident l : ~ attr_resident_at data o -> o + 56 <= zlen data -> field 2 data (o + 32) <= attr_len_at data o ->
    valid_extents cs img l -> encodes 0 l (slice data (o + field 2 data (o + 32)) (o + attr_len_at data o)) ->
    field 8 data (o + 48) <= extents_size cs l -> attr_content cs img data o (file_content cs img l (field 8 data (o + 48))).

(** ** $FILE_NAME attributes: the resident attribute at [off] holds the name [v] with the wanted namespace and parent (if given), or is
    passed over, or is malformed. *)
Definition wanted {A} (w : option A) (x : A) : Prop := forall y, w = Some y -> x = y.
Definition is_name (data : list Z) (ns parent : option Z) (off : Z) (v : file_name) : Prop :=
  attr_type_at data off = 48 /\ exists bs, attr_value_at data off bs /\ decodes_file_name bs v /\
    wanted ns (field 1 bs 65) /\ wanted parent (field 6 bs 0).
Definition not_name (data : list Z) (ns parent : option Z) (off : Z) : Prop :=
  type_known (attr_type_at data off) /\
  (attr_type_at data off <> 48 \/
   exists bs v, attr_value_at data off bs /\ decodes_file_name bs v /\ ~ (wanted ns (field 1 bs 65) /\ wanted parent (field 6 bs 0))).
Definition malformed_name (data : list Z) (off : Z) : Prop :=
  ~ type_known (attr_type_at data off) \/
  attr_type_at data off = 48 /\ forall bs v, ~ (attr_value_at data off bs /\ decodes_file_name bs v).
