(** * Specification of what the example program prints about files and volumes, independent of the model of the code.

    The lines of the model are used only as tuples of what is printed. A record is given by its number [n], its place [p] on the device
    and its bytes [data]. *)
From Verif Require Import Base Dev Types Structured Spec SpecMisc SpecValues SpecAttrList.
From Verif Require Shell.
Import Shell.

(** ** Attributes *)
(** The attribute at [o] is whole: its name, value and extents are where the header says, inside the attribute. *)
Record attr_whole (cs : Z) (data : list Z) (o : Z) : Prop := {
  aw_type : type_known (attr_type_at data o);
  aw_name : exists bs, attr_name_at data o bs;
  aw_resident : attr_resident_at data o -> o + 22 <= zlen data /\ exists bs, attr_value_at data o bs;
  aw_extents : ~ attr_resident_at data o -> o + 56 <= zlen data /\ field 2 data (o + 32) <= attr_len_at data o /\
    exists l, encodes 0 l (slice data (o + field 2 data (o + 32)) (o + attr_len_at data o)) /\ lcns_distinct 0 l /\ Forall (extent_fits cs) l
}.

(** The line for the attribute at [o]: instance, type, whether it is resident, number of the record, where it starts on the device, the length of
    its value, its name. *)
Definition attribute_line (inner : bool) (n p : Z) (data : list Z) (o : Z) (x : line) : Prop :=
  exists bs name, attr_name_at data o bs /\ utf16 bs name /\
    x = LAttribute inner (attr_instance_at data o) (attr_type_at data o) (field 1 data (o + 8) =? 0) n (Some (p + o))
          (if field 1 data (o + 8) =? 0 then field 4 data (o + 16) else field 8 data (o + 48)) name.
(** The lines for extents: their index, where they start on the device (nowhere, if they are holes) and their size. *)
Fixpoint extent_lines (cs : Z) (inner : bool) (i : Z) (l : list extent) : list line :=
  match l with
  | [] => []
  | e :: t => LRun inner i (match e_lcn e with Some lcn => Some (lcn * cs) | None => None end) (e_count e * cs) :: extent_lines cs inner (i + 1) t
  end.
(** All lines for an attribute: with [runs] also its extents. *)
Inductive attribute_lines (cs : Z) (runs inner : bool) (n p : Z) (data : list Z) (o : Z) : list line -> Prop :=
| al_plain x : attribute_line inner n p data o x -> runs = false \/ attr_resident_at data o -> attribute_lines cs runs inner n p data o [x]
| al_extents x l : attribute_line inner n p data o x -> runs = true -> ~ attr_resident_at data o ->
    encodes 0 l (slice data (o + field 2 data (o + 32)) (o + attr_len_at data o)) ->
    attribute_lines cs runs inner n p data o (x :: extent_lines cs inner 0 l).
(** The lines for the attributes at [offs], one after the other. *)
Definition record_lines (cs : Z) (runs : bool) (n p : Z) (data offs : list Z) (ls : list line) : Prop :=
  exists parts, Forall2 (attribute_lines cs runs false n p data) offs parts /\ ls = concat parts.

(** The lines for the entries at [offs] of an attribute list with content [bs]: for every entry that refers to another record the attribute it stands
    for. *)
Inductive entry_lines (img : list Z) (nt : ntfs) (ml : list extent) (bs : list Z) (self : Z) (runs : bool) : list Z -> list line -> Prop :=
| el_end : entry_lines img nt ml bs self runs [] []
| el_own o offs ls : entry_number bs o = self -> entry_lines img nt ml bs self runs offs ls -> entry_lines img nt ml bs self runs (o :: offs) ls
| el_other o offs p data a xs ls : entry_number bs o <> self -> record_stored img nt ml (entry_number bs o) p data ->
    locates data (entry_type bs o) (entry_instance bs o) a -> attr_whole (cluster_size nt) data a ->
    attribute_lines (cluster_size nt) runs true (entry_number bs o) p data a xs ->
    entry_lines img nt ml bs self runs offs ls -> entry_lines img nt ml bs self runs (o :: offs) (xs ++ ls).

(** Every entry refers to the record [self] itself, or to an attribute of another record that is whole. *)
Definition entry_whole (img : list Z) (nt : ntfs) (ml : list extent) (bs : list Z) (self o : Z) : Prop :=
  entry_number bs o = self \/
  exists p data a, record_stored img nt ml (entry_number bs o) p data /\ locates data (entry_type bs o) (entry_instance bs o) a /\ attr_whole (cluster_size nt) data a.
(** The lines for a file whose record has the attributes [before], an attribute list at [lo] with the entries [ents], and [after]. *)
Definition listed_lines (img : list Z) (nt : ntfs) (ml : list extent) (runs : bool) (n p : Z) (data before : list Z) (lo : Z) (after bs ents : list Z) (ls : list line) : Prop :=
  exists l1 l2 l3 l4, record_lines (cluster_size nt) runs n p data before l1 /\ attribute_lines (cluster_size nt) runs false n p data lo l2 /\
    entry_lines img nt ml bs n runs ents l3 /\ record_lines (cluster_size nt) runs n p data after l4 /\ ls = l1 ++ l2 ++ l3 ++ l4.

(** ** Files *)
(** The line for a file record: allocated size, place, used size, hard links, whether it is a directory, number, sequence number. *)
Definition file_line (n p : Z) (data : list Z) : line :=
  LRecord (field 4 data 28) (Some p) (field 4 data 24) (field 2 data 18) (Z.testbit (field 2 data 22) 1) n (field 2 data 16).
(** What is printed for the attribute at [o] of a file. *)
Inductive info_line (data : list Z) (o : Z) : list line -> Prop :=
| il_standard bs v : attr_type_at data o = 16 -> attr_resident_at data o -> o + 22 <= zlen data -> attr_value_at data o bs -> decodes_std_info bs v ->
    info_line data o [LStandard (si_file_attributes v) (instant_of (field 8 bs 24)) (instant_of (field 8 bs 0)) (instant_of (field 8 bs 8))
                                (instant_of (field 8 bs 16)) (si_ntfs3 v)]
| il_name bs name : attr_type_at data o = 48 -> attr_resident_at data o -> o + 22 <= zlen data -> attr_value_at data o bs -> 68 <= zlen bs ->
    66 + 2 * field 1 bs 64 <= zlen bs -> field 1 bs 65 <= 3 -> utf16 (slice bs 66 (66 + 2 * field 1 bs 64)) name ->
    info_line data o [LName name (field 1 bs 65) (field 6 bs 0)]
| il_stream bs name : attr_type_at data o = 128 -> attr_name_at data o bs -> utf16 bs name ->
    (if field 1 data (o + 8) =? 0 then o + 20 <= zlen data else o + 56 <= zlen data) ->
    info_line data o [LStream name (if field 1 data (o + 8) =? 0 then field 4 data (o + 16) else field 8 data (o + 48))]
| il_other : attr_type_at data o <> 16 -> attr_type_at data o <> 48 -> attr_type_at data o <> 128 -> info_line data o [].

(** Standard information, names and streams are whole. *)
Record info_whole (data : list Z) (o : Z) : Prop := {
  iw_standard : attr_type_at data o = 16 -> attr_resident_at data o /\ o + 22 <= zlen data /\ exists bs, attr_value_at data o bs /\ 48 <= zlen bs;
  iw_name : attr_type_at data o = 48 -> attr_resident_at data o /\ o + 22 <= zlen data /\
    exists bs, attr_value_at data o bs /\ 68 <= zlen bs /\ 66 + 2 * field 1 bs 64 <= zlen bs /\ field 1 bs 65 <= 3;
  iw_stream : attr_type_at data o = 128 -> (exists bs, attr_name_at data o bs) /\
    (if field 1 data (o + 8) =? 0 then o + 20 <= zlen data else o + 56 <= zlen data)
}.

(** ** Volumes *)
(** The name of the volume: the value of the first $VOLUME_NAME attribute (type 96) of file 3. *)
Inductive label_of (data offs : list Z) : option (list Z) -> Prop :=
| lb_none : Forall (fun o => attr_type_at data o <> 96) offs -> label_of data offs None
| lb_some l1 o l2 bs name : offs = l1 ++ o :: l2 -> Forall (fun o => attr_type_at data o <> 96) l1 -> attr_type_at data o = 96 -> attr_resident_at data o ->
    attr_value_at data o bs -> zlen bs <= 256 -> utf16 bs name -> label_of data offs (Some name).
(** The version: bytes 8 and 9 of the first $VOLUME_INFORMATION attribute (type 112). *)
Definition version_of (data offs : list Z) (major minor : Z) : Prop :=
  exists l1 o l2 bs, offs = l1 ++ o :: l2 /\ Forall (fun o => attr_type_at data o <> 112) l1 /\ attr_type_at data o = 112 /\ attr_resident_at data o /\
    attr_value_at data o bs /\ 12 <= zlen bs /\ major = field 1 bs 8 /\ minor = field 1 bs 9.
(** The record [data] of file 3 tells version and name. *)
Record volume_record (data : list Z) (major minor : Z) (label : option (list Z)) : Prop := {
  vr_attributes : exists offs, attr_walk data (field 2 data 20) offs true /\ Forall (fun o => o + 22 <= zlen data) offs /\
    Forall (fun o => type_known (attr_type_at data o)) offs /\ version_of data offs major minor /\ label_of data offs label
}.
(** What is printed for a volume. *)
Definition volume_lines (sector cluster size mft record serial major minor : Z) (label : option (list Z)) : list line :=
  [LGeometry cluster record (Some mft); LVersion major minor; LSize sector serial size; LLabel label].
