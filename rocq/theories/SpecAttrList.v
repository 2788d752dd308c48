(** * Specification of $ATTRIBUTE_LIST contents, independent of the iterator.

    An attribute list is a sequence of entries. At offset [o] of an entry: type (4 bytes), entry length (2), name length in
    UTF-16 code units (1), name offset (1), lowest VCN (8, signed), reference of the file record (8: number in the low 6 bytes,
    sequence number in the high 2), instance (2), and at offset 26 the name.  The next entry starts [entry length] bytes later. *)
From Verif Require Import Base Dev Types Record DataRuns Attribute File Structured AttrList Spec SpecIndex SpecValues.

(** Length of the entry at [o], and of its name in bytes. *)
Definition lentry_len (bs : list Z) (o : Z) : Z := field 2 bs (o + 4).
Definition lentry_name_bytes (bs : list Z) (o : Z) : Z := 2 * field 1 bs (o + 6).

(** Header and name lie in the content, and in the entry itself. *)
Definition list_entry_fits (bs : list Z) (o : Z) : Prop :=
  o + 26 + lentry_name_bytes bs o <= zlen bs /\ 26 + lentry_name_bytes bs o <= lentry_len bs o.

(** [e] is what the bytes at [o] say. *)
Record decodes_list_entry (bs : list Z) (o : Z) (e : list_entry) : Prop := {
  dle_type : le_raw_ty e = field 4 bs o;
  dle_length : le_length e = lentry_len bs o;
  dle_name_length : le_raw_name_length e = field 1 bs (o + 6);
  dle_lowest_vcn : - 2 ^ 63 <= le_lowest_vcn e < 2 ^ 63 /\ le_lowest_vcn e mod 2 ^ 64 = field 8 bs (o + 8);
  dle_ref : le_ref e = slice bs (o + 16) (o + 24);
  dle_number : le_number e = field 6 bs (o + 16);
  dle_sequence : fr_sequence (le_ref e) = field 2 bs (o + 22);
  dle_instance : le_instance e = field 2 bs (o + 24);
  dle_name : le_name e = slice bs (o + 26) (o + 26 + lentry_name_bytes bs o) }.

(** How a list ends: exactly, or with an entry whose length points behind the end (at offset [o]), or with bytes that are no entry. *)
Inductive list_end := ListDone | ListCut (o : Z) | ListMalformed.

(** [list_walk bs o offs e]: from offset [o] on, complete entries start at [offs], then the list ends in the way [e]. *)
Inductive list_walk (bs : list Z) : Z -> list Z -> list_end -> Prop :=
| lw_done o : o = zlen bs -> list_walk bs o [] ListDone
| lw_malformed o : o < zlen bs -> ~ list_entry_fits bs o -> list_walk bs o [] ListMalformed
| lw_cut o : o < zlen bs -> list_entry_fits bs o -> zlen bs < o + lentry_len bs o -> list_walk bs o [] (ListCut o)
| lw_entry o offs e : o < zlen bs -> list_entry_fits bs o -> o + lentry_len bs o <= zlen bs ->
    list_walk bs (o + lentry_len bs o) offs e -> list_walk bs o (o :: offs) e.

(** What an iterator returns from then on, again and again. *)
Definition after_list {A} (e : list_end) (x : err) : item A := match e with ListDone | ListCut _ => None | ListMalformed => Some (Err x) end.
(** The complete entries and the cut one. *)
Definition with_cut (offs : list Z) (e : list_end) : list Z := match e with ListCut o => offs ++ [o] | _ => offs end.

(** ** Values whose extents are spread over several attributes *)
(** File record [n] of a volume whose MFT has the extents [ml] is stored at position [p] and holds the bytes [data]. *)
Record record_stored (img : list Z) (nt : ntfs) (ml : list extent) (n p : Z) (data : list Z) : Prop := {
  rs_number : n * file_record_size nt <= U64_MAX;
  rs_position : disk_position (cluster_size nt) ml (n * file_record_size nt) = Some p;
  rs_inside : p + file_record_size nt <= zlen img;
  rs_clear : let prot := slice img p (p + file_record_size nt) in array_clear (field 2 prot 4) (field 2 prot 6 - 1);
  rs_stored : stored_as data (slice img p (p + file_record_size nt)) /\ file_record_ok data }.

(** The first attribute of type [ty] and instance [inst] in the record [data] is non-resident and has the extents [l]. *)
Definition holds_extents (data : list Z) (ty inst : Z) (l : list extent) : Prop :=
  exists before o after b, attr_walk data (field 2 data 20) (before ++ o :: after) b /\
    Forall (is_other data ty None (Some inst)) before /\
    attr_type_at data o = ty /\ attr_instance_at data o = inst /\ ~ attr_resident_at data o /\ o + 34 <= zlen data /\
    field 2 data (o + 32) <= attr_len_at data o /\
    encodes 0 l (slice data (o + field 2 data (o + 32)) (o + attr_len_at data o)).

(** [connected … e offs parts]: of the list entries at [offs] (behind them the list ends in the way [e]) the leading ones
    with type [ty] and instance [inst] refer to stored attributes with the nonempty extents [parts]; then another entry follows, or the list ends. *)
Inductive connected (img : list Z) (nt : ntfs) (ml : list extent) (bs : list Z) (ty inst : Z) (e : list_end) : list Z -> list (list extent) -> Prop :=
| con_end : e <> ListMalformed -> connected img nt ml bs ty inst e [] []
| con_other o offs : field 2 bs (o + 24) <> inst \/ (type_known (field 4 bs o) /\ field 4 bs o <> ty) ->
    connected img nt ml bs ty inst e (o :: offs) []
| con_part o offs p data l parts : field 2 bs (o + 24) = inst -> field 4 bs o = ty ->
    record_stored img nt ml (field 6 bs (o + 16)) p data -> holds_extents data ty inst l ->
    l <> [] -> valid_extents (cluster_size nt) img l ->
    connected img nt ml bs ty inst e offs parts -> connected img nt ml bs ty inst e (o :: offs) (l :: parts).

(** The value of [a] is the byte sequence stored in the extents [l] of [img], cut at [size]: on every device that holds [img] and only
    reads short, the value opens at position 0 with length [size], any reads and seeks behave as on a cursor over these bytes, and
    after a seek that moved (from inside the value, or backwards) the data position is where the extents put that byte.
    [fuel] bounds the loop iterations of one call. *)
Definition value_reads_as (nt : ntfs) (a : attribute) (img : list Z) (l : list extent) (size : Z) : Prop :=
  forall d, faultless d -> d_img d = img -> exists d1 v, attr_value nt a d = (d1, Ok v) /\ av_len v = size /\ av_stream_position v = 0 /\
    (length (d_reads d1) <= length (d_reads d))%nat /\
    forall fuel, (length (d_reads d1) + 2 * length l + 2 <= fuel)%nat ->
      (forall ops, Forall op_ok ops -> reader_run (av_read fuel) (av_seek fuel) v d1 ops = cursor_run (file_content (cluster_size nt) img l size) size 0 ops) /\
      (forall ops d2 v2 sf d3 v3 q, Forall op_ok ops -> reader_exec (av_read fuel) (av_seek fuel) v d1 ops = (d2, v2) -> seek_arg_ok sf ->
         av_seek fuel v2 sf d2 = (d3, (v3, Ok q)) -> q <> av_stream_position v2 -> av_stream_position v2 < size \/ q < av_stream_position v2 ->
         av_data_position v3 = disk_position (cluster_size nt) l q).

(** ** Flattened iteration over the attributes of a file with an attribute list *)
(** The first attribute of type [ty] and instance [inst] of the record [data] is at offset [a]. *)
Definition locates (data : list Z) (ty inst a : Z) : Prop :=
  exists before after b, attr_walk data (field 2 data 20) (before ++ a :: after) b /\
    Forall (is_other data ty None (Some inst)) before /\ attr_type_at data a = ty /\ attr_instance_at data a = inst.

(** What the iteration shows: an attribute of the file record itself; a resident attribute at [a] of record [n], which is stored at [p]
    and holds [data]; a non-resident one, which may be continued by further entries of the list ([from]: this entry and the ones behind
    it); or an error in place of an entry that cannot be followed. *)
Inductive view :=
| VBase (o : Z)
| VOther (n p : Z) (data : list Z) (a : Z)
| VParts (n p : Z) (data : list Z) (a : Z) (from : list Z)
| VBroken.

Section Listed.
  Context (img : list Z) (nt : ntfs) (ml : list extent) (bs : list Z) (self : Z).
  Definition entry_type (o : Z) : Z := field 4 bs o.
  Definition entry_number (o : Z) : Z := field 6 bs (o + 16).
  Definition entry_instance (o : Z) : Z := field 2 bs (o + 24).
  (** [cur]: type and instance of the non-resident attribute shown last. An entry that agrees with it is taken for its continuation. *)
  Definition continues (cur : option (Z * Z)) (o : Z) : Prop := cur = Some (entry_type o, entry_instance o).
  (** The entry of another record that is to be shown now. *)
  Definition shown (cur : option (Z * Z)) (o : Z) : Prop := type_known (entry_type o) /\ entry_number o <> self /\ ~ continues cur o.
  (** [listed cur offs vs]: the list entries at [offs] of the record [self] are shown as [vs]. *)
  Inductive listed : option (Z * Z) -> list Z -> list view -> Prop :=
  | ls_end cur : listed cur [] []
  | ls_own cur o offs vs : type_known (entry_type o) -> entry_number o = self -> listed cur offs vs -> listed cur (o :: offs) vs
  | ls_part cur o offs vs : type_known (entry_type o) -> entry_number o <> self -> continues cur o -> listed cur offs vs -> listed cur (o :: offs) vs
  | ls_resident cur o offs vs p data a : shown cur o -> record_stored img nt ml (entry_number o) p data ->
      locates data (entry_type o) (entry_instance o) a -> attr_resident_at data a ->
      listed None offs vs -> listed cur (o :: offs) (VOther (entry_number o) p data a :: vs)
  | ls_nonresident cur o offs vs p data a : shown cur o -> record_stored img nt ml (entry_number o) p data ->
      locates data (entry_type o) (entry_instance o) a -> ~ attr_resident_at data a ->
      listed (Some (entry_type o, entry_instance o)) offs vs ->
      listed cur (o :: offs) (VParts (entry_number o) p data a (o :: offs) :: vs)
  | ls_unknown cur o offs vs : ~ type_known (entry_type o) -> listed cur offs vs -> listed cur (o :: offs) (VBroken :: vs)
  | ls_absent cur o offs vs : shown cur o -> U64_MAX < entry_number o * file_record_size nt \/
      disk_position (cluster_size nt) ml (entry_number o * file_record_size nt) = None ->
      listed None offs vs -> listed cur (o :: offs) (VBroken :: vs)
  | ls_missing cur o offs vs p data : shown cur o -> record_stored img nt ml (entry_number o) p data ->
      (forall a, ~ locates data (entry_type o) (entry_instance o) a) ->
      listed None offs vs -> listed cur (o :: offs) (VBroken :: vs).
End Listed.

(** The item [x] of the file [f] is the view [v]: it names the record and the offset. A non-resident attribute of a list has the value made
    of the extents of all its parts ([connected]), with the size in the header of the first. *)
Definition item_shows (img : list Z) (nt : ntfs) (ml : list extent) (bs : list Z) (e : list_end) (f : file) (v : view) (x : item attr_item) : Prop :=
  match v with
  | VBase o => x = Some (Ok (mkItem f None o None))
  | VOther n p data a => x = Some (Ok (mkItem f (Some (mkFile (mkRecord data (Some p)) n)) a None))
  | VParts n p data a from =>
      exists l, x = Some (Ok (mkItem f (Some (mkFile (mkRecord data (Some p)) n)) a (Some l))) /\
      forall parts, connected img nt ml bs (attr_type_at data a) (attr_instance_at data a) e from parts -> a + 56 <= zlen data ->
        value_reads_as nt (mkAttr (mkFile (mkRecord data (Some p)) n) a (Some l)) img (concat parts) (field 8 data (a + 48))
  | VBroken => exists err, x = Some (Err err)
  end.

(** The entries that the iterator over the list in the attribute at [o] returns (C36). *)
Definition entries_of (data : list Z) (o : Z) (offs : list Z) (e : list_end) : list Z :=
  if field 1 data (o + 8) =? 0 then offs else with_cut offs e.

(** A file with an attribute list, on a volume whose MFT has the extents [ml]: its record has the attributes [before], the list at [lo], and
    [after] (and then ends, or goes on with a malformed attribute: [clean]). The content of the list is [bs], its entries start at [offs], and it
    ends in the way [e], which is not [ListMalformed]. The attributes in other records are shown as [vs]. *)
Record file_with_list (img : list Z) (nt : ntfs) (ml : list extent) (f : file) (before : list Z) (lo : Z) (after : list Z) (clean : bool)
  (bs : list Z) (offs : list Z) (e : list_end) (vs : list view) : Prop := {
  ff_img : bytes_ok img;
  ff_mft : exists mp mdata, mft_position nt = Some mp /\ mft_at img mp (file_record_size nt) mdata ml;
  ff_size : 32 <= file_record_size nt <= U16_MAX;
  ff_valid : valid_extents (cluster_size nt) img ml;
  ff_data : bytes_ok (f_data f) /\ 22 <= zlen (f_data f);
  ff_position : position_sane (f_position f) (zlen (f_data f));
  ff_walk : attr_walk (f_data f) (field 2 (f_data f) 20) (before ++ lo :: after) clean;
  ff_before : no_attribute_list (f_data f) before;
  ff_after : no_attribute_list (f_data f) after;
  ff_type : attr_type_at (f_data f) lo = 32;
  ff_content : attr_content (cluster_size nt) img (f_data f) lo bs;
  ff_len : zlen bs + U16_MAX <= U64_MAX;
  ff_list : list_walk bs 0 offs e;
  ff_end : e <> ListMalformed;
  ff_listed : listed img nt ml bs (f_number f) None (entries_of (f_data f) lo offs e) vs
}.

(** The same with a list that ends in bytes which are no entry: nothing is said about what follows the list in the record. *)
Record file_with_bad_list (img : list Z) (nt : ntfs) (ml : list extent) (f : file) (before : list Z) (lo : Z) (after : list Z) (clean : bool)
  (bs : list Z) (offs : list Z) (vs : list view) : Prop := {
  bl_img : bytes_ok img;
  bl_mft : exists mp mdata, mft_position nt = Some mp /\ mft_at img mp (file_record_size nt) mdata ml;
  bl_size : 32 <= file_record_size nt <= U16_MAX;
  bl_valid : valid_extents (cluster_size nt) img ml;
  bl_data : bytes_ok (f_data f) /\ 22 <= zlen (f_data f);
  bl_position : position_sane (f_position f) (zlen (f_data f));
  bl_walk : attr_walk (f_data f) (field 2 (f_data f) 20) (before ++ lo :: after) clean;
  bl_before : no_attribute_list (f_data f) before;
  bl_type : attr_type_at (f_data f) lo = 32;
  bl_content : attr_content (cluster_size nt) img (f_data f) lo bs;
  bl_len : zlen bs + U16_MAX <= U64_MAX;
  bl_list : list_walk bs 0 offs ListMalformed;
  bl_listed : listed img nt ml bs (f_number f) None offs vs
}.

(** ** Lookup in the flattened view *)
(** The record and the offset of the attribute. *)
Definition view_at (base : list Z) (v : view) : option (list Z * Z) :=
  match v with VBase o => Some (base, o) | VOther _ _ data a => Some (data, a) | VParts _ _ data a _ => Some (data, a) | VBroken => None end.
Definition at_view (base : list Z) (P : list Z -> Z -> Prop) (v : view) : Prop :=
  match view_at base v with Some (data, o) => P data o | None => False end.
(** A search gives the first attribute that is a hit, all before it being passed over; nothing, if all are passed over; or an error at
    the first one that it can neither take nor pass over, or behind the last one if the record goes on with a malformed attribute. *)
Definition search_result {A} (base : list Z) (views : list view) (clean : bool) (hit : view -> A -> Prop) (pass fail : list Z -> Z -> Prop) (r : res (option A)) : Prop :=
  match r with
  | Ok (Some x) => exists v1 v v2, views = v1 ++ v :: v2 /\ Forall (at_view base pass) v1 /\ hit v x
  | Ok None => clean = true /\ Forall (at_view base pass) views
  | Err _ => (clean = false /\ Forall (at_view base pass) views) \/
             exists v1 v v2, views = v1 ++ v :: v2 /\ Forall (at_view base pass) v1 /\ (view_at base v = None \/ at_view base fail v)
  | _ => False
  end.
