(** * Specification of indexes, independent of the model of the index code. *)
From Verif Require Import Base Dev Types Spec.

(** ** Index nodes *)
(** The fields of the index entry at [o]: total length, key length, "has a subnode", "is the last one". *)
Definition entry_len (data : list Z) (o : Z) : Z := field 2 data (o + 8).
Definition entry_key_len (data : list Z) (o : Z) : Z := field 2 data (o + 10).
Definition entry_has_subnode (data : list Z) (o : Z) : bool := Z.testbit (field 1 data (o + 12)) 0.
Definition entry_is_last (data : list Z) (o : Z) : bool := Z.testbit (field 1 data (o + 12)) 1.
Definition entry_bytes (data : list Z) (o : Z) : list Z := slice data o (o + entry_len data o).

(** There is room for an entry header and for the announced length. *)
Definition entry_fits (data : list Z) (o : Z) : Prop := o + 16 <= zlen data /\ o + entry_len data o <= zlen data.

(** How the sequence of entries ends: regularly, at an entry that does not fit, or at one that is too short to hold its own flags. *)
Inductive node_end := NodeDone | NodeMalformed | NodeTooShort.

(** The offsets of the entries from [o] on, in a node whose entries end at [stop]. *)
Inductive node_walk (data : list Z) (stop : Z) : Z -> list Z -> node_end -> Prop :=
| nw_end o : stop <= o -> node_walk data stop o [] NodeDone
| nw_bad o : o < stop -> ~ entry_fits data o -> node_walk data stop o [] NodeMalformed
| nw_short o : o < stop -> entry_fits data o -> entry_len data o < 13 -> node_walk data stop o [] NodeTooShort
| nw_last o : o < stop -> entry_fits data o -> 13 <= entry_len data o -> entry_is_last data o = true ->
    node_walk data stop o [o] NodeDone
| nw_entry o l e : o < stop -> entry_fits data o -> 13 <= entry_len data o -> entry_is_last data o = false ->
    node_walk data stop (o + entry_len data o) l e -> node_walk data stop o (o :: l) e.

(** A position from which all of [len] bytes have a 64-bit position. *)
Definition position_sane (p : position) (len : Z) : Prop := forall v, p = Some v -> 0 < v /\ v + len <= U64_MAX.

(** The entries of a node, as a user sees them: bytes and position. What comes after them, forever: *)
Definition after_node {A} (e : node_end) (x : err) : item A :=
  match e with NodeDone => None | NodeMalformed => Some (Err x) | NodeTooShort => Some Panic end.

(** ** Index records *)
(** A valid index record: "INDX", used size at most allocated size, which lies inside the record (both counted from byte 24). *)
Definition index_record_ok (data : list Z) : Prop :=
  slice data 0 4 = [73; 78; 68; 88] /\ 24 + field 4 data 32 <= zlen data /\ field 4 data 28 <= field 4 data 32.

(** [data] is the index record number [vcn] of an index allocation with content [alloc]: [size] bytes at cluster [vcn], as stored with
    update sequence numbers, a valid record, and its header carries the number. *)
Record index_record_at (cs size : Z) (alloc : list Z) (vcn : Z) (data : list Z) : Prop := {
  ir_inside : 0 <= vcn * cs /\ vcn * cs + size <= zlen alloc;
  ir_stored : stored_as data (slice alloc (vcn * cs) (vcn * cs + size));
  ir_ok : index_record_ok data;
  ir_vcn : field 8 data 16 = vcn
}.
(** Where its update sequence array lies (see [array_clear]). *)
Definition index_array_clear (cs size : Z) (alloc : list Z) (vcn : Z) : Prop :=
  let prot := slice alloc (vcn * cs) (vcn * cs + size) in array_clear (field 2 prot 4) (field 2 prot 6 - 1).

(** ** Index trees *)
(** The in-order listing of the tree whose root node's entries start at [o] of [data] and end at [stop]: for each entry first what its
    subnode lists, then the entry itself, unless it is the last one of its node. [child vcn data'] : [data'] is the index record
    number [vcn]. Nodes may end with an entry flagged as the last one or not; a tree may have any shape, but no cycle. *)
Inductive listing (child : Z -> list Z -> Prop) : list Z -> Z -> Z -> list (list Z) -> Prop :=
| li_end data stop o : stop <= o -> listing child data stop o []
| li_last data stop o l : o < stop -> entry_fits data o -> 16 <= entry_len data o -> entry_is_last data o = true ->
    sublisting child data o l -> listing child data stop o l
| li_entry data stop o l1 l2 : o < stop -> entry_fits data o -> 16 <= entry_len data o -> entry_is_last data o = false ->
    sublisting child data o l1 -> listing child data stop (o + entry_len data o) l2 ->
    listing child data stop o (l1 ++ entry_bytes data o :: l2)
(** What the subnode of the entry at [o] lists. The last 8 bytes of the entry are the number of its index record; the entries
    of that start and end as its header (at byte 24) says. *)
with sublisting (child : Z -> list Z -> Prop) : list Z -> Z -> list (list Z) -> Prop :=
| sl_none data o : entry_has_subnode data o = false -> sublisting child data o []
| sl_node data o vcn data' l : entry_has_subnode data o = true -> 24 <= entry_len data o ->
    vcn = field 8 data (o + entry_len data o - 8) -> vcn <= I64_MAX -> child vcn data' ->
    listing child data' (24 + field 4 data' 28) (24 + field 4 data' 24) l -> sublisting child data o l.

(** The key of an entry, given as the entry's bytes. *)
Definition key_of (e : list Z) : list Z := slice e 16 (16 + field 2 e 10).
Definition has_key (e : list Z) : Prop := 0 < field 2 e 10 /\ 16 + field 2 e 10 <= zlen e.

(** The answers [c] of a comparison ("what is searched is [Lt]/[Eq]/[Gt] this entry") are consistent with the order of the entries:
    before an entry that compares [Gt] only such entries, behind one that compares [Lt] only such entries. *)
Definition consistent {A} (c : A -> comparison) (l : list A) : Prop :=
  forall l1 a l2 b l3, l = l1 ++ a :: l2 ++ b :: l3 -> (c b = Gt -> c a = Gt) /\ (c a = Lt -> c b = Lt).

(** ** Directories *)
(** A valid $INDEX_ROOT value: its entries lie inside it. *)
Definition index_root_ok (root : list Z) : Prop :=
  32 <= zlen root /\ 16 + field 4 root 16 < zlen root /\ 16 + field 4 root 20 <= zlen root /\ field 4 root 16 <= field 4 root 20.
Definition root_entries (root : list Z) : list Z := slice root (16 + field 4 root 16) (16 + field 4 root 20).
Definition root_record_size (root : list Z) : Z := field 4 root 8.
Definition root_is_large (root : list Z) : bool := Z.testbit (field 1 root 28) 0.

(** [data'] is the index record number [vcn]. *)
Definition index_child (cs : Z) (root alloc : list Z) (vcn : Z) (data' : list Z) : Prop :=
  index_record_at cs (root_record_size root) alloc vcn data' /\ index_array_clear cs (root_record_size root) alloc vcn /\ vcn * cs <= I64_MAX.
(** The entries of the index with that $INDEX_ROOT value and $INDEX_ALLOCATION content, in order. *)
Definition index_listing (cs : Z) (root alloc : list Z) (l : list (list Z)) : Prop :=
  listing (index_child cs root alloc) (root_entries root) (zlen (root_entries root)) 0 l.

(** The first attribute at [offs] with that type and name is at [o]. *)
Definition first_match (data offs : list Z) (ty : Z) (name : list Z) (o : Z) : Prop :=
  exists l1 l2, offs = l1 ++ o :: l2 /\ Forall (is_other data ty (Some name) None) l1 /\ is_match data ty (Some name) None o.

(** A directory's file record [data] with the attributes [offs]: flagged as a directory, with a resident $INDEX_ROOT attribute "$I30" and, if
    the index is large, a non-resident $INDEX_ALLOCATION attribute "$I30". *)
Definition I30 : list Z := [36; 73; 51; 48].
Record is_directory (cs : Z) (img data offs root alloc : list Z) : Prop := {
  dir_flag : Z.testbit (field 2 data 22) 1 = true;
  dir_root : exists o, first_match data offs 144 I30 o /\ attr_resident_at data o /\ o + 22 <= zlen data /\ attr_value_at data o root;
  dir_root_ok : index_root_ok root;
  dir_alloc : if root_is_large root
    then exists o l, first_match data offs 160 I30 o /\ ~ attr_resident_at data o /\ o + 56 <= zlen data /\ field 2 data (o + 32) <= attr_len_at data o /\
           valid_extents cs img l /\ encodes 0 l (slice data (o + field 2 data (o + 32)) (o + attr_len_at data o)) /\
           field 8 data (o + 48) <= extents_size cs l /\ alloc = file_content cs img l (field 8 data (o + 48))
    else alloc = [];
  dir_record_size : root_is_large root = true -> 36 <= root_record_size root <= U16_MAX
}.

(** ** Hostile indexes *)
(** The entry at [o] refers to the index record number [vcn]. *)
Definition refers (data : list Z) (o vcn : Z) : Prop :=
  entry_has_subnode data o = true /\ 24 <= entry_len data o /\ vcn = field 8 data (o + entry_len data o - 8).
(** References lead from record to record in finite chains only: they descend along some [rank]. *)
Definition acyclic (child : Z -> list Z -> Prop) : Prop :=
  exists rank : Z -> nat, forall vcn data offs e o vcn' data', child vcn data ->
    node_walk data (24 + field 4 data 28) (24 + field 4 data 24) offs e -> In o offs -> refers data o vcn' -> child vcn' data' ->
    (rank vcn' < rank vcn)%nat.
(** No node has an entry that is too short to hold its own flags. *)
Definition no_short_entry (child : Z -> list Z -> Prop) (data : list Z) : Prop :=
  (forall offs e, node_walk data (zlen data) 0 offs e -> e <> NodeTooShort) /\
  forall vcn data' offs e, child vcn data' -> node_walk data' (24 + field 4 data' 28) (24 + field 4 data' 24) offs e -> e <> NodeTooShort.
(** All index records that lie inside the allocation have a clear update sequence array, and sizes that can be added in 32 bits. *)
Definition arrays_clear (cs size : Z) (alloc : list Z) : Prop := forall vcn, 0 <= vcn * cs -> vcn * cs + size <= zlen alloc -> index_array_clear cs size alloc vcn.
Definition sizes_small (cs size : Z) (alloc : list Z) : Prop := forall vcn, 0 <= vcn * cs -> vcn * cs + size <= zlen alloc ->
  24 + field 4 alloc (vcn * cs + 28) <= U32_MAX /\ 24 + field 4 alloc (vcn * cs + 32) <= U32_MAX.
(** The $INDEX_ROOT values of a file record do not end before they start. *)
Definition roots_ordered (data offs : list Z) : Prop := forall o root, In o offs -> attr_type_at data o = 144 -> attr_value_at data o root ->
  32 <= zlen root -> field 4 root 16 <= field 4 root 20.

(** ** File name indexes *)
(** The entry [e] (its bytes) has a well-formed $FILE_NAME key with the name [us] (code units). *)
Definition named (e us : list Z) : Prop :=
  has_key e /\ 68 <= zlen (key_of e) /\ 66 + 2 * field 1 (key_of e) 64 <= zlen (key_of e) /\ field 1 (key_of e) 65 <= 3 /\
  utf16 (slice (key_of e) 66 (66 + 2 * field 1 (key_of e) 64)) us.
(** The entries are in the order [lt] of their names (names that the order does not distinguish may be in any order). *)
Definition names_sorted (lt : list Z -> list Z -> Prop) (l : list (list Z)) : Prop :=
  forall l1 a l2 b l3 na nb, l = l1 ++ a :: l2 ++ b :: l3 -> named a na -> named b nb -> ~ lt nb na.

(** ** Index records in sequence *)
(** [data] is the index record stored at byte [q] of [alloc]. *)
Definition record_stored_at (size : Z) (alloc : list Z) (q : Z) (data : list Z) : Prop :=
  q + size <= zlen alloc /\ stored_as data (slice alloc q (q + size)) /\ index_record_ok data.
(** The index records of an allocation from byte [q] on, with their offsets, one every [size] bytes, up to the end ([true]) or up to a
    place where no index record is stored ([false]). *)
Inductive records_walk (size : Z) (alloc : list Z) : Z -> list (Z * list Z) -> bool -> Prop :=
| rw_end q : zlen alloc <= q -> records_walk size alloc q [] true
| rw_bad q : q < zlen alloc -> (forall data, ~ record_stored_at size alloc q data) -> records_walk size alloc q [] false
| rw_record q data l c : q < zlen alloc -> record_stored_at size alloc q data -> records_walk size alloc (q + size) l c ->
    records_walk size alloc q ((q, data) :: l) c.
(** All of them have a clear update sequence array (see [array_clear]), and sizes that can be added in 32 bits. *)
Definition all_arrays_clear (size : Z) (alloc : list Z) : Prop := forall q, 0 <= q -> q mod size = 0 -> q + size <= zlen alloc ->
  let prot := slice alloc q (q + size) in array_clear (field 2 prot 4) (field 2 prot 6 - 1).
Definition all_sizes_small (size : Z) (alloc : list Z) : Prop := forall q, 0 <= q -> q mod size = 0 -> q + size <= zlen alloc ->
  24 + field 4 alloc (q + 28) <= U32_MAX /\ 24 + field 4 alloc (q + 32) <= U32_MAX.
