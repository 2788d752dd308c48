(** * Specification of error messages.

    For each kind of object, the error values whose message is true of the object. The clauses follow the texts of the messages in src/error.rs, which
    are quoted; every "{...}" is a part of the value. Positions are absolute, [p] is the position of the object. *)
From Verif Require Import Base Spec.

(** The boot sector [b]. *)
Definition cluster_size_in (b : list Z) (cs : Z) : Prop := exists spc, sectors_per_cluster_code (field 1 b 13) spc /\ cs = spc * field 2 b 11.
Definition boot_message (b : list Z) (e : err) : Prop :=
  match e with
  (* "The 2-byte signature field at byte position {position} should contain {expected}, but it contains {actual}" *)
  | EInvalidTwoByteSignature q actual => q = Some 510 /\ actual = slice b 510 512 /\ actual <> [85; 170]
  (* "The sectors per cluster field in the BIOS Parameter Block denotes {sectors_per_cluster}, which is invalid" *)
  | EInvalidSectorsPerCluster c => c = field 1 b 13 /\ forall spc, ~ sectors_per_cluster_code c spc
  (* "The sector size is {actual} bytes, but it needs to be between {min} and {max}" *)
  | EUnsupportedSectorSize min max actual => min = 512 /\ max = 4096 /\ actual = field 2 b 11 /\ ~ min <= actual <= max
  (* "The cluster size is {actual} bytes, but it needs to be between {min} and {max}" *)
  | EUnsupportedClusterSize min max actual => min = 512 /\ max = 2097152 /\ cluster_size_in b actual /\ ~ min <= actual <= max
  (* "The total sector count is too big to be multiplied by the sector size" *)
  | ETotalSectorsTooBig n => n = field 8 b 40 /\ U64_MAX < n * field 2 b 11
  (* "A record size field in the BIOS Parameter Block denotes {size_info}, which is invalid considering the cluster size of {cluster_size} bytes" *)
  | EInvalidRecordSizeInfo info cs => cluster_size_in b cs /\ -128 <= info <= 127 /\ info mod 256 = field 1 b 64 /\ forall size, ~ record_size_code (field 1 b 64) cs size
  (* "The MFT LCN in the BIOS Parameter Block of the NTFS filesystem is invalid." *)
  | EInvalidMftLcn => field 8 b 48 = 0
  (* "The Logical Cluster Number (LCN) {lcn} is too big to be multiplied by the cluster size" *)
  | ELcnTooBig lcn => lcn = field 8 b 48 /\ exists cs, cluster_size_in b cs /\ U64_MAX < lcn * cs
  | _ => False
  end.
(** A sector size inside the bounds is refused with the message about the bounds, if it is no power of two. *)
Definition boot_misleading (b : list Z) (e : err) : Prop :=
  e = EUnsupportedSectorSize 512 4096 (field 2 b 11) /\ 512 <= field 2 b 11 <= 4096 /\ ~ power_of_two (field 2 b 11).

(** A record with update sequence array, as it is on the disk. *)
Definition record_message (data : list Z) (p : Z) (e : err) : Prop :=
  let off := field 2 data 4 in let count := field 2 data 6 - 1 in
  match e with
  (* "The NTFS Update Sequence Number of the record at byte position {position} references a data field in the range {range}, but the entry only has a
     size of {size} bytes" *)
  | EInvalidUpdateSequenceNumberRange q a b size => q = Some p /\ a = off /\ b = off + 2 /\ size = zlen data /\ size < b
  (* "The NTFS Update Sequence Count of the record at byte position {position} has the invalid value {update_sequence_count}" *)
  | EInvalidUpdateSequenceCount q c => q = Some p /\ c = field 2 data 6 /\ c < 1
  (* "The Update Sequence Array (USA) of the record at byte position {position} has entries for {array_count} blocks of 512 bytes, but the record is only
     {record_size} bytes long" *)
  | EUpdateSequenceArrayExceedsRecordSize q n size => q = Some p /\ n = count /\ size = zlen data /\ size < 512 * n
  (* "Sector corruption: The 2 bytes at byte position {position} should match the Update Sequence Number (USN) {expected}, but they are {actual}" *)
  | EUpdateSequenceNumberMismatch q expected actual => expected = slice data off (off + 2) /\ actual <> expected /\
      exists i, 0 <= i < count /\ q = Some (p + block_end i) /\ actual = slice data (block_end i) (block_end i + 2)
  | _ => False
  end.
(** The blocks fit into the record, but the array itself does not; the position is that of the bytes that have been saved in the array. *)
Definition record_misleading (data : list Z) (p : Z) (e : err) : Prop :=
  let off := field 2 data 4 in let count := field 2 data 6 - 1 in
  match e with
  | EUpdateSequenceArrayExceedsRecordSize q n size => q = Some p /\ n = count /\ size = zlen data /\ 512 * n <= size < off + 2 + 2 * n
  | EUpdateSequenceNumberMismatch q expected actual => expected = slice data off (off + 2) /\ actual <> expected /\
      exists i, 0 <= i < count /\ q = Some (p + (off + 2 + 2 * i)) /\ actual = slice data (block_end i) (block_end i + 2) /\
        forall j, 0 <= j < i -> slice data (block_end j) (block_end j + 2) = expected
  | _ => False
  end.

(** A file record, as it is on the disk. *)
Definition file_message (data : list Z) (p : Z) (e : err) : Prop :=
  match e with
  (* "The NTFS File Record at byte position {position} should have signature {expected}, but it has signature {actual}" *)
  | EInvalidFileSignature q actual => q = Some p /\ actual = slice data 0 4 /\ actual <> [70; 73; 76; 69]
  (* "The NTFS File Record at byte position {position} indicates an allocated size of {expected} bytes, but the record only has a size of {actual} bytes" *)
  | EInvalidFileAllocatedSize q expected actual => q = Some p /\ expected = field 4 data 28 /\ actual = zlen data /\ actual < expected
  (* "The NTFS File Record at byte position {position} indicates a used size of {expected} bytes, but only {actual} bytes are allocated" *)
  | EInvalidFileUsedSize q expected actual => q = Some p /\ expected = field 4 data 24 /\ actual = field 4 data 28 /\ actual < expected
  | _ => record_message data p e
  end.

(** An index record, as it is on the disk. *)
Definition index_record_message (data : list Z) (p : Z) (e : err) : Prop :=
  match e with
  (* "The NTFS Index Record at byte position {position} should have signature {expected}, but it has signature {actual}" *)
  | EInvalidIndexSignature q actual => q = Some p /\ actual = slice data 0 4 /\ actual <> [73; 78; 68; 88]
  (* "The NTFS Index Record at byte position {position} indicates an allocated size of {expected} bytes, but the record only has a size of {actual} bytes" *)
  | EInvalidIndexAllocatedSize q expected actual => q = Some p /\ expected = 24 + field 4 data 32 /\ actual = zlen data /\ actual < expected
  (* "The NTFS Index Record at byte position {position} indicates a used size of {expected} bytes, but only {actual} bytes are allocated" *)
  | EInvalidIndexUsedSize q expected actual => q = Some p /\ expected = 24 + field 4 data 28 /\ actual = 24 + field 4 data 32 /\ actual < expected
  | _ => record_message data p e
  end.
(** The two numbers are exchanged. *)
Definition exchanged (e : err) : err :=
  match e with
  | EInvalidIndexAllocatedSize q x y => EInvalidIndexAllocatedSize q y x
  | EInvalidIndexUsedSize q x y => EInvalidIndexUsedSize q y x
  | EInvalidStructuredValueSize q t x y => EInvalidStructuredValueSize q t y x
  | _ => e
  end.

(** The attribute at [o] of the file record [data] (after the update sequence has been undone). *)
Definition attr_message (data : list Z) (p o : Z) (e : err) : Prop :=
  match e with
  (* "The NTFS Attribute at byte position {position} has a length of {expected} bytes, but only {actual} bytes are left in the record" *)
  | EInvalidAttributeLength q expected actual => q = Some (p + o) /\ expected = attr_len_at data o /\ actual = zlen data - o /\ actual < expected
  (* "The type of the NTFS Attribute at byte position {position} is {actual}, which is not supported" *)
  | EUnsupportedAttributeType q actual => q = Some (p + o) /\ actual = attr_type_at data o /\ ~ type_known actual
  (* "The NTFS Attribute at byte position {position} indicates that its name starts at offset {expected}, but the attribute only has a size of {actual} bytes" *)
  | EInvalidAttributeNameOffset q expected actual => q = Some (p + o) /\ expected = field 2 data (o + 10) /\ actual = attr_len_at data o /\ actual <= expected
  (* "The NTFS Attribute at byte position {position} indicates a name length up to offset {expected}, but the attribute only has a size of {actual} bytes" *)
  | EInvalidAttributeNameLength q expected actual =>
      q = Some (p + o) /\ expected = field 2 data (o + 10) + 2 * field 1 data (o + 9) /\ actual = attr_len_at data o /\ actual < expected
  (* "The resident NTFS Attribute at byte position {position} indicates that its value starts at offset {expected}, but the attribute only has a size of
     {actual} bytes" *)
  | EInvalidResidentAttributeValueOffset q expected actual =>
      q = Some (p + o) /\ attr_resident_at data o /\ expected = field 2 data (o + 20) /\ actual = attr_len_at data o /\ actual < expected
  (* "The resident NTFS Attribute at byte position {position} indicates a value length of {length} starting at offset {offset}, but the attribute only has
     a size of {actual} bytes" *)
  | EInvalidResidentAttributeValueLength q length offset actual =>
      q = Some (p + o) /\ attr_resident_at data o /\ length = field 4 data (o + 16) /\ offset = field 2 data (o + 20) /\ actual = attr_len_at data o /\ actual < offset + length
  (* "The NTFS Non Resident Value Data at byte position {position} references a data field in the range {range}, but the entry only has a size of {size}
     bytes" *)
  | EInvalidNonResidentValueDataRange q a b size =>
      q = Some (p + a) /\ ~ attr_resident_at data o /\ a = o + field 2 data (o + 32) /\ b = o + attr_len_at data o /\ size = zlen data /\ size < b
  (* "The NTFS Attribute at byte position {position} should have type {expected}, but it actually has type {actual}" *)
  | EAttributeOfDifferentType q expected actual => q = Some (p + o) /\ actual = attr_type_at data o /\ actual <> expected
  (* "The NTFS Attribute at byte position {position} should be resident, but it is non-resident" *)
  | EUnexpectedNonResidentAttribute q => q = Some (p + o) /\ ~ attr_resident_at data o
  | _ => False
  end.
(** "has a length of 16 bytes", although it has less; and data runs that start behind the end of the attribute, which does not exceed the record. *)
Definition attr_misleading (data : list Z) (p o : Z) (e : err) : Prop :=
  match e with
  | EInvalidAttributeLength q expected actual => q = Some (p + o) /\ expected = 16 /\ actual < 16 /\
      (actual = zlen data - o \/ 16 <= zlen data - o /\ actual = attr_len_at data o)
  | EInvalidNonResidentValueDataRange q a b size =>
      q = Some (p + a) /\ ~ attr_resident_at data o /\ a = o + field 2 data (o + 32) /\ b = o + attr_len_at data o /\ size = zlen data /\ b <= size /\ b < a
  | _ => False
  end.

(** Where the walk over the attributes [l] from [off] on ends. *)
Definition walk_end (data : list Z) (off : Z) (l : list Z) : Z := fold_left (fun _ o => o + attr_len_at data o) l off.

(** The value [s] of an index root. *)
Definition root_message (s : list Z) (p : Z) (e : err) : Prop :=
  match e with
  (* "The NTFS structured value at byte position {position} of type {ty} has {actual} bytes where {expected} bytes were expected" *)
  | EInvalidStructuredValueSize q ty expected actual => q = Some p /\ ty = 144 /\ expected = 32 /\ actual = zlen s /\ actual < expected
  (* "The NTFS index root at byte position {position} indicates that its entries start at offset {expected}, but the index root only has a size of {actual}
     bytes" *)
  | EInvalidIndexRootEntriesOffset q expected actual => q = Some p /\ expected = 16 + field 4 s 16 /\ actual = zlen s /\ actual <= expected
  (* "The NTFS index root at byte position {position} indicates a used size up to offset {expected}, but the index root only has a size of {actual} bytes" *)
  | EInvalidIndexRootUsedSize q expected actual => q = Some p /\ expected = 16 + field 4 s 20 /\ actual = zlen s /\ actual < expected
  | _ => False
  end.
(** 16 bytes were not expected, but 32. *)
Definition root_misleading (s : list Z) (p : Z) (e : err) : Prop := e = EInvalidStructuredValueSize (Some p) 144 16 (zlen s) /\ zlen s < 32.

(** The bytes [s] of an index node from an entry on. *)
Definition entry_message (s : list Z) (p : Z) (e : err) : Prop :=
  match e with
  (* "The NTFS Index Entry at byte position {position} reports a size of {expected} bytes, but it only has {actual} bytes" *)
  | EInvalidIndexEntrySize q expected actual => q = Some p /\ expected = field 2 s 8 /\ actual = zlen s /\ actual < expected
  | _ => False
  end.
(** A size of 16 bytes is reported by the code, but not by the entry. *)
Definition entry_misleading (s : list Z) (p : Z) (e : err) : Prop := e = EInvalidIndexEntrySize (Some p) 16 (zlen s) /\ zlen s < 16.
(** The parts of the entry [s]. *)
Definition entry_data_message (s : list Z) (p : Z) (e : err) : Prop :=
  match e with
  (* "The NTFS Index Entry at byte position {position} references a data field in the range {range}, but the entry only has a size of {size} bytes" *)
  | EInvalidIndexEntryDataRange q a b size => q = Some p /\ size = zlen s /\ size < b /\
      (a = field 2 s 0 /\ b = a + field 2 s 2 \/ a = 16 /\ b = 16 + field 2 s 10 \/ a = Z.max (field 2 s 8 - 8) 16 /\ b = a + 8)
  | _ => False
  end.

(** ** Data runs *)
(** [runs_before cs data o lcn]: the run at [o] comes next, and [lcn] is the LCN of the data extent before it (0 at the start). *)
Inductive runs_before (data : list Z) : Z -> Z -> Prop :=
| rb_start : runs_before data 0 0
| rb_run o lcn h count diff : runs_before data o lcn -> byte_at data o = Some h -> h <> 0 ->
    unsigned_bytes (slice data (o + 1) (o + 1 + h mod 16)) count ->
    (h / 16 = 0 /\ diff = 0 \/ signed_bytes (slice data (o + 1 + h mod 16) (o + 1 + h mod 16 + h / 16)) diff) ->
    o + 1 + h mod 16 + h / 16 <= zlen data ->
    runs_before data (o + 1 + h mod 16 + h / 16) (lcn + diff).
(** The run at [o]. *)
Definition run_message (cs : Z) (data : list Z) (p o lcn : Z) (e : err) : Prop :=
  exists h, byte_at data o = Some h /\
  match e with
  (* "The NTFS Data Run header at byte position {position} indicates a maximum byte count of {expected}, but {actual} is the limit" *)
  | EInvalidByteCountInDataRunHeader q expected actual => q = Some (p + o) /\ (expected = h mod 16 \/ expected = h / 16) /\ actual = 8 /\ actual < expected
  (* "The cluster count {cluster_count} read from the NTFS Data Run header at byte position {position} is invalid" *)
  | EInvalidClusterCountInDataRunHeader q count =>
      q = Some (p + o) /\ count = le_val (slice data (o + 1) (o + 1 + h mod 16)) /\ (count = 0 \/ U64_MAX < count * cs)
  (* "The VCN {vcn} read from the NTFS Data Run header at byte position {position} cannot be added to the LCN {previous_lcn} calculated from previous data
     runs" *)
  | EInvalidVcnInDataRunHeader q vcn previous =>
      q = Some (p + o) /\ signed_bytes (slice data (o + 1 + h mod 16) (o + 1 + h mod 16 + h / 16)) vcn /\ previous = lcn /\ ~ 0 <= previous + vcn <= U64_MAX
  (* "The Logical Cluster Number (LCN) {lcn} is too big to be multiplied by the cluster size" *)
  | ELcnTooBig new =>
      exists vcn, signed_bytes (slice data (o + 1 + h mod 16) (o + 1 + h mod 16 + h / 16)) vcn /\ new = lcn + vcn /\ U64_MAX < new * cs
  (* "I/O error": the run is cut off *)
  | EIo k => k = UnexpectedEof /\ zlen data < o + 1 + h mod 16 + h / 16
  | _ => False
  end.

(** ** Values of attributes, read from [bytes] at [p]; [len] is their length. *)
Definition value_message (ty : Z) (bytes : list Z) (p : position) (len : Z) (e : err) : Prop :=
  match e with
  (* "The NTFS structured value at byte position {position} of type {ty} has {actual} bytes where {expected} bytes were expected" *)
  | EInvalidStructuredValueSize q t expected actual => q = p /\ t = ty /\ actual = len /\
      (ty = 16 /\ expected = 48 /\ actual < expected \/ ty = 112 /\ expected = 12 /\ actual < expected \/ ty = 96 /\ expected = 256 /\ expected < actual \/
       ty = 64 /\ expected = 16 /\ actual < expected \/ ty = 48 /\ (expected = 68 \/ expected = 66 + 2 * field 1 bytes 64) /\ actual < expected)
  (* "The namespace of the NTFS file name starting at byte position {position} is {actual}, which is not supported" *)
  | EUnsupportedFileNamespace q actual => q = p /\ ty = 48 /\ actual = field 1 bytes 65 /\ 3 < actual
  | _ => False
  end.

(** ** Attribute lists: the entry at [o] of the list [bs], at position [p]. *)
Definition list_entry_message (bs : list Z) (o : Z) (p : position) (e : err) : Prop :=
  match e with
  (* "The NTFS structured value at byte position {position} of type {ty} has {actual} bytes where {expected} bytes were expected" *)
  | EInvalidStructuredValueSize q ty expected actual =>
      q = p /\ ty = 32 /\ o + 26 <= zlen bs /\ expected = 26 + 2 * field 1 bs (o + 6) /\ actual = field 2 bs (o + 4) /\ actual < expected
  (* "The type of the NTFS Attribute at byte position {position} is {actual}, which is not supported" *)
  | EUnsupportedAttributeType q actual => q = p /\ o + 26 <= zlen bs /\ actual = field 4 bs o /\ ~ type_known actual
  (* "I/O error": the entry is cut off *)
  | EIo k => k = UnexpectedEof /\ (zlen bs < o + 26 \/ zlen bs < o + 26 + 2 * field 1 bs (o + 6))
  | _ => False
  end.
(** Where the walk over the entries [l] from [off] on ends. *)
Definition list_walk_end (bs : list Z) (off : Z) (l : list Z) : Z := fold_left (fun _ o => o + field 2 bs (o + 4)) l off.

(** ** Index allocations: asking the allocation [alloc], which starts at position [p] of a filesystem of [total] bytes, for the index record of [size]
    bytes at [vcn], which is at position [rp] on the device; [cs] is the cluster size. *)
Definition allocation_message (cs total size : Z) (alloc : list Z) (p rp : position) (vcn : Z) (e : err) : Prop :=
  let q := vcn * cs in
  match e with
  (* "The Virtual Cluster Number (VCN) {vcn} is too big to be multiplied by the cluster size" *)
  | EVcnTooBig n => n = vcn /\ ~ I64_MIN <= q <= I64_MAX
  (* "The index allocation at byte position {position} references a Virtual Cluster Number (VCN) {vcn}, but this VCN exceeds the boundaries of the
     filesystem" *)
  | EVcnOutOfBoundsInIndexAllocation x n => x = p /\ n = vcn /\ zlen alloc <= q /\ total <= q
  (* "The index allocation at byte position {position} references a Virtual Cluster Number (VCN) {expected}, but a record with VCN {actual} is found at that
     offset" *)
  | EVcnMismatchInIndexAllocation x expected actual =>
      x = p /\ expected = vcn /\ 0 <= q /\ q + size <= zlen alloc /\ signed_bytes (slice alloc (q + 16) (q + 24)) actual /\ actual <> expected
  (* "I/O error": a VCN below 0, or the record is cut off *)
  | EIo k => k = InvalidInput /\ q < 0 \/ k = UnexpectedEof /\ 0 <= q < zlen alloc /\ zlen alloc < q + size
  | _ => 0 <= q /\ q + size <= zlen alloc /\ forall x, rp = Some x -> index_record_message (slice alloc q (q + size)) x e
  end.
(** The VCN exceeds the allocation, but not the filesystem; and what is false about the record. *)
Definition allocation_misleading (cs total size : Z) (alloc : list Z) (p rp : position) (vcn : Z) (e : err) : Prop :=
  let q := vcn * cs in
  match e with
  | EVcnOutOfBoundsInIndexAllocation x n => x = p /\ n = vcn /\ zlen alloc <= q < total
  | _ => 0 <= q /\ q + size <= zlen alloc /\
      forall x, rp = Some x -> (index_record_message (slice alloc q (q + size)) x (exchanged e) /\ exchanged e <> e) \/ record_misleading (slice alloc q (q + size)) x e
  end.
