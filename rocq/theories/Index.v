(** * Indexes: src/index_entry.rs, src/index_record.rs, src/structured_values/index_root.rs and src/structured_values/index_allocation.rs,
      src/index.rs, src/indexes/file_name.rs.

    [debug_assert!]s are not modelled.  The key type of an index is a parameter [K] with its [key_from_slice] function. *)
From Verif Require Import Base Dev Types Record DataRuns Stream NonResident Resident Attribute File Structured AttrList Upcase.

(** ** src/index_entry.rs *)
(** src/index_entry.rs 107-114 [NtfsIndexEntry]. *)
Record ientry := mkIE { ie_slice : list Z; ie_position : position }.

(** src/index_entry.rs 203-206 [index_entry_length], 193-196 [flags] (HAS_SUBNODE 1, LAST_ENTRY 2), 235-238 [key_length]. *)
Definition ie_length (e : ientry) : res Z := rd_u16 (ie_slice e) 8.
(** src/index_entry.rs 193-196 [flags] ([from_bits_truncate]). *)
Definition ie_flags (e : ientry) : res Z := let? x := rd_u8 (ie_slice e) 12 in Ok (Z.land x 3).
(** src/index_entry.rs 235-238 [key_length]. *)
Definition ie_key_length (e : ientry) : res Z := rd_u16 (ie_slice e) 10.
(** src/index_entry.rs 44-53, used in src/index.rs 159: the flag LAST_ENTRY. *)
Definition ie_is_last (e : ientry) : res bool := let? x := ie_flags e in Ok (Z.testbit x 1).
(** src/index_entry.rs 44-53, used in 247-268: the flag HAS_SUBNODE. *)
Definition ie_has_subnode (e : ientry) : res bool := let? x := ie_flags e in Ok (Z.testbit x 0).

(** src/index_entry.rs 279-297 [validate_size], 120-132 [new]. *)
Definition ie_new (s : list Z) (p : position) : res ientry :=
  let e := mkIE s p in
  if zlen s <? 16 then Err (EInvalidIndexEntrySize p 16 (zlen s))
  else
    let? l := ie_length e in
    if zlen s <? l then Err (EInvalidIndexEntrySize p l (zlen s mod 65536))
    else let? s' := idx_range s 0 l in Ok (mkIE s' p).

(** src/index_entry.rs 183-190 [file_reference]: the 8 bytes. *)
Definition ie_file_reference (e : ientry) : res (list Z) := idx_range (ie_slice e) 0 8.
(** src/index_entry.rs 271-277 [to_file], src/file_reference.rs 38-43 [to_file]. *)
Definition ie_to_file (nt : ntfs) (e : ientry) : M file := try r <- ie_file_reference e; ntfs_file nt (fr_number r).
(** src/index_entry.rs 161-167 [data_offset], 170-176 [data_length]. *)
Definition ie_data_offset (e : ientry) : res Z := rd_u16 (ie_slice e) 0.
(** src/index_entry.rs 170-176 [data_length]. *)
Definition ie_data_length (e : ientry) : res Z := rd_u16 (ie_slice e) 2.

(** src/index_entry.rs 138-159 [data], generic in the data type. *)
Definition ie_data {D} (data_from_slice : list Z -> position -> res D) (e : ientry) : item D :=
  match ie_data_offset e, ie_data_length e with
  | Ok o, Ok l =>
      if (o =? 0) || (l =? 0) then None
      else match get_range (ie_slice e) o (o + l) with
      | Some s => Some (data_from_slice s (pos_add (ie_position e) o))
      | None => Some (Err (EInvalidIndexEntryDataRange (ie_position e) o (o + l) (zlen (ie_slice e) mod 65536)))
      end
  | _, _ => Some Panic
  end.

(** src/index_entry.rs 212-232 [key]. *)
Definition ie_key {K} (kp : list Z -> position -> res K) (e : ientry) : item K :=
  match ie_key_length e with
  | Ok kl =>
      if kl =? 0 then None
      else match ie_is_last e with
      | Ok true => None
      | Ok false =>
          match get_range (ie_slice e) 16 (16 + kl) with
          | Some s => Some (kp s (pos_add (ie_position e) 16))
          | None => Some (Err (EInvalidIndexEntryDataRange (ie_position e) 16 (16 + kl) (zlen (ie_slice e) mod 65536)))
          end
      | _ => Some Panic
      end
  | _ => Some Panic
  end.

(** src/index_entry.rs 247-268 [subnode_vcn]. *)
Definition ie_subnode_vcn (e : ientry) : item Z :=
  match ie_has_subnode e with
  | Ok false => None
  | Ok true =>
      match ie_length e with
      | Ok l =>
          if l <? 8 then Some Panic
          else
            let start := Z.max (l - 8) 16 in
            match get_range (ie_slice e) start (start + 8) with
            | Some s => Some (Ok (to_i64 (le_val s)))
            | None => Some (Err (EInvalidIndexEntryDataRange (ie_position e) start (start + 8) (zlen (ie_slice e) mod 65536)))
            end
      | _ => Some Panic
      end
  | _ => Some Panic
  end.

(** src/index_entry.rs 62-69 [IndexEntryRange]. *)
Record erange := mkER { er_start : Z; er_end : Z; er_position : position }.
(** src/index_entry.rs 84-86 [to_entry]. *)
Definition er_to_entry (r : erange) (data : list Z) : res ientry :=
  let? s := idx_range data (er_start r) (er_end r) in ie_new s (er_position r).

(** src/index_entry.rs 301-309 [IndexNodeEntryRanges]. *)
Record ranges := mkRanges { rg_data : list Z; rg_start : Z; rg_end : Z; rg_position : position }.

(** src/index_entry.rs 338-361 [next]. *)
Definition ranges_next (g : ranges) : ranges * item erange :=
  if rg_end g <=? rg_start g then (g, None)
  else
    match (let? s := idx_range (rg_data g) (rg_start g) (zlen (rg_data g)) in
           let? e := ie_new s (rg_position g) in
           let? l := ie_length e in
           let? last := ie_is_last e in
           Ok (l, last))
    with
    | Ok (l, last) =>
        let g' := if (last : bool)
          then mkRanges (rg_data g) (zlen (rg_data g)) (rg_end g) (rg_position g)
          else mkRanges (rg_data g) (rg_start g + l) (rg_end g) (pos_add (rg_position g) l) in
        (g', Some (Ok (mkER (rg_start g) (rg_start g + l) (rg_position g))))
    | Err x => (g, Some (Err x))
    | Panic => (g, Some Panic)
    | OutOfFuel => (g, Some OutOfFuel)
    end.

(** src/index_entry.rs 383-390 [NtfsIndexNodeEntries], 396-403 [new], 412-433 [next]. *)
Record node_entries := mkNE { ne_slice : list Z; ne_position : position }.
(** src/index_entry.rs 412-433 [next]. *)
Definition node_entries_next (n : node_entries) : node_entries * item ientry :=
  match ne_slice n with
  | [] => (n, None)
  | _ =>
      match (let? e := ie_new (ne_slice n) (ne_position n) in
             let? last := ie_is_last e in
             if (last : bool) then Ok (e, mkNE [] (ne_position n))
             else
               let? l := ie_length e in
               let? rest := idx_range (ne_slice n) l (zlen (ne_slice n)) in
               Ok (e, mkNE rest (pos_add (ne_position n) l)))
      with
      | Ok (e, n') => (n', Some (Ok e))
      | Err x => (n, Some (Err x))
      | Panic => (n, Some Panic)
      | OutOfFuel => (n, Some OutOfFuel)
      end
  end.

(** ** src/structured_values/index_root.rs *)
(** src/structured_values/index_root.rs 47-50 [NtfsIndexRoot]. *)
Record iroot := mkIR { ir_slice : list Z; ir_position : position }.

(** src/structured_values/index_root.rs 113-116 [index_entries_offset], 108-111 [index_data_size], 119-122 [index_record_size], 127-130 [is_large_index],
    102-105 [index_allocated_size]. *)
Definition ir_entries_offset (r : iroot) : res Z := rd_u32 (ir_slice r) 16.
(** src/structured_values/index_root.rs 108-111 [index_data_size]. *)
Definition ir_data_size (r : iroot) : res Z := rd_u32 (ir_slice r) 20.
(** src/structured_values/index_root.rs 102-105 [index_allocated_size]. *)
Definition ir_allocated_size (r : iroot) : res Z := rd_u32 (ir_slice r) 24.
(** src/structured_values/index_root.rs 119-122 [index_record_size]. *)
Definition ir_record_size (r : iroot) : res Z := rd_u32 (ir_slice r) 8.
(** src/structured_values/index_root.rs 127-130 [is_large_index]. *)
Definition ir_is_large (r : iroot) : res bool := let? x := rd_u8 (ir_slice r) 28 in Ok (Z.testbit x 0).

(** src/structured_values/index_root.rs 82-88 [entries_range_and_position]. *)
Definition ir_range (r : iroot) : res (Z * Z * position) :=
  let? o := ir_entries_offset r in
  let? s := ir_data_size r in
  Ok (16 + o, 16 + s, pos_add (ir_position r) (16 + o)).

(** src/structured_values/index_root.rs 137-157 [validate_sizes], 55-69 [new]. *)
Definition ir_new (s : list Z) (p : position) : res iroot :=
  if zlen s <? 32 then Err (EInvalidStructuredValueSize p TY_IndexRoot 16 (zlen s))
  else
    let r := mkIR s p in
    let? x := ir_range r in
    let '(a, b, _) := x in
    if zlen s <=? a then Err (EInvalidIndexRootEntriesOffset p a (zlen s))
    else if zlen s <? b then Err (EInvalidIndexRootUsedSize p b (zlen s))
    else Ok r.

(** src/structured_values/index_root.rs 72-80 [entries], 90-99 [entry_ranges]. *)
Definition ir_entries (r : iroot) : res node_entries :=
  let? x := ir_range r in
  let '(a, b, p) := x in
  let? s := idx_range (ir_slice r) a b in Ok (mkNE s p).
(** src/structured_values/index_root.rs 90-99 [entry_ranges]. *)
Definition ir_entry_ranges (r : iroot) : res ranges :=
  let? x := ir_range r in
  let '(a, b, p) := x in
  let? s := idx_range (ir_slice r) a b in Ok (mkRanges s 0 (zlen s) p).

(** src/attribute.rs 339-353 [resident_structured_value::<NtfsIndexRoot>], src/structured_values/index_root.rs 179-181. *)
Definition attr_index_root (a : attribute) : res iroot :=
  let? v := attr_resident_structured a TY_IndexRoot in ir_new (rv_data v) (res_data_position v).

(** ** src/index_record.rs; an [NtfsIndexRecord] is its [record]. *)
(** src/index_record.rs 123-126 [index_entries_offset], 118-121 [index_data_size], 112-115 [index_allocated_size], 185-188 [vcn], 105-109 [has_subnodes]. *)
Definition irec_entries_offset (r : record) : res Z := rd_u32 (rec_data r) 24.
(** src/index_record.rs 118-121 [index_data_size]. *)
Definition irec_data_size (r : record) : res Z := rd_u32 (rec_data r) 28.
(** src/index_record.rs 112-115 [index_allocated_size]. *)
Definition irec_allocated_size (r : record) : res Z := rd_u32 (rec_data r) 32.
(** src/index_record.rs 185-188 [vcn]. *)
Definition irec_vcn (r : record) : res Z := let? x := rd_u64 (rec_data r) 16 in Ok (to_i64 x).
(** src/index_record.rs 105-109 [has_subnodes]. *)
Definition irec_has_subnodes (r : record) : res bool := let? x := rd_u8 (rec_data r) 36 in Ok (Z.testbit x 0).

(** src/index_record.rs 136-149 [validate_signature] ("INDX"). *)
Definition irec_validate_signature (r : record) : res unit :=
  let? s := rec_signature r in
  if list_eqb s [73; 78; 68; 88] then Ok tt else Err (EInvalidIndexSignature (rec_position r) s).

(** src/index_record.rs 151-177 [validate_sizes]; the u32 additions are unchecked. *)
Definition irec_validate_sizes (r : record) : res unit :=
  let? a := irec_allocated_size r in
  if U32_MAX <? 24 + a then Panic
  else if zlen (rec_data r) <? 24 + a then Err (EInvalidIndexAllocatedSize (rec_position r) (zlen (rec_data r)) (24 + a))
  else
    let? s := irec_data_size r in
    if U32_MAX <? 24 + s then Panic
    else if 24 + a <? 24 + s then Err (EInvalidIndexUsedSize (rec_position r) (24 + a) (24 + s))
    else Ok tt.

(** src/index_record.rs 70-80: what [new] does after having read the bytes. *)
Definition irec_of_bytes (data : list Z) (p : position) : res record :=
  let r := mkRecord data p in
  let? _u := irec_validate_signature r in
  match fixup r with
  | (r', Ok _) => let? _v := irec_validate_sizes r' in Ok r'
  | (_, Err e) => Err e
  | (_, Panic) => Panic
  | (_, OutOfFuel) => OutOfFuel
  end.

(** src/index_record.rs 59-80 [new]. The value is a clone, so its state afterwards is dropped. *)
Definition irec_new (fuel : nat) (v : aval) (size : Z) : M record := fun d =>
  match rs_read_exact (av_read fuel) v size d with
  | (d', (_, Ok data)) => (d', irec_of_bytes data (av_data_position v))
  | (d', (_, Err e)) => (d', Err e)
  | (d', (_, Panic)) => (d', Panic)
  | (d', (_, OutOfFuel)) => (d', OutOfFuel)
  end.

(** src/index_record.rs 95-101 [entries_range_and_position], 85-93 [entries], 128-134 [into_entry_ranges]. *)
Definition irec_range (r : record) : res (Z * Z * position) :=
  let? o := irec_entries_offset r in
  let? s := irec_data_size r in
  Ok (24 + o, 24 + s, pos_add (rec_position r) (24 + o)).
(** src/index_record.rs 85-93 [entries]. *)
Definition irec_entries (r : record) : res node_entries :=
  let? x := irec_range r in
  let '(a, b, p) := x in
  let? s := idx_range (rec_data r) a b in Ok (mkNE s p).
(** src/index_record.rs 128-134 [into_entry_ranges]. *)
Definition irec_entry_ranges (r : record) : res ranges :=
  let? x := irec_range r in
  let '(a, b, p) := x in Ok (mkRanges (rec_data r) a b p).

(** ** src/structured_values/index_allocation.rs; an [NtfsIndexAllocation] is its value. *)
(** src/structured_values/index_allocation.rs 93-107 [from_attribute_value]. *)
Definition ia_of_value (v : aval) : res aval :=
  match v with
  | AVSimple (SVRes r) => Err (EUnexpectedResidentAttribute (res_data_position r))
  | _ => Ok v
  end.

(** src/structured_values/index_allocation.rs 46-80 [record_from_vcn]. *)
Definition record_from_vcn (fuel : nat) (nt : ntfs) (v : aval) (size vcn : Z) : M record :=
  try off <- vcn_offset (cluster_size nt) vcn;
  fun d =>
    match av_seek fuel v (SCurrent off) d with
    | (d1, (v1, Ok _)) =>
        if av_len v1 <=? av_stream_position v1
        then (d1, Err (EVcnOutOfBoundsInIndexAllocation (av_data_position v) vcn))
        else
          (do r <- irec_new fuel v1 size;
           try x <- irec_vcn r;
           if x =? vcn then mret r else mlift (Err (EVcnMismatchInIndexAllocation (av_data_position v) vcn x))) d1
    | (d1, (_, Err e)) => (d1, Err e)
    | (d1, (_, Panic)) => (d1, Panic)
    | (d1, (_, OutOfFuel)) => (d1, OutOfFuel)
    end.

(** src/structured_values/index_allocation.rs 141-163 [NtfsIndexRecords::next]; the iterator state is the value. *)
Definition index_records_next (fuel : nat) (size : Z) (v : aval) (d : dev) : dev * (aval * item record) :=
  if av_len v <=? av_stream_position v then (d, (v, None))
  else
    match irec_new fuel v size d with
    | (d1, Ok r) =>
        match av_seek fuel v (SCurrent size) d1 with
        | (d2, (v2, Ok _)) => (d2, (v2, Some (Ok r)))
        | (d2, (v2, Err e)) => (d2, (v2, Some (Err e)))
        | (d2, (v2, Panic)) => (d2, (v2, Some Panic))
        | (d2, (v2, OutOfFuel)) => (d2, (v2, Some OutOfFuel))
        end
    | (d1, Err e) => (d1, (v, Some (Err e)))
    | (d1, Panic) => (d1, (v, Some Panic))
    | (d1, OutOfFuel) => (d1, (v, Some OutOfFuel))
    end.

(** ** src/index.rs *)
(** src/index.rs 30-39 [NtfsIndex]. *)
Record index := mkIndex { ix_record_size : Z; ix_root : ranges; ix_root_position : position; ix_alloc : option attr_item }.

(** src/index.rs 53-82 [new]. *)
Definition index_new (root_item : attr_item) (alloc_item : option attr_item) : res index :=
  let? ra := item_to_attribute root_item in
  let? _u := attr_ensure_ty ra TY_IndexRoot in
  let? ir := attr_index_root ra in
  let? _v :=
    (match alloc_item with
     | Some i => let? a := item_to_attribute i in attr_ensure_ty a TY_IndexAllocation
     | None =>
         let? large := ir_is_large ir in
         if (large : bool) then Err (EMissingIndexAllocation (ir_position ir)) else Ok tt
     end) in
  let? size := ir_record_size ir in
  let? g := ir_entry_ranges ir in
  Ok (mkIndex size g (ir_position ir) alloc_item).

(** src/file.rs 263-297 [directory_index] ("$I30"). *)
Definition DIRECTORY_INDEX_NAME : list Z := [36; 73; 51; 48].
(** src/file.rs 263-297 [directory_index]. *)
Definition directory_index (fuel : nat) (nt : ntfs) (f : file) : M index :=
  try dir <- f_is_directory f;
  if negb dir then mlift (Err (ENotADirectory (f_position f)))
  else
    do root_item <- find_attribute fuel nt f TY_IndexRoot (Some DIRECTORY_INDEX_NAME);
    try ra <- item_to_attribute root_item;
    try ir <- attr_index_root ra;
    try large <- ir_is_large ir;
    do alloc_item <- (if (large : bool)
      then (do i <- find_attribute fuel nt f TY_IndexAllocation (Some DIRECTORY_INDEX_NAME); mret (Some i))
      else mret None);
    mlift (index_new root_item alloc_item).

(** src/index.rs 165-183 and 303-318: read the subnode [vcn] and get an iterator over its entries. *)
Definition index_subnode (fuel : nat) (nt : ntfs) (ix : index) (vcn : Z) : M ranges :=
  try i <- (match ix_alloc ix with Some i => Ok i | None => Err (EMissingIndexAllocation (ix_root_position ix)) end);
  try a <- item_to_attribute i;
  try _u <- attr_ensure_ty a TY_IndexAllocation;
  do v <- attr_value nt a;
  try ia <- ia_of_value v;
  do r <- record_from_vcn fuel nt ia (ix_record_size ix) vcn;
  mlift (irec_entry_ranges r).

(** src/index.rs 102-109 [NtfsIndexEntries]; the stacks have their top at the head. *)
Record ientries := mkIEs { es_iters : list ranges; es_following : list (option erange) }.
(** src/index.rs 115-124 [new]. *)
Definition index_entries (ix : index) : ientries := mkIEs [ix_root ix] [].

(** src/index.rs 224-227: the entry that is returned. *)
Definition entries_yield (st : ientries) (r : erange) : ientries * item ientry :=
  match es_iters st with
  | [] => (st, Some Panic)
  | g :: _ => (st, Some (er_to_entry r (rg_data g)))
  end.

(** src/index.rs 127-228 [next].  [sub] reads a subnode ([index_subnode] of the index); [fuel] bounds the number of loop iterations. *)
Fixpoint entries_loop (sub : Z -> M ranges) (fuel : nat) (st : ientries) (d : dev) : dev * (ientries * item ientry) :=
  match fuel with
  | O => (d, (st, Some OutOfFuel))
  | S k =>
      match es_iters st with
      | [] => (d, (st, None))
      | g :: below =>
          match ranges_next g with
          | (g', Some (Ok r)) =>
              let st1 := mkIEs (g' :: below) (es_following st) in
              match (let? e := er_to_entry r (rg_data g') in let? last := ie_is_last e in Ok (e, last)) with
              | Ok (e, last) =>
                  match ie_subnode_vcn e with
                  | Some (Ok vcn) =>
                      match sub vcn d with
                      | (d1, Ok sg) =>
                          entries_loop sub k
                            (mkIEs (sg :: g' :: below) ((if (last : bool) then None else Some r) :: es_following st)) d1
                      | (d1, Err x) => (d1, (st1, Some (Err x)))
                      | (d1, Panic) => (d1, (st1, Some Panic))
                      | (d1, OutOfFuel) => (d1, (st1, Some OutOfFuel))
                      end
                  | Some (Err x) => (d, (st1, Some (Err x)))
                  | Some Panic => (d, (st1, Some Panic))
                  | Some OutOfFuel => (d, (st1, Some OutOfFuel))
                  | None => if (last : bool) then entries_loop sub k st1 d else (d, entries_yield st1 r)
                  end
              | Err x => (d, (st1, Some (Err x)))
              | Panic => (d, (st1, Some Panic))
              | OutOfFuel => (d, (st1, Some OutOfFuel))
              end
          | (g', Some (Err x)) => (d, (mkIEs (g' :: below) (es_following st), Some (Err x)))
          | (g', Some Panic) => (d, (mkIEs (g' :: below) (es_following st), Some Panic))
          | (g', Some OutOfFuel) => (d, (mkIEs (g' :: below) (es_following st), Some OutOfFuel))
          | (g', None) =>
              match es_following st with
              | [] => (d, (mkIEs below [], None))
              | Some r :: fs => (d, entries_yield (mkIEs below fs) r)
              | None :: fs => entries_loop sub k (mkIEs below fs) d
              end
          end
      end
  end.
(** src/index.rs 127-228 [NtfsIndexEntries::next] of an index. *)
Definition entries_next (fuel : nat) (nt : ntfs) (ix : index) (st : ientries) (d : dev) : dev * (ientries * item ientry) :=
  entries_loop (index_subnode fuel nt ix) fuel st d.

(** src/index.rs 259-320 [NtfsIndexFinder::find]: the loop, at the iterator [g]. [cmp] is the user's function. *)
Fixpoint find_loop {K} (kp : list Z -> position -> res K) (cmp : K -> res comparison) (sub : Z -> M ranges) (fuel : nat) (g : ranges) (d : dev)
  : dev * item ientry :=
  match fuel with
  | O => (d, Some OutOfFuel)
  | S k =>
      match ranges_next g with
      | (_, None) => (d, None)
      | (g', Some (Ok r)) =>
          match er_to_entry r (rg_data g') with
          | Ok e =>
              match (match ie_key kp e with
                     | Some x => let? key := x in cmp key
                     | None => Ok Lt
                     end) with
              | Ok Eq => (d, Some (er_to_entry r (rg_data g')))
              | Ok Gt => find_loop kp cmp sub k g' d
              | Ok Lt =>
                  match ie_subnode_vcn e with
                  | None => (d, None)
                  | Some (Ok vcn) =>
                      match sub vcn d with
                      | (d1, Ok sg) => find_loop kp cmp sub k sg d1
                      | (d1, Err x) => (d1, Some (Err x))
                      | (d1, Panic) => (d1, Some Panic)
                      | (d1, OutOfFuel) => (d1, Some OutOfFuel)
                      end
                  | Some (Err x) => (d, Some (Err x))
                  | Some Panic => (d, Some Panic)
                  | Some OutOfFuel => (d, Some OutOfFuel)
                  end
              | Err x => (d, Some (Err x))
              | Panic => (d, Some Panic)
              | OutOfFuel => (d, Some OutOfFuel)
              end
          | Err x => (d, Some (Err x))
          | Panic => (d, Some Panic)
          | OutOfFuel => (d, Some OutOfFuel)
          end
      | (_, Some (Err x)) => (d, Some (Err x))
      | (_, Some Panic) => (d, Some Panic)
      | (_, Some OutOfFuel) => (d, Some OutOfFuel)
      end
  end.
(** src/index.rs 259-320 [NtfsIndexFinder::find] of a fresh finder. *)
Definition index_find {K} (kp : list Z -> position -> res K) (cmp : K -> res comparison) (fuel : nat) (nt : ntfs) (ix : index) (d : dev)
  : dev * item ientry := find_loop kp cmp (index_subnode fuel nt ix) fuel (ix_root ix) d.

(** src/indexes/file_name.rs 25-37 [NtfsFileNameIndex::find]; [name] are the code units of the name. *)
Definition file_name_find (fuel : nat) (nt : ntfs) (ix : index) (name : list Z) (d : dev) : dev * item ientry :=
  index_find fn_from_slice (fun k => upcase_cmp nt name (units (fn_name k))) fuel nt ix d.
