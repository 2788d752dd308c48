(** * File records and their attributes: src/file.rs, src/attribute.rs.

    [debug_assert!]s are not modelled. *)
From Verif Require Import Base Dev Types Record DataRuns Stream NonResident Resident.

(** src/file.rs 127-131 [NtfsFile]. The reference to the [Ntfs] object is passed to the functions that use it. *)
Record file := mkFile { f_rec : record; f_number : Z }.
(** src/file.rs 495-497 [record_data], 491-493 [position], 303-305 [file_record_number] is [f_number]. *)
Definition f_data (f : file) : list Z := rec_data (f_rec f).
(** src/file.rs 491-493 [position]. *)
Definition f_position (f : file) : position := rec_position (f_rec f).

(** src/structured_values/attribute_list.rs 61-66 [NtfsAttributeList]; 113-115 [NtfsAttributeListEntries] wraps it, its
    iteration state is the remaining slice with its position, or the position of the value reader. *)
Inductive alist := ALResident (slice : list Z) (p : position) | ALNonResident (v : nrv).

(** src/attribute.rs 180-186 [NtfsAttribute]. *)
Record attribute := mkAttr { at_file : file; at_offset : Z; at_entries : option alist }.

(** src/attribute.rs 29. *)
Definition ATTRIBUTE_HEADER_SIZE : Z := 16.

(** src/attribute.rs 117-168 [NtfsAttributeType]: types are their numbers. *)
Definition TY_StandardInformation : Z := 16.
(** src/attribute.rs 117-168 [NtfsAttributeType]. *)
Definition TY_AttributeList : Z := 32.
(** src/attribute.rs 117-168 [NtfsAttributeType]. *)
Definition TY_FileName : Z := 48.
(** src/attribute.rs 117-168 [NtfsAttributeType]. *)
Definition TY_ObjectId : Z := 64.
(** src/attribute.rs 117-168 [NtfsAttributeType]. *)
Definition TY_VolumeName : Z := 96.
(** src/attribute.rs 117-168 [NtfsAttributeType]. *)
Definition TY_VolumeInformation : Z := 112.
(** src/attribute.rs 117-168 [NtfsAttributeType]. *)
Definition TY_Data : Z := 128.
(** src/attribute.rs 117-168 [NtfsAttributeType]. *)
Definition TY_IndexRoot : Z := 144.
(** src/attribute.rs 117-168 [NtfsAttributeType]. *)
Definition TY_IndexAllocation : Z := 160.
(** src/attribute.rs 117-168 [NtfsAttributeType]. *)
Definition TY_End : Z := 4294967295.
(** src/attribute.rs 115-168: [NtfsAttributeType::n], derived by the enumn crate. *)
Definition known_type (ty : Z) : bool :=
  ((16 <=? ty) && (ty <=? 256) && (ty mod 16 =? 0)) || (ty =? TY_End).

(** src/attribute.rs 326-328 [position]. *)
Definition attr_position (a : attribute) : position := pos_add (f_position (at_file a)) (at_offset a).

(** src/attribute.rs 209-212 and the other accessors: reading of a header field at [off] of the attribute. *)
Definition attr_rd (n : Z) (a : attribute) (off : Z) : res Z := rd n (f_data (at_file a)) (at_offset a + off).

(** src/attribute.rs 209-212 [attribute_length]. *)
Definition attr_length (a : attribute) : res Z := attr_rd 4 a 4.
(** src/attribute.rs 228-233 [flags] ([from_bits_truncate] of COMPRESSED 1, ENCRYPTED 0x4000, SPARSE 0x8000). *)
Definition attr_flags (a : attribute) : res Z := let? x := attr_rd 2 a 12 in Ok (Z.land x 49153).
(** src/attribute.rs 236-239 [instance]. *)
Definition attr_instance (a : attribute) : res Z := attr_rd 2 a 14.
(** src/attribute.rs 243-247 [is_resident]. *)
Definition attr_is_resident (a : attribute) : res bool := let? x := attr_rd 1 a 8 in Ok (x =? 0).
(** src/attribute.rs 267-270 [name_offset]. *)
Definition attr_name_offset (a : attribute) : res Z := attr_rd 2 a 10.
(** src/attribute.rs 277-281 [name_length], in bytes. *)
Definition attr_name_length (a : attribute) : res Z := let? x := attr_rd 1 a 9 in Ok (x * 2).

(** src/attribute.rs 395-403 [ty]. *)
Definition attr_ty (a : attribute) : res Z :=
  let? ty := attr_rd 4 a 0 in
  if known_type ty then Ok ty else Err (EUnsupportedAttributeType (attr_position a) ty).

(** src/attribute.rs 405-436 [validate_attribute_length]. *)
Definition attr_validate_length (a : attribute) : res unit :=
  let remaining := Z.max 0 (zlen (f_data (at_file a)) - at_offset a) in
  if remaining <? ATTRIBUTE_HEADER_SIZE
  then Err (EInvalidAttributeLength (attr_position a) ATTRIBUTE_HEADER_SIZE remaining)
  else
    let? len := attr_length a in
    if len <? ATTRIBUTE_HEADER_SIZE
    then Err (EInvalidAttributeLength (attr_position a) ATTRIBUTE_HEADER_SIZE len)
    else if remaining <? len then Err (EInvalidAttributeLength (attr_position a) len remaining)
    else Ok tt.

(** src/attribute.rs 189-202 [new]. *)
Definition attr_new (f : file) (offset : Z) (entries : option alist) : res attribute :=
  let a := mkAttr f offset entries in
  let? _u := attr_validate_length a in Ok a.

(** src/attribute.rs 214-225 [ensure_ty]. *)
Definition attr_ensure_ty (a : attribute) (expected : Z) : res unit :=
  let? ty := attr_ty a in
  if ty =? expected then Ok tt else Err (EAttributeOfDifferentType (attr_position a) expected ty).

(** src/attribute.rs 438-458 [validate_name_sizes]. *)
Definition attr_validate_name (a : attribute) : res unit :=
  let? start := attr_name_offset a in
  let? len := attr_length a in
  if len <=? start then Err (EInvalidAttributeNameOffset (attr_position a) start len)
  else
    let? nl := attr_name_length a in
    if len <? start + nl then Err (EInvalidAttributeNameLength (attr_position a) (start + nl) len)
    else Ok tt.

(** src/attribute.rs 253-265 [name]: the bytes of the UTF-16 string. *)
Definition attr_name (a : attribute) : res (list Z) :=
  let? no := attr_name_offset a in
  let? nl := attr_name_length a in
  if (no =? 0) || (nl =? 0) then Ok []
  else
    let? _u := attr_validate_name a in
    idx_range (f_data (at_file a)) (at_offset a + no) (at_offset a + no + nl).

(** src/attribute.rs 366-370 [resident_value_length], 372-376 [resident_value_offset]. *)
Definition attr_resident_value_length (a : attribute) : res Z := attr_rd 4 a 16.
(** src/attribute.rs 372-376 [resident_value_offset]. *)
Definition attr_resident_value_offset (a : attribute) : res Z := attr_rd 2 a 20.

(** src/attribute.rs 460-495 [validate_resident_value_sizes]. *)
Definition attr_validate_resident (a : attribute) : res unit :=
  let? len := attr_length a in
  let? start := attr_resident_value_offset a in
  if len <? start then Err (EInvalidResidentAttributeValueOffset (attr_position a) start len)
  else
    let? l := attr_resident_value_length a in
    if U32_MAX <? start + l then Err (EInvalidResidentAttributeValueLength (attr_position a) l start len)
    else if len <? start + l then Err (EInvalidResidentAttributeValueLength (attr_position a) l start len)
    else Ok tt.

(** src/attribute.rs 355-364 [resident_value]. *)
Definition attr_resident_value (a : attribute) : res resv :=
  let? _u := attr_validate_resident a in
  let? start := attr_resident_value_offset a in
  let? l := attr_resident_value_length a in
  let? data := idx_range (f_data (at_file a)) (at_offset a + start) (at_offset a + start + l) in
  Ok (res_new data (attr_position a)).

(** src/attribute.rs 309-313 [non_resident_value_data_size], 315-319 [non_resident_value_data_runs_offset]. *)
Definition attr_nr_data_size (a : attribute) : res Z := attr_rd 8 a 48.
(** src/attribute.rs 315-319 [non_resident_value_data_runs_offset]. *)
Definition attr_nr_runs_offset (a : attribute) : res Z := attr_rd 2 a 32.

(** src/attribute.rs 294-307 [non_resident_value_data_and_position]. *)
Definition attr_nr_data_and_position (a : attribute) : res (list Z * position) :=
  let? ro := attr_nr_runs_offset a in
  let? len := attr_length a in
  let start := at_offset a + ro in
  let end_ := at_offset a + len in
  let p := pos_add (f_position (at_file a)) start in
  match get_range (f_data (at_file a)) start end_ with
  | Some data => Ok (data, p)
  | None => Err (EInvalidNonResidentValueDataRange p start end_ (zlen (f_data (at_file a))))
  end.

(** src/attribute.rs 283-292 [non_resident_value]. *)
Definition attr_nr_value (cs : Z) (a : attribute) : res nrv :=
  let? dp := attr_nr_data_and_position a in
  let? size := attr_nr_data_size a in
  nr_new cs (fst dp) (snd dp) size.

(** src/attribute_value/mod.rs 26-33: the two variants that do not need an attribute list. *)
Inductive sval := SVRes (v : resv) | SVNr (v : nrv).

(** src/attribute.rs 517-523: [value] of an attribute without [list_entries]. *)
Definition attr_value_simple (cs : Z) (a : attribute) : res sval :=
  let? r := attr_is_resident a in
  if (r : bool) then let? v := attr_resident_value a in Ok (SVRes v)
  else let? v := attr_nr_value cs a in Ok (SVNr v).

(** src/attribute.rs 527-533 [value_length]. *)
Definition attr_value_length (a : attribute) : res Z :=
  let? r := attr_is_resident a in
  if (r : bool) then attr_resident_value_length a else attr_nr_data_size a.

(** src/attribute_value/mod.rs 50-56 [data_position], 64-70 [len], 74-103 [read], [seek], [stream_position] on these variants. *)
Definition sv_data_position (v : sval) : position :=
  match v with SVRes r => res_data_position r | SVNr n => nr_data_position n end.
(** src/attribute_value/mod.rs 64-70 [len]. *)
Definition sv_len (v : sval) : Z := match v with SVRes r => res_len r | SVNr n => nr_len n end.
(** src/attribute_value/mod.rs 96-102 [stream_position]. *)
Definition sv_stream_position (v : sval) : Z :=
  match v with SVRes r => res_stream_position r | SVNr n => nr_stream_position n end.
(** src/attribute_value/mod.rs 74-83 [read]. *)
Definition sv_read (v : sval) (n : Z) (d : dev) : dev * (sval * res (list Z)) :=
  match v with
  | SVRes r => let '(d', (r', x)) := res_read r n d in (d', (SVRes r', x))
  | SVNr r => let '(d', (r', x)) := nr_read r n d in (d', (SVNr r', x))
  end.
(** src/attribute_value/mod.rs 85-94 [seek]. *)
Definition sv_seek (v : sval) (s : seekfrom) (d : dev) : dev * (sval * res Z) :=
  match v with
  | SVRes r => let '(d', (r', x)) := res_seek r s d in (d', (SVRes r', x))
  | SVNr r => let '(d', (r', x)) := nr_seek r s d in (d', (SVNr r', x))
  end.

(** src/file.rs 404-407 [first_attribute_offset]. *)
Definition f_first_attribute_offset (f : file) : res Z := rd_u16 (f_data f) 20.

(** src/attribute.rs 740-746 [NtfsAttributesRaw::new]: the iterator state is [items_range.start].  Simplified: [items_range.end] is left out, since
    [next] never uses it, and so is the read of [data_size] for it, which [validate_sizes] has done before for every file. *)
Definition raw_start (f : file) : res Z := f_first_attribute_offset f.

(** src/attribute.rs 752-769 [NtfsAttributesRaw::next]. *)
Definition raw_next (f : file) (start : Z) : Z * item attribute :=
  match get_range (f_data f) start (start + 4) with
  | None => (start, None)
  | Some s =>
      if le_val s =? TY_End then (start, None)
      else match attr_new f start None with
      | Ok a =>
          match attr_length a with
          | Ok len => (start + len, Some (Ok a))
          | _ => (start, Some Panic)
          end
      | Err e => (start, Some (Err e))
      | Panic => (start, Some Panic)
      | OutOfFuel => (start, Some OutOfFuel)
      end
  end.

(** src/file.rs 352-385, 208-245: comparison of the UTF-16LE bytes of a name with a [&str], which is represented by its UTF-16 code units
    ([PartialEq<&str> for U16StrLe] of the nt-string crate). *)
Fixpoint units (bs : list Z) : list Z :=
  match bs with
  | lo :: hi :: t => lo + 256 * hi :: units t
  | _ => []
  end.
(** src/file.rs 352-385 [find_resident_attribute]: the comparison of the name ([PartialEq] of the nt-string crate). *)
Definition name_eq (bs : list Z) (s : list Z) : bool := list_eqb (units bs) s.

(** src/file.rs 352-385: the body of the loop of [find_resident_attribute]: does this attribute match? *)
Definition attr_matches (a : attribute) (ty : Z) (match_name : option (list Z)) (match_instance : option Z) : res bool :=
  let? t := attr_ty a in
  if negb (t =? ty) then Ok false else
  let? i := (match match_instance with
             | Some inst => let? x := attr_instance a in Ok (x =? inst)
             | None => Ok true end) in
  if negb i then Ok false else
  match match_name with
  | Some name => let? n := attr_name a in Ok (name_eq n name)
  | None => Ok true
  end.

(** src/file.rs 352-385 [find_resident_attribute]: the loop; every attribute has at least 16 bytes, so [length data] iterations suffice. *)
Fixpoint find_resident_loop (fuel : nat) (f : file) (ty : Z) (match_name : option (list Z)) (match_instance : option Z) (s : Z)
  : res attribute :=
  match fuel with
  | O => OutOfFuel
  | S k =>
      match raw_next f s with
      | (_, None) => Err (EAttributeNotFound (f_position f) ty)
      | (s', Some r) =>
          let? a := r in
          let? m := attr_matches a ty match_name match_instance in
          if (m : bool) then Ok a else find_resident_loop k f ty match_name match_instance s'
      end
  end.

(** src/file.rs 352-385 [find_resident_attribute]. *)
Definition find_resident_attribute (f : file) (ty : Z) (match_name : option (list Z)) (match_instance : option Z) : res attribute :=
  let? s := raw_start f in
  find_resident_loop (length (f_data f) + 1) f ty match_name match_instance s.

(** src/attribute.rs 339-353 [resident_structured_value], up to the parsing function of the structured value. *)
Definition attr_resident_structured (a : attribute) (ty : Z) : res resv :=
  let? _u := attr_ensure_ty a ty in
  let? r := attr_is_resident a in
  if (r : bool) then attr_resident_value a else Err (EUnexpectedNonResidentAttribute (attr_position a)).
