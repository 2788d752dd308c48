(** * Attribute lists: src/structured_values/attribute_list.rs, src/attribute_value/attribute_list_non_resident.rs,
      and what builds on them in src/attribute.rs and src/file.rs. *)
From Verif Require Import Base Dev Types Record DataRuns Stream NonResident Resident Attribute File Structured.

(** src/structured_values/attribute_list.rs 30-47, 177-181 [NtfsAttributeListEntry]. [le_ref] are the 8 bytes of the file reference. *)
Record list_entry := mkLE {
  le_raw_ty : Z; le_length : Z; le_raw_name_length : Z; le_lowest_vcn : Z; le_ref : list Z; le_instance : Z; le_name : list Z;
  le_position : position }.

(** src/structured_values/attribute_list.rs 30-47: the fields of the header in the order in which binrw reads them. *)
Definition le_of_header (h : list Z) (name : list Z) (p : position) : list_entry :=
  mkLE (field 4 h 0) (field 2 h 4) (field 1 h 6) (to_i64 (field 8 h 8)) (slice h 16 24) (field 2 h 24) name p.

(** src/structured_values/attribute_list.rs 184-199 [new], 248-259 [read_name], 301-314 [validate_entry_and_name_length]. *)
Definition le_new {S} (rx : Z -> RM S (list Z)) (p : position) : RM S list_entry :=
  rdo h <- rx 26;
  let nl := field 1 h 6 * 2 in
  if field 2 h 4 <? 26 + nl then rm_err (EInvalidStructuredValueSize p TY_AttributeList (field 2 h 4) (26 + nl))
  else rdo name <- rx nl; rm_ret (le_of_header h name p).

(** src/structured_values/attribute_list.rs 294-299 [ty]. *)
Definition le_ty (e : list_entry) : res Z :=
  if known_type (le_raw_ty e) then Ok (le_raw_ty e) else Err (EUnsupportedAttributeType (le_position e) (le_raw_ty e)).
(** src/structured_values/attribute_list.rs 202-204 [base_file_reference], src/file_reference.rs 26-28 [file_record_number]. *)
Definition le_number (e : list_entry) : Z := fr_number (le_ref e).

(** src/structured_values/attribute_list.rs 284-290 [to_file]. *)
Definition le_to_file (nt : ntfs) (e : list_entry) : M file := ntfs_file nt (le_number e).

(** src/structured_values/attribute_list.rs 268-281 [to_attribute]; the [assert_eq!] is a panic. *)
Definition le_to_attribute (e : list_entry) (f : file) : res attribute :=
  if negb (f_number f =? le_number e) then Panic
  else
    let? ty := le_ty e in
    find_resident_attribute f ty None (Some (le_instance e)).

(** src/structured_values/attribute_list.rs 155-172 [next_resident], 133-153 [next_non_resident], 123-131 [next]. *)
Definition alist_next (l : alist) (d : dev) : dev * (alist * item list_entry) :=
  match l with
  | ALResident [] p => (d, (l, None))
  | ALResident sl p =>
      match snd (snd (le_new cursor_exact p (res_new sl p) no_dev)) with
      | Ok e =>
          if le_length e <=? zlen sl then (d, (ALResident (zdrop (le_length e) sl) (pos_add p (le_length e)), Some (Ok e)))
          else (d, (l, None))
      | Err x => (d, (l, Some (Err x)))
      | Panic => (d, (l, Some Panic))
      | OutOfFuel => (d, (l, Some OutOfFuel))
      end
  | ALNonResident v =>
      if nr_len v <=? nr_stream_position v then (d, (l, None))
      else
        match le_new (attached_exact nr_read) (nr_data_position v) v d with
        | (d1, (_, Ok e)) =>
            match nr_seek v (SCurrent (le_length e)) d1 with
            | (d2, (v2, Ok _)) => (d2, (ALNonResident v2, Some (Ok e)))
            | (d2, (v2, Err x)) => (d2, (ALNonResident v2, Some (Err x)))
            | (d2, (v2, Panic)) => (d2, (ALNonResident v2, Some Panic))
            | (d2, (v2, OutOfFuel)) => (d2, (ALNonResident v2, Some OutOfFuel))
            end
        | (d1, (_, Err x)) => (d1, (l, Some (Err x)))
        | (d1, (_, Panic)) => (d1, (l, Some Panic))
        | (d1, (_, OutOfFuel)) => (d1, (l, Some OutOfFuel))
        end
  end.

(** src/structured_values/attribute_list.rs 86-104 [from_attribute_value] for the two simple kinds of values; 70-72 [entries] starts an iteration. *)
Definition alist_of_sval (v : sval) : alist :=
  match v with SVRes r => ALResident (rv_data r) (res_data_position r) | SVNr n => ALNonResident n end.

(** ** [NtfsAttributeListNonResidentAttributeValue]: src/attribute_value/attribute_list_non_resident.rs *)
(** src/attribute_value/attribute_list_non_resident.rs 321-327 [AttributeState]. *)
Record attr_state := mkAS { as_file : file; as_offset : Z; as_runs : option druns }.
(** src/attribute_value/attribute_list_non_resident.rs 26-39, 285-289. [lv_entries], [lv_instance] and [lv_ty] are the [connected_entries]. *)
Record lval := mkLv {
  lv_ntfs : ntfs; lv_initial : alist; lv_entries : option alist; lv_instance : Z; lv_ty : Z; lv_size : Z;
  lv_attr : option attr_state; lv_ss : stream_state }.

(** src/attribute_value/attribute_list_non_resident.rs 26-39: assignment to the field [stream_state]. *)
Definition lv_set_ss (v : lval) (ss : stream_state) : lval :=
  mkLv (lv_ntfs v) (lv_initial v) (lv_entries v) (lv_instance v) (lv_ty v) (lv_size v) (lv_attr v) ss.
(** src/attribute_value/attribute_list_non_resident.rs 26-39: assignment to the field [attribute_state]. *)
Definition lv_set_attr (v : lval) (a : option attr_state) : lval :=
  mkLv (lv_ntfs v) (lv_initial v) (lv_entries v) (lv_instance v) (lv_ty v) (lv_size v) a (lv_ss v).
(** src/attribute_value/attribute_list_non_resident.rs 26-39: assignment to the iterator in [connected_entries]. *)
Definition lv_set_entries (v : lval) (l : option alist) : lval :=
  mkLv (lv_ntfs v) (lv_initial v) l (lv_instance v) (lv_ty v) (lv_size v) (lv_attr v) (lv_ss v).
(** src/attribute_value/non_resident.rs 710-712 [set_stream_data_run]. *)
Definition lv_set_run (v : lval) (r : option run) : lval :=
  lv_set_ss v (mkSS r (ss_pos (lv_ss v)) (ss_size (lv_ss v))).

(** src/attribute_value/attribute_list_non_resident.rs 304-317 [AttributeListConnectedEntries::next]. *)
Definition lv_next_entry (v : lval) (d : dev) : dev * (lval * item list_entry) :=
  match lv_entries v with
  | None => (d, (v, None))
  | Some l =>
      match alist_next l d with
      | (d1, (l1, None)) => (d1, (lv_set_entries v (Some l1), None))
      | (d1, (l1, Some (Ok e))) =>
          let v1 := lv_set_entries v (Some l1) in
          if le_instance e =? lv_instance v then
            match le_ty e with
            | Ok ty => if ty =? lv_ty v then (d1, (v1, Some (Ok e))) else (d1, (lv_set_entries v None, None))
            | Err x => (d1, (v1, Some (Err x)))
            | Panic => (d1, (v1, Some Panic))
            | OutOfFuel => (d1, (v1, Some OutOfFuel))
            end
          else (d1, (lv_set_entries v None, None))
      | (d1, (l1, Some (Err x))) => (d1, (lv_set_entries v (Some l1), Some (Err x)))
      | (d1, (l1, Some Panic)) => (d1, (lv_set_entries v (Some l1), Some Panic))
      | (d1, (l1, Some OutOfFuel)) => (d1, (lv_set_entries v (Some l1), Some OutOfFuel))
      end
  end.

(** src/attribute_value/attribute_list_non_resident.rs 89-125 [next_data_run].  The state of the data runs iterator is taken out and only put back when a run was obtained. *)
Definition lv_next_data_run (v : lval) : lval * res bool :=
  match lv_attr v with
  | None => (v, Ok false)
  | Some a =>
      match as_runs a with
      | None => (v, Ok false)
      | Some s =>
          let v0 := lv_set_attr v (Some (mkAS (as_file a) (as_offset a) None)) in
          match (let? at_ := attr_new (as_file a) (as_offset a) None in attr_nr_data_and_position at_) with
          | Ok (data, p) =>
              match druns_next (cluster_size (lv_ntfs v)) data p s with
              | (_, None) => (v0, Ok false)
              | (s', Some (Ok r)) =>
                  (lv_set_attr (lv_set_run v (Some r)) (Some (mkAS (as_file a) (as_offset a) (Some s'))), Ok true)
              | (_, Some (Err e)) => (v0, Err e)
              | (_, Some Panic) => (v0, Panic)
              | (_, Some OutOfFuel) => (v0, OutOfFuel)
              end
          | Err e => (v0, Err e)
          | Panic => (v0, Panic)
          | OutOfFuel => (v0, OutOfFuel)
          end
      end
  end.

(** src/attribute_value/attribute_list_non_resident.rs 144-161: what [next_attribute] does with the attribute it has found: its data runs and their position. *)
Definition lv_attr_runs (a : attribute) : res (list Z * position) :=
  let? r := attr_is_resident a in
  if (r : bool) then Err (EUnexpectedResidentAttribute (attr_position a)) else attr_nr_data_and_position a.

(** src/attribute_value/attribute_list_non_resident.rs 128-172 [next_attribute]. *)
Definition lv_next_attribute (v : lval) (d : dev) : dev * (lval * res bool) :=
  match lv_next_entry v d with
  | (d1, (v1, None)) => (d1, (v1, Ok false))
  | (d1, (v1, Some (Ok e))) =>
      match le_to_file (lv_ntfs v) e d1 with
      | (d2, Ok f) =>
          match le_to_attribute e f with
          | Ok a =>
              match lv_attr_runs a with
              | Ok (data, p) =>
                  match druns_next (cluster_size (lv_ntfs v)) data p druns_start with
                  | (_, None) => (d2, (v1, Ok false))
                  | (s', Some (Ok r)) =>
                      (d2, (lv_set_attr (lv_set_run v1 (Some r)) (Some (mkAS f (at_offset a) (Some s'))), Ok true))
                  | (_, Some (Err x)) => (d2, (v1, Err x))
                  | (_, Some Panic) => (d2, (v1, Panic))
                  | (_, Some OutOfFuel) => (d2, (v1, OutOfFuel))
                  end
              | Err x => (d2, (v1, Err x))
              | Panic => (d2, (v1, Panic))
              | OutOfFuel => (d2, (v1, OutOfFuel))
              end
          | Err x => (d2, (v1, Err x))
          | Panic => (d2, (v1, Panic))
          | OutOfFuel => (d2, (v1, OutOfFuel))
          end
      | (d2, Err x) => (d2, (v1, Err x))
      | (d2, Panic) => (d2, (v1, Panic))
      | (d2, OutOfFuel) => (d2, (v1, OutOfFuel))
      end
  | (d1, (v1, Some (Err x))) => (d1, (v1, Err x))
  | (d1, (v1, Some Panic)) => (d1, (v1, Panic))
  | (d1, (v1, Some OutOfFuel)) => (d1, (v1, OutOfFuel))
  end.

(** src/attribute_value/attribute_list_non_resident.rs 42-68 [new]. *)
Definition lv_new (nt : ntfs) (l : alist) (instance ty data_size : Z) : M lval := fun d =>
  match lv_next_attribute (mkLv nt l (Some l) instance ty data_size None (ss_new data_size)) d with
  | (d1, (v1, Ok _)) => (d1, Ok v1)
  | (d1, (_, Err x)) => (d1, Err x)
  | (d1, (_, Panic)) => (d1, Panic)
  | (d1, (_, OutOfFuel)) => (d1, OutOfFuel)
  end.

(** src/attribute_value/attribute_list_non_resident.rs 180-190 [rewind]. *)
Definition lv_rewind (v : lval) (d : dev) : dev * (lval * res unit) :=
  match lv_next_attribute (lv_set_ss (lv_set_entries v (Some (lv_initial v))) (ss_new (lv_size v))) d with
  | (d1, (v1, Ok _)) => (d1, (v1, Ok tt))
  | (d1, (v1, Err x)) => (d1, (v1, Err x))
  | (d1, (v1, Panic)) => (d1, (v1, Panic))
  | (d1, (v1, OutOfFuel)) => (d1, (v1, OutOfFuel))
  end.

(** src/attribute_value/attribute_list_non_resident.rs 207-220 and 251-265: move to the next data run of the attribute, or to the first one of the next attribute. *)
Definition lv_advance (v : lval) (d : dev) : dev * (lval * res bool) :=
  match lv_next_data_run v with
  | (v1, Ok true) => (d, (v1, Ok true))
  | (v1, Ok false) => lv_next_attribute v1 d
  | (v1, x) => (d, (v1, x))
  end.

(** src/attribute_value/attribute_list_non_resident.rs 193-282: what the shared loops of Stream.v need of this reader. *)
Definition lv_ops : stream_ops lval :=
  {| so_ss := lv_ss; so_set := lv_set_ss; so_advance := lv_advance; so_rewind := lv_rewind |}.

(** src/attribute_value/attribute_list_non_resident.rs 84-86 [len], 74-76 [data_position], 279-281 [stream_position]. *)
Definition lv_len (v : lval) : Z := lv_size v.
(** src/attribute_value/attribute_list_non_resident.rs 74-76 [data_position]. *)
Definition lv_data_position (v : lval) : position := ss_data_position (lv_ss v).
(** src/attribute_value/attribute_list_non_resident.rs 279-281 [stream_position]. *)
Definition lv_stream_position (v : lval) : Z := ss_pos (lv_ss v).
(** src/attribute_value/attribute_list_non_resident.rs 194-224 [read], 226-277 [seek].  [fuel] bounds the number of loop iterations. *)
Definition lv_read (fuel : nat) (v : lval) (n : Z) (d : dev) : dev * (lval * res (list Z)) := stream_read_loop lv_ops fuel v n [] d.
(** src/attribute_value/attribute_list_non_resident.rs 226-277 [seek]. *)
Definition lv_seek (fuel : nat) (v : lval) (pos : seekfrom) (d : dev) : dev * (lval * res Z) := stream_seek lv_ops fuel v (lv_len v) pos d.

(** ** src/attribute_value/mod.rs 26-33 [NtfsAttributeValue] *)
Inductive aval := AVSimple (v : sval) | AVList (v : lval).

(** src/attribute_value/mod.rs 50-56 [data_position], 64-70 [len], 74-103 [read], [seek], [stream_position]. *)
Definition av_len (v : aval) : Z := match v with AVSimple s => sv_len s | AVList l => lv_len l end.
(** src/attribute_value/mod.rs 50-56 [data_position]. *)
Definition av_data_position (v : aval) : position := match v with AVSimple s => sv_data_position s | AVList l => lv_data_position l end.
(** src/attribute_value/mod.rs 96-102 [stream_position]. *)
Definition av_stream_position (v : aval) : Z := match v with AVSimple s => sv_stream_position s | AVList l => lv_stream_position l end.
(** src/attribute_value/mod.rs 74-83 [read]. *)
Definition av_read (fuel : nat) (v : aval) (n : Z) (d : dev) : dev * (aval * res (list Z)) :=
  match v with
  | AVSimple s => let '(d', (s', x)) := sv_read s n d in (d', (AVSimple s', x))
  | AVList l => let '(d', (l', x)) := lv_read fuel l n d in (d', (AVList l', x))
  end.
(** src/attribute_value/mod.rs 85-94 [seek]. *)
Definition av_seek (fuel : nat) (v : aval) (pos : seekfrom) (d : dev) : dev * (aval * res Z) :=
  match v with
  | AVSimple s => let '(d', (s', x)) := sv_seek s pos d in (d', (AVSimple s', x))
  | AVList l => let '(d', (l', x)) := lv_seek fuel l pos d in (d', (AVList l', x))
  end.

(** src/attribute.rs 498-524 [value]. *)
Definition attr_value (nt : ntfs) (a : attribute) : M aval :=
  match at_entries a with
  | Some l =>
      try size <- attr_nr_data_size a;
      try inst <- attr_instance a;
      try ty <- attr_ty a;
      do v <- lv_new nt l inst ty size; mret (AVList v)
  | None => try v <- attr_value_simple (cluster_size nt) a; mret (AVSimple v)
  end.

(** src/attribute.rs 383-391 [structured_value] for the types whose [from_attribute_value] parses an attached reader
    (src/structured_values/standard_information.rs 152-161 etc.). *)
Definition from_aval {A} (fuel : nat) (new : (Z -> RM aval (list Z)) -> position -> Z -> RM aval A) (v : aval) : M A := fun d =>
  match new (attached_exact (av_read fuel)) (av_data_position v) (av_len v) v d with (d', (_, r)) => (d', r) end.
(** src/attribute.rs 383-391 [structured_value]: type check, value, parsing. *)
Definition attr_structured {A} (fuel : nat) (nt : ntfs) (new : (Z -> RM aval (list Z)) -> position -> Z -> RM aval A) (ty : Z) (a : attribute) : M A :=
  try _u <- attr_ensure_ty a ty;
  do v <- attr_value nt a;
  from_aval fuel new v.

(** ** src/attribute.rs 536-670: [NtfsAttributes] *)
(** src/attribute.rs 547-551. *)
Record attrs := mkAttrs { ax_file : file; ax_raw : Z; ax_list : option alist; ax_skip : option (Z * Z) }.
(** src/attribute.rs 701-706 [NtfsAttributeItem]. *)
Record attr_item := mkItem { ai_file : file; ai_value_file : option file; ai_offset : Z; ai_entries : option alist }.

(** src/attribute.rs 554-560 [new]. *)
Definition attrs_start (f : file) : res attrs := let? s := raw_start f in Ok (mkAttrs f s None None).

(** src/attribute.rs 710-720 [to_attribute]. *)
Definition item_to_attribute (i : attr_item) : res attribute :=
  attr_new (match ai_value_file i with Some f => f | None => ai_file i end) (ai_offset i) (ai_entries i).

(** src/attribute.rs 608-628: the item for a list entry that is to be returned. *)
Definition attrs_entry_item (nt : ntfs) (st : attrs) (before : alist) (e : list_entry) (ty : Z) (d : dev) : dev * (attrs * item attr_item) :=
  let st := mkAttrs (ax_file st) (ax_raw st) (ax_list st) None in
  match le_to_file nt e d with
  | (d1, Ok f) =>
      match (let? a := le_to_attribute e f in let? r := attr_is_resident a in Ok (a, r)) with
      | Ok (a, true) => (d1, (st, Some (Ok (mkItem (ax_file st) (Some f) (at_offset a) None))))
      | Ok (a, false) =>
          (d1, (mkAttrs (ax_file st) (ax_raw st) (ax_list st) (Some (le_instance e, ty)),
                Some (Ok (mkItem (ax_file st) (Some f) (at_offset a) (Some before)))))
      | Err x => (d1, (st, Some (Err x)))
      | Panic => (d1, (st, Some Panic))
      | OutOfFuel => (d1, (st, Some OutOfFuel))
      end
  | (d1, Err x) => (d1, (st, Some (Err x)))
  | (d1, Panic) => (d1, (st, Some Panic))
  | (d1, OutOfFuel) => (d1, (st, Some OutOfFuel))
  end.

(** src/attribute.rs 572-647 [next].  [fuel] bounds the number of list entries and attribute lists that are passed over. *)
Fixpoint attrs_next (fuel : nat) (nt : ntfs) (st : attrs) (d : dev) : dev * (attrs * item attr_item) :=
  match fuel with
  | O => (d, (st, Some OutOfFuel))
  | S k =>
      let raw (st : attrs) (d : dev) : dev * (attrs * item attr_item) :=
        match raw_next (ax_file st) (ax_raw st) with
        | (s', None) => (d, (mkAttrs (ax_file st) s' (ax_list st) (ax_skip st), None))
        | (s', Some (Ok a)) =>
            let st1 := mkAttrs (ax_file st) s' (ax_list st) (ax_skip st) in
            match attr_ty a with
            | Ok ty =>
                if ty =? TY_AttributeList then
                  match attr_value_simple (cluster_size nt) a with
                  | Ok v => attrs_next k nt (mkAttrs (ax_file st) s' (Some (alist_of_sval v)) (ax_skip st)) d
                  | Err x => (d, (st1, Some (Err x)))
                  | Panic => (d, (st1, Some Panic))
                  | OutOfFuel => (d, (st1, Some OutOfFuel))
                  end
                else (d, (st1, Some (Ok (mkItem (ax_file st) None (at_offset a) None))))
            | Err _ => (d, (st1, Some (Ok (mkItem (ax_file st) None (at_offset a) None))))
            | Panic => (d, (st1, Some Panic))
            | OutOfFuel => (d, (st1, Some OutOfFuel))
            end
        | (s', Some (Err x)) => (d, (mkAttrs (ax_file st) s' (ax_list st) (ax_skip st), Some (Err x)))
        | (s', Some Panic) => (d, (mkAttrs (ax_file st) s' (ax_list st) (ax_skip st), Some Panic))
        | (s', Some OutOfFuel) => (d, (mkAttrs (ax_file st) s' (ax_list st) (ax_skip st), Some OutOfFuel))
        end in
      match ax_list st with
      | None => raw st d
      | Some l =>
          match alist_next l d with
          | (d1, (l1, None)) => raw (mkAttrs (ax_file st) (ax_raw st) (Some l1) (ax_skip st)) d1
          | (d1, (l1, Some (Ok e))) =>
              let st1 := mkAttrs (ax_file st) (ax_raw st) (Some l1) (ax_skip st) in
              match le_ty e with
              | Ok ty =>
                  if le_number e =? f_number (ax_file st) then attrs_next k nt st1 d1
                  else if (match ax_skip st with Some (i, t) => (le_instance e =? i) && (ty =? t) | None => false end)
                  then attrs_next k nt st1 d1
                  else attrs_entry_item nt st1 l e ty d1
              | Err x => (d1, (st1, Some (Err x)))
              | Panic => (d1, (st1, Some Panic))
              | OutOfFuel => (d1, (st1, Some OutOfFuel))
              end
          | (d1, (l1, Some (Err x))) => (d1, (mkAttrs (ax_file st) (ax_raw st) (Some l1) (ax_skip st), Some (Err x)))
          | (d1, (l1, Some Panic)) => (d1, (mkAttrs (ax_file st) (ax_raw st) (Some l1) (ax_skip st), Some Panic))
          | (d1, (l1, Some OutOfFuel)) => (d1, (mkAttrs (ax_file st) (ax_raw st) (Some l1) (ax_skip st), Some OutOfFuel))
          end
      end
  end.

(** The loops of [data], [find_attribute] and [name] (src/file.rs 227-244, 322-337, 454-480): take items until [accept] returns a value.
    The end of the iteration is [Ok None]. *)
Fixpoint attrs_search {A} (fuel : nat) (nt : ntfs) (accept : attr_item -> attribute -> M (option A)) (st : attrs) (d : dev) : dev * res (option A) :=
  match fuel with
  | O => (d, OutOfFuel)
  | S k =>
      match attrs_next fuel nt st d with
      | (d1, (_, None)) => (d1, Ok None)
      | (d1, (st1, Some (Ok i))) =>
          match item_to_attribute i with
          | Ok a =>
              match accept i a d1 with
              | (d2, Ok (Some x)) => (d2, Ok (Some x))
              | (d2, Ok None) => attrs_search k nt accept st1 d2
              | (d2, Err x) => (d2, Err x)
              | (d2, Panic) => (d2, Panic)
              | (d2, OutOfFuel) => (d2, OutOfFuel)
              end
          | Err x => (d1, Err x)
          | Panic => (d1, Panic)
          | OutOfFuel => (d1, OutOfFuel)
          end
      | (d1, (_, Some (Err x))) => (d1, Err x)
      | (d1, (_, Some Panic)) => (d1, Panic)
      | (d1, (_, Some OutOfFuel)) => (d1, OutOfFuel)
      end
  end.

(** src/file.rs 311-343 [find_attribute]. *)
Definition find_attribute (fuel : nat) (nt : ntfs) (f : file) (ty : Z) (match_name : option (list Z)) : M attr_item :=
  try st <- attrs_start f;
  do x <- attrs_search fuel nt (fun i a => mlift (let? m := attr_matches a ty match_name None in Ok (if (m : bool) then Some i else None))) st;
  mlift (match x with Some i => Ok i | None => Err (EAttributeNotFound (f_position f) ty) end).

(** src/file.rs 443-483 [name]; [Ok None] stands for [None]. *)
Definition file_name_of (fuel : nat) (nt : ntfs) (f : file) (match_namespace match_parent : option Z) : M (option file_name) :=
  try st <- attrs_start f;
  attrs_search fuel nt (fun i a =>
    try ty <- attr_ty a;
    if negb (ty =? TY_FileName) then mret None else
    do fn <- attr_structured fuel nt fn_new TY_FileName a;
    try ns <- fn_namespace fn;
    if negb (match match_namespace with Some n => ns =? n | None => true end) then mret None else
    if negb (match match_parent with Some p => fr_number (fn_parent fn) =? p | None => true end) then mret None else
    mret (Some fn)) st.
