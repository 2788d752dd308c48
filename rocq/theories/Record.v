(** * Records with update sequence array: src/record.rs. *)
From Verif Require Import Base Dev Types.

(** src/record.rs 24-27 [Record]. *)
Record record := mkRecord { rec_data : list Z; rec_position : position }.

(** src/record.rs 13. *)
Definition NTFS_BLOCK_SIZE : Z := 512.

(** src/record.rs 140-143 [update_sequence_offset]. *)
Definition update_sequence_offset (r : record) : res Z := rd_u16 (rec_data r) 4.

(** src/record.rs 127-138 [update_sequence_number]. *)
Definition update_sequence_number (r : record) : res (list Z) :=
  let? start := update_sequence_offset r in
  match get_range (rec_data r) start (start + 2) with
  | Some s => Ok s
  | None => Err (EInvalidUpdateSequenceNumberRange (rec_position r) start (start + 2) (zlen (rec_data r)))
  end.

(** src/record.rs 109-120 [update_sequence_array_count]. *)
Definition update_sequence_array_count (r : record) : res Z :=
  let? c := rd_u16 (rec_data r) 6 in
  if c <? 1 then Err (EInvalidUpdateSequenceCount (rec_position r) c) else Ok (c - 1).

(** src/record.rs 122-125 [update_sequence_array_start]: a u16 addition, which panics on overflow. *)
Definition update_sequence_array_start (r : record) : res Z :=
  let? off := update_sequence_offset r in
  if U16_MAX <? off + 2 then Panic else Ok (off + 2).

(** src/record.rs 145-149 [update_sequence_size]. *)
Definition update_sequence_size (r : record) : res Z :=
  let? c := rd_u16 (rec_data r) 6 in Ok (c * 2).

(** src/record.rs 58-84: the loop of [fixup].  [n] is the number of remaining iterations; the Rust loop
    [while array_position < array_end] with steps of 2 from [array_start] to [array_start + 2*count] runs exactly
    [count] times. *)
Fixpoint fixup_loop (n : nat) (usn : list Z) (p : position) (array_position sector_position : Z) (data : list Z)
  : list Z * res unit :=
  match n with
  | O => (data, Ok tt)
  | S m =>
      match idx_range data array_position (array_position + 2) with
      | Ok new_bytes =>
          match idx_range data sector_position (sector_position + 2) with
          | Ok old =>
              if negb (list_eqb old usn)
              then (data, Err (EUpdateSequenceNumberMismatch (pos_add p array_position) usn old))
              else fixup_loop m usn p (array_position + 2) (sector_position + NTFS_BLOCK_SIZE)
                     (update_range data sector_position new_bytes)
          | _ => (data, Panic)
          end
      | _ => (data, Panic)
      end
  end.

(** src/record.rs 38-87 [Record::fixup]. Returns the record in its state after the call. *)
Definition fixup (r : record) : record * res unit :=
  match
    (let? usn := update_sequence_number r in
     let? count := update_sequence_array_count r in
     let? start := update_sequence_array_start r in
     let? off := update_sequence_offset r in
     let? size := update_sequence_size r in
     let array_end := off + size in
     let sectors_end := count * NTFS_BLOCK_SIZE in
     if (zlen (rec_data r) <? array_end) || (zlen (rec_data r) <? sectors_end)
     then Err (EUpdateSequenceArrayExceedsRecordSize (rec_position r) count (zlen (rec_data r)))
     else Ok (usn, count, start))
  with
  | Ok (usn, count, start) =>
      let '(data, res) := fixup_loop (Z.to_nat count) usn (rec_position r) start (NTFS_BLOCK_SIZE - 2) (rec_data r) in
      (mkRecord data (rec_position r), res)
  | Err e => (r, Err e)
  | Panic => (r, Panic)
  | OutOfFuel => (r, OutOfFuel)
  end.

(** src/record.rs 103-107 [signature]. *)
Definition rec_signature (r : record) : res (list Z) := idx_range (rec_data r) 0 4.
