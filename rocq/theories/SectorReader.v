(** * The sector-aligned reader of the example shell: examples/ntfs-shell/sector_reader.rs.

    The inner reader is a device. *)
From Verif Require Import Base Dev.

(** examples/ntfs-shell/sector_reader.rs 17-30 [SectorReader]; [temp_buf] is only a buffer. *)
Record sreader := mkSR { sr_sector : Z; sr_pos : Z }.

(** examples/ntfs-shell/sector_reader.rs 36-50 [new]; [is_power_of_two] of a usize. *)
Definition is_pow2 (n : Z) : bool := (0 <? n) && (Z.land n (n - 1) =? 0).
(** examples/ntfs-shell/sector_reader.rs 36-50 [new]. *)
Definition sr_new (sector_size : Z) : res sreader :=
  if is_pow2 sector_size then Ok (mkSR sector_size 0) else Err (EIo OtherIo).

(** examples/ntfs-shell/sector_reader.rs 52-58. *)
Definition align_down (s : sreader) (n : Z) : Z := n / sr_sector s * sr_sector s.
(** examples/ntfs-shell/sector_reader.rs 56-58 [align_up_to_sector_size]. *)
Definition align_up (s : sreader) (n : Z) : Z := align_down s n + sr_sector s.

(** examples/ntfs-shell/sector_reader.rs 65-85 [read] with a buffer of [n] bytes; the additions are unchecked. *)
Definition sr_read (s : sreader) (n : Z) (d : dev) : dev * (sreader * res (list Z)) :=
  let start := sr_pos s - align_down s (sr_pos s) in
  let end_ := start + n in
  if U64_MAX <? align_up s end_ then (d, (s, Panic))
  else
    match dev_read_exact (align_up s end_) d with
    | (d', Ok buf) =>
        match idx_range buf start end_ with
        | Ok bs => if U64_MAX <? sr_pos s + n then (d', (s, Panic)) else (d', (mkSR (sr_sector s) (sr_pos s + n), Ok bs))
        | _ => (d', (s, Panic))
        end
    | (d', Err e) => (d', (s, Err e))
    | (d', Panic) => (d', (s, Panic))
    | (d', OutOfFuel) => (d', (s, OutOfFuel))
    end.

(** examples/ntfs-shell/sector_reader.rs 92-129 [seek]. *)
Definition sr_seek (s : sreader) (pos : seekfrom) (d : dev) : dev * (sreader * res Z) :=
  match pos with
  | SEnd _ => (d, (s, Err (EIo OtherIo)))
  | _ =>
      match (match pos with
             | SStart n => Some n
             | SCurrent n => if 0 <=? n then checked_add64 (sr_pos s) n else checked_sub64 (sr_pos s) ((- n) mod TWO64)
             | SEnd _ => None
             end) with
      | Some n =>
          match dev_seek (align_down s n) d with
          | (d', Ok _) => (d', (mkSR (sr_sector s) n, Ok n))
          | (d', Err e) => (d', (s, Err e))
          | (d', Panic) => (d', (s, Panic))
          | (d', OutOfFuel) => (d', (s, OutOfFuel))
          end
      | None => (d, (s, Err (EIo InvalidInput)))
      end
  end.
