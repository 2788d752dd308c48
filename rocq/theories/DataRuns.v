(** * Data runs: [NtfsDataRuns] and [NtfsDataRun] of src/attribute_value/non_resident.rs. *)
From Verif Require Import Base Dev Types.

(** src/attribute_value/non_resident.rs 445-454 [NtfsDataRun]. *)
Record run := mkRun { r_pos : position; r_alloc : Z; r_sp : Z }.

(** src/attribute_value/non_resident.rs 457-463 [NtfsDataRun::new]. *)
Definition run_new (p : position) (alloc : Z) : run := mkRun p alloc 0.

(** src/attribute_value/non_resident.rs 434-437 [DataRunsState]. *)
Record druns := mkDruns { dr_off : Z; dr_prev : Z }.
(** src/attribute_value/non_resident.rs 275-287 [NtfsDataRuns::new]: the initial state. *)
Definition druns_start : druns := mkDruns 0 0.

(** src/attribute_value/non_resident.rs 308-310 [position]. *)
Definition druns_position (p : position) (s : druns) : position := pos_add p (dr_off s).

(** src/attribute_value/non_resident.rs 312-331 [read_variable_length_bytes] followed by [u64::from_le_bytes] on the zero-padded buffer.
    [rest] is what remains behind the cursor; the result pairs the value with the new remainder. *)
Definition read_variable_length (p : position) (rest : list Z) (byte_count : Z) : res (Z * list Z) :=
  if 8 <? byte_count then Err (EInvalidByteCountInDataRunHeader p byte_count 8)
  else if zlen rest <? byte_count then Err (EIo UnexpectedEof)
  else Ok (le_val (ztake byte_count rest), zdrop byte_count rest).

(** src/attribute_value/non_resident.rs 333-347 [read_variable_length_signed_integer]: sign extension by [wrapping_shl] and arithmetic [wrapping_shr]
    (shift amounts are taken modulo 64). *)
Definition sign_extend (v byte_count : Z) : Z :=
  let sh := ((8 - byte_count) * 8) mod 64 in
  to_i64 ((to_i64 v * 2 ^ sh) mod TWO64) / 2 ^ sh.

(** src/attribute_value/non_resident.rs 363-428 [NtfsDataRuns::next].  [cs] is the cluster size, [data] the mapping pairs,
    [p] their position. *)
Definition druns_next (cs : Z) (data : list Z) (p : position) (s : druns) : druns * item run :=
  match zdrop (dr_off s) data with
  | [] => (s, None)
  | header :: rest =>
      if header =? 0 then (mkDruns (zlen data) (dr_prev s), None)
      else
        let here := druns_position p s in
        match read_variable_length here rest (Z.land header 15) with
        | Ok (cluster_count, rest1) =>
            if cluster_count =? 0 then (s, Some (Err (EInvalidClusterCountInDataRunHeader here cluster_count)))
            else match checked_mul64 cluster_count cs with
            | None => (s, Some (Err (EInvalidClusterCountInDataRunHeader here cluster_count)))
            | Some allocated_size =>
                let vcn_byte_count := Z.shiftr (Z.land header 240) 4 in
                match read_variable_length here rest1 vcn_byte_count with
                | Ok (raw, rest2) =>
                    let vcn := sign_extend raw vcn_byte_count in
                    let advanced := zlen data - zlen rest2 in
                    if vcn =? 0 then
                      (mkDruns advanced (dr_prev s), Some (Ok (run_new None allocated_size)))
                    else match lcn_checked_add (dr_prev s) vcn with
                    | None => (s, Some (Err (EInvalidVcnInDataRunHeader here vcn (dr_prev s))))
                    | Some new_lcn =>
                        match lcn_position cs new_lcn with
                        | Ok pos => (mkDruns advanced new_lcn, Some (Ok (run_new pos allocated_size)))
                        | Err e => (mkDruns (dr_off s) new_lcn, Some (Err e))
                        | Panic => (s, Some Panic)
                        | OutOfFuel => (s, Some OutOfFuel)
                        end
                    end
                | Err e => (s, Some (Err e))
                | Panic => (s, Some Panic)
                | OutOfFuel => (s, Some OutOfFuel)
                end
            end
        | Err e => (s, Some (Err e))
        | Panic => (s, Some Panic)
        | OutOfFuel => (s, Some OutOfFuel)
        end
  end.

(** src/attribute_value/non_resident.rs 474-480 [NtfsDataRun::data_position]. *)
Definition run_data_position (r : run) : position :=
  if r_sp r <=? r_alloc r then pos_add (r_pos r) (r_sp r) else None.

(** src/attribute_value/non_resident.rs 482-484 [remaining_len] (saturating_sub). *)
Definition run_remaining (r : run) : Z := Z.max 0 (r_alloc r - r_sp r).

(** src/attribute_value/non_resident.rs 488-511 [NtfsDataRun::read] with a buffer of [n] bytes. [position.get() + self.stream_position] is an
    unchecked u64 addition. *)
Definition run_read (r : run) (n : Z) (d : dev) : dev * (run * res (list Z)) :=
  if run_remaining r =? 0 then (d, (r, Ok []))
  else
    let k := Z.min n (run_remaining r) in
    match r_pos r with
    | Some p =>
        if U64_MAX <? p + r_sp r then (d, (r, Panic))
        else match dev_seek (p + r_sp r) d with
        | (d1, Ok _) =>
            match dev_read k d1 with
            | (d2, Ok bs) => (d2, (mkRun (r_pos r) (r_alloc r) (r_sp r + zlen bs), Ok bs))
            | (d2, Err e) => (d2, (r, Err e))
            | (d2, Panic) => (d2, (r, Panic))
            | (d2, OutOfFuel) => (d2, (r, OutOfFuel))
            end
        | (d1, Err e) => (d1, (r, Err e))
        | (d1, Panic) => (d1, (r, Panic))
        | (d1, OutOfFuel) => (d1, (r, OutOfFuel))
        end
    | None => (d, (mkRun (r_pos r) (r_alloc r) (r_sp r + k), Ok (zrepeat 0 k)))
    end.

(** src/attribute_value/mod.rs 164-196 [seek_contiguous]: new position and result. *)
Definition seek_contiguous (stream_position length : Z) (pos : seekfrom) : Z * res Z :=
  match pos with
  | SStart n => (n, Ok n)
  | SEnd n | SCurrent n =>
      let base := match pos with SEnd _ => length | _ => stream_position end in
      let new_pos := if 0 <=? n then checked_add64 base n else checked_sub64 base ((- n) mod TWO64) in
      match new_pos with
      | Some q => (q, Ok q)
      | None => (stream_position, Err (EIo InvalidInput))
      end
  end.

(** src/attribute_value/non_resident.rs 513-519 [NtfsDataRun::seek]. *)
Definition run_seek (r : run) (pos : seekfrom) : run * res Z :=
  let '(q, x) := seek_contiguous (r_sp r) (r_alloc r) pos in (mkRun (r_pos r) (r_alloc r) q, x).
