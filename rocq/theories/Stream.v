(** * [StreamState] and the read/seek loops: src/attribute_value/non_resident.rs and
      src/attribute_value/attribute_list_non_resident.rs. *)
From Verif Require Import Base Dev Types DataRuns.

(** src/attribute_value/non_resident.rs 527-534 [StreamState]. *)
Record stream_state := mkSS { ss_run : option run; ss_pos : Z; ss_size : Z }.

(** src/attribute_value/non_resident.rs 537-543 [StreamState::new]. *)
Definition ss_new (data_size : Z) : stream_state := mkSS None 0 data_size.

(** src/attribute_value/non_resident.rs 550-556 [data_position]. *)
Definition ss_data_position (s : stream_state) : position :=
  match ss_run s with Some r => run_data_position r | None => None end.

(** src/attribute_value/non_resident.rs 582-620 [simplify_seek]. *)
Definition simplify_seek (s : stream_state) (pos : seekfrom) (data_size : Z) : res seekfrom :=
  match pos with
  | SStart n => Ok (SStart n)
  | SEnd n =>
      if 0 <=? n then
        match checked_add64 data_size n with
        | Some b => Ok (SStart b) | None => Err (EIo InvalidInput) end
      else match checked_sub64 data_size ((- n) mod TWO64) with
        | Some b => Ok (SStart b) | None => Err (EIo InvalidInput) end
  | SCurrent n =>
      if 0 <=? n then
        match checked_add64 (ss_pos s) n with
        | Some _ => Ok (SCurrent n) | None => Err (EIo InvalidInput) end
      else match checked_sub64 (ss_pos s) ((- n) mod TWO64) with
        | Some b => Ok (SStart b) | None => Err (EIo InvalidInput) end
  end.

(** src/attribute_value/non_resident.rs 563-577 [optimize_seek]. *)
Definition optimize_seek (s : stream_state) (pos : seekfrom) (data_size : Z) : res seekfrom :=
  let? p := simplify_seek s pos data_size in
  match p with
  | SStart n =>
      match checked_sub64 n (ss_pos s) with
      | Some k => if k <=? I64_MAX then Ok (SCurrent k) else Ok p
      | None => Ok p
      end
  | _ => Ok p
  end.

(** src/attribute_value/non_resident.rs 623-664 [read_data_run] with [n] = remaining buffer length.
    The empty list stands for [Ok(false)], a nonempty one for [Ok(true)] with these bytes appended to the buffer. *)
Definition ss_read_data_run (s : stream_state) (n : Z) (d : dev) : dev * (stream_state * res (list Z)) :=
  match ss_run s with
  | None => (d, (s, Ok []))
  | Some r =>
      if r_alloc r <=? r_sp r then (d, (s, Ok []))
      else
        let remaining_data_size := Z.max 0 (ss_size s - ss_pos s) in
        if remaining_data_size =? 0 then (d, (s, Ok []))
        else
          match run_read r (Z.min n remaining_data_size) d with
          | (d', (r', Ok bs)) => (d', (mkSS (Some r') (ss_pos s + zlen bs) (ss_size s), Ok bs))
          | (d', (r', x)) => (d', (mkSS (Some r') (ss_pos s) (ss_size s), x))
          end
  end.

(** src/attribute_value/non_resident.rs 669-708 [seek_data_run]. [is_start] tells whether [bytes_to_seek] is [SeekFrom::Start].
    Returns the new state, the new [bytes_left_to_seek] and the result. *)
Definition ss_seek_data_run (s : stream_state) (is_start : bool) (left : Z) : stream_state * Z * res bool :=
  match ss_run s with
  | None => (s, left, Ok false)
  | Some r =>
      if left <? run_remaining r then
        let '(r', x) := run_seek r (if is_start then SStart left else SCurrent (to_i64 left)) in
        (mkSS (Some r') (ss_pos s) (ss_size s), left,
         match x with Ok _ => Ok true | Err e => Err e | Panic => Panic | OutOfFuel => OutOfFuel end)
      else (s, left - run_remaining r, Ok false)
  end.

(** src/attribute_value/non_resident.rs 122-199, src/attribute_value/attribute_list_non_resident.rs 193-282: the two value readers that consist of data runs share the textual structure of [read] and [seek].
    [stream_ops] collects what differs between them: how to advance to the next data run and how to rewind. *)
Record stream_ops (S : Type) := mkOps {
  so_ss : S -> stream_state;                              (* field [stream_state] *)
  so_set : S -> stream_state -> S;                        (* assignment to it *)
  so_advance : S -> dev -> dev * (S * res bool);          (* move to the next data run *)
  so_rewind : S -> dev -> dev * (S * res unit)            (* [rewind] *)
}.
Arguments so_ss {S}. Arguments so_set {S}. Arguments so_advance {S}. Arguments so_rewind {S}.

(** src/attribute_value/non_resident.rs 123-147 and src/attribute_value/attribute_list_non_resident.rs 194-224 [read]: loop with [acc] = bytes read so far.
    On an error the bytes already read are lost to the caller (only the error is returned). *)
Fixpoint stream_read_loop {S} (o : stream_ops S) (fuel : nat) (s : S) (n : Z) (acc : list Z) (d : dev)
  : dev * (S * res (list Z)) :=
  if n <=? zlen acc then (d, (s, Ok acc)) else
  match fuel with
  | O => (d, (s, OutOfFuel))
  | Datatypes.S f =>
      match ss_read_data_run (so_ss o s) (n - zlen acc) d with
      | (d1, (ss1, Ok [])) =>
          match so_advance o (so_set o s ss1) d1 with
          | (d2, (s2, Ok true)) => stream_read_loop o f s2 n acc d2
          | (d2, (s2, Ok false)) => (d2, (s2, Ok acc))
          | (d2, (s2, Err e)) => (d2, (s2, Err e))
          | (d2, (s2, Panic)) => (d2, (s2, Panic))
          | (d2, (s2, OutOfFuel)) => (d2, (s2, OutOfFuel))
          end
      | (d1, (ss1, Ok bs)) => stream_read_loop o f (so_set o s ss1) n (acc ++ bs) d1
      | (d1, (ss1, x)) => (d1, (so_set o s ss1, x))
      end
  end.

(** src/attribute_value/non_resident.rs 164-183 and src/attribute_value/attribute_list_non_resident.rs 241-266: the loop of [seek]. *)
Fixpoint stream_seek_loop {S} (o : stream_ops S) (fuel : nat) (s : S) (is_start : bool) (left : Z) (d : dev)
  : dev * (S * res unit) :=
  if left <=? 0 then (d, (s, Ok tt)) else
  match fuel with
  | O => (d, (s, OutOfFuel))
  | Datatypes.S f =>
      match ss_seek_data_run (so_ss o s) is_start left with
      | (ss1, left1, Ok true) => (d, (so_set o s ss1, Ok tt))
      | (ss1, left1, Ok false) =>
          match so_advance o (so_set o s ss1) d with
          | (d2, (s2, Ok true)) => stream_seek_loop o f s2 is_start left1 d2
          | (d2, (s2, Ok false)) =>
              let ss2 := so_ss o s2 in
              (d2, (so_set o s2 (mkSS None (ss_pos ss2) (ss_size ss2)), Ok tt))
          | (d2, (s2, Err e)) => (d2, (s2, Err e))
          | (d2, (s2, Panic)) => (d2, (s2, Panic))
          | (d2, (s2, OutOfFuel)) => (d2, (s2, OutOfFuel))
          end
      | (ss1, left1, Err e) => (d, (so_set o s ss1, Err e))
      | (ss1, left1, Panic) => (d, (so_set o s ss1, Panic))
      | (ss1, left1, OutOfFuel) => (d, (so_set o s ss1, OutOfFuel))
      end
  end.

(** src/attribute_value/non_resident.rs 185-193 and src/attribute_value/attribute_list_non_resident.rs 268-276: the end of [seek].
    The u64 addition for [Current] is unchecked. *)
Definition stream_seek_finish {S} (o : stream_ops S) (pos : seekfrom) (r : dev * (S * res unit))
  : dev * (S * res Z) :=
  match r with
  | (d, (s, Ok _)) =>
      let ss := so_ss o s in
      match pos with
      | SStart n => (d, (so_set o s (mkSS (ss_run ss) n (ss_size ss)), Ok n))
      | SCurrent n =>
          if U64_MAX <? ss_pos ss + n then (d, (s, Panic))
          else (d, (so_set o s (mkSS (ss_run ss) (ss_pos ss + n) (ss_size ss)), Ok (ss_pos ss + n)))
      | SEnd _ => (d, (s, Panic))
      end
  | (d, (s, Err e)) => (d, (s, Err e))
  | (d, (s, Panic)) => (d, (s, Panic))
  | (d, (s, OutOfFuel)) => (d, (s, OutOfFuel))
  end.

(** src/attribute_value/non_resident.rs 149-194 and src/attribute_value/attribute_list_non_resident.rs 226-277 [seek].
    [len] is [self.len()]. *)
Definition stream_seek {S} (o : stream_ops S) (fuel : nat) (s : S) (len : Z) (pos : seekfrom) (d : dev)
  : dev * (S * res Z) :=
  match optimize_seek (so_ss o s) pos len with
  | Ok (SStart n) =>
      match so_rewind o s d with
      | (d1, (s1, Ok _)) => stream_seek_finish o (SStart n) (stream_seek_loop o fuel s1 true n d1)
      | (d1, (s1, Err e)) => (d1, (s1, Err e))
      | (d1, (s1, Panic)) => (d1, (s1, Panic))
      | (d1, (s1, OutOfFuel)) => (d1, (s1, OutOfFuel))
      end
  | Ok (SCurrent n) =>
      if 0 <=? n then stream_seek_finish o (SCurrent n) (stream_seek_loop o fuel s false n d)
      else (d, (s, Panic))
  | Ok (SEnd _) => (d, (s, Panic))
  | Err e => (d, (s, Err e))
  | Panic => (d, (s, Panic))
  | OutOfFuel => (d, (s, OutOfFuel))
  end.

(** src/traits.rs 21-46 [NtfsReadSeek::read_exact], generic in the [read] function of the value.
    Every iteration reads at least one byte, ends, or consumes an [Interrupted] event. *)
Fixpoint rs_read_exact_loop {S} (read : S -> Z -> dev -> dev * (S * res (list Z))) (fuel : nat)
  (s : S) (n : Z) (acc : list Z) (d : dev) : dev * (S * res (list Z)) :=
  if n <=? 0 then (d, (s, Ok acc)) else
  match fuel with
  | O => (d, (s, OutOfFuel))
  | Datatypes.S f =>
      match read s n d with
      | (d1, (s1, Ok [])) => (d1, (s1, Err (EIo UnexpectedEof)))
      | (d1, (s1, Ok bs)) => rs_read_exact_loop read f s1 (n - zlen bs) (acc ++ bs) d1
      | (d1, (s1, Err (EIo Interrupted))) => rs_read_exact_loop read f s1 n acc d1
      | (d1, (s1, x)) => (d1, (s1, x))
      end
  end.

(** src/traits.rs 21-46 [read_exact]: the loop with enough fuel. *)
Definition rs_read_exact {S} (read : S -> Z -> dev -> dev * (S * res (list Z))) (s : S) (n : Z) (d : dev)
  : dev * (S * res (list Z)) :=
  rs_read_exact_loop read (Z.to_nat n + length (d_reads d) + length (d_seeks d) + 1) s n [] d.
