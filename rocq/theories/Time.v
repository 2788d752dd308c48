(** * Timestamps: src/time.rs.

    A [time::OffsetDateTime] is represented by the instant it denotes: the number of nanoseconds since 1970-01-01 UTC (what
    [unix_timestamp_nanos] returns, an i128).  A [std::time::SystemTime] likewise, with the seconds of the difference to
    [UNIX_EPOCH] being a u64. *)
From Verif Require Import Base.

(** src/time.rs 15-19. *)
Definition EPOCH_DIFFERENCE_IN_INTERVALS : Z := 116444736000000000.
(** src/time.rs 19. *)
Definition INTERVALS_PER_SECOND : Z := 10000000.

(** src/time.rs 26-33: an [NtfsTime] is its u64; [nt_timestamp] is the identity. *)
Definition nt_timestamp (nt : Z) : Z := nt.

(** src/time.rs 37-50 [TryFrom<OffsetDateTime> for NtfsTime].  i128 division truncates towards zero. *)
Definition time_from_datetime (nanos : Z) : res Z :=
  let intervals_since_unix_epoch := Z.quot nanos 100 in
  let intervals := intervals_since_unix_epoch + EPOCH_DIFFERENCE_IN_INTERVALS in
  if (0 <=? intervals) && (intervals <=? U64_MAX) then Ok intervals else Err EInvalidTime.

(** src/time.rs 54-63: the instants that [OffsetDateTime::from_unix_timestamp_nanos] of the time crate (feature large-dates) accepts: from
    -999999-01-01T00:00:00Z to +999999-12-31T23:59:59.999999999Z. *)
Definition DATETIME_MIN : Z := -31619087596800 * 1000000000.
(** See [DATETIME_MIN]. *)
Definition DATETIME_MAX : Z := 31494784780799 * 1000000000 + 999999999.

(** src/time.rs 54-63 [From<NtfsTime> for OffsetDateTime]: [unwrap] of the range check. *)
Definition datetime_from_time (nt : Z) : res Z :=
  let nanos := (nt_timestamp nt - EPOCH_DIFFERENCE_IN_INTERVALS) * 100 in
  if (DATETIME_MIN <=? nanos) && (nanos <=? DATETIME_MAX) then Ok nanos else Panic.

(** src/time.rs 67-78 [TryFrom<SystemTime> for NtfsTime]; the u64 operations are unchecked.  The error of a time before 1970 is
    a [SystemTimeError], represented as [EInvalidTime]. *)
Definition time_from_systemtime (nanos : Z) : res Z :=
  if nanos <? 0 then Err EInvalidTime
  else
    let secs := nanos / 1000000000 in
    let subsec_nanos := nanos mod 1000000000 in
    let a := secs * INTERVALS_PER_SECOND in
    if U64_MAX <? a then Panic
    else
      let intervals_since_unix_epoch := a + subsec_nanos / 100 in
      if U64_MAX <? intervals_since_unix_epoch then Panic
      else
        let intervals := intervals_since_unix_epoch + EPOCH_DIFFERENCE_IN_INTERVALS in
        if U64_MAX <? intervals then Panic else Ok intervals.
