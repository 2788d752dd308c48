(** * [NtfsNonResidentAttributeValue]: src/attribute_value/non_resident.rs. *)
From Verif Require Import Base Dev Types DataRuns Stream.

(** src/attribute_value/non_resident.rs 24-35.  [nv_runs] is the state of the [NtfsDataRuns] iterator over [nv_data].
    The cluster size of the referenced [Ntfs] object is kept as [nv_cs]. *)
Record nrv := mkNrv { nv_cs : Z; nv_data : list Z; nv_position : position; nv_runs : druns; nv_ss : stream_state }.

(** src/attribute_value/non_resident.rs 24-35: assignment to the field [stream_state]. *)
Definition nv_set_ss (v : nrv) (ss : stream_state) : nrv :=
  mkNrv (nv_cs v) (nv_data v) (nv_position v) (nv_runs v) ss.

(** src/attribute_value/non_resident.rs 96-105 [next_data_run]. *)
Definition nr_next_data_run (v : nrv) : nrv * res bool :=
  let '(s', it) := druns_next (nv_cs v) (nv_data v) (nv_position v) (nv_runs v) in
  let v' := mkNrv (nv_cs v) (nv_data v) (nv_position v) s' (nv_ss v) in
  match it with
  | None => (v', Ok false)
  | Some (Ok r) => (nv_set_ss v' (mkSS (Some r) (ss_pos (nv_ss v)) (ss_size (nv_ss v))), Ok true)
  | Some (Err e) => (v', Err e)
  | Some Panic => (v', Panic)
  | Some OutOfFuel => (v', OutOfFuel)
  end.

(** src/attribute_value/non_resident.rs 38-57 [new]. *)
Definition nr_new (cs : Z) (data : list Z) (p : position) (data_size : Z) : res nrv :=
  match nr_next_data_run (mkNrv cs data p druns_start (ss_new data_size)) with
  | (v, Ok _) => Ok v
  | (_, Err e) => Err e
  | (_, Panic) => Panic
  | (_, OutOfFuel) => OutOfFuel
  end.

(** src/attribute_value/non_resident.rs 113-119 [rewind]. *)
Definition nr_rewind (v : nrv) : nrv * res unit :=
  match nr_next_data_run (mkNrv (nv_cs v) (nv_data v) (nv_position v) druns_start (ss_new (ss_size (nv_ss v)))) with
  | (v', Ok _) => (v', Ok tt)
  | (v', Err e) => (v', Err e)
  | (v', Panic) => (v', Panic)
  | (v', OutOfFuel) => (v', OutOfFuel)
  end.

(** src/attribute_value/non_resident.rs 122-199: what the shared loops of Stream.v need of this reader. *)
Definition nr_ops : stream_ops nrv := {|
  so_ss := nv_ss;
  so_set := nv_set_ss;
  so_advance := fun v d => (d, nr_next_data_run v);
  so_rewind := fun v d => (d, nr_rewind v)
|}.

(** No code; loop bound for src/attribute_value/non_resident.rs 123-194: every data run takes at least one byte of [nv_data], every device read consumes an event of the read
    schedule or is complete.  That this is enough is part of the theorems about [nr_read] and [nr_seek]. *)
Definition nr_fuel (v : nrv) (d : dev) : nat := length (d_reads d) + 3 * length (nv_data v) + 6.

(** src/attribute_value/non_resident.rs 91-93 [len]. *)
Definition nr_len (v : nrv) : Z := ss_size (nv_ss v).

(** src/attribute_value/non_resident.rs 123-147 [read]. *)
Definition nr_read (v : nrv) (n : Z) (d : dev) : dev * (nrv * res (list Z)) :=
  stream_read_loop nr_ops (nr_fuel v d) v n [] d.

(** src/attribute_value/non_resident.rs 149-194 [seek]. *)
Definition nr_seek (v : nrv) (pos : seekfrom) (d : dev) : dev * (nrv * res Z) :=
  stream_seek nr_ops (nr_fuel v d) v (nr_len v) pos d.

(** src/attribute_value/non_resident.rs 196-198 [stream_position], 76-78 [data_position]. *)
Definition nr_stream_position (v : nrv) : Z := ss_pos (nv_ss v).
(** src/attribute_value/non_resident.rs 76-78 [data_position]. *)
Definition nr_data_position (v : nrv) : position := ss_data_position (nv_ss v).

(** src/traits.rs 21-46 [read_exact]. *)
Definition nr_read_exact (v : nrv) (n : Z) (d : dev) : dev * (nrv * res (list Z)) :=
  rs_read_exact nr_read v n d.
