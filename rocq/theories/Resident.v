(** * [NtfsResidentAttributeValue]: src/attribute_value/resident.rs. *)
From Verif Require Import Base Dev Types DataRuns Stream.

(** src/attribute_value/resident.rs 19-23. *)
Record resv := mkResv { rv_data : list Z; rv_position : position; rv_sp : Z }.

(** src/attribute_value/resident.rs 26-32 [new]. *)
Definition res_new (data : list Z) (p : position) : resv := mkResv data p 0.

(** src/attribute_value/resident.rs 60-62 [len]. *)
Definition res_len (v : resv) : Z := zlen (rv_data v).

(** src/attribute_value/resident.rs 46-52 [data_position]. *)
Definition res_data_position (v : resv) : position :=
  if rv_sp v <=? res_len v then pos_add (rv_position v) (rv_sp v) else None.

(** src/attribute_value/resident.rs 70-87 [read] with [remaining_len] (saturating_sub) and slice indexing. *)
Definition res_read (v : resv) (n : Z) (d : dev) : dev * (resv * res (list Z)) :=
  let remaining := Z.max 0 (res_len v - rv_sp v) in
  if remaining =? 0 then (d, (v, Ok []))
  else
    let k := Z.min n remaining in
    match idx_range (rv_data v) (rv_sp v) (rv_sp v + k) with
    | Ok bs => (d, (mkResv (rv_data v) (rv_position v) (rv_sp v + k), Ok bs))
    | _ => (d, (v, Panic))
    end.

(** src/attribute_value/resident.rs 89-95 [seek]. *)
Definition res_seek (v : resv) (pos : seekfrom) (d : dev) : dev * (resv * res Z) :=
  let '(q, x) := seek_contiguous (rv_sp v) (res_len v) pos in
  (d, (mkResv (rv_data v) (rv_position v) q, x)).

(** src/attribute_value/resident.rs 97-99 [stream_position]. *)
Definition res_stream_position (v : resv) : Z := rv_sp v.
