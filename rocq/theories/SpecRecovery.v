(** * Specification: values after errors. *)
From Verif Require Import Base Dev Types Record Attribute File AttrList Spec SpecAttached.

(** The value of [a] goes on where it is, whatever happened before.  It was opened on any device, and any calls were made on any device [d']
    with the bytes [img], some of which may have failed.  On a device [d3] with these bytes that only reads short, all reads and seeks are now
    those of a cursor over [content] at the position the value reports. *)
Definition resumes (nt : ntfs) (a : attribute) (img content : list Z) : Prop :=
  forall d d1 v, attr_value nt a d = (d1, Ok v) ->
  forall k0 ops d' d2 v2, d_img d' = img -> Forall op_ok ops -> reader_exec (av_read k0) (av_seek k0) v d' ops = (d2, v2) ->
  forall d3 k, faultless d3 -> d_img d3 = img -> acts_as (av_read k) (av_seek k) v2 d3 content (zlen content) (av_stream_position v2).

(** The value of [a], stored in the extents [l] of [img] and cut at [size], is good again once one has gone back.  It was opened on any device,
    and any calls were made on any device [d'] (even one with other bytes).  A seek to an earlier position succeeds on a device [d3] that holds
    [img] and only reads short, and from then on all reads and seeks are those of a cursor over the content.  [k] bounds the loop iterations. *)
Definition recovers (nt : ntfs) (a : attribute) (img : list Z) (l : list extent) (size : Z) : Prop :=
  forall d d1 v, attr_value nt a d = (d1, Ok v) ->
  forall k0 ops d' d2 v2, Forall op_ok ops -> reader_exec (av_read k0) (av_seek k0) v d' ops = (d2, v2) ->
  forall d3 k sf, faultless d3 -> d_img d3 = img -> (length (d_reads d3) + 2 * length l + 2 <= k)%nat -> seek_arg_ok sf ->
  let q := seek_target size (av_stream_position v2) sf in 0 <= q < av_stream_position v2 ->
  exists d4 v4, av_seek k v2 sf d3 = (d4, (v4, Ok q)) /\
    acts_as (av_read k) (av_seek k) v4 d4 (file_content (cluster_size nt) img l size) size q.
