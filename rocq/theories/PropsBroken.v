(** * C68: values whose mapping pairs are damaged. *)
From Verif Require Import Base Dev Types DataRuns Stream NonResident Spec SpecBroken BaseProofs BrokenProofs.

(** C68, up to the first seek that fails and after every seek back.  Missing: what is read after a failed seek, which is wrong
    ([C68_failed_seek_refuted]). *)
Theorem C68_damaged_partial : forall cs img l enc p size ops d,
  valid_extents cs img l -> l <> [] -> encodes_broken cs 0 l enc -> bytes_ok enc -> 0 <= size <= U64_MAX ->
  faultless d -> d_img d = img -> Forall op_ok ops ->
  exists v, nr_new cs enc p size = Ok v /\
    allowed_run (file_content cs img l size) size (At 0) ops (reader_run nr_read nr_seek v d ops).
Proof. exact broken_history. Qed.
Print Assumptions C68_damaged_partial.

(** Without a good extent at the start there is no value object. *)
Theorem C68_first_pair : forall cs enc p size, 1 <= cs -> bytes_ok enc -> encodes_broken cs 0 [] enc ->
  exists e, nr_new cs enc p size = Err e.
Proof. exact broken_at_start. Qed.
Print Assumptions C68_first_pair.

(** Two extents of one cluster of two bytes, then a header that announces nine length bytes. *)
Example C68_example : valid_extents 2 broken_image broken_extents /\ encodes_broken 2 0 broken_extents broken_pairs /\ bytes_ok broken_pairs /\
  encodes_broken 2 0 [] [9] /\
  match nr_new 2 broken_pairs None 6 with
  | Ok v => reader_run nr_read nr_seek v broken_dev
      [ORead 3; ORead 2; OSeek (SCurrent 0); OSeek (SEnd (-1)); OSeek (SStart 1); ORead 2] =
      [RBytes (Ok [1; 2; 3]); RBytes (Err (EInvalidByteCountInDataRunHeader None 9 8)); RPos (Ok 4);
       RPos (Err (EInvalidByteCountInDataRunHeader None 9 8)); RPos (Ok 1); RBytes (Ok [2; 3])]
  | _ => False
  end.
Proof.
  destruct broken_pairs_ok as (H1 & H2 & H3). split; [exact H1|]. split; [exact H2|]. split; [exact H3|]. split.
  - apply eb_broken. exists 9, []. split; auto. split; [lia|]. left. vm_compute. reflexivity.
  - vm_compute. reflexivity.
Qed.

(** After a seek has failed, the value reports its old position but stands elsewhere: [seek(SeekFrom::Start(0))] succeeds, and
    the read after it returns other bytes than those at the start. *)
Theorem C68_failed_seek_refuted : exists cs img l enc size v d e,
  valid_extents cs img l /\ encodes_broken cs 0 l enc /\ bytes_ok enc /\ faultless d /\ d_img d = img /\
  nr_new cs enc None size = Ok v /\
  reader_run nr_read nr_seek v d [OSeek (SEnd (-1)); OSeek (SStart 0); ORead 2] = [RPos (Err e); RPos (Ok 0); RBytes (Ok [3; 4])] /\
  ztake 2 (file_content cs img l size) = [1; 2].
Proof. exact seek_start_wrong. Qed.
Print Assumptions C68_failed_seek_refuted.
