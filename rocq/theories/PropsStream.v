(** * C09-C17, C38: reading values. *)
From Verif Require Import Base Dev Types DataRuns Stream NonResident Resident Spec BaseProofs ReaderProofs NonResidentProofs ResidentProofs TruncProofs StreamExamples.

(** In all theorems about non-resident values, [l] is the extent list that the mapping pairs [enc] encode, [size] the value's
    length, and [ops] an arbitrary history of reads and seeks on the value, that brought reader and device to [v1] and [d1]. *)

(** C09. *)
Theorem C09_read_returns_content : forall cs img l enc p size ops d d1 v v1 n,
  valid_extents cs img l -> encodes 0 l enc -> 0 <= size <= U64_MAX ->
  faultless d -> d_img d = img -> Forall op_ok ops -> 0 <= n ->
  nr_new cs enc p size = Ok v -> reader_exec nr_read nr_seek v d ops = (d1, v1) ->
  let bs := ztake n (zdrop (nr_stream_position v1) (file_content cs img l size)) in
  exists d2 v2, nr_read v1 n d1 = (d2, (v2, Ok bs)) /\ nr_stream_position v2 = nr_stream_position v1 + zlen bs.
Proof. intros. eapply nr_history_read; eauto. Qed.
Print Assumptions C09_read_returns_content.

(** A value with a data extent, a hole and another data extent, on a device with short reads. *)
Example C09_example :
  valid_extents 512 ex_img ex_extents /\ encodes 0 ex_extents ex_enc /\ faultless ex_dev /\ d_img ex_dev = ex_img /\
  exists v d1 v1 d2 v2 bs, nr_new 512 ex_enc None 1400 = Ok v /\
    reader_exec nr_read nr_seek v ex_dev [OSeek (SEnd (-900)); ORead 3; OSeek (SCurrent 7)] = (d1, v1) /\
    nr_stream_position v1 = 510 /\ nr_read v1 600 d1 = (d2, (v2, Ok bs)) /\ zlen bs = 600 /\
    bs = slice ex_img 1022 1024 ++ zrepeat 0 512 ++ slice ex_img 1536 1622.
Proof. exact ex_read. Qed.

(** C10. Independent of device faults. *)
Theorem C10_seek_exact : forall cs img l enc p size ops d d1 v v1 sf,
  valid_extents cs img l -> encodes 0 l enc -> 0 <= size <= U64_MAX ->
  d_img d = img -> Forall op_ok ops -> seek_arg_ok sf ->
  nr_new cs enc p size = Ok v -> reader_exec nr_read nr_seek v d ops = (d1, v1) ->
  let q := seek_target size (nr_stream_position v1) sf in
  (0 <= q <= U64_MAX -> exists d2 v2, nr_seek v1 sf d1 = (d2, (v2, Ok q)) /\ nr_stream_position v2 = q) /\
  (~ 0 <= q <= U64_MAX -> exists d2, nr_seek v1 sf d1 = (d2, (v1, Err (EIo InvalidInput)))).
Proof. intros. eapply nr_history_seek; eauto. Qed.
Print Assumptions C10_seek_exact.

(** C11. *)
Theorem C11_histories_are_a_cursor : forall cs img l enc p size ops d,
  valid_extents cs img l -> encodes 0 l enc -> 0 <= size <= U64_MAX ->
  faultless d -> d_img d = img -> Forall op_ok ops ->
  exists v, nr_new cs enc p size = Ok v /\ nr_stream_position v = 0 /\
    reader_run nr_read nr_seek v d ops = cursor_run (file_content cs img l size) size 0 ops.
Proof. intros. eapply nr_history_cursor; eauto. Qed.
Print Assumptions C11_histories_are_a_cursor.
Example C10_C11_example : Forall op_ok [OSeek (SEnd (-900)); ORead 3; OSeek (SCurrent 7); OSeek (SCurrent (-600)); OSeek (SStart U64_MAX); ORead 5] /\
  match nr_new 512 ex_enc None 1400 with
  | Ok v => nth_error (reader_run nr_read nr_seek v ex_dev [OSeek (SEnd (-900)); ORead 3; OSeek (SCurrent 7); OSeek (SCurrent (-600)); OSeek (SStart U64_MAX); ORead 5]) 3
            = Some (RPos (Err (EIo InvalidInput)))
  | _ => False end.
Proof. split; [|vm_compute; reflexivity]. repeat constructor; vm_compute; discriminate. Qed.

(** C12, restricted to positions that are not the end of an extent, or that were reached by a seek that moved.
    Missing: positions at the end of an extent that were reached by reading. *)
Theorem C12_data_position_partial : forall cs img l enc p size ops d d1 v v1,
  valid_extents cs img l -> encodes 0 l enc -> 0 <= size <= U64_MAX -> d_img d = img -> Forall op_ok ops ->
  nr_new cs enc p size = Ok v -> reader_exec nr_read nr_seek v d ops = (d1, v1) ->
  nr_data_position v = disk_position cs l 0 /\
  (nr_stream_position v1 < size -> ~ extent_end cs l (nr_stream_position v1) ->
     nr_data_position v1 = disk_position cs l (nr_stream_position v1)) /\
  (forall sf d2 v2 q, seek_arg_ok sf -> nr_seek v1 sf d1 = (d2, (v2, Ok q)) -> q <> nr_stream_position v1 ->
     nr_stream_position v1 < size \/ q < nr_stream_position v1 ->
     nr_data_position v2 = disk_position cs l q).
Proof. intros. split; [eapply nr_fresh_position|eapply nr_history_position]; eauto. Qed.
Print Assumptions C12_data_position_partial.
Example C12_example : exists v d1 v1, nr_new 512 ex_enc None 1400 = Ok v /\
  reader_exec nr_read nr_seek v ex_dev [OSeek (SStart 1030); ORead 3] = (d1, v1) /\ nr_data_position v1 = Some (1536 + 9) /\
  disk_position 512 ex_extents 1033 = Some 1545.
Proof. do 3 eexists. split; [vm_compute; reflexivity|]. split; [vm_compute; reflexivity|]. split; vm_compute; reflexivity. Qed.

(** The full property fails: after reading up to the end of an extent (inside the value), the reported position is the end
    of that extent, not the position of the next byte. *)
Theorem C12_data_position_refuted : exists cs img l enc size v d d1 v1,
  valid_extents cs img l /\ encodes 0 l enc /\ faultless d /\ d_img d = img /\ nr_new cs enc None size = Ok v /\
  reader_exec nr_read nr_seek v d [ORead 512; OSeek (SCurrent 0)] = (d1, v1) /\ nr_stream_position v1 = 512 /\ 512 < size /\
  nr_data_position v1 = Some 1024 /\ disk_position cs l 512 = Some 2048.
Proof. exact ex_position. Qed.
Print Assumptions C12_data_position_refuted.

(** C13, without the claim that a failed read consumes nothing. The history [ops] itself may contain failed reads. *)
Theorem C13_io_errors_partial : forall cs img l enc p size ops d d1 v v1 n,
  valid_extents cs img l -> encodes 0 l enc -> 0 <= size <= U64_MAX -> d_img d = img -> Forall op_ok ops -> 0 <= n ->
  nr_new cs enc p size = Ok v -> reader_exec nr_read nr_seek v d ops = (d1, v1) ->
  let bs := ztake n (zdrop (nr_stream_position v1) (file_content cs img l size)) in
  exists d2 v2 out, nr_read v1 n d1 = (d2, (v2, out)) /\
   ((out = Ok bs /\ nr_stream_position v2 = nr_stream_position v1 + zlen bs) \/
    ((exists k, out = Err (EIo k)) /\ nr_stream_position v1 <= nr_stream_position v2 <= nr_stream_position v1 + zlen bs)).
Proof. intros. eapply nr_history_faults; eauto. Qed.
Print Assumptions C13_io_errors_partial.

(** A failed read may have consumed bytes. *)
Theorem C13_error_consumes_refuted : exists cs img l enc size v d d1 v1,
  valid_extents cs img l /\ encodes 0 l enc /\ d_img d = img /\ nr_new cs enc None size = Ok v /\
  nr_read v 1000 d = (d1, (v1, Err (EIo OtherIo))) /\ nr_stream_position v = 0 /\ nr_stream_position v1 = 512.
Proof. exact ex_error_consumes. Qed.
Print Assumptions C13_error_consumes_refuted.

(** C14, restricted to interruptions that come before the first byte, at a position inside a data extent.
    Missing: interruptions after some bytes were transferred. *)
Theorem C14_interrupted_partial : forall cs img l enc p size ops d d1 v v1 n k tail,
  valid_extents cs img l -> encodes 0 l enc -> 0 <= size <= U64_MAX -> d_img d = img -> Forall op_ok ops -> 0 <= n ->
  nr_new cs enc p size = Ok v -> reader_exec nr_read nr_seek v d ops = (d1, v1) ->
  d_reads d1 = repeat (RErr Interrupted) k ++ tail -> Forall read_ok tail -> Forall seek_ok (d_seeks d1) ->
  nr_stream_position v1 < size -> ~ extent_end cs l (nr_stream_position v1) ->
  disk_position cs l (nr_stream_position v1) <> None ->
  let c := file_content cs img l size in
  exists d2 v2 out, nr_read_exact v1 n d1 = (d2, (v2, out)) /\
    (nr_stream_position v1 + n <= zlen c -> out = Ok (slice c (nr_stream_position v1) (nr_stream_position v1 + n)) /\
       nr_stream_position v2 = nr_stream_position v1 + n) /\
    (zlen c < nr_stream_position v1 + n -> 0 < n -> out = Err (EIo UnexpectedEof)).
Proof. intros. eapply nr_history_interrupted; eauto. Qed.
Print Assumptions C14_interrupted_partial.
Example C14_example : exists v, nr_new 512 ex_enc None 1400 = Ok v /\ nr_stream_position v < 1400 /\
  disk_position 512 ex_extents (nr_stream_position v) <> None /\ ~ extent_end 512 ex_extents (nr_stream_position v).
Proof. exact ex_c14. Qed.

(** The full property fails: an interruption in the second extent makes [read_exact] succeed with wrong bytes. *)
Theorem C14_interrupted_refuted : exists cs img l enc size v d d1 v1 bs,
  valid_extents cs img l /\ encodes 0 l enc /\ d_img d = img /\ nr_new cs enc None size = Ok v /\
  Forall (fun e => read_ok e \/ e = RErr Interrupted) (d_reads d) /\ d_seeks d = [] /\
  nr_read_exact v 600 d = (d1, (v1, Ok bs)) /\ bs <> ztake 600 (file_content cs img l size).
Proof. exact ex_interrupted. Qed.
Print Assumptions C14_interrupted_refuted.

(** C15, up to the first missing byte: the device holds only the first [t] bytes of the volume [img].  A history whose reads stay
    in the part of the value whose extents lie before [t] sees exactly the content. *)
Theorem C15_present_bytes_partial : forall cs img l enc p size t lim ops d,
  valid_extents cs img l -> encodes 0 l enc -> 0 <= size <= U64_MAX -> 0 <= t ->
  faultless d -> d_img d = ztake t img ->
  (forall q x, 0 <= q < lim -> disk_position cs l q = Some x -> x < t) ->
  Forall op_ok ops -> reads_within lim (file_content cs img l size) size 0 ops ->
  exists v, nr_new cs enc p size = Ok v /\
    reader_run nr_read nr_seek v d ops = cursor_run (file_content cs img l size) size 0 ops.
Proof. exact trunc_history. Qed.
Print Assumptions C15_present_bytes_partial.

(** The first extent (LCN 4) loses its last 300 bytes: the first 212 bytes of the value are there. *)
Example C15_example :
  valid_extents 512 ex_img ex_cut_extents /\ encodes 0 ex_cut_extents [17; 1; 4; 17; 1; 253; 0] /\
  (forall q x, 0 <= q < 212 -> disk_position 512 ex_cut_extents q = Some x -> x < zlen ex_img - 300) /\
  reads_within 212 (file_content 512 ex_img ex_cut_extents 1000) 1000 0 [OSeek (SStart 100); ORead 112; OSeek (SEnd 0); ORead 5; OSeek (SStart 0); ORead 3] /\
  (exists x, disk_position 512 ex_cut_extents 212 = Some x /\ x = zlen ex_img - 300).
Proof. exact ex_cut. Qed.

(** C15 fails: on an image cut off inside the first extent, the bytes of the second extent are delivered at the stream
    offset where the first extent is cut off. *)
Theorem C15_truncated_refuted : exists cs full l enc size v d d1 v1 bs,
  valid_extents cs full l /\ encodes 0 l enc /\ faultless d /\ d_img d = ztake (zlen full - 300) full /\
  nr_new cs enc None size = Ok v /\ nr_read v 1000 d = (d1, (v1, Ok bs)) /\
  bs <> ztake (zlen bs) (file_content cs full l size).
Proof. exact ex_truncated. Qed.
Print Assumptions C15_truncated_refuted.

(** C16. *)
Theorem C16_resident_is_a_cursor : forall data p d ops, zlen data <= U64_MAX -> Forall op_ok ops ->
  reader_run res_read res_seek (res_new data p) d ops = cursor_run data (zlen data) 0 ops.
Proof. exact res_history_cursor. Qed.
Print Assumptions C16_resident_is_a_cursor.
Example C16_example : reader_run res_read res_seek (res_new [1;2;3;4;5] None) ex_dev [ORead 2; OSeek (SEnd (-1)); ORead 9; OSeek (SCurrent (-6)); OSeek (SStart 77); ORead 1]
  = [RBytes (Ok [1;2]); RPos (Ok 4); RBytes (Ok [5]); RPos (Err (EIo InvalidInput)); RPos (Ok 77); RBytes (Ok [])].
Proof. vm_compute. reflexivity. Qed.

(** C17. *)
Theorem C17_read_exact : forall cs img l enc p size ops d d1 v v1 n,
  valid_extents cs img l -> encodes 0 l enc -> 0 <= size <= U64_MAX ->
  faultless d -> d_img d = img -> Forall op_ok ops -> 0 <= n ->
  nr_new cs enc p size = Ok v -> reader_exec nr_read nr_seek v d ops = (d1, v1) ->
  let c := file_content cs img l size in
  exists d2 v2 out, nr_read_exact v1 n d1 = (d2, (v2, out)) /\
    (nr_stream_position v1 + n <= zlen c -> out = Ok (slice c (nr_stream_position v1) (nr_stream_position v1 + n)) /\
       nr_stream_position v2 = nr_stream_position v1 + n) /\
    (zlen c < nr_stream_position v1 + n -> 0 < n -> out = Err (EIo UnexpectedEof)).
Proof. intros. eapply nr_history_read_exact; eauto. Qed.
Print Assumptions C17_read_exact.

Theorem C17_read_exact_resident : forall data p d ops d1 v1 n, zlen data <= U64_MAX -> Forall op_ok ops -> 0 <= n ->
  reader_exec res_read res_seek (res_new data p) d ops = (d1, v1) ->
  exists d2 v2 out, rs_read_exact res_read v1 n d1 = (d2, (v2, out)) /\
    (res_stream_position v1 + n <= zlen data -> out = Ok (slice data (res_stream_position v1) (res_stream_position v1 + n)) /\
       res_stream_position v2 = res_stream_position v1 + n) /\
    (zlen data < res_stream_position v1 + n -> 0 < n -> out = Err (EIo UnexpectedEof)).
Proof. exact res_history_read_exact. Qed.
Print Assumptions C17_read_exact_resident.

(** C38. Any number of values, with any extents, on one device. *)
Theorem C38_interleaving : forall cs img (l : nat -> list extent) (enc : nat -> list Z) (p : nat -> position) (size : nat -> Z) f d ops i,
  (forall i, valid_extents cs img (l i)) -> (forall i, encodes 0 (l i) (enc i)) -> (forall i, 0 <= size i <= U64_MAX) ->
  (forall i, nr_new cs (enc i) (p i) (size i) = Ok (f i)) -> faultless d -> d_img d = img ->
  Forall (fun x => op_ok (snd x)) ops ->
  of_reader i (multi_run nr_read nr_seek f d ops) = cursor_run (file_content cs img (l i) (size i)) (size i) 0 (of_reader i ops).
Proof. intros. eapply nr_interleaved; eauto. Qed.
Print Assumptions C38_interleaving.
Example C38_example : exists v, nr_new 512 ex_enc None 1400 = Ok v /\
  of_reader 1 (multi_run nr_read nr_seek (fun _ => v) ex_dev [(0%nat, ORead 9); (1%nat, ORead 2); (0%nat, OSeek (SEnd 0)); (1%nat, ORead 2)])
  = [RBytes (Ok (slice ex_img 512 514)); RBytes (Ok (slice ex_img 514 516))].
Proof. eexists. split; [vm_compute; reflexivity|]. vm_compute; reflexivity. Qed.
