(** * C05-C08, C39: data runs and cluster arithmetic. *)
From Verif Require Import Base Dev Types DataRuns Stream NonResident Spec BaseProofs DataRunsProofs NonResidentProofs ClusterZeroProofs.

(** C05. Any legal encoding of any extent list decodes to exactly these extents, then the iterator ends (and stays ended). *)
Theorem C05_data_runs_decode : forall cs p l enc n,
  1 <= cs -> encodes 0 l enc -> lcns_distinct 0 l -> Forall (extent_fits cs) l ->
  iterate (druns_next cs enc p) (length l + n) druns_start =
  map (fun e => Some (Ok (mkRun (match e_lcn e with Some lcn => Some (lcn * cs) | None => None end) (e_count e * cs) 0))) l
  ++ repeat None n.
Proof. exact decode_extents. Qed.
Print Assumptions C05_data_runs_decode.

(** Extents at LCN 0x1234 (fragment of 0x21 clusters), a hole, and one further back on the disk, with various field widths. *)
Definition example_extents := [mkExtent (Some 4660) 33; mkExtent None 5; mkExtent (Some 4000) 258].
Definition example_encoding := [33; 33; 52; 18] ++ [2; 5; 0] ++ [50; 2; 1; 108; 253; 255] ++ [0; 99].
Example C05_example : encodes 0 example_extents example_encoding /\ lcns_distinct 0 example_extents /\ Forall (extent_fits 4096) example_extents.
Proof.
  split; [|split].
  - apply (enc_data 0 4660 33 [33] [52; 18] [mkExtent None 5; mkExtent (Some 4000) 258] ([2; 5; 0] ++ [50; 2; 1; 108; 253; 255] ++ [0; 99])).
    + split; [|vm_compute; repeat split; discriminate]. apply bytes_okb_ok; reflexivity.
    + split; [apply bytes_okb_ok; reflexivity|vm_compute; repeat split; discriminate].
    + apply (enc_hole 4660 5 [5; 0] [mkExtent (Some 4000) 258] ([50; 2; 1; 108; 253; 255] ++ [0; 99])).
      * split; [|vm_compute; repeat split; discriminate]. apply bytes_okb_ok; reflexivity.
      * apply (enc_data 4660 4000 258 [2; 1] [108; 253; 255] [] [0; 99]).
        -- split; [|vm_compute; repeat split; discriminate]. apply bytes_okb_ok; reflexivity.
        -- split; [apply bytes_okb_ok; reflexivity|vm_compute; repeat split; discriminate].
        -- constructor.
  - cbn. repeat split; discriminate.
  - repeat constructor; vm_compute; discriminate.
Qed.
Example C05_example_result : iterate (druns_next 4096 example_encoding None) 5 druns_start =
  [Some (Ok (mkRun (Some 19087360) 135168 0)); Some (Ok (mkRun None 20480 0)); Some (Ok (mkRun (Some 16384000) 1056768 0)); None; None].
Proof. vm_compute. reflexivity. Qed.

(** C06. On any bytes: at most one extent per byte, then only ends or only errors, and never a panic. *)
Theorem C06_data_runs_end : forall cs data p n, 1 <= cs -> bytes_ok data ->
  exists runs rest, iterate (druns_next cs data p) n druns_start = map (fun r => Some (Ok r)) runs ++ rest /\
    (length runs <= length data)%nat /\
    (Forall (fun x => x = None) rest \/ Forall (fun x => exists e, x = Some (Err e)) rest).
Proof. exact druns_iterate_ends. Qed.
Print Assumptions C06_data_runs_end.

(** The stronger promise of the comment in the code ("every further call gives the same error") does not hold: an LCN that
    exceeds the volume addressing range changes the iterator before the error is reported. *)
Theorem C06_same_error_refuted : exists cs data p e1 e2, 1 <= cs /\ bytes_ok data /\
  iterate (druns_next cs data p) 2 druns_start = [Some (Err e1); Some (Err e2)] /\ e1 <> e2.
Proof. exact druns_error_changes. Qed.
Print Assumptions C06_same_error_refuted.

(** C07. *)
Theorem C07_runs_cluster_aligned : forall cs data p n r, 1 <= cs -> bytes_ok data ->
  In (Some (Ok r)) (iterate (druns_next cs data p) n druns_start) ->
  r_sp r = 0 /\ (exists count, 1 <= count /\ r_alloc r = count * cs /\ r_alloc r <= U64_MAX) /\
  (r_pos r = None \/ exists lcn, 1 <= lcn /\ r_pos r = Some (lcn * cs) /\ lcn * cs <= U64_MAX).
Proof. exact druns_iterate_aligned. Qed.
Print Assumptions C07_runs_cluster_aligned.
Example C07_example : In (Some (Ok (mkRun (Some 19087360) 135168 0))) (iterate (druns_next 4096 example_encoding None) 5 druns_start).
Proof. vm_compute. auto. Qed.

(** C08, for everything but cluster 0: for every extent list, also with extents at LCN 0 or repeating the LCN of the extent
    before them, exactly these extents are taken for holes, and every other extent is read from its place on the device. *)
Theorem C08_other_clusters_partial : forall cs img l enc p size ops d,
  1 <= cs -> zlen img <= TWO64 -> Forall (extent_fits cs) l -> Forall (extent_on_device cs img) l ->
  encodes 0 l enc -> 0 <= size <= U64_MAX -> faultless d -> d_img d = img -> Forall op_ok ops ->
  exists v, nr_new cs enc p size = Ok v /\
    reader_run nr_read nr_seek v d ops = cursor_run (file_content cs img (zero_as_hole 0 l) size) size 0 ops.
Proof. exact cluster_zero_history. Qed.
Print Assumptions C08_other_clusters_partial.
Example C08_example :
  let l := [mkExtent (Some 1) 1; mkExtent (Some 0) 1; mkExtent None 1; mkExtent (Some 2) 1] in
  encodes 0 l [17; 1; 1; 17; 1; 255; 1; 1; 17; 1; 2; 0] /\ Forall (extent_fits 2) l /\ Forall (extent_on_device 2 [235; 235; 1; 2; 3; 4]) l /\
  file_content 2 [235; 235; 1; 2; 3; 4] (zero_as_hole 0 l) 7 = [1; 2; 0; 0; 0; 0; 3].
Proof.
  cbv zeta. split; [|split; [|split]].
  - apply (enc_data 0 1 1 [1] [1] [mkExtent (Some 0) 1; mkExtent None 1; mkExtent (Some 2) 1] [17; 1; 255; 1; 1; 17; 1; 2; 0]).
    + split; [|vm_compute; repeat split; discriminate]. apply bytes_okb_ok; reflexivity.
    + split; [apply bytes_okb_ok; reflexivity|vm_compute; repeat split; discriminate].
    + apply (enc_data 1 0 1 [1] [255] [mkExtent None 1; mkExtent (Some 2) 1] [1; 1; 17; 1; 2; 0]).
      * split; [|vm_compute; repeat split; discriminate]. apply bytes_okb_ok; reflexivity.
      * split; [apply bytes_okb_ok; reflexivity|vm_compute; repeat split; discriminate].
      * apply (enc_hole 0 1 [1] [mkExtent (Some 2) 1] [17; 1; 2; 0]).
        -- split; [|vm_compute; repeat split; discriminate]. apply bytes_okb_ok; reflexivity.
        -- apply (enc_data 0 2 1 [1] [2] [] [0]).
           ++ split; [|vm_compute; repeat split; discriminate]. apply bytes_okb_ok; reflexivity.
           ++ split; [apply bytes_okb_ok; reflexivity|vm_compute; repeat split; discriminate].
           ++ constructor.
  - repeat constructor; vm_compute; repeat split; discriminate.
  - repeat constructor; vm_compute; try discriminate; reflexivity.
  - vm_compute. reflexivity.
Qed.

(** C08 is violated: the extent at LCN 0 reads as zeros although the device holds other bytes there. *)
Theorem C08_cluster_zero_refuted : exists cs enc img v d d' v',
  1 <= cs /\ encodes 0 [mkExtent (Some 0) 1] enc /\ faultless d /\ d_img d = img /\ zlen img = cs /\
  nr_new cs enc None cs = Ok v /\ nr_read v 2 d = (d', (v', Ok [0; 0])) /\
  ztake 2 (file_content cs img [mkExtent (Some 0) 1] cs) = [235; 235].
Proof. exact cluster_zero_lost. Qed.
Print Assumptions C08_cluster_zero_refuted.

(** C39. *)
Theorem C39_lcn_add : forall a v, 0 <= a <= U64_MAX -> I64_MIN <= v <= I64_MAX ->
  lcn_checked_add a v = if (0 <=? a + v) && (a + v <=? U64_MAX) then Some (a + v) else None.
Proof. exact lcn_checked_add_spec. Qed.
Print Assumptions C39_lcn_add.

Theorem C39_lcn_position : forall cs lcn, 0 <= lcn <= U64_MAX -> 1 <= cs ->
  (lcn * cs <= U64_MAX -> lcn_position cs lcn = Ok (if lcn * cs =? 0 then None else Some (lcn * cs))) /\
  (U64_MAX < lcn * cs -> lcn_position cs lcn = Err (ELcnTooBig lcn)).
Proof. exact lcn_position_spec. Qed.
Print Assumptions C39_lcn_position.

Theorem C39_vcn_offset : forall cs vcn,
  (I64_MIN <= vcn * cs <= I64_MAX -> vcn_offset cs vcn = Ok (vcn * cs)) /\
  (~ I64_MIN <= vcn * cs <= I64_MAX -> vcn_offset cs vcn = Err (EVcnTooBig vcn)).
Proof. exact vcn_offset_spec. Qed.
Print Assumptions C39_vcn_offset.

Theorem C39_position_add : forall v n, 0 < v <= U64_MAX -> 0 <= n <= U64_MAX ->
  (v + n <= U64_MAX -> pos_add (Some v) n = Some (v + n)) /\ pos_add None n = None.
Proof. exact pos_add_spec. Qed.
Print Assumptions C39_position_add.
