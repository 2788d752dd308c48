(** * C77: values on a volume that is written to while they are open. *)
From Verif Require Import Base Dev Types Record DataRuns Stream NonResident Resident Attribute File AttrList Structured Volume Spec SpecValues SpecLive BaseProofs DevProofs
  ReaderProofs NonResidentProofs AttributeProofs FileProofs StructuredProofs ValueProofs StreamExamples FileExamples ValueExamples LiveProofs
  SpecIndex SpecAttrList AttrListIterProofs AttrListExamples LivePartsProofs LiveExamples.

(** C77. The attribute at [o] of the record [f] is non-resident, and its mapping pairs encode the extents [l].  Its value was opened on some device
    [d0].  In the history [h] every operation meets its own device; on each of them the extents [l] exist, and it works, but the rest, in
    particular what the extents hold, is arbitrary.  Each read returns what the extents hold at that moment: nothing read before is served
    again, and the position moves as over unchanging contents. *)
Theorem C77_nonresident : forall nt f o d0 d1 v l h fuel, bytes_ok (f_data f) -> 0 <= o -> attr_fits (f_data f) o -> ~ attr_resident_at (f_data f) o ->
  o + 56 <= zlen (f_data f) -> field 2 (f_data f) (o + 32) <= attr_len_at (f_data f) o ->
  encodes 0 l (slice (f_data f) (o + field 2 (f_data f) (o + 32)) (o + attr_len_at (f_data f) o)) ->
  attr_value nt (mkAttr f o None) d0 = (d1, Ok v) ->
  Forall (fun x => faultless (fst x) /\ valid_extents (cluster_size nt) (d_img (fst x)) l /\ op_ok (snd x)) h ->
  live_run (av_read fuel) (av_seek fuel) v h =
  live_cursor (fun img => file_content (cluster_size nt) img l (field 8 (f_data f) (o + 48))) (field 8 (f_data f) (o + 48)) 0 h.
Proof. exact live_nonresident. Qed.
Print Assumptions C77_nonresident.

(** A resident value is part of the record: it keeps the bytes the record had when it was read, whatever happens to the volume, even if no operation
    of the device works any more. *)
Theorem C77_resident : forall nt f o d0 d1 v bs h fuel, bytes_ok (f_data f) -> 0 <= o -> attr_fits (f_data f) o -> attr_resident_at (f_data f) o ->
  o + 22 <= zlen (f_data f) -> attr_value_at (f_data f) o bs ->
  attr_value nt (mkAttr f o None) d0 = (d1, Ok v) -> Forall (fun x => op_ok (snd x)) h ->
  live_run (av_read fuel) (av_seek fuel) v h = live_cursor (fun _ => bs) (zlen bs) 0 h.
Proof. exact live_resident. Qed.
Print Assumptions C77_resident.

(** A value of 600 bytes in two clusters; the second one is overwritten between the second read and the third. *)
Example C77_example :
  let f := ex_nr_file in let l := [mkExtent (Some 3) 1; mkExtent (Some 1) 1] in
  let img2 := zrepeat 1 512 ++ zrepeat 9 512 ++ zrepeat 3 512 ++ zrepeat 4 512 in
  let d := mkDev ex_nr_img 0 [RShort 3] [] in let e := mkDev img2 77 [] [] in
  let h := [(d, ORead 3); (d, OSeek (SStart 510)); (d, ORead 4); (e, OSeek (SCurrent (-2))); (e, ORead 2); (e, OSeek (SEnd (-1))); (d, ORead 5)] in
  bytes_ok (f_data f) /\ attr_fits (f_data f) 56 /\ ~ attr_resident_at (f_data f) 56 /\ 56 + 56 <= zlen (f_data f) /\
  field 2 (f_data f) (56 + 32) <= attr_len_at (f_data f) 56 /\
  encodes 0 l (slice (f_data f) (56 + field 2 (f_data f) (56 + 32)) (56 + attr_len_at (f_data f) 56)) /\
  Forall (fun x => faultless (fst x) /\ valid_extents (cluster_size ex_ntfs) (d_img (fst x)) l /\ op_ok (snd x)) h /\
  exists v, attr_value ex_ntfs (mkAttr f 56 None) d = (d, Ok v) /\
    live_run (av_read 9) (av_seek 9) v h =
    [RBytes (Ok [4; 4; 4]); RPos (Ok 510); RBytes (Ok [4; 4; 2; 2]); RPos (Ok 512); RBytes (Ok [9; 9]); RPos (Ok 599); RBytes (Ok [2])].
Proof.
  cbn zeta. split; [apply bytes_okb_ok; vm_compute; reflexivity|]. split; [apply fits_dec; vm_compute; reflexivity|].
  split; [vm_compute; discriminate|]. split; [vm_compute; discriminate|]. split; [vm_compute; discriminate|]. split.
  { change (slice (f_data ex_nr_file) _ _) with [17; 1; 3; 17; 1; 254; 0; 0].
    apply (enc_data 0 3 1 [1] [3] [mkExtent (Some 1) 1] [17; 1; 254; 0; 0]); [apply ubytes1, byte1; lia|apply sbytes1; lia|].
    apply (enc_data 3 1 1 [1] [254] [] [0; 0]); [apply ubytes1, byte1; lia| |constructor].
    split; [constructor; [red; lia|constructor]|]. change (zlen [254]) with 1. change (256 ^ 1) with 256. change (256 / 2) with 128. cbn [le_val]. repeat split; lia. }
  split.
  { repeat (constructor; [split; [split; repeat constructor|]; split;
      [split; [vm_compute; discriminate|vm_compute; discriminate|repeat constructor; vm_compute; discriminate|repeat constructor; vm_compute; discriminate|repeat split; discriminate]
      |cbn; unfold I64_MIN, I64_MAX, U64_MAX; lia]|]). constructor. }
  eexists. split; [vm_compute; reflexivity|vm_compute; reflexivity].
Qed.

(** A name of which nothing on the volume is left. *)
Example C77_resident_example :
  let f := ex_vfile in let h := [(mkDev [] 0 [RErr OtherIo] [Some OtherIo], ORead 2); (mkDev [] 0 [] [], OSeek (SEnd (-1))); (mkDev [] 5 [] [], ORead 9)] in
  bytes_ok (f_data f) /\ attr_fits (f_data f) 56 /\ attr_resident_at (f_data f) 56 /\ 56 + 22 <= zlen (f_data f) /\ attr_value_at (f_data f) 56 ex_si /\
  Forall (fun x => op_ok (snd x)) h /\
  exists v, attr_value ex_ntfs (mkAttr f 56 None) (mkDev [] 0 [] []) = (mkDev [] 0 [] [], Ok v) /\
    live_run (av_read 9) (av_seek 9) v h = [RBytes (Ok (ztake 2 ex_si)); RPos (Ok (zlen ex_si - 1)); RBytes (Ok (zdrop (zlen ex_si - 1) ex_si))].
Proof.
  cbn zeta. split; [apply bytes_okb_ok; vm_compute; reflexivity|]. split; [apply fits_dec; vm_compute; reflexivity|].
  split; [vm_compute; reflexivity|]. split; [vm_compute; discriminate|]. split.
  { destruct ex_si_at as (_ & _ & H). inversion H as [? ? ? H2|? H2]; [exact H2|destruct H2; vm_compute; reflexivity]. }
  split; [repeat constructor; cbn; unfold I64_MIN, I64_MAX, U64_MAX; lia|].
  eexists. split; [vm_compute; reflexivity|vm_compute; reflexivity].
Qed.

(** A value whose parts are in several records.  As in C37, the attribute was found behind the [k]-th entry of the attribute list [bs] of the file, which is
    resident.  On the devices of the history the list still leads to records with the extents [parts], wherever these records now are and whatever
    else they hold.  [fuel] bounds the loop iterations of one call. *)
Theorem C77_parts : forall nt mp bs p e offs k dI f off parts d0 d1 v h fuel,
  mft_position nt = Some mp -> 32 <= file_record_size nt <= U16_MAX ->
  bytes_ok bs -> zlen bs <= U64_MAX -> position_sane p (zlen bs) -> list_walk bs 0 offs e ->
  bytes_ok (f_data f) -> 0 <= off -> attr_fits (f_data f) off -> off + 56 <= zlen (f_data f) -> type_known (attr_type_at (f_data f) off) -> parts <> [] ->
  let has := lists_parts nt mp bs (attr_type_at (f_data f) off) (attr_instance_at (f_data f) off) e (skipn k offs) parts in
  faultless d0 -> has (d_img d0) ->
  attr_value nt (mkAttr f off (Some (fst (iterate_state (with_dev alist_next) k (alist_of_sval (SVRes (res_new bs p)), dI))))) d0 = (d1, Ok v) ->
  Forall (fun x => faultless (fst x) /\ has (d_img (fst x)) /\ op_ok (snd x) /\ (length (d_reads (fst x)) + 2 * length (concat parts) + 2 <= fuel)%nat) h ->
  let size := field 8 (f_data f) (off + 48) in
  live_run (av_read fuel) (av_seek fuel) v h = live_cursor (fun img => file_content (cluster_size nt) img (concat parts) size) size 0 h.
Proof. exact live_resident_list. Qed.
Print Assumptions C77_parts.

(** The same if the list is stored in the extents [l], which hold it on all the devices. *)
Theorem C77_parts_nonresident : forall nt mp l enc p lsize w bs e offs k dI f off parts d0 d1 v h fuel,
  mft_position nt = Some mp -> 32 <= file_record_size nt <= U16_MAX ->
  encodes 0 l enc -> 0 <= lsize <= extents_size (cluster_size nt) l -> lsize + U16_MAX <= U64_MAX -> nr_new (cluster_size nt) enc p lsize = Ok w ->
  bytes_ok bs -> zlen bs = lsize -> list_walk bs 0 offs e ->
  bytes_ok (f_data f) -> 0 <= off -> attr_fits (f_data f) off -> off + 56 <= zlen (f_data f) -> type_known (attr_type_at (f_data f) off) -> parts <> [] ->
  let has img := lists_parts nt mp bs (attr_type_at (f_data f) off) (attr_instance_at (f_data f) off) e (skipn k (with_cut offs e)) parts img /\
    valid_extents (cluster_size nt) img l /\ file_content (cluster_size nt) img l lsize = bs in
  faultless dI -> has (d_img dI) -> faultless d0 -> has (d_img d0) ->
  attr_value nt (mkAttr f off (Some (fst (iterate_state (with_dev alist_next) k (alist_of_sval (SVNr w), dI))))) d0 = (d1, Ok v) ->
  Forall (fun x => faultless (fst x) /\ has (d_img (fst x)) /\ op_ok (snd x) /\ (length (d_reads (fst x)) + 2 * length (concat parts) + 2 <= fuel)%nat) h ->
  let size := field 8 (f_data f) (off + 48) in
  live_run (av_read fuel) (av_seek fuel) v h = live_cursor (fun img => file_content (cluster_size nt) img (concat parts) size) size 0 h.
Proof. exact live_nonresident_list. Qed.
Print Assumptions C77_parts_nonresident.

(** The value of C37, both parts of which are written to between reads; [exl_has] is the conjunction for both theorems. *)
Example C77_parts_example :
  let nt := exl_nt in let f := ex_al_f2 in let d := ex_al_dev ex_al_vol_far in
  mft_position nt = Some 1024 /\ 32 <= file_record_size nt <= U16_MAX /\
  encodes 0 ex_al_list_extents ex_al_list_runs /\ 0 <= 128 <= extents_size (cluster_size nt) ex_al_list_extents /\ 128 + U16_MAX <= U64_MAX /\
  nr_new (cluster_size nt) ex_al_list_runs (Some 2200) 128 = Ok ex_al_list_value /\
  bytes_ok ex_al_list /\ zlen ex_al_list = 128 /\ position_sane (Some 2136) (zlen ex_al_list) /\ list_walk ex_al_list 0 [0; 32; 64; 96] ListDone /\
  bytes_ok (f_data f) /\ attr_fits (f_data f) 56 /\ 56 + 56 <= zlen (f_data f) /\ attr_type_at (f_data f) 56 = 128 /\ type_known 128 /\ attr_instance_at (f_data f) 56 = 5 /\
  skipn 1 (with_cut [0; 32; 64; 96] ListDone) = [32; 64; 96] /\ skipn 1 [0; 32; 64; 96] = [32; 64; 96] /\
  faultless d /\ exl_has (d_img d) /\
  Forall (fun x => faultless (fst x) /\ exl_has (d_img (fst x)) /\ op_ok (snd x) /\ (length (d_reads (fst x)) + 2 * length (concat [ex_part1; ex_part2]) + 2 <= 20)%nat) exl_history /\
  (exists d1 v, attr_value nt (mkAttr f 56 (Some (fst (iterate_state (with_dev alist_next) 1 (alist_of_sval (SVRes (res_new ex_al_list (Some 2136))), d))))) d = (d1, Ok v) /\
    live_run (av_read 20) (av_seek 20) v exl_history = exl_answers) /\
  (exists d1 v, attr_value nt (mkAttr f 56 (Some (fst (iterate_state (with_dev alist_next) 1 (alist_of_sval (SVNr ex_al_list_value), d))))) d = (d1, Ok v) /\
    live_run (av_read 20) (av_seek 20) v exl_history = exl_answers).
Proof.
  cbn zeta. split; [reflexivity|]. split; [unfold U16_MAX; cbn; lia|]. split; [exact ex_al_list_encodes|]. split; [cbn; lia|]. split; [unfold U16_MAX, U64_MAX; lia|].
  split; [vm_compute; reflexivity|]. split; [apply bytes_okb_ok; vm_compute; reflexivity|]. split; [vm_compute; reflexivity|].
  split; [intros v [= <-]; vm_compute; split; (reflexivity || discriminate)|]. split; [apply (lwalk_ok 6); vm_compute; reflexivity|].
  split; [apply bytes_okb_ok; vm_compute; reflexivity|]. split; [apply fits_dec; vm_compute; reflexivity|]. split; [vm_compute; discriminate|].
  split; [vm_compute; reflexivity|]. split; [cbn; auto 20|]. split; [vm_compute; reflexivity|]. split; [reflexivity|]. split; [reflexivity|].
  split; [split; repeat constructor|]. split; [exact exl_before|]. split; [exact exl_history_ok|].
  split; do 2 eexists; (split; [vm_compute; reflexivity|]); vm_compute; reflexivity.
Qed.
