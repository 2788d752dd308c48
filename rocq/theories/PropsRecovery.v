(** * Property C72: values after errors. *)
From Verif Require Import Base Dev Types Record DataRuns Stream NonResident Resident Attribute File Structured AttrList
  Spec SpecIndex SpecValues SpecAttrList SpecAttached SpecRecovery BaseProofs AttributeProofs FileProofs AttrListProofs AttrListValueProofs RecoveryProofs
  FileExamples AttrListExamples StaleProofs PropsAttrList.
From Coq Require Import Lia.

(** The value of an attribute of one record goes on at the position it reports, whatever errors the device gave before. *)
Theorem C72_attribute : forall nt img f o bs, bytes_ok (f_data f) -> 0 <= o -> attr_fits (f_data f) o -> attr_content (cluster_size nt) img (f_data f) o bs ->
  resumes nt (mkAttr f o None) img bs.
Proof. exact attr_resumes. Qed.
Print Assumptions C72_attribute.

(** A value of 16 bytes; the device fails in the second of three reads, and the next one goes on at byte 6. *)
Example C72_attribute_example : bytes_ok (f_data init_file) /\ attr_fits (f_data init_file) 56 /\
  attr_content (cluster_size ex_ntfs) init_img (f_data init_file) 56 init_stored /\
  exists v d2 v2, attr_value ex_ntfs (mkAttr init_file 56 None) (mkDev init_img 0 [] []) = (mkDev init_img 0 [] [], Ok v) /\
  let d' := mkDev init_img 0 [RShort 99; RShort 1; RErr OtherIo] [] in let ops := [ORead 4; ORead 4] in
  reader_exec (av_read 9) (av_seek 9) v d' ops = (d2, v2) /\ reader_run (av_read 9) (av_seek 9) v d' ops = [RBytes (Ok [1; 2; 3; 4]); RBytes (Err (EIo OtherIo))] /\
  av_stream_position v2 = 6 /\ reader_run (av_read 9) (av_seek 9) v2 (mkDev init_img 0 [] []) [ORead 3] = [RBytes (Ok [7; 8; 99])].
Proof.
  split; [apply bytes_okb_ok; vm_compute; reflexivity|]. split; [apply fits_dec; vm_compute; reflexivity|]. split; [exact init_content|].
  eexists _, _, _. split; [vm_compute; reflexivity|]. cbv zeta. split; [vm_compute; reflexivity|]. repeat split; vm_compute; reflexivity.
Qed.

(** For values in several records this is false: an error while the record of the next part is read drops that part and all later ones.
    Reads then report the end of the value, although position and length say otherwise, and seeks to this or a later position succeed but do not help. *)
Theorem C72_listed_refuted : exists nt a img l size d d1 v k ops d' d2 v2 d3 e,
  value_reads_as nt a img l size /\ faultless d /\ d_img d = img /\ attr_value nt a d = (d1, Ok v) /\
  d_img d' = img /\ Forall op_ok ops /\ reader_exec (av_read k) (av_seek k) v d' ops = (d2, v2) /\ last (reader_run (av_read k) (av_seek k) v d' ops) (RPos Panic) = RBytes (Err e) /\
  faultless d3 /\ d_img d3 = img /\ (length (d_reads d3) + 2 * length l + 2 <= k)%nat /\
  av_stream_position v2 = 1024 /\ av_len v2 = 1600 /\ zdrop 1024 (file_content (cluster_size nt) img l size) = zrepeat 2 512 ++ zrepeat 3 64 /\
  reader_run (av_read k) (av_seek k) v2 d3 [ORead 100; OSeek (SStart 1024); ORead 100; OSeek (SStart 1500); ORead 100] =
    [RBytes (Ok []); RPos (Ok 1024); RBytes (Ok []); RPos (Ok 1500); RBytes (Ok [])].
Proof.
  exists (ex_al_ntfs ex_al_vol1), (mkAttr ex_al_f2 56 (Some (fst (iterate_state (with_dev alist_next) 1 (alist_of_sval (SVRes (res_new ex_al_list (Some 2136))), ex_al_dev ex_al_vol1))))), ex_al_vol1,
    (concat [ex_part1; ex_part2]), (field 8 (f_data ex_al_f2) (56 + 48)), (ex_al_dev ex_al_vol1).
  eexists _, _. exists 50%nat, [ORead 1024; ORead 1], (mkDev ex_al_vol1 0 [RShort 600; RErr OtherIo] []). eexists _, _. exists (mkDev ex_al_vol1 0 [RShort 3] []), (EIo OtherIo).
  split.
  { destruct C37_example as (H1 & H2 & H3 & H4 & H5 & H6 & H7 & H8 & H9 & H10 & H11 & H12 & H13 & H14 & H15 & H16 & _).
    eapply C37_resident_list_partial; eauto; (lia || discriminate). }
  split; [split; repeat constructor|]. split; [reflexivity|]. split; [vm_compute; reflexivity|]. split; [reflexivity|].
  split; [repeat constructor; vm_compute; (reflexivity || discriminate)|]. split; [vm_compute; reflexivity|]. split; [vm_compute; reflexivity|].
  split; [split; repeat constructor|]. split; [reflexivity|]. split; [cbn; lia|]. repeat split; vm_compute; reflexivity.
Qed.
Print Assumptions C72_listed_refuted.

(** But a seek back, as soon as the device works, puts them in order again.  What is missing for the full property: the position itself, and
    seeks forward.  The hypotheses are those of C37. *)
Theorem C72_resident_list_partial : forall img nt mp mdata ml bs p e offs k d0 f off parts,
  bytes_ok img -> mft_position nt = Some mp -> 32 <= file_record_size nt <= U16_MAX ->
  mft_at img mp (file_record_size nt) mdata ml -> valid_extents (cluster_size nt) img ml ->
  bytes_ok bs -> zlen bs <= U64_MAX -> position_sane p (zlen bs) -> list_walk bs 0 offs e -> faultless d0 -> d_img d0 = img ->
  bytes_ok (f_data f) -> 0 <= off -> attr_fits (f_data f) off -> off + 56 <= zlen (f_data f) -> type_known (attr_type_at (f_data f) off) ->
  connected img nt ml bs (attr_type_at (f_data f) off) (attr_instance_at (f_data f) off) e (skipn k offs) parts -> parts <> [] ->
  recovers nt (mkAttr f off (Some (fst (iterate_state (with_dev alist_next) k (alist_of_sval (SVRes (res_new bs p)), d0))))) img
    (concat parts) (field 8 (f_data f) (off + 48)).
Proof. exact resident_list_recovers. Qed.
Print Assumptions C72_resident_list_partial.
Theorem C72_nonresident_list_partial : forall img nt mp mdata ml l enc p lsize v e offs k d0 f off parts,
  bytes_ok img -> mft_position nt = Some mp -> 32 <= file_record_size nt <= U16_MAX ->
  mft_at img mp (file_record_size nt) mdata ml -> valid_extents (cluster_size nt) img ml ->
  valid_extents (cluster_size nt) img l -> encodes 0 l enc -> 0 <= lsize <= extents_size (cluster_size nt) l -> lsize + U16_MAX <= U64_MAX ->
  nr_new (cluster_size nt) enc p lsize = Ok v ->
  let bs := file_content (cluster_size nt) img l lsize in
  bytes_ok bs -> list_walk bs 0 offs e -> faultless d0 -> d_img d0 = img ->
  bytes_ok (f_data f) -> 0 <= off -> attr_fits (f_data f) off -> off + 56 <= zlen (f_data f) -> type_known (attr_type_at (f_data f) off) ->
  connected img nt ml bs (attr_type_at (f_data f) off) (attr_instance_at (f_data f) off) e (skipn k (with_cut offs e)) parts -> parts <> [] ->
  recovers nt (mkAttr f off (Some (fst (iterate_state (with_dev alist_next) k (alist_of_sval (SVNr v), d0))))) img
    (concat parts) (field 8 (f_data f) (off + 48)).
Proof. exact nonresident_list_recovers. Qed.
Print Assumptions C72_nonresident_list_partial.

(** The values of [C37_example] and [C37_nonresident_example] meet the hypotheses.  In the situation of [C72_listed_refuted] a seek to 1000 helps. *)
Example C72_list_example :
  let nt := ex_al_ntfs ex_al_vol1 in
  let a := mkAttr ex_al_f2 56 (Some (fst (iterate_state (with_dev alist_next) 1 (alist_of_sval (SVRes (res_new ex_al_list (Some 2136))), ex_al_dev ex_al_vol1)))) in
  recovers nt a ex_al_vol1 (concat [ex_part1; ex_part2]) 1600 /\
  recovers (ex_al_ntfs ex_al_vol_far)
    (mkAttr ex_al_f2 56 (Some (fst (iterate_state (with_dev alist_next) 1 (alist_of_sval (SVNr ex_al_list_value), ex_al_dev ex_al_vol_far))))) ex_al_vol_far (concat [ex_part1; ex_part2]) 1600 /\
  exists d1 v d2 v2, attr_value nt a (ex_al_dev ex_al_vol1) = (d1, Ok v) /\
    reader_exec (av_read 50) (av_seek 50) v (mkDev ex_al_vol1 0 [RShort 600; RErr OtherIo] []) [ORead 1024; ORead 1] = (d2, v2) /\ av_stream_position v2 = 1024 /\
    reader_run (av_read 50) (av_seek 50) v2 (mkDev ex_al_vol1 0 [RShort 3] []) [OSeek (SStart 1000); ORead 30] = [RPos (Ok 1000); RBytes (Ok (zrepeat 0 24 ++ zrepeat 2 6))].
Proof.
  cbv zeta. split; [|split].
  - destruct C37_example as (H1 & H2 & H3 & H4 & H5 & H6 & H7 & H8 & H9 & H10 & H11 & H12 & H13 & H14 & H15 & H16 & _).
    change 1600 with (field 8 (f_data ex_al_f2) (56 + 48)). eapply C72_resident_list_partial; eauto; (lia || discriminate).
  - destruct C37_nonresident_example as (H1 & H2 & H3 & H4 & H5 & H6 & H7 & H8 & H9 & H10 & H11 & H12 & H13 & H14 & H15 & H16 & H17 & H18 & H19 & H20 & _).
    change 1600 with (field 8 (f_data ex_al_f2) (56 + 48)). rewrite <- H11 in H12, H13, H20. eapply C72_nonresident_list_partial; eauto; (lia || discriminate).
  - eexists _, _, _, _. split; [vm_compute; reflexivity|]. split; [vm_compute; reflexivity|]. split; vm_compute; reflexivity.
Qed.
