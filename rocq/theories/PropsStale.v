(** * C69-C71: data that is left over on the volume. *)
From Verif Require Import Base Dev Types Record DataRuns Stream NonResident Resident Attribute File Structured AttrList Index Spec SpecValues
  SpecAttached SpecStale SpecAttrList Upcase BaseProofs FileProofs FileExamples AttrListExamples StaleProofs StaleListProofs.

(** C69, for values whose clusters hold zeros behind the initialised size (the field at byte 56 of the attribute), in particular
    those that are initialised up to their end.  Missing: other values, for which it is false (C69_uninitialised_refuted). *)
Theorem C69_initialised_partial : forall nt img f o stored d, bytes_ok (f_data f) -> 0 <= o -> attr_fits (f_data f) o ->
  attr_content (cluster_size nt) img (f_data f) o stored -> ~ attr_resident_at (f_data f) o ->
  let init := field 8 (f_data f) (o + 56) in
  (forall k b, init <= k -> byte_at stored k = Some b -> b = 0) ->
  faultless d -> d_img d = img ->
  exists v, attr_value nt (mkAttr f o None) d = (d, Ok v) /\ av_len v = zlen stored /\
    forall k, acts_as (av_read k) (av_seek k) v d (current_content init stored) (zlen stored) 0.
Proof. exact initialised_acts. Qed.
Print Assumptions C69_initialised_partial.
(** A value of 16 bytes, 8 of them initialised, with zeros behind these in its cluster: it meets all hypotheses. *)
Example C69_example : bytes_ok (f_data init_file) /\ attr_fits (f_data init_file) 56 /\
  attr_content (cluster_size ex_ntfs) zero_img (f_data init_file) 56 zero_stored /\ ~ attr_resident_at (f_data init_file) 56 /\
  field 8 (f_data init_file) (56 + 56) = 8 /\ zlen zero_stored = 16 /\
  (forall k b, field 8 (f_data init_file) (56 + 56) <= k -> byte_at zero_stored k = Some b -> b = 0) /\
  faultless (mkDev zero_img 0 [] []).
Proof.
  split; [apply bytes_okb_ok; vm_compute; reflexivity|]. split; [apply fits_dec; vm_compute; reflexivity|].
  split; [exact zero_content|]. split; [vm_compute; discriminate|]. split; [vm_compute; reflexivity|].
  split; [vm_compute; reflexivity|]. split; [|split; constructor].
  replace (field 8 (f_data init_file) (56 + 56)) with 8 by (vm_compute; reflexivity). exact init_zeros.
Qed.
(** C69 is violated: the bytes left over in the cluster are returned. *)
Theorem C69_uninitialised_refuted : exists prot p n f img nt d v stored k,
  bytes_ok prot /\ file_of_bytes prot p n = Ok f /\ attr_fits (f_data f) 56 /\ ~ attr_resident_at (f_data f) 56 /\
  attr_content (cluster_size nt) img (f_data f) 56 stored /\ field 8 (f_data f) (56 + 56) = 8 /\ faultless d /\ d_img d = img /\
  attr_value nt (mkAttr f 56 None) d = (d, Ok v) /\
  reader_run (av_read k) (av_seek k) v d [ORead 10] = [RBytes (Ok [1; 2; 3; 4; 5; 6; 7; 8; 99; 99])] /\
  ztake 10 (current_content 8 stored) = [1; 2; 3; 4; 5; 6; 7; 8; 0; 0].
Proof. exact uninitialised_read. Qed.
Print Assumptions C69_uninitialised_refuted.

(** C70, for references that are still good: [data] is the record with the number in the first six bytes of the index entry [s];
    if its sequence number is that in the next two bytes, the file of the reference is returned.  Missing: other references, for
    which the same file is returned (C70_stale_refuted). *)
Theorem C70_reference_partial : forall img nt mp mdata l d s p e data q,
  bytes_ok img -> faultless d -> d_img d = img -> mft_position nt = Some mp -> 32 <= file_record_size nt <= U16_MAX ->
  mft_at img mp (file_record_size nt) mdata l -> valid_extents (cluster_size nt) img l ->
  bytes_ok s -> ie_new s p = Ok e -> 16 <= field 2 s 8 ->
  let n := field 6 s 0 in let frs := file_record_size nt in let prot := slice img q (q + frs) in
  n * frs <= U64_MAX -> disk_position (cluster_size nt) l (n * frs) = Some q -> q + frs <= zlen img ->
  array_clear (field 2 prot 4) (field 2 prot 6 - 1) -> stored_as data prot -> file_record_ok data ->
  let f := mkFile (mkRecord data (Some q)) n in snd (ie_to_file nt e d) = Ok f /\ f_number f = field 6 s 0 /\
  (field 2 data 16 = field 2 s 6 -> f_sequence_number f = Ok (field 2 s 6)).
Proof. exact reference_followed. Qed.
Print Assumptions C70_reference_partial.
(** Entry for record 2 of the volume of [C23_example], with its sequence number 1.  What the theorem asks of the volume is there; this
    is what it asks of the entry and the record. *)
Example C70_example : let s := [2; 0; 0; 0; 0; 0; 1; 0; 16; 0; 0; 0; 0; 0; 0; 0] in let prot := slice ex_vol 4608 (4608 + 1024) in
  bytes_ok s /\ ie_new s None = Ok (mkIE s None) /\ field 2 s 8 = 16 /\ field 6 s 0 = 2 /\ file_record_size ex_ntfs = 1024 /\
  disk_position (cluster_size ex_ntfs) ex_vol_extents (2 * 1024) = Some 4608 /\ 4608 + 1024 <= zlen ex_vol /\
  array_clear (field 2 prot 4) (field 2 prot 6 - 1) /\ stored_as (f_data ex_file) prot /\ file_record_ok (f_data ex_file) /\
  field 2 (f_data ex_file) 16 = field 2 s 6 /\
  snd (ie_to_file ex_ntfs (mkIE s None) ex_vol_dev) = Ok (mkFile (mkRecord (f_data ex_file) (Some 4608)) 2).
Proof.
  cbv zeta. split; [apply bytes_okb_ok; reflexivity|]. split; [vm_compute; reflexivity|]. split; [reflexivity|]. split; [reflexivity|]. split; [reflexivity|].
  split; [vm_compute; reflexivity|]. split; [vm_compute; discriminate|]. destruct ex_record2_stored as (H1 & H2 & H3).
  split; [exact H1|]. split; [exact H2|]. split; [exact H3|]. split; vm_compute; reflexivity.
Qed.
(** C70 is violated: a reference to a file with sequence number 9 leads to the file with sequence number 1. *)
Theorem C70_stale_refuted : exists img nt mp mdata l d s e f,
  bytes_ok img /\ faultless d /\ d_img d = img /\ mft_position nt = Some mp /\
  mft_at img mp (file_record_size nt) mdata l /\ valid_extents (cluster_size nt) img l /\
  bytes_ok s /\ ie_new s None = Ok e /\ field 2 s 6 = 9 /\
  snd (ie_to_file nt e d) = Ok f /\ f_sequence_number f = Ok 1.
Proof. exact stale_reference. Qed.
Print Assumptions C70_stale_refuted.
(** The same for the references in attribute lists: [bs] is the content of a list with an entry at [o], which refers to the record [data]. *)
Theorem C70_list_reference_partial : forall img nt mp mdata l d bs o e data q,
  bytes_ok img -> faultless d -> d_img d = img -> mft_position nt = Some mp -> 32 <= file_record_size nt <= U16_MAX ->
  mft_at img mp (file_record_size nt) mdata l -> valid_extents (cluster_size nt) img l ->
  bytes_ok bs -> decodes_list_entry bs o e -> record_stored img nt l (field 6 bs (o + 16)) q data ->
  let f := mkFile (mkRecord data (Some q)) (field 6 bs (o + 16)) in snd (le_to_file nt e d) = Ok f /\ f_number f = field 6 bs (o + 16) /\
  (field 2 data 16 = field 2 bs (o + 22) -> f_sequence_number f = Ok (field 2 bs (o + 22))).
Proof. exact list_reference_followed. Qed.
Print Assumptions C70_list_reference_partial.
(** An entry for record 2 with its sequence number 1. *)
Example C70_list_example : let vol := ex_al_vol5 in let nt := ex_al_ntfs vol in
  bytes_ok vol /\ faultless (ex_al_dev vol) /\ d_img (ex_al_dev vol) = vol /\ mft_position nt = Some 1024 /\ 32 <= file_record_size nt <= U16_MAX /\
  mft_at vol 1024 (file_record_size nt) (f_data ex_al_mft) ex_al_extents /\ valid_extents (cluster_size nt) vol ex_al_extents /\
  bytes_ok fresh_list /\ decodes_list_entry fresh_list 0 fresh_entry /\ record_stored vol nt ex_al_extents (field 6 fresh_list (0 + 16)) 3072 (f_data ex_al_f2) /\
  field 2 (f_data ex_al_f2) 16 = field 2 fresh_list (0 + 22).
Proof.
  cbv zeta. split; [apply bytes_okb_ok; exact ex_al_vol5_bytes|]. split; [split; repeat constructor|]. split; [reflexivity|]. split; [reflexivity|].
  split; [vm_compute; split; discriminate|]. split; [apply ex_al_mft_at; [exact ex_al_vol5_len|vm_compute; reflexivity]|]. split; [apply ex_al_mft_valid; exact ex_al_vol5_len|].
  split; [apply bytes_okb_ok; reflexivity|]. split; [exact fresh_decodes|]. split; [exact ex_al_stored5_2|vm_compute; reflexivity].
Qed.
(** C70 is violated here too: a file whose list refers to record 2 with the sequence number 7 gets the stream that is in record 2 with the
    sequence number 1, which may belong to another file. *)
Theorem C70_list_stale_refuted : exists img nt ml f before lo after bs offs e vs d i g,
  file_with_list img nt ml f before lo after true bs offs e vs /\ faultless d /\ d_img d = img /\
  snd (file_data 20 nt f [] d) = Ok (Some i) /\ ai_value_file i = Some g /\ f_number g = 2 /\ f_sequence_number g = Ok 1 /\
  forall o, In o offs -> entry_number bs o = 2 -> field 2 bs (o + 22) = 7.
Proof. exact stale_list_reference. Qed.
Print Assumptions C70_list_stale_refuted.

(** C71, for records with an end mark in the used part (its size is the field at byte 24).  Missing: records without, for which it
    is false (C71_left_over_refuted). *)
Theorem C71_used_partial : forall f offs m, bytes_ok (f_data f) -> 22 <= zlen (f_data f) ->
  attrs_until (f_data f) (field 2 (f_data f) 20) offs m -> m <= field 4 (f_data f) 24 ->
  exists start, raw_start f = Ok start /\
    (forall n, iterate (raw_next f) (length offs + n) start = map (fun o => Some (Ok (mkAttr f o None))) offs ++ repeat None n) /\
    Forall (fun o => o + attr_len_at (f_data f) o <= field 4 (f_data f) 24) offs.
Proof. exact used_attributes. Qed.
Print Assumptions C71_used_partial.
Example C71_example : bytes_ok (f_data ex_file) /\ attrs_until (f_data ex_file) (field 2 (f_data ex_file) 20) [56; 88; 120] 152 /\
  152 <= field 4 (f_data ex_file) 24.
Proof. split; [apply ex_file_bytes|]. split; [exact ex_until|vm_compute; discriminate]. Qed.
(** C71 is violated: in a record whose used part of 512 bytes is filled by one attribute, an attribute behind it is listed too. *)
Theorem C71_left_over_refuted : exists prot p n f o, bytes_ok prot /\ file_of_bytes prot p n = Ok f /\ f_data_size f = Ok 512 /\ 512 <= o /\
  exists start, raw_start f = Ok start /\ nth_error (iterate (raw_next f) 2 start) 1 = Some (Some (Ok (mkAttr f o None))).
Proof. exact left_over_attribute. Qed.
Print Assumptions C71_left_over_refuted.
