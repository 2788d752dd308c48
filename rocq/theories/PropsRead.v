(** * C32, C46: loading the upper case table; the effect of every read on the stream position. *)
From Verif Require Import Base Dev Types Record DataRuns Stream NonResident Resident Attribute File Guid Structured AttrList Upcase
  Spec SpecMisc SpecValues BaseProofs AttributeProofs FileProofs NonResidentProofs StructuredProofs ValueProofs AttrListProofs ReadLenProofs UpcaseProofs
  StreamExamples FileExamples ValueExamples.

(** C32. Record 10 of the volume is [f]; its first unnamed $DATA attribute (C22) has content [bs]: then the table is loaded exactly if
    there are 131072 bytes, and its entry [i] is the little endian unit at byte [2 * i]. *)
Theorem C32_load : forall nt d d1 f offs clean fuel, ntfs_file nt 10 d = (d1, Ok f) -> bytes_ok (f_data f) -> 22 <= zlen (f_data f) ->
  attr_walk (f_data f) (field 2 (f_data f) 20) offs clean -> no_attribute_list (f_data f) offs -> (length offs < fuel)%nat ->
  forall img l1 o l2 bs, offs = l1 ++ o :: l2 -> Forall (not_stream (f_data f) [] []) l1 -> is_stream (f_data f) [] [] o ->
  faultless d1 -> d_img d1 = img -> attr_content (cluster_size nt) img (f_data f) o bs ->
    (zlen bs = 131072 -> exists t, snd (upcase_read fuel nt d) = Ok t /\ zlen t = 65536 /\
       forall i, 0 <= i < 65536 -> nth (Z.to_nat i) t 0 = field 2 bs (2 * i)) /\
    (zlen bs <> 131072 -> snd (upcase_read fuel nt d) = Err (EInvalidUpcaseTableSize 131072 (zlen bs))).
Proof. exact upcase_load. Qed.
Print Assumptions C32_load.
Theorem C32_no_data : forall nt d d1 f offs clean fuel, ntfs_file nt 10 d = (d1, Ok f) -> bytes_ok (f_data f) -> 22 <= zlen (f_data f) ->
  attr_walk (f_data f) (field 2 (f_data f) 20) offs clean -> no_attribute_list (f_data f) offs -> (length offs < fuel)%nat ->
  clean = true -> Forall (not_stream (f_data f) [] []) offs -> snd (upcase_read fuel nt d) = Err (EAttributeNotFound (f_position f) 128).
Proof. exact upcase_missing. Qed.
Print Assumptions C32_no_data.
(** On every volume, device and schedule: a loaded table has exactly 65536 entries (so that C31 applies), the rest of the [Ntfs] object is
    unchanged, and nothing is stored if loading fails. *)
Theorem C32_always_complete : forall fuel nt d nt', snd (read_upcase_table fuel nt d) = Ok nt' ->
  exists t, snd (upcase_read fuel nt d) = Ok t /\ upcase_table nt' = Some t /\ zlen t = 65536 /\
    cluster_size nt' = cluster_size nt /\ sector_size nt' = sector_size nt /\ ntfs_size nt' = ntfs_size nt /\ mft_position nt' = mft_position nt /\
    file_record_size nt' = file_record_size nt /\ serial_number nt' = serial_number nt.
Proof. exact read_upcase_ok. Qed.
Print Assumptions C32_always_complete.

(** A volume whose record 10 has an (all zero) table of 131072 bytes in a hole of 256 clusters. *)
Definition ex_up_attr : list Z :=
  [128; 0; 0; 0; 72; 0; 0; 0; 1; 0; 0; 0; 0; 0; 1; 0] ++ zrepeat 0 16 ++ [64; 0; 0; 0; 0; 0; 0; 0] ++ zrepeat 0 8 ++ [0; 0; 2; 0; 0; 0; 0; 0] ++ zrepeat 0 8 ++
  [2; 0; 1; 0; 0; 0; 0; 0].
Definition ex_up_img : list Z :=
  zrepeat 0 1024 ++ ex_record (ex_nonresident 128 0 11264 [17; 22; 2; 0; 0; 0; 0; 0]) ++ zrepeat 0 9216 ++ ex_record (ex_resident 16 0 [] ex_si ++ ex_up_attr).
Definition ex_up_ntfs : ntfs := mkNtfs 512 512 (zlen ex_up_img) (Some 1024) 1024 99 None.
Definition ex_up_dev : dev := mkDev ex_up_img 0 [RShort 20] [].
Definition ex_up_file : file := match file_of_bytes (ex_record (ex_resident 16 0 [] ex_si ++ ex_up_attr)) (Some 11264) 10 with Ok f => f | _ => mkFile (mkRecord [] None) 0 end.
Example C32_example : exists d1 bs, ntfs_file ex_up_ntfs 10 ex_up_dev = (d1, Ok ex_up_file) /\ faultless d1 /\ d_img d1 = ex_up_img /\
  bytes_ok (f_data ex_up_file) /\ attr_walk (f_data ex_up_file) (field 2 (f_data ex_up_file) 20) [56; 152] true /\
  no_attribute_list (f_data ex_up_file) [56; 152] /\ not_stream (f_data ex_up_file) [] [] 56 /\ is_stream (f_data ex_up_file) [] [] 152 /\
  attr_content 512 ex_up_img (f_data ex_up_file) 152 bs /\ zlen bs = 131072.
Proof.
  eexists. exists (file_content 512 ex_up_img [mkExtent None 256] (field 8 (f_data ex_up_file) (152 + 48))).
  split; [vm_compute; reflexivity|]. split; [split; repeat constructor|]. split; [vm_compute; reflexivity|].
  split; [apply bytes_okb_ok; vm_compute; reflexivity|]. split; [apply walkb_ok; vm_compute; reflexivity|].
  split; [repeat (apply Forall_cons; [vm_compute; discriminate|]); apply Forall_nil|].
  split; [split; [vm_compute; auto|left; vm_compute; discriminate]|].
  split. { split; [vm_compute; reflexivity|]. exists [], []. split; [left; split; [right; vm_compute; reflexivity|reflexivity]|]. split; [constructor|reflexivity]. }
  assert (Hv : valid_extents 512 ex_up_img [mkExtent None 256]).
  { split; [lia|vm_compute; discriminate|repeat constructor; vm_compute; discriminate|repeat constructor; vm_compute; discriminate|repeat split; discriminate]. }
  split.
  - apply ac_nonresident; try (vm_compute; discriminate); [exact Hv|].
    change (slice (f_data ex_up_file) _ _) with [2; 0; 1; 0; 0; 0; 0; 0].
    apply (enc_hole 0 256 [0; 1] [] [0; 0; 0; 0; 0]); [|constructor].
    split; [repeat constructor; unfold is_byte; lia|]. split; [change (zlen [0; 1]) with 2; lia|reflexivity].
  - rewrite (content_size 512 ex_up_img _ _ Hv); [reflexivity|]. vm_compute. split; discriminate.
Qed.

(** C46. Every read, on every value in whatever state (malformed mapping pairs, any previous history), every device and schedule: at most
    as many bytes as asked for, the position moves by exactly their number and not past the length; an error or panic moves the position
    by no more than the remaining length; the length stays. *)
Theorem C46_resident : forall v n d d' v' x, 0 <= n -> res_read v n d = (d', (v', x)) ->
  d' = d /\ moves (res_stream_position v) (res_stream_position v') (res_len v) (res_len v') n x.
Proof. intros v n d d' v' x Hn E. split; [|exact (res_read_moves v n d d' v' x Hn E)]. rewrite <- (res_read_dev v n d), E. reflexivity. Qed.
Print Assumptions C46_resident.
Theorem C46_nonresident : forall v n d d' v' x, 0 <= n -> nr_read v n d = (d', (v', x)) ->
  moves (nr_stream_position v) (nr_stream_position v') (nr_len v) (nr_len v') n x.
Proof. exact nr_read_moves. Qed.
Print Assumptions C46_nonresident.
(** Values spread over an attribute list keep their length twice; the two are equal from the start. *)
Theorem C46_attribute_list : forall fuel v n d d' v' x, 0 <= n -> ss_size (lv_ss v) = lv_len v -> lv_read fuel v n d = (d', (v', x)) ->
  ss_size (lv_ss v') = lv_len v' /\ moves (lv_stream_position v) (lv_stream_position v') (lv_len v) (lv_len v') n x.
Proof. exact lv_read_moves. Qed.
Print Assumptions C46_attribute_list.
Theorem C46_attribute_list_new : forall nt l inst ty size d d' v, lv_new nt l inst ty size d = (d', Ok v) ->
  ss_size (lv_ss v) = lv_len v /\ lv_len v = size /\ lv_stream_position v = 0.
Proof. exact lv_new_size. Qed.
Print Assumptions C46_attribute_list_new.
Example C46_example : (* a value whose second run is malformed, on a device with a fault: 5 bytes, then an error *)
  exists v1 v2 d1 d2, nr_new 512 [17; 1; 1; 153; 1] None 600 = Ok v1 /\ nr_read v1 5 (mkDev ex_nr_img 0 [RShort 2; RShort 1] []) = (d1, (v2, Ok [2; 2; 2; 2; 2])) /\
  nr_stream_position v2 = 5 /\ exists e v3, nr_read v2 600 d1 = (d2, (v3, Err e)) /\ nr_stream_position v3 = 512.
Proof. do 4 eexists. split; [vm_compute; reflexivity|]. split; [vm_compute; reflexivity|]. split; [vm_compute; reflexivity|]. do 2 eexists. split; vm_compute; reflexivity. Qed.
