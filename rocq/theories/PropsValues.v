(** * C35, C45: structured values, file information, volume information and name. *)
From Verif Require Import Base Dev Types Record DataRuns Stream NonResident Resident Attribute File Guid Structured AttrList Volume
  Spec SpecValues BaseProofs ReaderProofs NonResidentProofs AttributeProofs FileProofs StructuredProofs ValueProofs StreamExamples FileExamples ValueExamples.

(** C35. For each type three statements.
    [_bytes]: parsing any byte string gives exactly what it encodes, or an error if it encodes nothing; never a panic.
    [_attribute]: the same for [structured_value] of an attribute, resident or non-resident, on a device without faults but with
    arbitrary short reads.
    [_resident]: the same for [resident_structured_value], which returns an error for attributes of another type, non-resident ones
    and ones with an invalid value range. *)

(** $STANDARD_INFORMATION *)
Theorem C35_std_info_bytes : forall bs p, bytes_ok bs -> zlen bs <= U64_MAX -> decodes_exactly decodes_std_info bs (from_slice (@si_new resv) bs p).
Proof. intros bs p. exact (parses_slice _ _ bs p si_parses). Qed.
Print Assumptions C35_std_info_bytes.
Theorem C35_std_info_attribute : forall nt img f o bs d fuel, bytes_ok (f_data f) -> bytes_ok bs -> 0 <= o -> attr_fits (f_data f) o ->
  attr_type_at (f_data f) o = 16 -> attr_content (cluster_size nt) img (f_data f) o bs -> faultless d -> d_img d = img ->
  decodes_exactly decodes_std_info bs (snd (attr_structured fuel nt (@si_new aval) 16 (mkAttr f o None) d)).
Proof. intros. eapply (parses_attribute _ _ nt img f o 16 bs d fuel si_parses); auto. cbn; auto 20. Qed.
Print Assumptions C35_std_info_attribute.
Theorem C35_std_info_resident : forall f o e, bytes_ok (f_data f) -> 0 <= o -> attr_fits (f_data f) o -> o + 22 <= zlen (f_data f) ->
  (attr_type_at (f_data f) o = 16 -> attr_resident_at (f_data f) o -> forall bs, attr_value_at (f_data f) o bs ->
     decodes_exactly decodes_std_info bs (resident_structured (@si_new resv) 16 (mkAttr f o e))) /\
  (attr_type_at (f_data f) o <> 16 \/ ~ attr_resident_at (f_data f) o \/ (forall bs, ~ attr_value_at (f_data f) o bs) ->
     exists x, resident_structured (@si_new resv) 16 (mkAttr f o e) = Err x).
Proof. intros. apply (parses_resident _ _ f o e 16 si_parses); auto. cbn; auto 20. Qed.
Print Assumptions C35_std_info_resident.
Example C35_std_info_example : bytes_ok ex_si /\ (exists v, from_slice (@si_new resv) ex_si None = Ok v) /\
  exists o, attr_fits (f_data ex_vfile) o /\ attr_type_at (f_data ex_vfile) o = 16 /\ attr_content 512 [] (f_data ex_vfile) o ex_si.
Proof.
  split; [apply bytes_okb_ok; vm_compute; reflexivity|]. split; [vm_compute; eauto|].
  eexists. exact ex_si_at.
Qed.

(** $FILE_NAME *)
Theorem C35_file_name_bytes : forall bs p, bytes_ok bs -> zlen bs <= U64_MAX -> decodes_exactly decodes_file_name bs (from_slice (@fn_new resv) bs p).
Proof. intros bs p. exact (parses_slice _ _ bs p fn_parses). Qed.
Print Assumptions C35_file_name_bytes.
Theorem C35_file_name_attribute : forall nt img f o bs d fuel, bytes_ok (f_data f) -> bytes_ok bs -> 0 <= o -> attr_fits (f_data f) o ->
  attr_type_at (f_data f) o = 48 -> attr_content (cluster_size nt) img (f_data f) o bs -> faultless d -> d_img d = img ->
  decodes_exactly decodes_file_name bs (snd (attr_structured fuel nt (@fn_new aval) 48 (mkAttr f o None) d)).
Proof. intros. eapply (parses_attribute _ _ nt img f o 48 bs d fuel fn_parses); auto. cbn; auto 20. Qed.
Print Assumptions C35_file_name_attribute.
Theorem C35_file_name_resident : forall f o e, bytes_ok (f_data f) -> 0 <= o -> attr_fits (f_data f) o -> o + 22 <= zlen (f_data f) ->
  (attr_type_at (f_data f) o = 48 -> attr_resident_at (f_data f) o -> forall bs, attr_value_at (f_data f) o bs ->
     decodes_exactly decodes_file_name bs (resident_structured (@fn_new resv) 48 (mkAttr f o e))) /\
  (attr_type_at (f_data f) o <> 48 \/ ~ attr_resident_at (f_data f) o \/ (forall bs, ~ attr_value_at (f_data f) o bs) ->
     exists x, resident_structured (@fn_new resv) 48 (mkAttr f o e) = Err x).
Proof. intros. apply (parses_resident _ _ f o e 48 fn_parses); auto. cbn; auto 20. Qed.
Print Assumptions C35_file_name_resident.
Example C35_file_name_example : bytes_ok ex_fn /\ (exists v, from_slice (@fn_new resv) ex_fn None = Ok v) /\
  exists o, attr_fits (f_data ex_vfile) o /\ attr_type_at (f_data ex_vfile) o = 48 /\ attr_content 512 [] (f_data ex_vfile) o ex_fn.
Proof.
  split; [apply bytes_okb_ok; vm_compute; reflexivity|]. split; [vm_compute; eauto|].
  eexists. exact ex_fn_at.
Qed.

(** $VOLUME_INFORMATION *)
Theorem C35_vol_info_bytes : forall bs p, bytes_ok bs -> zlen bs <= U64_MAX -> decodes_exactly decodes_vol_info bs (from_slice (@vi_new resv) bs p).
Proof. intros bs p. exact (parses_slice _ _ bs p vi_parses). Qed.
Print Assumptions C35_vol_info_bytes.
Theorem C35_vol_info_attribute : forall nt img f o bs d fuel, bytes_ok (f_data f) -> bytes_ok bs -> 0 <= o -> attr_fits (f_data f) o ->
  attr_type_at (f_data f) o = 112 -> attr_content (cluster_size nt) img (f_data f) o bs -> faultless d -> d_img d = img ->
  decodes_exactly decodes_vol_info bs (snd (attr_structured fuel nt (@vi_new aval) 112 (mkAttr f o None) d)).
Proof. intros. eapply (parses_attribute _ _ nt img f o 112 bs d fuel vi_parses); auto. cbn; auto 20. Qed.
Print Assumptions C35_vol_info_attribute.
Theorem C35_vol_info_resident : forall f o e, bytes_ok (f_data f) -> 0 <= o -> attr_fits (f_data f) o -> o + 22 <= zlen (f_data f) ->
  (attr_type_at (f_data f) o = 112 -> attr_resident_at (f_data f) o -> forall bs, attr_value_at (f_data f) o bs ->
     decodes_exactly decodes_vol_info bs (resident_structured (@vi_new resv) 112 (mkAttr f o e))) /\
  (attr_type_at (f_data f) o <> 112 \/ ~ attr_resident_at (f_data f) o \/ (forall bs, ~ attr_value_at (f_data f) o bs) ->
     exists x, resident_structured (@vi_new resv) 112 (mkAttr f o e) = Err x).
Proof. intros. apply (parses_resident _ _ f o e 112 vi_parses); auto. cbn; auto 20. Qed.
Print Assumptions C35_vol_info_resident.
Example C35_vol_info_example : bytes_ok ex_vi /\ (exists v, from_slice (@vi_new resv) ex_vi None = Ok v) /\
  exists o, attr_fits (f_data ex_vfile) o /\ attr_type_at (f_data ex_vfile) o = 112 /\ attr_content 512 [] (f_data ex_vfile) o ex_vi.
Proof.
  split; [apply bytes_okb_ok; vm_compute; reflexivity|]. split; [vm_compute; eauto|].
  eexists. exact ex_vi_at.
Qed.

(** $VOLUME_NAME *)
Theorem C35_vol_name_bytes : forall bs p, bytes_ok bs -> zlen bs <= U64_MAX -> decodes_exactly decodes_vol_name bs (from_slice (@vn_new resv) bs p).
Proof. intros bs p. exact (parses_slice _ _ bs p vn_parses). Qed.
Print Assumptions C35_vol_name_bytes.
Theorem C35_vol_name_attribute : forall nt img f o bs d fuel, bytes_ok (f_data f) -> bytes_ok bs -> 0 <= o -> attr_fits (f_data f) o ->
  attr_type_at (f_data f) o = 96 -> attr_content (cluster_size nt) img (f_data f) o bs -> faultless d -> d_img d = img ->
  decodes_exactly decodes_vol_name bs (snd (attr_structured fuel nt (@vn_new aval) 96 (mkAttr f o None) d)).
Proof. intros. eapply (parses_attribute _ _ nt img f o 96 bs d fuel vn_parses); auto. cbn; auto 20. Qed.
Print Assumptions C35_vol_name_attribute.
Theorem C35_vol_name_resident : forall f o e, bytes_ok (f_data f) -> 0 <= o -> attr_fits (f_data f) o -> o + 22 <= zlen (f_data f) ->
  (attr_type_at (f_data f) o = 96 -> attr_resident_at (f_data f) o -> forall bs, attr_value_at (f_data f) o bs ->
     decodes_exactly decodes_vol_name bs (resident_structured (@vn_new resv) 96 (mkAttr f o e))) /\
  (attr_type_at (f_data f) o <> 96 \/ ~ attr_resident_at (f_data f) o \/ (forall bs, ~ attr_value_at (f_data f) o bs) ->
     exists x, resident_structured (@vn_new resv) 96 (mkAttr f o e) = Err x).
Proof. intros. apply (parses_resident _ _ f o e 96 vn_parses); auto. cbn; auto 20. Qed.
Print Assumptions C35_vol_name_resident.
Example C35_vol_name_example : bytes_ok ex_vn /\ (exists v, from_slice (@vn_new resv) ex_vn None = Ok v) /\
  exists o, attr_fits (f_data ex_vfile) o /\ attr_type_at (f_data ex_vfile) o = 96 /\ attr_content 512 [] (f_data ex_vfile) o ex_vn.
Proof.
  split; [apply bytes_okb_ok; vm_compute; reflexivity|]. split; [vm_compute; eauto|].
  eexists. exact ex_vn_at.
Qed.

(** $OBJECT_ID *)
Theorem C35_object_id_bytes : forall bs p, bytes_ok bs -> zlen bs <= U64_MAX -> decodes_exactly decodes_object_id bs (from_slice (@oi_new resv) bs p).
Proof. intros bs p. exact (parses_slice _ _ bs p oi_parses). Qed.
Print Assumptions C35_object_id_bytes.
Theorem C35_object_id_attribute : forall nt img f o bs d fuel, bytes_ok (f_data f) -> bytes_ok bs -> 0 <= o -> attr_fits (f_data f) o ->
  attr_type_at (f_data f) o = 64 -> attr_content (cluster_size nt) img (f_data f) o bs -> faultless d -> d_img d = img ->
  decodes_exactly decodes_object_id bs (snd (attr_structured fuel nt (@oi_new aval) 64 (mkAttr f o None) d)).
Proof. intros. eapply (parses_attribute _ _ nt img f o 64 bs d fuel oi_parses); auto. cbn; auto 20. Qed.
Print Assumptions C35_object_id_attribute.
Theorem C35_object_id_resident : forall f o e, bytes_ok (f_data f) -> 0 <= o -> attr_fits (f_data f) o -> o + 22 <= zlen (f_data f) ->
  (attr_type_at (f_data f) o = 64 -> attr_resident_at (f_data f) o -> forall bs, attr_value_at (f_data f) o bs ->
     decodes_exactly decodes_object_id bs (resident_structured (@oi_new resv) 64 (mkAttr f o e))) /\
  (attr_type_at (f_data f) o <> 64 \/ ~ attr_resident_at (f_data f) o \/ (forall bs, ~ attr_value_at (f_data f) o bs) ->
     exists x, resident_structured (@oi_new resv) 64 (mkAttr f o e) = Err x).
Proof. intros. apply (parses_resident _ _ f o e 64 oi_parses); auto. cbn; auto 20. Qed.
Print Assumptions C35_object_id_resident.
Example C35_object_id_example : bytes_ok ex_oi /\ (exists v, from_slice (@oi_new resv) ex_oi None = Ok v) /\
  exists o, attr_fits (f_data ex_vfile) o /\ attr_type_at (f_data ex_vfile) o = 64 /\ attr_content 512 [] (f_data ex_vfile) o ex_oi.
Proof.
  split; [apply bytes_okb_ok; vm_compute; reflexivity|]. split; [vm_compute; eauto|].
  eexists. exact ex_oi_at.
Qed.

(** A non-resident value: $STANDARD_INFORMATION spread over two extents and read in pieces. *)
Example C35_nonresident_example : exists v, 
  attr_content 512 ex_nr_img (f_data ex_nr_file) 56 ex_nr_bytes /\ attr_type_at (f_data ex_nr_file) 56 = 16 /\ zlen ex_nr_bytes = 600 /\
  snd (attr_structured 9 ex_ntfs (@si_new aval) 16 (mkAttr ex_nr_file 56 None) (mkDev ex_nr_img 0 [RShort 3; RShort 17] [])) = Ok v.
Proof. exact ex_nr_content. Qed.

(** C45. [info] decodes the first $STANDARD_INFORMATION attribute. The hypothesis on the attributes excludes the panic of C20. *)
Theorem C45_info : forall f offs clean, bytes_ok (f_data f) -> 22 <= zlen (f_data f) ->
  attr_walk (f_data f) (field 2 (f_data f) 20) offs clean -> Forall (fun o => o + 22 <= zlen (f_data f)) offs ->
  let r := file_info f in
  returns r /\
  (clean = true -> Forall (fun o => type_known (attr_type_at (f_data f) o) /\ attr_type_at (f_data f) o <> 16) offs ->
     r = Err (EAttributeNotFound (f_position f) 16)) /\
  (forall l1 o l2, offs = l1 ++ o :: l2 -> Forall (fun o => type_known (attr_type_at (f_data f) o) /\ attr_type_at (f_data f) o <> 16) l1 ->
     attr_type_at (f_data f) o = 16 ->
     (attr_resident_at (f_data f) o -> forall bs, attr_value_at (f_data f) o bs -> decodes_exactly decodes_std_info bs r) /\
     (~ attr_resident_at (f_data f) o \/ (forall bs, ~ attr_value_at (f_data f) o bs) -> exists x, r = Err x)).
Proof. intros. apply (find_structured_spec _ _ f 16 offs clean si_parses); auto. cbn; auto 20. Qed.
Print Assumptions C45_info.
(** [volume_info] decodes the first $VOLUME_INFORMATION attribute of file 3; if that file cannot be read its error is returned. *)
Theorem C45_volume_info : forall nt d f offs clean, snd (ntfs_file nt 3 d) = Ok f -> bytes_ok (f_data f) -> 22 <= zlen (f_data f) ->
  attr_walk (f_data f) (field 2 (f_data f) 20) offs clean -> Forall (fun o => o + 22 <= zlen (f_data f)) offs ->
  let r := snd (volume_info nt d) in
  returns r /\
  (clean = true -> Forall (fun o => type_known (attr_type_at (f_data f) o) /\ attr_type_at (f_data f) o <> 112) offs ->
     r = Err (EAttributeNotFound (f_position f) 112)) /\
  (forall l1 o l2, offs = l1 ++ o :: l2 -> Forall (fun o => type_known (attr_type_at (f_data f) o) /\ attr_type_at (f_data f) o <> 112) l1 ->
     attr_type_at (f_data f) o = 112 ->
     (attr_resident_at (f_data f) o -> forall bs, attr_value_at (f_data f) o bs -> decodes_exactly decodes_vol_info bs r) /\
     (~ attr_resident_at (f_data f) o \/ (forall bs, ~ attr_value_at (f_data f) o bs) -> exists x, r = Err x)).
Proof.
  intros nt d f offs clean E Hb Hl W Hlen. rewrite (volume_info_spec nt d f E).
  apply (find_structured_spec _ _ f 112 offs clean vi_parses); auto. cbn; auto 20.
Qed.
Print Assumptions C45_volume_info.
(** [volume_name] is [None] exactly if there is no $VOLUME_NAME attribute, and otherwise the value of the first one if that is at
    most 256 bytes. *)
Theorem C45_volume_name : forall nt d f offs, snd (ntfs_file nt 3 d) = Ok f -> bytes_ok (f_data f) -> 22 <= zlen (f_data f) ->
  attr_walk (f_data f) (field 2 (f_data f) 20) offs true -> Forall (fun o => o + 22 <= zlen (f_data f)) offs ->
  Forall (fun o => type_known (attr_type_at (f_data f) o)) offs ->
  (snd (volume_name nt d) = None <-> Forall (fun o => attr_type_at (f_data f) o <> 96) offs) /\
  (forall n, snd (volume_name nt d) = Some (Ok n) <->
     exists l1 o l2, offs = l1 ++ o :: l2 /\ Forall (fun o => attr_type_at (f_data f) o <> 96) l1 /\ attr_type_at (f_data f) o = 96 /\
       attr_resident_at (f_data f) o /\ attr_value_at (f_data f) o n /\ zlen n <= 256) /\
  snd (volume_name nt d) <> Some Panic /\ snd (volume_name nt d) <> Some OutOfFuel.
Proof. exact volume_name_spec. Qed.
Print Assumptions C45_volume_name.
Theorem C45_unreadable : forall nt d e, snd (ntfs_file nt 3 d) = Err e -> snd (volume_info nt d) = Err e /\ snd (volume_name nt d) = Some (Err e).
Proof. exact volume_unreadable. Qed.
Print Assumptions C45_unreadable.
Example C45_example : snd (ntfs_file ex_vntfs 3 ex_vdev) = Ok ex_vfile3 /\ f_data ex_vfile3 = f_data ex_vfile /\ bytes_ok (f_data ex_vfile) /\
  attr_walk (f_data ex_vfile) (field 2 (f_data ex_vfile) 20) ex_voffs true /\ Forall (fun o => o + 22 <= zlen (f_data ex_vfile)) ex_voffs /\
  Forall (fun o => type_known (attr_type_at (f_data ex_vfile) o)) ex_voffs /\
  snd (volume_name ex_vntfs ex_vdev) = Some (Ok ex_vn) /\ (exists v, file_info ex_vfile = Ok v /\ si_creation_time v = 72623859790382856) /\
  (exists v, snd (volume_info ex_vntfs ex_vdev) = Ok v /\ vi_major_version v = 3 /\ vi_minor_version v = 1 /\ vi_flags v = 1).
Proof. exact ex_volume. Qed.
