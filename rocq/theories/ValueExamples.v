(** * Concrete values, attributes and a volume for the examples of PropsValues.v and PropsList.v. *)
From Verif Require Import Base Dev Types Record DataRuns Stream NonResident Resident Attribute File Guid Structured AttrList Volume
  Spec SpecValues BaseProofs ReaderProofs NonResidentProofs AttributeProofs FileProofs StructuredProofs ValueProofs StreamExamples FileExamples.

(** $STANDARD_INFORMATION with the NTFS 3.x fields; $FILE_NAME of "AB" in root; $VOLUME_INFORMATION 3.1 dirty; "VOL"; an object id. *)
Definition ex_si : list Z := [8; 7; 6; 5; 4; 3; 2; 1] ++ zrepeat 17 24 ++ [32; 0; 0; 0] ++ zrepeat 5 36.
Definition ex_fn : list Z := [5; 0; 0; 0; 0; 0; 5; 0] ++ zrepeat 9 32 ++ [0; 16; 0; 0; 0; 0; 0; 0] ++ [7; 0; 0; 0; 0; 0; 0; 0] ++ [0; 0; 0; 16; 0; 0; 0; 0] ++ [2; 1] ++
  [65; 0; 66; 0] ++ [0; 0].
Definition ex_vi : list Z := zrepeat 0 8 ++ [3; 1; 1; 0; 0; 0; 0; 0].
Definition ex_vn : list Z := [86; 0; 79; 0; 76; 0; 0; 0].
Definition ex_oi : list Z := [1; 2; 3; 4; 5; 6; 7; 8; 9; 10; 11; 12; 13; 14; 15; 16] ++ zrepeat 3 16.
Definition ex_vattrs : list Z := ex_resident 16 0 [] ex_si ++ ex_resident 48 1 [] ex_fn ++ ex_resident 64 2 [] ex_oi ++ ex_resident 96 3 [] ex_vn ++
  ex_resident 112 4 [] ex_vi ++ ex_resident 128 5 [] [].
Definition ex_vfile : file := match file_of_bytes (ex_record ex_vattrs) (Some 4096) 3 with Ok f => f | _ => mkFile (mkRecord [] None) 0 end.
Definition ex_voffs : list Z := [56; 152; 248; 304; 336; 376].

Ltac value_at := split; [apply fits_dec; vm_compute; reflexivity|split; [vm_compute; reflexivity|apply ac_resident;
  [vm_compute; reflexivity|vm_compute; discriminate|split; [vm_compute; discriminate|vm_compute; reflexivity]]]].
Definition ex_attr_at (o ty : Z) (bs : list Z) : Prop :=
  attr_fits (f_data ex_vfile) o /\ attr_type_at (f_data ex_vfile) o = ty /\ attr_content 512 [] (f_data ex_vfile) o bs.
Lemma ex_si_at : ex_attr_at 56 16 ex_si. Proof. value_at. Qed.
Lemma ex_fn_at : ex_attr_at 152 48 ex_fn. Proof. value_at. Qed.
Lemma ex_oi_at : ex_attr_at 248 64 ex_oi. Proof. value_at. Qed.
Lemma ex_vn_at : ex_attr_at 304 96 ex_vn. Proof. value_at. Qed.
Lemma ex_vi_at : ex_attr_at 336 112 ex_vi. Proof. value_at. Qed.

(** A walk is decidable by computation. *)
Fixpoint walkb (data : list Z) (off : Z) (l : list Z) : bool :=
  match l with
  | [] => (off + 4 <=? zlen data) && (field 4 data off =? 4294967295)
  | o :: t => (o =? off) && negb (field 4 data off =? 4294967295) &&
      ((off + 16 <=? zlen data) && (16 <=? attr_len_at data off) && (off + attr_len_at data off <=? zlen data)) && walkb data (off + attr_len_at data off) t
  end.
Lemma walkb_ok data off l : walkb data off l = true -> attr_walk data off l true.
Proof.
  revert off. induction l as [|o t IH]; intros off H; cbn in H.
  - apply walk_marker; unfold end_marker; lia.
  - apply andb_prop in H as (H & Ht). apply andb_prop in H as (H & Hf). apply andb_prop in H as (Ho & Hm).
    apply Z.eqb_eq in Ho. subst o. apply walk_attr; [unfold end_marker; lia|now apply fits_dec|now apply IH].
Qed.
Lemma ex_vwalk : attr_walk (f_data ex_vfile) (field 2 (f_data ex_vfile) 20) ex_voffs true.
Proof. apply walkb_ok. vm_compute. reflexivity. Qed.

(** A volume of clusters of 512 bytes with the MFT of four records at byte 1024 and [ex_vattrs] in record 3. *)
Definition ex_vimg : list Z := zrepeat 0 1024 ++ ex_record (ex_nonresident 128 0 4096 [17; 8; 2; 0; 0; 0; 0; 0]) ++ zrepeat 1 2048 ++ ex_record ex_vattrs.
Definition ex_vntfs : ntfs := mkNtfs 512 512 (zlen ex_vimg) (Some 1024) 1024 99 None.
Definition ex_vdev : dev := mkDev ex_vimg 3 [RShort 10; RShort 100] [None].
Definition ex_vfile3 : file := match file_of_bytes (ex_record ex_vattrs) (Some 4096) 3 with Ok f => f | _ => mkFile (mkRecord [] None) 0 end.

Lemma ex_volume : snd (ntfs_file ex_vntfs 3 ex_vdev) = Ok ex_vfile3 /\ f_data ex_vfile3 = f_data ex_vfile /\ bytes_ok (f_data ex_vfile) /\
  attr_walk (f_data ex_vfile) (field 2 (f_data ex_vfile) 20) ex_voffs true /\ Forall (fun o => o + 22 <= zlen (f_data ex_vfile)) ex_voffs /\
  Forall (fun o => type_known (attr_type_at (f_data ex_vfile) o)) ex_voffs /\
  snd (volume_name ex_vntfs ex_vdev) = Some (Ok ex_vn) /\ (exists v, file_info ex_vfile = Ok v /\ si_creation_time v = 72623859790382856) /\
  (exists v, snd (volume_info ex_vntfs ex_vdev) = Ok v /\ vi_major_version v = 3 /\ vi_minor_version v = 1 /\ vi_flags v = 1).
Proof.
  split; [vm_compute; reflexivity|]. split; [reflexivity|]. split; [apply bytes_okb_ok; vm_compute; reflexivity|]. split; [exact ex_vwalk|].
  split; [repeat constructor; vm_compute; discriminate|]. split; [repeat (apply Forall_cons; [vm_compute; auto 20|]); apply Forall_nil|].
  split; [vm_compute; reflexivity|]. split; [eexists; vm_compute; split; reflexivity|]. eexists. split; [vm_compute; reflexivity|]. repeat split; vm_compute; reflexivity.
Qed.

(** A non-resident $STANDARD_INFORMATION of 600 bytes in two extents. *)
Definition ex_nr_img : list Z := zrepeat 1 512 ++ zrepeat 2 512 ++ zrepeat 3 512 ++ zrepeat 4 512.
Definition ex_nr_file : file :=
  match file_of_bytes (ex_record (ex_nonresident 16 0 600 [17; 1; 3; 17; 1; 254; 0; 0])) (Some 4096) 3 with Ok f => f | _ => mkFile (mkRecord [] None) 0 end.
Definition ex_nr_bytes : list Z := zrepeat 4 512 ++ zrepeat 2 88.
Lemma ex_nr_content : exists v, 
  attr_content 512 ex_nr_img (f_data ex_nr_file) 56 ex_nr_bytes /\ attr_type_at (f_data ex_nr_file) 56 = 16 /\ zlen ex_nr_bytes = 600 /\
  snd (attr_structured 9 ex_ntfs (@si_new aval) 16 (mkAttr ex_nr_file 56 None) (mkDev ex_nr_img 0 [RShort 3; RShort 17] [])) = Ok v.
Proof.
  eexists. split; [|split; [vm_compute; reflexivity|split; [vm_compute; reflexivity|vm_compute; reflexivity]]].
  assert (E : ex_nr_bytes = file_content 512 ex_nr_img [mkExtent (Some 3) 1; mkExtent (Some 1) 1] (field 8 (f_data ex_nr_file) (56 + 48))) by (vm_compute; reflexivity).
  rewrite E. apply ac_nonresident.
  - vm_compute; discriminate.
  - vm_compute; discriminate.
  - vm_compute; discriminate.
  - split; [lia|vm_compute; discriminate|repeat constructor; vm_compute; discriminate|repeat constructor; vm_compute; discriminate|repeat split; discriminate].
  - change (slice (f_data ex_nr_file) _ _) with [17; 1; 3; 17; 1; 254; 0; 0].
    apply (enc_data 0 3 1 [1] [3] [mkExtent (Some 1) 1] [17; 1; 254; 0; 0]); [apply ubytes1, byte1; lia|apply sbytes1; lia|].
    apply (enc_data 3 1 1 [1] [254] [] [0; 0]); [apply ubytes1, byte1; lia| |constructor].
    split; [constructor; [red; lia|constructor]|]. change (zlen [254]) with 1. change (256 ^ 1) with 256. change (256 / 2) with 128. cbn [le_val]. repeat split; lia.
  - vm_compute; discriminate.
Qed.
