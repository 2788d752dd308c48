(** * Left-over data: initialised size, file references, the used part of records. *)
From Verif Require Import Base Dev Types Record DataRuns Stream NonResident Resident Attribute File Structured AttrList Index Spec SpecValues
  SpecAttached SpecStale BaseProofs ReaderProofs ValueProofs RecordProofs NonResidentProofs AttributeProofs FileProofs AccessProofs AttachedProofs
  ShellInfoProofs FileExamples StreamExamples.

Lemma byte_at_some l k : 0 <= k < zlen l -> exists b, byte_at l k = Some b.
Proof.
  intros H. unfold byte_at. destruct (nth_error l (Z.to_nat k)) as [b|] eqn:E; [eauto|]. apply nth_error_None in E. unfold zlen in H. lia.
Qed.
Lemma byte_at_zrepeat x n k : 0 <= k < n -> byte_at (zrepeat x n) k = Some x.
Proof.
  intros H. destruct (byte_at_some (zrepeat x n) k) as (b & E); [rewrite zlen_zrepeat; lia|]. rewrite E. f_equal.
  apply nth_error_In in E. unfold zrepeat in E. now apply repeat_spec in E.
Qed.

Lemma current_all init stored : 0 <= init -> (forall k b, init <= k -> byte_at stored k = Some b -> b = 0) -> current_content init stored = stored.
Proof.
  intros Hi Hz. unfold current_content. pose proof (zlen_nonneg stored). apply byte_at_ext.
  - rewrite zlen_app, zlen_ztake, zlen_zrepeat. lia.
  - rewrite zlen_app, zlen_ztake, zlen_zrepeat. intros k Hk. rewrite byte_at_app, zlen_ztake by lia.
    destruct (k <? _) eqn:E.
    + apply byte_at_ztake. lia.
    + destruct (byte_at_some stored k) as (b & Eb); [lia|]. rewrite Eb. rewrite byte_at_zrepeat by lia. f_equal. symmetry. apply (Hz k b); auto. lia.
Qed.

Lemma initialised_acts nt img f o stored d : bytes_ok (f_data f) -> 0 <= o -> attr_fits (f_data f) o ->
  attr_content (cluster_size nt) img (f_data f) o stored -> ~ attr_resident_at (f_data f) o ->
  let init := field 8 (f_data f) (o + 56) in
  (forall k b, init <= k -> byte_at stored k = Some b -> b = 0) ->
  faultless d -> d_img d = img ->
  exists v, attr_value nt (mkAttr f o None) d = (d, Ok v) /\ av_len v = zlen stored /\
    forall k, acts_as (av_read k) (av_seek k) v d (current_content init stored) (zlen stored) 0.
Proof.
  intros Hb Ho Hf Hc Hn init Hz Hd Hi. destruct (attribute_acts nt img f o stored d Hb Ho Hf Hc Hd Hi) as (v & Ev & Hl & Ha).
  exists v. split; auto. split; auto. replace (current_content init stored) with stored; auto.
  symmetry. apply current_all; auto. apply field8_bound; auto.
Qed.

(** No code: example.  A value of 16 bytes in one cluster, 8 of them initialised. *)
Definition init_attr : list Z :=
  [128; 0; 0; 0; 72; 0; 0; 0; 1; 0; 0; 0; 0; 0; 3; 0] ++ zrepeat 0 16 ++ [64; 0; 0; 0; 0; 0; 0; 0] ++ [0; 2; 0; 0; 0; 0; 0; 0] ++
  [16; 0; 0; 0; 0; 0; 0; 0] ++ [8; 0; 0; 0; 0; 0; 0; 0] ++ [17; 1; 1; 0; 0; 0; 0; 0].
Definition init_file : file := match file_of_bytes (ex_record init_attr) (Some 4096) 40 with Ok f => f | _ => mkFile (mkRecord [] None) 0 end.
Definition init_img : list Z := zrepeat 0 512 ++ [1; 2; 3; 4; 5; 6; 7; 8] ++ zrepeat 99 504.
Definition init_extents : list extent := [mkExtent (Some 1) 1].
Definition init_stored : list Z := [1; 2; 3; 4; 5; 6; 7; 8] ++ zrepeat 99 8.

Lemma init_content : attr_content 512 init_img (f_data init_file) 56 init_stored.
Proof.
  replace init_stored with (file_content 512 init_img init_extents (field 8 (f_data init_file) (56 + 48))) by (vm_compute; reflexivity). apply ac_nonresident.
  - vm_compute. discriminate.
  - vm_compute. discriminate.
  - vm_compute. discriminate.
  - split.
    + lia.
    + vm_compute; discriminate.
    + repeat constructor; vm_compute; repeat split; discriminate.
    + repeat constructor; vm_compute; try discriminate; reflexivity.
    + cbn. repeat split; discriminate.
  - change (slice (f_data init_file) (56 + field 2 (f_data init_file) (56 + 32)) (56 + attr_len_at (f_data init_file) 56)) with [17; 1; 1; 0; 0; 0; 0; 0].
    apply (enc_data 0 1 1 [1] [1] [] [0; 0; 0; 0; 0]).
    + split; [|vm_compute; repeat split; discriminate]. apply bytes_okb_ok; reflexivity.
    + split; [apply bytes_okb_ok; reflexivity|vm_compute; repeat split; discriminate].
    + constructor.
  - vm_compute. discriminate.
Qed.

(** No code: example.  The same value with zeros in its cluster behind the initialised bytes. *)
Definition zero_img : list Z := zrepeat 0 512 ++ [1; 2; 3; 4; 5; 6; 7; 8] ++ zrepeat 0 504.
Definition zero_stored : list Z := [1; 2; 3; 4; 5; 6; 7; 8] ++ zrepeat 0 8.

Lemma zero_content : attr_content 512 zero_img (f_data init_file) 56 zero_stored.
Proof.
  replace zero_stored with (file_content 512 zero_img init_extents (field 8 (f_data init_file) (56 + 48))) by (vm_compute; reflexivity). apply ac_nonresident.
  - vm_compute. discriminate.
  - vm_compute. discriminate.
  - vm_compute. discriminate.
  - split.
    + lia.
    + vm_compute; discriminate.
    + repeat constructor; vm_compute; repeat split; discriminate.
    + repeat constructor; vm_compute; try discriminate; reflexivity.
    + cbn. repeat split; discriminate.
  - change (slice (f_data init_file) (56 + field 2 (f_data init_file) (56 + 32)) (56 + attr_len_at (f_data init_file) 56)) with [17; 1; 1; 0; 0; 0; 0; 0].
    apply (enc_data 0 1 1 [1] [1] [] [0; 0; 0; 0; 0]).
    + split; [|vm_compute; repeat split; discriminate]. apply bytes_okb_ok; reflexivity.
    + split; [apply bytes_okb_ok; reflexivity|vm_compute; repeat split; discriminate].
    + constructor.
  - vm_compute. discriminate.
Qed.

Lemma uninitialised_read : exists prot p n f img nt d v stored k,
  bytes_ok prot /\ file_of_bytes prot p n = Ok f /\ attr_fits (f_data f) 56 /\ ~ attr_resident_at (f_data f) 56 /\
  attr_content (cluster_size nt) img (f_data f) 56 stored /\ field 8 (f_data f) (56 + 56) = 8 /\ faultless d /\ d_img d = img /\
  attr_value nt (mkAttr f 56 None) d = (d, Ok v) /\
  reader_run (av_read k) (av_seek k) v d [ORead 10] = [RBytes (Ok [1; 2; 3; 4; 5; 6; 7; 8; 99; 99])] /\
  ztake 10 (current_content 8 stored) = [1; 2; 3; 4; 5; 6; 7; 8; 0; 0].
Proof.
  exists (ex_record init_attr), (Some 4096), 40, init_file, init_img, ex_ntfs, (mkDev init_img 0 [] []).
  destruct (attribute_acts ex_ntfs init_img init_file 56 init_stored (mkDev init_img 0 [] [])) as (v & Ev & Hl & Ha).
  { apply bytes_okb_ok; vm_compute; reflexivity. }
  { lia. }
  { apply fits_dec; vm_compute; reflexivity. }
  { exact init_content. }
  { split; constructor. }
  { reflexivity. }
  exists v, init_stored, 10%nat.
  split; [apply bytes_okb_ok; vm_compute; reflexivity|]. split; [vm_compute; reflexivity|].
  split; [apply fits_dec; vm_compute; reflexivity|]. split; [vm_compute; discriminate|]. split; [exact init_content|].
  split; [vm_compute; reflexivity|]. split; [split; constructor|]. split; [reflexivity|]. split; [exact Ev|]. split; [|vm_compute; reflexivity].
  rewrite Ha; [vm_compute; reflexivity|]. repeat constructor; vm_compute; discriminate.
Qed.

(** ** File references *)
Lemma reference_followed img nt mp mdata l d s p e data q :
  bytes_ok img -> faultless d -> d_img d = img -> mft_position nt = Some mp -> 32 <= file_record_size nt <= U16_MAX ->
  mft_at img mp (file_record_size nt) mdata l -> valid_extents (cluster_size nt) img l ->
  bytes_ok s -> ie_new s p = Ok e -> 16 <= field 2 s 8 ->
  let n := field 6 s 0 in let frs := file_record_size nt in let prot := slice img q (q + frs) in
  n * frs <= U64_MAX -> disk_position (cluster_size nt) l (n * frs) = Some q -> q + frs <= zlen img ->
  array_clear (field 2 prot 4) (field 2 prot 6 - 1) -> stored_as data prot -> file_record_ok data ->
  let f := mkFile (mkRecord data (Some q)) n in snd (ie_to_file nt e d) = Ok f /\ f_number f = field 6 s 0 /\
  (field 2 data 16 = field 2 s 6 -> f_sequence_number f = Ok (field 2 s 6)).
Proof.
  intros Hb Hd Hi Hm Hf Hma Hv Hbs He Hl n frs prot Hn Hq Hqi Hc Hst Hok f.
  assert (Hn0 : 0 <= n <= U64_MAX). { pose proof (le_val_nonneg (slice s 0 6) (bytes_ok_slice s 0 6 Hbs)). unfold n, field in *. cbn [Z.add] in *. nia. }
  destruct (ntfs_file_outcome img nt mp mdata l d n Hb Hd Hi Hm Hf Hma Hv Hn0) as (_ & H2).
  destruct (H2 q Hn Hq) as (_ & H3). destruct (H3 Hqi) as (_ & H4). specialize (H4 Hc f).
  rewrite (entry_to_file nt s p e d Hbs He Hl). fold n.
  assert (Hf1 : snd (ntfs_file nt n d) = Ok f). { apply H4. exists data. auto. }
  split; auto. split; auto. intros Hs. rewrite <- Hs. unfold f_sequence_number, rd_u16. apply rd_in; try lia.
  change (f_data f) with data. rewrite (st_len _ _ Hst). unfold prot. assert (0 < q) by (apply (disk_position_pos _ _ _ Hv (n * frs) q); [subst frs; nia|exact Hq]).
  rewrite slice_len; subst frs; lia.
Qed.

(** No code: example.  An index entry with number 2 and sequence number 9; record 2 of the volume has the sequence number 1. *)
Definition stale_entry : list Z := [2; 0; 0; 0; 0; 0; 9; 0; 16; 0; 0; 0; 0; 0; 0; 0].
Lemma stale_reference : exists img nt mp mdata l d s e f,
  bytes_ok img /\ faultless d /\ d_img d = img /\ mft_position nt = Some mp /\
  mft_at img mp (file_record_size nt) mdata l /\ valid_extents (cluster_size nt) img l /\
  bytes_ok s /\ ie_new s None = Ok e /\ field 2 s 6 = 9 /\
  snd (ie_to_file nt e d) = Ok f /\ f_sequence_number f = Ok 1.
Proof.
  exists ex_vol, ex_ntfs, 1024, (f_data ex_mft), ex_vol_extents, ex_vol_dev, stale_entry, (mkIE stale_entry None), (mkFile (mkRecord (f_data ex_file) (Some 4608)) 2).
  split; [exact ex_vol_bytes|]. split; [split; repeat constructor|]. split; [reflexivity|]. split; [reflexivity|].
  split; [exact ex_vol_mft|]. split; [exact ex_vol_valid|]. split; [apply bytes_okb_ok; reflexivity|].
  split; [vm_compute; reflexivity|]. split; [vm_compute; reflexivity|]. split; vm_compute; reflexivity.
Qed.

Lemma ex_record2_stored : let prot := slice ex_vol 4608 (4608 + 1024) in
  array_clear (field 2 prot 4) (field 2 prot 6 - 1) /\ stored_as (f_data ex_file) prot /\ file_record_ok (f_data ex_file).
Proof.
  cbv zeta. assert (C : array_clear (field 2 (slice ex_vol 4608 (4608 + 1024)) 4) (field 2 (slice ex_vol 4608 (4608 + 1024)) 6 - 1)).
  { replace (field 2 (slice ex_vol 4608 (4608 + 1024)) 4) with 48 by (vm_compute; reflexivity).
    replace (field 2 (slice ex_vol 4608 (4608 + 1024)) 6 - 1) with 2 by (vm_compute; reflexivity). exact ex_array_clear. }
  split; [exact C|].
  assert (Hd : faultless ex_vol_dev) by (split; repeat constructor).
  assert (Hf : 32 <= file_record_size ex_ntfs <= U16_MAX) by (vm_compute; split; discriminate).
  assert (Hn : 0 <= 2 <= U64_MAX) by (unfold U64_MAX; lia).
  destruct (ntfs_file_outcome ex_vol ex_ntfs 1024 (f_data ex_mft) ex_vol_extents ex_vol_dev 2 ex_vol_bytes Hd eq_refl eq_refl Hf ex_vol_mft ex_vol_valid Hn) as (_ & H).
  destruct (H 4608) as (_ & H1); [vm_compute; discriminate|vm_compute; reflexivity|].
  destruct H1 as (_ & H2); [vm_compute; discriminate|].
  destruct (proj1 (H2 C (mkFile (mkRecord (f_data ex_file) (Some 4608)) 2)) ltac:(vm_compute; reflexivity)) as (data & E & S & O).
  assert (Ed : f_data ex_file = data) by (apply (f_equal f_data) in E; exact E). rewrite Ed. split; [exact S|exact O].
Qed.

(** ** The used part of records *)
Lemma until_walk data off offs m : attrs_until data off offs m -> attr_walk data off offs true.
Proof. induction 1; [now apply walk_marker|now apply walk_attr]. Qed.
Lemma until_inside data off offs m : attrs_until data off offs m -> off <= m /\ Forall (fun o => off <= o /\ o + attr_len_at data o <= m) offs.
Proof.
  induction 1 as [m Hm He|off l m Hn Hf H IH]; [split; [lia|constructor]|]. destruct IH as (I1 & I2). destruct Hf as (F1 & F2 & F3).
  split; [lia|]. constructor; [lia|]. eapply Forall_impl; [|exact I2]. cbn. lia.
Qed.

Lemma walk_unique data off l1 b1 : attr_walk data off l1 b1 -> forall l2 b2, attr_walk data off l2 b2 -> l1 = l2 /\ b1 = b2.
Proof.
  induction 1; intros l2 b2 H2; inversion H2; subst; auto; try (unfold attr_fits in *; exfalso; (tauto || lia)).
  all: try (destruct (IHattr_walk _ _ ltac:(eassumption)); subst; auto).
Qed.

Lemma used_attributes f offs m : bytes_ok (f_data f) -> 22 <= zlen (f_data f) ->
  attrs_until (f_data f) (field 2 (f_data f) 20) offs m -> m <= field 4 (f_data f) 24 ->
  exists start, raw_start f = Ok start /\
    (forall n, iterate (raw_next f) (length offs + n) start = map (fun o => Some (Ok (mkAttr f o None))) offs ++ repeat None n) /\
    Forall (fun o => o + attr_len_at (f_data f) o <= field 4 (f_data f) 24) offs.
Proof.
  intros Hb Hl Hu Hm. destruct (raw_iteration f Hb Hl) as (start & offs' & clean & e & Hs & Hs2 & Hw & _ & _ & Hit).
  rewrite Hs2 in Hw. destruct (walk_unique _ _ _ _ Hw _ _ (until_walk _ _ _ _ Hu)) as (-> & ->).
  exists start. split; auto. split; [exact Hit|]. eapply Forall_impl; [|exact (proj2 (until_inside _ _ _ _ Hu))]. cbn. lia.
Qed.

(** No code: example.  A record of which 512 bytes are used, completely filled by one attribute; behind it an attribute is left over. *)
Definition used_record : list Z := ex_record (ex_resident 16 0 [] (zrepeat 1 432) ++ ex_resident 128 3 [] [104; 105; 0; 0; 0; 0; 0; 0]).
Definition used_file : file := match file_of_bytes used_record (Some 4096) 40 with Ok f => f | _ => mkFile (mkRecord [] None) 0 end.
Lemma left_over_attribute : exists prot p n f o, bytes_ok prot /\ file_of_bytes prot p n = Ok f /\ f_data_size f = Ok 512 /\ 512 <= o /\
  exists start, raw_start f = Ok start /\ nth_error (iterate (raw_next f) 2 start) 1 = Some (Some (Ok (mkAttr f o None))).
Proof.
  exists used_record, (Some 4096), 40, used_file, 512. split; [apply bytes_okb_ok; vm_compute; reflexivity|]. split; [vm_compute; reflexivity|].
  split; [vm_compute; reflexivity|]. split; [lia|]. exists 56. split; vm_compute; reflexivity.
Qed.
Lemma ex_until : attrs_until (f_data ex_file) (field 2 (f_data ex_file) 20) [56; 88; 120] 152.
Proof.
  change (field 2 (f_data ex_file) 20) with 56.
  apply au_attr; [vm_compute; discriminate|apply fits_dec; vm_compute; reflexivity|].
  change (56 + attr_len_at (f_data ex_file) 56) with 88.
  apply au_attr; [vm_compute; discriminate|apply fits_dec; vm_compute; reflexivity|].
  change (88 + attr_len_at (f_data ex_file) 88) with 120.
  apply au_attr; [vm_compute; discriminate|apply fits_dec; vm_compute; reflexivity|].
  apply au_end; vm_compute; [discriminate|reflexivity].
Qed.
Lemma init_zeros k b : 8 <= k -> byte_at zero_stored k = Some b -> b = 0.
Proof.
  unfold zero_stored. intros Hk. rewrite byte_at_app by lia. change (zlen [1; 2; 3; 4; 5; 6; 7; 8]) with 8. replace (k <? 8) with false by lia.
  unfold byte_at, zrepeat. intros H. apply nth_error_In in H. now apply repeat_spec in H.
Qed.
