(** * C36, C37: attribute list iteration, values spread over several attributes. *)
From Verif Require Import Base Dev Types Record DataRuns Stream NonResident Resident Attribute File Structured AttrList
  Upcase Spec SpecIndex SpecAttrList BaseProofs AttributeProofs StreamProofs NodeProofs AttrListIterProofs AttrListValueProofs StreamExamples FileExamples
  AttrListExamples.

(** ** C36. Entries of an attribute list *)
(** A resident list of any content: the iterator returns the complete entries of [list_walk] in order, each with exactly the fields and
    the name that its bytes say and with its position on disk, without touching the device, and then [None] for ever, or the same
    error for ever if the list goes on with bytes that are no entry. So it does not end on every content: [C36_ends_refuted].
    An entry whose length points behind the end of a resident list is left out. *)
Theorem C36_resident_partial : forall bs p d, bytes_ok bs -> zlen bs <= U64_MAX -> position_sane p (zlen bs) ->
  exists offs e es x, list_walk bs 0 offs e /\ 26 * zlen offs <= zlen bs /\
    Forall2 (fun o v => decodes_list_entry bs o v /\ le_position v = pos_add p o) offs es /\
    (forall n, iterate (with_dev alist_next) (length offs + n) (alist_of_sval (SVRes (res_new bs p)), d) =
      map (fun v => Some (Ok v)) es ++ repeat (after_list e x) n) /\
    (forall n, snd (iterate_state (with_dev alist_next) n (alist_of_sval (SVRes (res_new bs p)), d)) = d).
Proof. exact alist_resident_value. Qed.
Print Assumptions C36_resident_partial.

(** A non-resident list with valid extents on a device that only reads short: the same for the concatenation of its extents cut at
    the size, with positions on disk. Here an entry whose length points behind the end is returned as well. *)
Theorem C36_nonresident_partial : forall cs img l enc p size v d,
  valid_extents cs img l -> encodes 0 l enc -> 0 <= size <= extents_size cs l -> size + U16_MAX <= U64_MAX ->
  bytes_ok (file_content cs img l size) -> nr_new cs enc p size = Ok v -> faultless d -> d_img d = img ->
  let bs := file_content cs img l size in
  exists offs e es x, list_walk bs 0 offs e /\ 26 * zlen offs <= size /\
    Forall2 (fun o w => decodes_list_entry bs o w /\ le_position w = disk_position cs l o) (with_cut offs e) es /\
    (forall n, iterate (with_dev alist_next) (length (with_cut offs e) + n) (alist_of_sval (SVNr v), d) =
      map (fun w => Some (Ok w)) es ++ repeat (after_list e x) n).
Proof. intros. now apply alist_nonresident with (enc := enc) (p := p). Qed.
Print Assumptions C36_nonresident_partial.

(** Entries and end are determined by the content; each entry starts where the one before ends. *)
Theorem C36_walk_unique : forall bs o offs e, list_walk bs o offs e ->
  (forall offs' e', list_walk bs o offs' e' -> offs = offs' /\ e = e') /\
  (forall a l2, offs = a :: l2 -> a = o) /\
  (forall l1 a b l2, offs = l1 ++ a :: b :: l2 -> b = a + lentry_len bs a).
Proof. exact list_walk_facts. Qed.
Print Assumptions C36_walk_unique.

(** A list of two entries, the second one with a name; the same followed by a cut entry, and by three stray bytes. *)
Definition ex_list : list Z := ex_lentry 16 32 0 40 0 [] ++ zrepeat 0 6 ++ ex_lentry 128 32 9 41 3 [97; 0; 98; 0] ++ [0; 0].
Definition ex_list_cut : list Z := ex_list ++ ex_lentry 128 40 0 42 4 [].
Definition ex_list_stray : list Z := ex_list ++ [1; 2; 3].

Theorem C36_ends_refuted : exists bs p x, bytes_ok bs /\ zlen bs <= U64_MAX /\ position_sane p (zlen bs) /\
  forall n d, iterate (with_dev alist_next) n (alist_of_sval (SVRes (res_new bs p)), d) = repeat (Some (Err x)) n.
Proof.
  exists [1; 2; 3], (Some 4096). eexists. split; [apply bytes_okb_ok; vm_compute; reflexivity|]. split; [vm_compute; discriminate|].
  split; [intros v [= <-]; vm_compute; split; (reflexivity || discriminate)|]. intros n d. apply iterate_fixed. reflexivity.
Qed.
Print Assumptions C36_ends_refuted.

(** Concrete lists, resident and spread over two extents with a hole between them. *)
Definition ex_list_img : list Z := zrepeat 9 32 ++ ztake 32 ex_list_cut ++ zrepeat 9 32 ++ zdrop 32 ex_list_cut ++ zrepeat 9 6.
Definition ex_list_extents := [mkExtent (Some 1) 1; mkExtent (Some 3) 2].
Definition ex_list_enc := [17; 1; 1; 17; 2; 2; 0].
Definition ex_list_dev := mkDev ex_list_img 0 [RShort 2; RShort 1] [None].
Example C36_example :
  bytes_ok ex_list_cut /\ position_sane (Some 4096) (zlen ex_list_cut) /\
  list_walk ex_list 0 [0; 32] ListDone /\ list_walk ex_list_cut 0 [0; 32] (ListCut 64) /\ list_walk ex_list_stray 0 [0; 32] ListMalformed /\
  (exists v, nr_new 32 ex_list_enc None 90 = Ok v /\ map (fun x => match x with Some (Ok e) => (le_number e, le_name e, le_position e) | _ => (0, [], None) end)
     (iterate (with_dev alist_next) 4 (alist_of_sval (SVNr v), ex_list_dev)) =
     [(40, [], Some 32); (41, [97; 0; 98; 0], Some 96); (42, [], Some 128); (0, [], None)]) /\
  valid_extents 32 ex_list_img ex_list_extents /\ encodes 0 ex_list_extents ex_list_enc /\ extents_size 32 ex_list_extents = 96 /\
  file_content 32 ex_list_img ex_list_extents 90 = ex_list_cut /\ faultless ex_list_dev /\ d_img ex_list_dev = ex_list_img.
Proof.
  split; [apply bytes_okb_ok; vm_compute; reflexivity|].
  split; [intros v [= <-]; vm_compute; split; (reflexivity || discriminate)|].
  split; [apply (lwalk_ok 5); vm_compute; reflexivity|]. split; [apply (lwalk_ok 5); vm_compute; reflexivity|]. split; [apply (lwalk_ok 5); vm_compute; reflexivity|].
  split; [eexists; split; [vm_compute; reflexivity|vm_compute; reflexivity]|].
  split.
  { split; [lia|vm_compute; discriminate|repeat constructor; vm_compute; discriminate|repeat constructor; vm_compute; discriminate|repeat split; discriminate]. }
  split.
  { apply (enc_data 0 1 1 [1] [1] [mkExtent (Some 3) 2] [17; 2; 2; 0]); [apply ubytes1, byte1; lia|apply sbytes1; lia|].
    apply (enc_data 1 3 2 [2] [2] [] [0]); [apply ubytes1, byte1; lia|apply sbytes1; lia|constructor]. }
  split; [reflexivity|]. split; [vm_compute; reflexivity|]. split; [split; repeat constructor|reflexivity].
Qed.

(** ** C37. Values spread over several attributes *)
(** The attribute at [off] of [f] was returned by the flattened iteration for the [k]th entry of a resident attribute list with content [bs]
    (so it carries the list iterator as it was before that entry). If the entries from the [k]th on with its type and instance refer to
    stored attributes with the extents [parts], its value is the concatenation of all these extents, cut at the data size in its header.
    For parts with differing instances, or a first part in the base record, this is false: see below. *)
Theorem C37_resident_list_partial : forall img nt mp mdata ml bs p e offs k d0 f off parts,
  bytes_ok img -> mft_position nt = Some mp -> 32 <= file_record_size nt <= U16_MAX ->
  mft_at img mp (file_record_size nt) mdata ml -> valid_extents (cluster_size nt) img ml ->
  bytes_ok bs -> zlen bs <= U64_MAX -> position_sane p (zlen bs) -> list_walk bs 0 offs e -> faultless d0 -> d_img d0 = img ->
  bytes_ok (f_data f) -> 0 <= off -> attr_fits (f_data f) off -> off + 56 <= zlen (f_data f) -> type_known (attr_type_at (f_data f) off) ->
  connected img nt ml bs (attr_type_at (f_data f) off) (attr_instance_at (f_data f) off) e (skipn k offs) parts -> parts <> [] ->
  value_reads_as nt (mkAttr f off (Some (fst (iterate_state (with_dev alist_next) k (alist_of_sval (SVRes (res_new bs p)), d0))))) img
    (concat parts) (field 8 (f_data f) (off + 48)).
Proof. exact lv_resident_list. Qed.
Print Assumptions C37_resident_list_partial.

(** The same for a list that is itself stored in extents [l]. *)
Theorem C37_nonresident_list_partial : forall img nt mp mdata ml l enc p lsize v e offs k d0 f off parts,
  bytes_ok img -> mft_position nt = Some mp -> 32 <= file_record_size nt <= U16_MAX ->
  mft_at img mp (file_record_size nt) mdata ml -> valid_extents (cluster_size nt) img ml ->
  valid_extents (cluster_size nt) img l -> encodes 0 l enc -> 0 <= lsize <= extents_size (cluster_size nt) l -> lsize + U16_MAX <= U64_MAX ->
  nr_new (cluster_size nt) enc p lsize = Ok v ->
  let bs := file_content (cluster_size nt) img l lsize in
  bytes_ok bs -> list_walk bs 0 offs e -> faultless d0 -> d_img d0 = img ->
  bytes_ok (f_data f) -> 0 <= off -> attr_fits (f_data f) off -> off + 56 <= zlen (f_data f) -> type_known (attr_type_at (f_data f) off) ->
  connected img nt ml bs (attr_type_at (f_data f) off) (attr_instance_at (f_data f) off) e (skipn k (with_cut offs e)) parts -> parts <> [] ->
  value_reads_as nt (mkAttr f off (Some (fst (iterate_state (with_dev alist_next) k (alist_of_sval (SVNr v), d0))))) img
    (concat parts) (field 8 (f_data f) (off + 48)).
Proof. exact lv_nonresident_list. Qed.
Print Assumptions C37_nonresident_list_partial.

(** A value of 1600 bytes in two records: one cluster, a hole of one cluster, two clusters. *)
Example C37_example :
  let vol := ex_al_vol1 in let nt := ex_al_ntfs vol in let f := ex_al_f2 in let d := ex_al_dev vol in
  bytes_ok vol /\ mft_position nt = Some 1024 /\ 32 <= file_record_size nt <= U16_MAX /\
  mft_at vol 1024 (file_record_size nt) (f_data ex_al_mft) ex_al_extents /\ valid_extents (cluster_size nt) vol ex_al_extents /\
  bytes_ok ex_al_list /\ zlen ex_al_list <= U64_MAX /\ position_sane (Some 2136) (zlen ex_al_list) /\ list_walk ex_al_list 0 [0; 32; 64; 96] ListDone /\
  faultless d /\ d_img d = vol /\
  bytes_ok (f_data f) /\ attr_fits (f_data f) 56 /\ 56 + 56 <= zlen (f_data f) /\ type_known (attr_type_at (f_data f) 56) /\
  connected vol nt ex_al_extents ex_al_list (attr_type_at (f_data f) 56) (attr_instance_at (f_data f) 56) ListDone (skipn 1 [0; 32; 64; 96]) [ex_part1; ex_part2] /\
  file_content (cluster_size nt) vol (concat [ex_part1; ex_part2]) (field 8 (f_data f) (56 + 48)) = zrepeat 1 512 ++ zrepeat 0 512 ++ zrepeat 2 512 ++ zrepeat 3 64 /\
  (** and this is what opening the unnamed stream of the base record gives *)
  snd (file_data 9 nt ex_al_f1 [] d) =
    Ok (Some (mkItem ex_al_f1 (Some f) 56 (Some (fst (iterate_state (with_dev alist_next) 1 (alist_of_sval (SVRes (res_new ex_al_list (Some 2136))), d)))))).
Proof.
  split; [apply bytes_okb_ok; exact ex_al_vol1_bytes|]. split; [reflexivity|]. split; [unfold U16_MAX; cbn; lia|].
  split; [apply ex_al_mft_at; [exact ex_al_vol1_len|vm_compute; reflexivity]|]. split; [apply ex_al_mft_valid; exact ex_al_vol1_len|].
  split; [apply bytes_okb_ok; vm_compute; reflexivity|]. split; [vm_compute; discriminate|]. split; [intros v [= <-]; vm_compute; split; (reflexivity || discriminate)|].
  split; [apply (lwalk_ok 6); vm_compute; reflexivity|]. split; [split; repeat constructor|]. split; [reflexivity|].
  split; [apply bytes_okb_ok; vm_compute; reflexivity|]. split; [apply fits_dec; vm_compute; reflexivity|]. split; [vm_compute; discriminate|].
  split; [apply known_type_spec; vm_compute; reflexivity|]. split; [exact ex_al_connected|]. split; vm_compute; reflexivity.
Qed.

(** The same value with a list that is stored in a cluster. *)
Example C37_nonresident_example :
  let vol := ex_al_vol_far in let nt := ex_al_ntfs vol in let f := ex_al_f2 in let d := ex_al_dev vol in let l := ex_al_list_extents in
  bytes_ok vol /\ mft_position nt = Some 1024 /\ 32 <= file_record_size nt <= U16_MAX /\
  mft_at vol 1024 (file_record_size nt) (f_data ex_al_mft) ex_al_extents /\ valid_extents (cluster_size nt) vol ex_al_extents /\
  valid_extents (cluster_size nt) vol l /\ encodes 0 l ex_al_list_runs /\ 0 <= 128 <= extents_size (cluster_size nt) l /\ 128 + U16_MAX <= U64_MAX /\
  nr_new (cluster_size nt) ex_al_list_runs (Some 2200) 128 = Ok ex_al_list_value /\
  file_content (cluster_size nt) vol l 128 = ex_al_list /\ bytes_ok ex_al_list /\ list_walk ex_al_list 0 [0; 32; 64; 96] ListDone /\
  faultless d /\ d_img d = vol /\
  bytes_ok (f_data f) /\ attr_fits (f_data f) 56 /\ 56 + 56 <= zlen (f_data f) /\ type_known (attr_type_at (f_data f) 56) /\
  connected vol nt ex_al_extents ex_al_list (attr_type_at (f_data f) 56) (attr_instance_at (f_data f) 56) ListDone (skipn 1 (with_cut [0; 32; 64; 96] ListDone)) [ex_part1; ex_part2] /\
  file_content (cluster_size nt) vol (concat [ex_part1; ex_part2]) (field 8 (f_data f) (56 + 48)) = zrepeat 1 512 ++ zrepeat 0 512 ++ zrepeat 2 512 ++ zrepeat 3 64 /\
  snd (file_data 9 nt ex_al_far [] d) =
    Ok (Some (mkItem ex_al_far (Some f) 56 (Some (fst (iterate_state (with_dev alist_next) 1 (alist_of_sval (SVNr ex_al_list_value), d)))))).
Proof.
  split; [apply bytes_okb_ok; exact ex_al_vol_far_bytes|]. split; [reflexivity|]. split; [unfold U16_MAX; cbn; lia|].
  split; [apply ex_al_mft_at; [exact ex_al_vol_far_len|vm_compute; reflexivity]|]. split; [apply ex_al_mft_valid; exact ex_al_vol_far_len|].
  split; [exact ex_al_list_valid|]. split; [exact ex_al_list_encodes|]. split; [vm_compute; split; discriminate|]. split; [vm_compute; discriminate|].
  split; [vm_compute; reflexivity|]. split; [exact ex_al_list_content|]. split; [apply bytes_okb_ok; vm_compute; reflexivity|].
  split; [apply (lwalk_ok 6); vm_compute; reflexivity|]. split; [split; repeat constructor|]. split; [reflexivity|].
  split; [apply bytes_okb_ok; vm_compute; reflexivity|]. split; [apply fits_dec; vm_compute; reflexivity|]. split; [vm_compute; discriminate|].
  split; [apply known_type_spec; vm_compute; reflexivity|]. split; [exact ex_al_connected_far|]. split; vm_compute; reflexivity.
Qed.

(** If the first part is in the base record itself, opening the stream gives the value of a continuation, which is empty. *)
Theorem C37_base_part_refuted : exists img nt mp mdata ml bs p e offs k d f off parts d' i a,
  bytes_ok img /\ mft_position nt = Some mp /\ 32 <= file_record_size nt <= U16_MAX /\
  mft_at img mp (file_record_size nt) mdata ml /\ valid_extents (cluster_size nt) img ml /\
  bytes_ok bs /\ position_sane p (zlen bs) /\ list_walk bs 0 offs e /\ faultless d /\ d_img d = img /\
  bytes_ok (f_data f) /\ attr_fits (f_data f) off /\ attr_type_at (f_data f) off = TY_Data /\
  connected img nt ml bs (attr_type_at (f_data f) off) (attr_instance_at (f_data f) off) e (skipn k offs) parts /\ parts <> [] /\
  file_data 9 nt f [] d = (d', Ok (Some i)) /\ item_to_attribute i = Ok a /\
  ~ value_reads_as nt a img (concat parts) (field 8 (f_data f) (off + 48)).
Proof.
  exists ex_al_vol2, (ex_al_ntfs ex_al_vol2), 1024, (f_data ex_al_mft), ex_al_extents, ex_al_list2, (Some 2136), ListDone, [0; 32; 64], 1%nat,
    (ex_al_dev ex_al_vol2), ex_al_g1, 208, [ex_part1; ex_part2], (fst (file_data 9 (ex_al_ntfs ex_al_vol2) ex_al_g1 [] (ex_al_dev ex_al_vol2))), (ex_al_item ex_al_vol2 ex_al_g1), (ex_al_attr ex_al_vol2 ex_al_g1).
  split; [apply bytes_okb_ok; exact ex_al_vol2_bytes|]. split; [reflexivity|]. split; [unfold U16_MAX; cbn; lia|].
  split; [apply ex_al_mft_at; [exact ex_al_vol2_len|vm_compute; reflexivity]|]. split; [apply ex_al_mft_valid; exact ex_al_vol2_len|].
  split; [apply bytes_okb_ok; vm_compute; reflexivity|]. split; [intros v [= <-]; vm_compute; split; (reflexivity || discriminate)|].
  split; [apply (lwalk_ok 6); vm_compute; reflexivity|]. split; [split; repeat constructor|]. split; [reflexivity|].
  split; [apply bytes_okb_ok; vm_compute; reflexivity|]. split; [apply fits_dec; vm_compute; reflexivity|].
  split; [reflexivity|]. split; [exact ex_al_connected2|]. split; [discriminate|]. destruct (ex_al_opened ex_al_vol2 ex_al_g1) as [O1 O2]; [vm_compute; reflexivity|]. split; [exact O1|]. split; [exact O2|].
  intros H. destruct (H (ex_al_dev ex_al_vol2)) as (d1 & v & E & L & _); [split; repeat constructor|reflexivity|].
  pose (g := fun x : dev * res aval => match x with (_, Ok v) => av_len v | _ => -1 end).
  assert (X : g (attr_value (ex_al_ntfs ex_al_vol2) (ex_al_attr ex_al_vol2 ex_al_g1) (ex_al_dev ex_al_vol2)) = 0) by (vm_compute; reflexivity).
  rewrite E in X. unfold g in X. rewrite X in L. clear - L. vm_compute in L. discriminate.
Qed.
Print Assumptions C37_base_part_refuted.

(** If the second part has another instance, it is not taken as a continuation, although type and name are the same and its first
    cluster number is the number of clusters before it; the value ends early. *)
Theorem C37_instance_refuted : exists img nt mp mdata ml bs p o1 o2 d f p1 f1 l1 p2 f2 l2 d' i a,
  bytes_ok img /\ mft_position nt = Some mp /\ 32 <= file_record_size nt <= U16_MAX /\
  mft_at img mp (file_record_size nt) mdata ml /\ valid_extents (cluster_size nt) img ml /\
  bytes_ok bs /\ position_sane p (zlen bs) /\ list_walk bs 0 [0; o1; o2] ListDone /\ faultless d /\ d_img d = img /\
  field 4 bs o1 = TY_Data /\ field 4 bs o2 = TY_Data /\ field 1 bs (o1 + 6) = 0 /\ field 1 bs (o2 + 6) = 0 /\
  record_stored img nt ml (field 6 bs (o1 + 16)) p1 f1 /\ holds_extents f1 TY_Data (field 2 bs (o1 + 24)) l1 /\ valid_extents (cluster_size nt) img l1 /\
  record_stored img nt ml (field 6 bs (o2 + 16)) p2 f2 /\ holds_extents f2 TY_Data (field 2 bs (o2 + 24)) l2 /\ valid_extents (cluster_size nt) img l2 /\
  field 8 bs (o1 + 8) = 0 /\ field 8 bs (o2 + 8) * cluster_size nt = extents_size (cluster_size nt) l1 /\
  file_data 9 nt f [] d = (d', Ok (Some i)) /\ item_to_attribute i = Ok a /\
  ~ value_reads_as nt a img (l1 ++ l2) (field 8 f1 (56 + 48)).
Proof.
  exists ex_al_vol3, (ex_al_ntfs ex_al_vol3), 1024, (f_data ex_al_mft), ex_al_extents, ex_al_list3, (Some 2136), 32, 64,
    (ex_al_dev ex_al_vol3), ex_al_h1, 3072, (f_data ex_al_f2), ex_part1, 4096, (f_data ex_al_h3), ex_part2, (fst (file_data 9 (ex_al_ntfs ex_al_vol3) ex_al_h1 [] (ex_al_dev ex_al_vol3))), (ex_al_item ex_al_vol3 ex_al_h1), (ex_al_attr ex_al_vol3 ex_al_h1).
  split; [apply bytes_okb_ok; exact ex_al_vol3_bytes|]. split; [reflexivity|]. split; [unfold U16_MAX; cbn; lia|].
  split; [apply ex_al_mft_at; [exact ex_al_vol3_len|vm_compute; reflexivity]|]. split; [apply ex_al_mft_valid; exact ex_al_vol3_len|].
  split; [apply bytes_okb_ok; vm_compute; reflexivity|]. split; [intros v [= <-]; vm_compute; split; (reflexivity || discriminate)|].
  split; [apply (lwalk_ok 6); vm_compute; reflexivity|]. split; [split; repeat constructor|]. split; [reflexivity|].
  split; [reflexivity|]. split; [reflexivity|]. split; [reflexivity|]. split; [reflexivity|].
  split; [apply (ex_al_stored ex_al_vol3 ex_al_vol3_bytes ex_al_vol3_len 2 (ex_record (ex_al_attrs1 5)) ex_al_f2); try lia; vm_compute; reflexivity|].
  split; [exact ex_al_holds1|]. split; [apply ex_al_part1_valid; exact ex_al_vol3_len|].
  split; [apply (ex_al_stored ex_al_vol3 ex_al_vol3_bytes ex_al_vol3_len 3 (ex_record (ex_al_attrs2 6)) ex_al_h3); try lia; vm_compute; reflexivity|].
  split; [exact ex_al_holds4|]. split; [apply ex_al_part2_valid; exact ex_al_vol3_len|].
  split; [reflexivity|]. split; [reflexivity|]. destruct (ex_al_opened ex_al_vol3 ex_al_h1) as [O1 O2]; [vm_compute; reflexivity|]. split; [exact O1|]. split; [exact O2|].
  intros H. destruct (H (ex_al_dev ex_al_vol3)) as (d1 & v & E & _ & _ & _ & R); [split; repeat constructor|reflexivity|].
  destruct (R 100%nat) as [R1 _].
  { pose proof (f_equal fst E) as E1. cbn [fst] in E1. rewrite <- E1. apply Nat.leb_le. vm_compute. reflexivity. }
  specialize (R1 [ORead 1600] ltac:(repeat constructor; vm_compute; discriminate)).
  pose (g := fun x : dev * res aval => match x with (d1, Ok v) => match av_read 100 v 1600 d1 with (_, (_, Ok bs)) => zlen bs | _ => -1 end | _ => -1 end).
  assert (X : g (attr_value (ex_al_ntfs ex_al_vol3) (ex_al_attr ex_al_vol3 ex_al_h1) (ex_al_dev ex_al_vol3)) = 1024) by (vm_compute; reflexivity).
  rewrite E in X. unfold g in X. clear - R1 X.
  assert (Y : match cursor_run (file_content (cluster_size (ex_al_ntfs ex_al_vol3)) ex_al_vol3 (ex_part1 ++ ex_part2) (field 8 (f_data ex_al_f2) (56 + 48)))
    (field 8 (f_data ex_al_f2) (56 + 48)) 0 [ORead 1600] with RBytes (Ok bs) :: _ => zlen bs | _ => 0 end = 1600) by (vm_compute; reflexivity).
  rewrite <- R1 in Y. clear R1. cbn [reader_run reader_step] in Y.
  destruct (av_read 100 v 1600 d1) as [d2 [v2 [bs| | |]]]; [lia|discriminate..].
Qed.
Print Assumptions C37_instance_refuted.
