(** * C50, C51: the attributes of a file with an attribute list. *)
From Verif Require Import Base Dev Types Record DataRuns Stream NonResident Resident Attribute File Structured AttrList
  Upcase Spec SpecIndex SpecValues SpecMisc SpecAttrList BaseProofs AttributeProofs FlatProofs FlatSearchProofs BadListProofs StreamExamples FileExamples
  AttrListExamples AttrListIterProofs.

(** ** C50. Iteration over the attributes of a file with an attribute list *)
(** The iteration shows the attributes of the record before the list, then those that the list names in other records (each with the record
    and the offset it is stored at; a non-resident one once, with the value made of all its parts), then the attributes after the list,
    and then [None] for ever, or an error for ever if the record goes on with a malformed attribute. An entry that cannot be followed is
    shown as an error, and the iteration goes on behind it.
    A list which ends in bytes that are no entry: [C50_bad_list]. Missing: more than one attribute list in a record, and: what is taken for a
    continuation ([continues]) need not be one, [C50_same_instance_refuted]. *)
Theorem C50_iteration_partial : forall img nt ml f before lo after clean bs offs e vs d fuel,
  file_with_list img nt ml f before lo after clean bs offs e vs -> faultless d -> d_img d = img -> (length offs + 2 < fuel)%nat ->
  exists st x xs, attrs_start f = Ok st /\
    Forall2 (item_shows img nt ml bs e f) (map VBase before ++ vs ++ map VBase after) xs /\
    forall n, iterate (with_dev (attrs_next fuel nt)) (length xs + n) (st, d) = xs ++ repeat (if clean then None else Some (Err x)) n.
Proof. exact flat_attributes. Qed.
Print Assumptions C50_iteration_partial.

(** A record with an attribute, a list and another attribute. The list has an entry of the record itself, two parts of a value in
    two other records, a resident attribute in another record, and three entries that cannot be followed: a record number behind the end of the MFT,
    an unknown type, an attribute that the record does not have. *)
Example C50_example :
  let vol := ex_al_vol4 in let nt := ex_al_ntfs vol in let d := ex_al_dev vol in
  file_with_list vol nt ex_al_extents ex_al_k1 [56] 88 [336] true ex_al_list4 [0; 32; 64; 96; 128; 160; 192] ListDone ex_al_views4 /\ faultless d /\ d_img d = vol /\
  connected vol nt ex_al_extents ex_al_list4 128 5 ListDone [32; 64; 96; 128; 160; 192] [ex_part1; ex_part2] /\
  (forall st, attrs_start ex_al_k1 = Ok st ->
    map (fun x => match x with
                  | Some (Ok i) => Some (Ok (f_number (match ai_value_file i with Some g => g | None => ai_file i end), ai_offset i, match ai_entries i with Some _ => true | None => false end))
                  | Some (Err e) => Some (Err e) | Some _ => Some Panic | None => None end)
      (iterate (with_dev (attrs_next 10 nt)) 9 (st, d)) =
    [Some (Ok (1, 56, false)); Some (Ok (2, 56, true)); Some (Ok (3, 56, false)); Some (Err (EInvalidFileRecordNumber 77));
     Some (Err (EUnsupportedAttributeType (Some 2296) 5)); Some (Err (EAttributeNotFound (Some 4096) 64)); Some (Ok (1, 336, false)); None; None]).
Proof.
  cbv zeta. split; [exact ex_al_file4|]. split; [split; repeat constructor|]. split; [reflexivity|]. split.
  - eapply con_part; [reflexivity|reflexivity|exact ex_al_stored4_2|exact ex_al_holds1|discriminate|apply ex_al_part1_valid; exact ex_al_vol4_len|].
    eapply con_part; [reflexivity|reflexivity|exact ex_al_stored4_3|exact ex_al_holds2|discriminate|apply ex_al_part2_valid; exact ex_al_vol4_len|].
    apply con_other. left. vm_compute. discriminate.
  - intros st. assert (E : attrs_start ex_al_k1 = Ok (mkAttrs ex_al_k1 56 None None)) by (vm_compute; reflexivity).
    rewrite E. intros Hst. injection Hst as <-. vm_compute. reflexivity.
Qed.

(** Entries of two different attributes are taken for parts of one if they follow one another and agree in type and instance, although instances are only
    unique within a record: the stream "b" of the file is stored, and listed, but neither the iteration nor a search shows it. *)
Theorem C50_same_instance_refuted : exists img nt ml f before lo after bs offs vs d fuel o p data a,
  file_with_list img nt ml f before lo after true bs offs ListDone vs /\ faultless d /\ d_img d = img /\ (length offs + 2 < fuel)%nat /\
  In o offs /\ entry_number bs o <> f_number f /\ record_stored img nt ml (entry_number bs o) p data /\ locates data (entry_type bs o) (entry_instance bs o) a /\
  attr_resident_at data a /\ is_match data 128 (Some [98]) None a /\
  (forall st n i, attrs_start f = Ok st -> In (Some (Ok i)) (iterate (with_dev (attrs_next fuel nt)) n (st, d)) ->
     ai_value_file i <> Some (mkFile (mkRecord data (Some p)) (entry_number bs o))) /\
  snd (find_attribute fuel nt f 128 (Some [98]) d) = Err (EAttributeNotFound (f_position f) 128).
Proof.
  exists ex_al_vol5, (ex_al_ntfs ex_al_vol5), ex_al_extents, ex_al_m1, [56], 88, [], ex_al_list5, [0; 32; 64], ex_al_views5, (ex_al_dev ex_al_vol5), 9%nat, 64, 4096, (f_data ex_al_m3), 56.
  split; [exact ex_al_file5|]. split; [split; repeat constructor|]. split; [reflexivity|]. split; [cbn; lia|].
  split; [cbn; auto|]. split; [vm_compute; discriminate|]. split; [exact ex_al_stored5_3|]. split; [exact ex_al_locates5|].
  split; [vm_compute; reflexivity|]. split.
  { split; [vm_compute; reflexivity|]. split; [discriminate|]. intros n Hn. injection Hn as <-. exists [98; 0]. split.
    - right. split; [vm_compute; discriminate|]. split; [vm_compute; discriminate|]. split; [vm_compute; discriminate|vm_compute; reflexivity].
    - apply (utf16_unit 98 0 [] []). constructor. }
  split; [|vm_compute; reflexivity].
  intros st n i Hst Hin.
  destruct (flat_attributes _ _ _ _ _ _ _ _ _ _ _ _ (ex_al_dev ex_al_vol5) 9%nat ex_al_file5) as (st' & e & ys & S & F & I); [split; repeat constructor|reflexivity|cbn; lia|].
  rewrite Hst in S. injection S as <-. apply (iterate_in_mono _ _ (length ys + n)%nat) in Hin; [|lia]. rewrite I in Hin. clear I Hst.
  apply in_app_or in Hin. destruct Hin as [Hin|Hin]; [|apply repeat_spec in Hin; discriminate].
  cbn [map app ex_al_views5] in F. inversion F as [|v1 x1 vs1 xs1 F1 F2]; subst. inversion F2 as [|v2 x2 vs2 xs2 F3 F4]; subst. inversion F4; subst.
  cbn [item_shows] in F1, F3. destruct F3 as (l & F3 & _). destruct Hin as [Hin|[Hin|[]]].
  - rewrite F1 in Hin. injection Hin as <-. discriminate.
  - rewrite F3 in Hin. injection Hin as <-. cbn [ai_value_file]. intros X. apply (f_equal (fun o => match o with Some g => f_number g | None => 0 end)) in X.
    cbn [f_number] in X. vm_compute in X. discriminate.
Qed.
Print Assumptions C50_same_instance_refuted.

(** A list that ends in bytes which are no entry: after the attributes that its entries name, the same error for ever. The attributes that the record has
    behind the list are not shown, and the iteration does not end. *)
Theorem C50_bad_list : forall img nt ml f before lo after clean bs offs vs d fuel,
  file_with_bad_list img nt ml f before lo after clean bs offs vs -> faultless d -> d_img d = img -> (length offs + 1 < fuel)%nat ->
  exists st x xs, attrs_start f = Ok st /\
    Forall2 (item_shows img nt ml bs ListMalformed f) (map VBase before ++ vs) xs /\
    forall n, iterate (with_dev (attrs_next fuel nt)) (length xs + n) (st, d) = xs ++ repeat (Some (Err x)) n.
Proof. exact bad_attributes. Qed.
Print Assumptions C50_bad_list.

(** A list with an entry of the record itself and two parts of a value, followed by eight zeroes, and an index root behind the list. *)
Definition ex_bad_list := ex_le32 16 0 1 0 ++ ex_le32 128 0 2 5 ++ ex_le32 128 2 3 5 ++ [0; 0; 0; 0; 0; 0; 0; 0].
Definition ex_bad_base := ex_al_base ex_bad_list (ex_resident 144 9 [] [1; 1; 1; 1; 1; 1; 1; 1]).
Definition ex_bad_vol := ex_al_vol ex_bad_base (ex_record (ex_al_attrs1 5)) (ex_record (ex_al_attrs2 5)).
Definition ex_bad_file := ex_al_rec ex_bad_base 2048 1.
Definition ex_bad_views := [VParts 2 3072 (f_data ex_al_f2) 56 [32; 64]].
Example C50_bad_list_file : file_with_bad_list ex_bad_vol (ex_al_ntfs ex_bad_vol) ex_al_extents ex_bad_file [56] 88 [216] true ex_bad_list [0; 32; 64] ex_bad_views.
Proof.
  assert (Hvb : bytes_okb ex_bad_vol = true) by (vm_compute; reflexivity). assert (Hvl : zlen ex_bad_vol = 7168) by (vm_compute; reflexivity).
  split.
  - apply bytes_okb_ok; exact Hvb.
  - exists 1024, (f_data ex_al_mft). split; [reflexivity|]. apply ex_al_mft_at; [exact Hvl|vm_compute; reflexivity].
  - unfold U16_MAX; cbn; lia.
  - apply ex_al_mft_valid; exact Hvl.
  - split; [apply bytes_okb_ok; vm_compute; reflexivity|vm_compute; discriminate].
  - assert (E : f_position ex_bad_file = Some 2048) by (vm_compute; reflexivity). assert (El : zlen (f_data ex_bad_file) = 1024) by (vm_compute; reflexivity).
    rewrite E, El. intros v Hv. injection Hv as <-. unfold U64_MAX. lia.
  - change (field 2 (f_data ex_bad_file) 20) with 56. cbn [app]. apply walk_attr; [vm_compute; discriminate|apply fits_dec; vm_compute; reflexivity|].
    change (56 + attr_len_at (f_data ex_bad_file) 56) with 88.
    apply walk_attr; [vm_compute; discriminate|apply fits_dec; vm_compute; reflexivity|].
    change (88 + attr_len_at (f_data ex_bad_file) 88) with 216.
    apply walk_attr; [vm_compute; discriminate|apply fits_dec; vm_compute; reflexivity|].
    apply walk_marker; vm_compute; [discriminate|reflexivity].
  - apply Forall_cons; [vm_compute; discriminate|apply Forall_nil].
  - reflexivity.
  - apply ac_resident; [reflexivity|vm_compute; discriminate|]. split; [vm_compute; discriminate|vm_compute; reflexivity].
  - vm_compute; discriminate.
  - apply (lwalk_ok 9); vm_compute; reflexivity.
  - change (f_number ex_bad_file) with 1.
    apply ls_own; [apply known_type_spec; vm_compute; reflexivity|vm_compute; reflexivity|].
    apply ls_nonresident_n; [vm_compute; reflexivity|shown_now| | |vm_compute; discriminate|].
    { apply (ex_al_stored ex_bad_vol Hvb Hvl 2 (ex_record (ex_al_attrs1 5)) ex_al_f2); try lia; vm_compute; reflexivity. }
    { exists [], [], true. split; [exact ex_al_walk_f2|]. split; [constructor|]. split; vm_compute; reflexivity. }
    apply ls_part; [apply known_type_spec; vm_compute; reflexivity|vm_compute; discriminate|vm_compute; reflexivity|]. apply ls_end.
Qed.

(** With such a list, an attribute that the record itself holds, behind the list, can neither be iterated to nor be found, although the same record
    read without following the list shows it. *)
Theorem C50_behind_bad_list_refuted : exists img nt ml f before lo after bs offs vs d fuel o,
  file_with_bad_list img nt ml f before lo after true bs offs vs /\ faultless d /\ d_img d = img /\ (length offs + 1 < fuel)%nat /\
  In o after /\ is_match (f_data f) 144 None None o /\
  (forall st n i, attrs_start f = Ok st -> In (Some (Ok i)) (iterate (with_dev (attrs_next fuel nt)) n (st, d)) -> ai_offset i <> o) /\
  exists x, snd (find_attribute fuel nt f 144 None d) = Err x /\ x <> EAttributeNotFound (f_position f) 144.
Proof.
  exists ex_bad_vol, (ex_al_ntfs ex_bad_vol), ex_al_extents, ex_bad_file, [56], 88, [216], ex_bad_list, [0; 32; 64], ex_bad_views, (ex_al_dev ex_bad_vol), 20%nat, 216.
  split; [exact C50_bad_list_file|]. split; [split; repeat constructor|]. split; [reflexivity|]. split; [cbn; lia|]. split; [cbn; auto|].
  split; [split; [vm_compute; reflexivity|split; discriminate]|]. split.
  - intros st n i Hst Hin.
    destruct (bad_attributes _ _ _ _ _ _ _ _ _ _ _ (ex_al_dev ex_bad_vol) 20%nat C50_bad_list_file) as (st' & e & ys & S & F & I); [split; repeat constructor|reflexivity|cbn; lia|].
    rewrite Hst in S. injection S as <-. apply (iterate_in_mono _ _ (length ys + n)%nat) in Hin; [|lia]. rewrite I in Hin. clear I Hst.
    apply in_app_or in Hin. destruct Hin as [Hin|Hin]; [|apply repeat_spec in Hin; discriminate].
    cbn [map app ex_bad_views] in F. inversion F as [|v1 x1 vs1 xs1 F1 F2]; subst. inversion F2 as [|v2 x2 vs2 xs2 F3 F4]; subst. inversion F4; subst.
    cbn [item_shows] in F1, F3. destruct F3 as (l & F3 & _). destruct Hin as [Hin|[Hin|[]]].
    + rewrite F1 in Hin. injection Hin as <-. discriminate.
    + rewrite F3 in Hin. injection Hin as <-. discriminate.
  - assert (E : match snd (find_attribute 20 (ex_al_ntfs ex_bad_vol) ex_bad_file 144 None (ex_al_dev ex_bad_vol)) with
                | Err (EAttributeNotFound _ _) => false | Err _ => true | _ => false end = true) by (vm_compute; reflexivity).
    destruct (snd (find_attribute 20 (ex_al_ntfs ex_bad_vol) ex_bad_file 144 None (ex_al_dev ex_bad_vol))) as [i|x| |]; try discriminate.
    exists x. split; [reflexivity|]. intros ->. discriminate.
Qed.
Print Assumptions C50_behind_bad_list_refuted.

(** ** C51. Lookup in a file with an attribute list *)
(** [find_attribute]: the first attribute, in the order of C50, of the type and the name. *)
Theorem C51_find : forall img nt ml f before lo after clean bs offs e vs ty name fuel d, file_with_list img nt ml f before lo after clean bs offs e vs ->
  let views := map VBase before ++ vs ++ map VBase after in
  faultless d -> d_img d = img -> (length offs + length views + 3 < fuel)%nat ->
  exists r, search_result (f_data f) views clean (fun v i => item_shows img nt ml bs e f v (Some (Ok i)) /\ at_view (f_data f) (fun data o => is_match data ty name None o) v)
      (fun data o => is_other data ty name None o) (fun data o => is_malformed data ty name None o) r /\
    snd (find_attribute fuel nt f ty name d) = let? x := r in match x with Some i => Ok i | None => Err (EAttributeNotFound (f_position f) ty) end.
Proof. exact find_flat. Qed.
Print Assumptions C51_find.

(** [NtfsFile::data]: the first stream of that name (up to case). *)
Theorem C51_data : forall img nt ml f before lo after clean bs offs e vs t stream fuel d, file_with_list img nt ml f before lo after clean bs offs e vs ->
  let views := map VBase before ++ vs ++ map VBase after in
  stream = [] \/ upcase_table nt = Some t /\ zlen t = 65536 /\ Forall unit_ok stream ->
  faultless d -> d_img d = img -> (length offs + length views + 3 < fuel)%nat ->
  search_result (f_data f) views clean (fun v i => item_shows img nt ml bs e f v (Some (Ok i)) /\ at_view (f_data f) (fun data o => is_stream data t stream o) v)
      (fun data o => not_stream data t stream o) (fun data o => malformed_stream data o) (snd (file_data fuel nt f stream d)).
Proof. exact data_flat. Qed.
Print Assumptions C51_data.

(** [NtfsFile::name]: the first file name of that namespace and parent, for file name attributes that are resident, as they are required to be. *)
Theorem C51_name : forall img nt ml f before lo after clean bs offs e vs ns parent fuel d, file_with_list img nt ml f before lo after clean bs offs e vs ->
  let views := map VBase before ++ vs ++ map VBase after in
  Forall (fun v => v = VBroken \/ at_view (f_data f) (fun data o => attr_type_at data o = 48 -> attr_resident_at data o /\ o + 22 <= zlen data) v) views ->
  faultless d -> d_img d = img -> (length offs + length views + 3 < fuel)%nat ->
  search_result (f_data f) views clean (fun v x => at_view (f_data f) (fun data o => is_name data ns parent o x) v)
      (fun data o => not_name data ns parent o) (fun data o => malformed_name data o) (snd (file_name_of fuel nt f ns parent d)).
Proof. exact name_flat. Qed.
Print Assumptions C51_name.

(** The same three with a list that ends in bytes which are no entry: they find what the record has before the list and what the entries name; if they find
    nothing there, they give an error. *)
Theorem C51_find_bad_list : forall img nt ml f before lo after clean bs offs vs ty name fuel d, file_with_bad_list img nt ml f before lo after clean bs offs vs ->
  let views := map VBase before ++ vs in
  faultless d -> d_img d = img -> (length offs + length views + 2 < fuel)%nat ->
  exists r, search_result (f_data f) views false (fun v i => item_shows img nt ml bs ListMalformed f v (Some (Ok i)) /\ at_view (f_data f) (fun data o => is_match data ty name None o) v)
      (fun data o => is_other data ty name None o) (fun data o => is_malformed data ty name None o) r /\
    snd (find_attribute fuel nt f ty name d) = let? x := r in match x with Some i => Ok i | None => Err (EAttributeNotFound (f_position f) ty) end.
Proof. exact bad_find. Qed.
Print Assumptions C51_find_bad_list.

Theorem C51_data_bad_list : forall img nt ml f before lo after clean bs offs vs t stream fuel d, file_with_bad_list img nt ml f before lo after clean bs offs vs ->
  let views := map VBase before ++ vs in
  stream = [] \/ upcase_table nt = Some t /\ zlen t = 65536 /\ Forall unit_ok stream ->
  faultless d -> d_img d = img -> (length offs + length views + 2 < fuel)%nat ->
  search_result (f_data f) views false (fun v i => item_shows img nt ml bs ListMalformed f v (Some (Ok i)) /\ at_view (f_data f) (fun data o => is_stream data t stream o) v)
      (fun data o => not_stream data t stream o) (fun data o => malformed_stream data o) (snd (file_data fuel nt f stream d)).
Proof. exact bad_data. Qed.
Print Assumptions C51_data_bad_list.

Theorem C51_name_bad_list : forall img nt ml f before lo after clean bs offs vs ns parent fuel d, file_with_bad_list img nt ml f before lo after clean bs offs vs ->
  let views := map VBase before ++ vs in
  Forall (fun v => v = VBroken \/ at_view (f_data f) (fun data o => attr_type_at data o = 48 -> attr_resident_at data o /\ o + 22 <= zlen data) v) views ->
  faultless d -> d_img d = img -> (length offs + length views + 2 < fuel)%nat ->
  search_result (f_data f) views false (fun v x => at_view (f_data f) (fun data o => is_name data ns parent o x) v)
      (fun data o => not_name data ns parent o) (fun data o => malformed_name data o) (snd (file_name_of fuel nt f ns parent d)).
Proof. exact bad_name. Qed.
Print Assumptions C51_name_bad_list.

(** In the file of [C50_bad_list_file] the attribute before the list and the stream named by it are found; the index root and a file name are searched for in vain. *)
Example C51_bad_list_example :
  let vol := ex_bad_vol in let nt := ex_al_ntfs vol in let d := ex_al_dev vol in
  file_with_bad_list vol nt ex_al_extents ex_bad_file [56] 88 [216] true ex_bad_list [0; 32; 64] ex_bad_views /\ faultless d /\ d_img d = vol /\
  Forall (fun v => v = VBroken \/ at_view (f_data ex_bad_file) (fun data o => attr_type_at data o = 48 -> attr_resident_at data o /\ o + 22 <= zlen data) v) (map VBase [56] ++ ex_bad_views) /\
  snd (find_attribute 20 nt ex_bad_file 16 None d) = Ok (mkItem ex_bad_file None 56 None) /\
  match snd (file_data 20 nt ex_bad_file [] d) with Ok (Some i) => ai_value_file i = Some ex_al_f2 /\ ai_offset i = 56 | _ => False end /\
  match snd (find_attribute 20 nt ex_bad_file 144 None d) with Err _ => True | _ => False end /\
  match snd (file_name_of 20 nt ex_bad_file None None d) with Err _ => True | _ => False end.
Proof.
  cbv zeta. split; [exact C50_bad_list_file|]. split; [split; repeat constructor|]. split; [reflexivity|]. split.
  { cbn [map app ex_bad_views]. repeat (apply Forall_cons; [first [left; reflexivity|right; unfold at_view; cbn [view_at]; vm_compute; discriminate]|]). apply Forall_nil. }
  split; [vm_compute; reflexivity|]. split; [vm_compute; split; reflexivity|]. split; vm_compute; exact Logic.I.
Qed.

(** The file of [C50_example]: a search finds the attribute of the record itself, the stream in the two other records, and, behind the entries that
    cannot be followed, nothing: the error of the first of them. It has no file name. *)
Example C51_example :
  let vol := ex_al_vol4 in let nt := ex_al_ntfs vol in let d := ex_al_dev vol in
  let views := map VBase [56] ++ ex_al_views4 ++ map VBase [336] in
  file_with_list vol nt ex_al_extents ex_al_k1 [56] 88 [336] true ex_al_list4 [0; 32; 64; 96; 128; 160; 192] ListDone ex_al_views4 /\ faultless d /\ d_img d = vol /\
  Forall (fun v => v = VBroken \/ at_view (f_data ex_al_k1) (fun data o => attr_type_at data o = 48 -> attr_resident_at data o /\ o + 22 <= zlen data) v) views /\
  snd (find_attribute 20 nt ex_al_k1 16 None d) = Ok (mkItem ex_al_k1 None 56 None) /\
  match snd (file_data 20 nt ex_al_k1 [] d) with Ok (Some i) => ai_value_file i = Some ex_al_f2 /\ ai_offset i = 56 | _ => False end /\
  snd (find_attribute 20 nt ex_al_k1 144 None d) = Err (EInvalidFileRecordNumber 77) /\
  snd (file_name_of 20 nt ex_al_k1 None None d) = Err (EInvalidFileRecordNumber 77).
Proof.
  cbv zeta. split; [exact ex_al_file4|]. split; [split; repeat constructor|]. split; [reflexivity|]. split.
  { cbn [map app ex_al_views4]. repeat (apply Forall_cons; [first [left; reflexivity|right; unfold at_view; cbn [view_at]; vm_compute; discriminate]|]). apply Forall_nil. }
  split; [vm_compute; reflexivity|]. split; [vm_compute; split; reflexivity|]. split; vm_compute; reflexivity.
Qed.
