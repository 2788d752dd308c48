(** * A concrete volume for the examples and counterexamples of PropsShell.v. *)
From Verif Require Import Base Dev Types Record DataRuns Stream NonResident Resident BootSector Attribute File Structured AttrList Upcase Index Shell
  Spec SpecValues SpecMisc SpecIndex SpecVolume BaseProofs ReaderProofs RecordProofs NonResidentProofs AttributeProofs FileProofs StructuredProofs ValueProofs AttrListProofs
  NodeProofs IndexRecordProofs IndexProofs DirectoryProofs NameFindProofs MiscProofs StreamExamples FileExamples ValueExamples IndexExamples AttrListExamples SpecInfo ShellProofs.

(** Clusters of 512 bytes, the boot sector, the MFT of 14 records from cluster 2 on, the upper case table from cluster 30 on, the content of
    record 13 in cluster 287 and 286. The name of the subdirectory is [nm]. *)
Definition exv_boot : list Z :=
  zrepeat 0 11 ++ [0; 2; 1] ++ zrepeat 0 26 ++ [32; 1; 0; 0; 0; 0; 0; 0] ++ [2; 0; 0; 0; 0; 0; 0; 0] ++ zrepeat 0 8 ++
  [246] ++ zrepeat 0 7 ++ [1; 2; 3; 4; 5; 6; 7; 8] ++ zrepeat 0 430 ++ [85; 170].
Definition exv_record (flags : Z) (attrs : list Z) : list Z :=
  let body := [70; 73; 76; 69; 48; 0; 3; 0] ++ zrepeat 0 8 ++ [1; 0; 1; 0; 56; 0; flags; 0; 0; 2; 0; 0; 0; 4; 0; 0] ++ zrepeat 0 16 ++
    [7; 7; 0; 0; 0; 0; 0; 0] ++ attrs ++ [255; 255; 255; 255] in
  let full := body ++ zrepeat 0 (1024 - zlen body) in
  ztake 510 full ++ [7; 7] ++ slice full 512 1022 ++ [7; 7].
Definition exv_units (us : list Z) : list Z := flat_map (fun c => [c mod 256; c / 256]) us.
(** A $FILE_NAME value. *)
Definition exv_name (parent ns attrs : Z) (us : list Z) : list Z :=
  [parent; 0; 0; 0; 0; 0; 1; 0] ++ zrepeat 0 48 ++ [0; 0; 0; attrs; 0; 0; 0; 0; zlen us; ns] ++ exv_units us.
Definition exv_pad (l : list Z) : list Z := l ++ zrepeat 0 (- zlen l mod 8).
Definition exv_nonresident (ty inst : Z) (size runs : list Z) : list Z :=
  [ty; 0; 0; 0; 72; 0; 0; 0; 1; 0; 0; 0; 0; 0; inst; 0] ++ zrepeat 0 16 ++ [64; 0; 0; 0; 0; 0; 0; 0] ++ zrepeat 0 8 ++ size ++ zrepeat 0 8 ++ runs.

(** "Doc" and "in". *)
Definition exv_doc : list Z := [68; 111; 99].
Definition exv_in : list Z := [105; 110].
Definition exv_root_entries (nm : list Z) : list (list Z) := [ex_entry 11 0 (exv_name 5 1 0 exv_doc) []; ex_entry 12 0 (exv_name 5 3 16 nm) []].
Definition exv_sub_entries : list (list Z) := [ex_entry 13 0 (exv_name 12 1 0 exv_in) []].
Definition exv_index (l : list (list Z)) : list Z := ex_root 0 (concat l ++ ex_entry 0 2 [] []).
Definition exv_rec5 (nm : list Z) : list Z := exv_record 3 (ex_resident 48 1 [] (exv_pad (exv_name 5 3 16 [46])) ++ ex_resident 144 2 ex_i30 (exv_index (exv_root_entries nm))).
Definition exv_rec10 : list Z := exv_record 1 (exv_nonresident 128 1 [0; 0; 2; 0; 0; 0; 0; 0] [18; 0; 1; 30; 0; 0; 0; 0]).
(** A $STANDARD_INFORMATION value: created at the beginning of 1970, the other times are 0. *)
Definition exv_std : list Z := [0; 128; 62; 213; 222; 177; 157; 1] ++ zrepeat 0 24 ++ [32; 0; 0; 0] ++ zrepeat 0 12.
(** Standard information, two names and two streams. *)
Definition exv_rec11 : list Z := exv_record 1 (ex_resident 16 0 [] exv_std ++ ex_resident 48 1 [] (exv_pad (exv_name 5 2 0 [68])) ++ ex_resident 48 2 [] (exv_pad (exv_name 5 1 0 exv_doc)) ++
  ex_resident 128 3 [] [104; 105; 33; 10] ++ ex_resident 128 4 [65; 0; 98; 0] [9; 8; 7; 6]).
Definition exv_rec12 (nm : list Z) : list Z := exv_record 3 (ex_resident 48 1 [] (exv_pad (exv_name 5 3 16 nm)) ++ ex_resident 144 2 ex_i30 (exv_index exv_sub_entries)).
Definition exv_rec13 : list Z := exv_record 1 (ex_resident 48 1 [] (exv_pad (exv_name 12 1 0 exv_in)) ++
  exv_nonresident 128 1 [188; 2; 0; 0; 0; 0; 0; 0] [33; 1; 31; 1; 17; 1; 255; 0]).
(** The name "Vol" of the volume, and its version. *)
Definition exv_rec3 : list Z := exv_record 1 (ex_resident 96 1 [] (exv_units [86; 111; 108]) ++ ex_resident 112 2 [] (zrepeat 0 8 ++ [3; 1; 0; 0])).
Definition exv_rec0 : list Z := exv_record 1 (exv_nonresident 128 0 [0; 56; 0; 0; 0; 0; 0; 0] [17; 28; 2; 0; 0; 0; 0; 0]).
Definition exv_img (nm : list Z) : list Z :=
  exv_boot ++ zrepeat 0 512 ++ exv_rec0 ++ zrepeat 0 2048 ++ exv_rec3 ++ zrepeat 0 1024 ++ exv_rec5 nm ++ zrepeat 0 4096 ++ exv_rec10 ++ exv_rec11 ++ exv_rec12 nm ++ exv_rec13 ++
  exv_units ex_dir_table ++ zrepeat 2 512 ++ zrepeat 1 512.

Definition exv_content : list Z := zrepeat 1 512 ++ zrepeat 2 188.
Definition exv_object (nm : list Z) (n : Z) : option object :=
  if n =? 5 then Some (mkObject [mkLink 5 3 [46]] [] (Some [mkDirent exv_doc false 11; mkDirent nm true 12]))
  else if n =? 11 then Some (mkObject [mkLink 5 2 [68]; mkLink 5 1 exv_doc] [([], [104; 105; 33; 10]); ([65; 98], [9; 8; 7; 6])] None)
  else if n =? 12 then Some (mkObject [mkLink 5 3 nm] [] (Some [mkDirent exv_in false 13]))
  else if n =? 13 then Some (mkObject [mkLink 12 1 exv_in] [([], exv_content)] None)
  else None.
Definition exv_volume (nm : list Z) : volume := mkVolume 512 1024 [mkExtent (Some 2) 28] ex_dir_table (exv_object nm).

Lemma exv_utf16 us : utf16 (exv_units us) us.
Proof.
  induction us as [|c us IH]; [constructor|]. cbn [exv_units flat_map app].
  rewrite (Z.div_mod c 256) at 3 by lia. rewrite (Z.add_comm (256 * _)). now apply utf16_unit.
Qed.
Lemma exv_utf16_of bs us : bs = exv_units us -> utf16 bs us.
Proof. intros ->. apply exv_utf16. Qed.

(** The content of the MFT, and the length of the image. *)
Definition exv_mft (nm : list Z) : list Z :=
  exv_rec0 ++ zrepeat 0 2048 ++ exv_rec3 ++ zrepeat 0 1024 ++ exv_rec5 nm ++ zrepeat 0 4096 ++ exv_rec10 ++ exv_rec11 ++ exv_rec12 nm ++ exv_rec13.
Record exv_mft_at (nm : list Z) : Prop := {
  ea_mft : concat (map (extent_bytes (v_cluster (exv_volume nm)) (exv_img nm)) (v_mft (exv_volume nm))) = exv_mft nm;
  ea_len : zlen (exv_img nm) = 147456;
  ea_boot : ztake 512 (exv_img nm) = exv_boot;
  ea_rec0 : slice (exv_img nm) 1024 (1024 + 1024) = exv_rec0;
  ea_in : file_content 512 (exv_img nm) [mkExtent (Some 287) 1; mkExtent (Some 286) 1] 700 = exv_content;
  ea_upper : file_content 512 (exv_img nm) [mkExtent (Some 30) 256] 131072 = exv_units ex_dir_table
}.
Lemma exv_numbered nm n prot p data : let v := exv_volume nm in exv_mft_at nm -> 0 <= n <= 13 -> slice (exv_mft nm) (n * 1024) (n * 1024 + 1024) = prot ->
  bytes_ok prot -> zlen prot = 1024 -> field 2 prot 4 = 48 -> field 2 prot 6 = 3 -> file_of_bytes prot p n = Ok (mkFile (mkRecord data p) n) -> numbered_record (exv_img nm) v n data.
Proof.
  intros v [Em _ _ _ _ _] Hn E Hb Hl H4 H6 Hf. unfold numbered_record. fold v in Em. rewrite Em. change (v_record v) with 1024. rewrite E. destruct (ex_stored _ _ _ _ Hb Hl H4 H6 Hf) as (Hs & Hk). cbn [v v_record v_cluster v_mft].
  split; [unfold U64_MAX; lia|]. split; [unfold U64_MAX; cbn; lia|].
  split. { exists [], (mkExtent (Some 2) 28), []. split; [reflexivity|]. split; [discriminate|]. unfold exv_volume. cbn. lia. }
  split; [rewrite H4, H6; exact ex_array_clear|]. auto.
Qed.
Definition exv_data (prot : list Z) (n : Z) : list Z := match file_of_bytes prot None n with Ok f => f_data f | _ => [] end.
Ltac rec_at P := apply (exv_numbered _ _ P None); [assumption|lia|vm_compute; reflexivity|apply bytes_okb_ok; vm_compute; reflexivity|vm_compute; reflexivity|vm_compute; reflexivity|
  vm_compute; reflexivity|vm_compute; reflexivity].
Ltac known := repeat (apply Forall_cons; [vm_compute; auto 20|]); apply Forall_nil.
Ltac not_list := repeat (apply Forall_cons; [vm_compute; discriminate|]); apply Forall_nil.
Ltac link_at := split; [vm_compute; reflexivity|]; split; [vm_compute; discriminate|]; eexists; split; [split; [vm_compute; discriminate|reflexivity]|];
  split; [vm_compute; discriminate|]; split; [vm_compute; discriminate|]; split; [vm_compute; discriminate|]; split; [vm_compute; reflexivity|]; split; [vm_compute; reflexivity|];
  apply exv_utf16_of; vm_compute; reflexivity.
Ltac other := apply ot_other; [vm_compute; discriminate|].
Ltac small_dir o1 :=
  split; [vm_compute; reflexivity| |split; [|split; [|split]]; vm_compute; (discriminate || reflexivity)|vm_compute; reflexivity|vm_compute; discriminate];
  exists o1; split; [exists [56], []; split; [reflexivity|]; split; [apply Forall_cons; [split; [vm_compute; tauto|left; vm_compute; discriminate]|apply Forall_nil]|];
     split; [vm_compute; reflexivity|]; split; [discriminate|]; intros n E; assert (n = I30) by congruence; subst n; exists ex_i30; split; [name_at|apply ex_i30_units]|
     split; [vm_compute; reflexivity|]; split; [vm_compute; discriminate|]; split; vm_compute; [discriminate|reflexivity]].
Ltac small_entry := match goal with |- listing ?c ?d ?s ?o (?e :: ?l) =>
    change (e :: l) with ([] ++ e :: l); replace e with (entry_bytes d o) by (vm_compute; reflexivity); apply li_entry; try entry_is; [apply sl_none; vm_compute; reflexivity|]
  end.
Ltac small_last := apply li_last; try entry_is; apply sl_none; vm_compute; reflexivity.
Ltac entry_named := split; [split; [vm_compute; reflexivity|vm_compute; discriminate]|]; split; [vm_compute; discriminate|]; split; [vm_compute; discriminate|];
  split; [vm_compute; discriminate|]; apply exv_utf16_of; vm_compute; reflexivity.
Ltac entry_says := split; [entry_named|split; vm_compute; reflexivity].


(** Two entries in order. *)
Lemma sorted_two lt a b na nb : named a na -> named b nb -> ~ lt nb na -> names_sorted lt [a; b].
Proof.
  intros Ha Hb Hlt l1 x l2 y l3 nx ny E Hx Hy. destruct l1 as [|z l1]; cbn in E.
  - injection E as <- E. destruct l2 as [|z l2]; cbn in E; injection E as <- E.
    + now rewrite (named_units _ _ Hx), <- (named_units _ _ Ha), (named_units _ _ Hy), <- (named_units _ _ Hb).
    + apply (f_equal (@length _)) in E. rewrite app_length in E. cbn in E. lia.
  - apply (f_equal (@length _)) in E. cbn in E. rewrite app_length in E. cbn in E. rewrite app_length in E. cbn in E. lia.
Qed.
Lemma sorted_one lt a : names_sorted lt [a].
Proof. intros l1 x l2 y l3 nx ny E. apply (f_equal (@length _)) in E. rewrite app_length in E. cbn in E. rewrite app_length in E. cbn in E. lia. Qed.

Ltac describes_root nm :=
  exists [56; 152]; split; [apply walkb_ok; vm_compute; reflexivity|]; split; [not_list|]; split; [known|];
  split; [apply ot_one; [vm_compute; reflexivity|link_at|]; other; constructor|]; split; [other; other; constructor|];
  cbn [ob_entries]; exists (exv_index (exv_root_entries nm)), [], (exv_root_entries nm); split; [small_dir 152|];
  split; [unfold index_listing, exv_root_entries; small_entry; small_entry; small_last|];
  split; [unfold exv_root_entries; repeat (apply Forall2_cons; [entry_says|]); constructor|];
  unfold exv_root_entries; apply (sorted_two _ _ _ exv_doc nm); [entry_named|entry_named|];
  match goal with |- ~ lex_lt ?a ?b => let a' := eval vm_compute in a in let b' := eval vm_compute in b in
    replace a with a' by (vm_compute; reflexivity); replace b with b' by (vm_compute; reflexivity) end;
  let H := fresh in intros H; apply lex_head_lt in H; lia.
Ltac describes_sub :=
  exists [56; 152]; split; [apply walkb_ok; vm_compute; reflexivity|]; split; [not_list|]; split; [known|];
  split; [apply ot_one; [vm_compute; reflexivity|link_at|]; other; constructor|]; split; [other; other; constructor|];
  cbn [ob_entries]; exists (exv_index exv_sub_entries), [], exv_sub_entries; split; [small_dir 152|];
  split; [unfold index_listing, exv_sub_entries; small_entry; small_last|];
  split; [unfold exv_sub_entries; repeat (apply Forall2_cons; [entry_says|]); constructor|]; apply sorted_one.
Lemma valid_len cs img img' l : zlen img = zlen img' -> valid_extents cs img' l -> valid_extents cs img l.
Proof.
  intros E [H1 H2 H3 H4 H5]. split; auto; [lia|]. eapply Forall_impl; [|exact H4]. intros [[lcn|] c] (Hc & Hl); split; auto. cbn in *. lia.
Qed.
Ltac exv_valid := match goal with Hm : exv_mft_at ?nm |- _ => apply (valid_len _ _ (zrepeat 0 147456)); [rewrite (ea_len _ Hm); vm_compute; reflexivity|];
  split; [vm_compute; discriminate|vm_compute; discriminate|repeat (apply Forall_cons; [vm_compute; intuition discriminate|]); apply Forall_nil|
    repeat (apply Forall_cons; [vm_compute; intuition discriminate|]); apply Forall_nil|vm_compute; intuition discriminate] end.
Ltac unnamed := exists []; split; [left; split; [right; vm_compute; reflexivity|reflexivity]|constructor].
(** Files 11 and 13. *)
Ltac describes_doc :=
  exists [56; 128; 224; 320; 348]; split; [apply walkb_ok; vm_compute; reflexivity|]; split; [not_list|]; split; [known|];
  split; [other; apply ot_one; [vm_compute; reflexivity|link_at|]; apply ot_one; [vm_compute; reflexivity|link_at|]; other; other; constructor|];
  split; [|vm_compute; reflexivity]; other; other; other;
  apply ot_one; [vm_compute; reflexivity|split; [unnamed|apply ac_resident; [vm_compute; reflexivity|vm_compute; discriminate|split; [vm_compute; discriminate|vm_compute; reflexivity]]]|];
  apply ot_one; [vm_compute; reflexivity| |constructor];
  split; [exists (exv_units [65; 98]); split; [name_at|apply exv_utf16]|
    apply ac_resident; [vm_compute; reflexivity|vm_compute; discriminate|split; [vm_compute; discriminate|vm_compute; reflexivity]]].
Ltac describes_in :=
  exists [56; 152]; split; [apply walkb_ok; vm_compute; reflexivity|]; split; [not_list|]; split; [known|];
  split; [apply ot_one; [vm_compute; reflexivity|link_at|]; other; constructor|];
  split; [|vm_compute; reflexivity]; other; apply ot_one; [vm_compute; reflexivity| |constructor];
  split; [unnamed|]; cbn [snd];
  match goal with |- attr_content ?cs ?img ?data ?o ?c =>
    replace c with (file_content cs img [mkExtent (Some 287) 1; mkExtent (Some 286) 1] (field 8 data (o + 48))) by
      (let q := constr:(field 8 data (o + 48)) in replace q with 700 by (vm_compute; reflexivity); match goal with Hm : exv_mft_at ?nm |- _ => change (v_cluster (exv_volume nm)) with 512; exact (ea_in _ Hm) end) end;
  apply ac_nonresident; [vm_compute; discriminate|vm_compute; discriminate|vm_compute; discriminate|exv_valid| |vm_compute; discriminate];
  match goal with |- encodes _ _ ?x => replace x with [33; 1; 31; 1; 17; 1; 255; 0] by (vm_compute; reflexivity) end;
  apply (enc_data 0 287 1 [1] [31; 1] [mkExtent (Some 286) 1] [17; 1; 255; 0]); [apply ubytes1, byte1; lia| |];
  [split; [repeat constructor; unfold is_byte; lia|]; change (zlen [31; 1]) with 2; change (256 ^ 2) with 65536; change (65536 / 2) with 32768; cbn [le_val]; repeat split; lia|];
  apply (enc_data 287 286 1 [1] [255] [] [0]); [apply ubytes1, byte1; lia| |constructor];
  split; [repeat constructor; unfold is_byte; lia|]; change (zlen [255]) with 1; change (256 ^ 1) with 256; change (256 / 2) with 128; cbn [le_val]; repeat split; lia.
Ltac upper_at :=
  exists (exv_data exv_rec10 10), [56], [], 56, [], (exv_units ex_dir_table);
  split; [rec_at exv_rec10|]; split; [apply walkb_ok; vm_compute; reflexivity|]; split; [not_list|]; split; [reflexivity|]; split; [apply Forall_nil|];
  split; [split; [vm_compute; reflexivity|]; exists [], []; split; [left; split; [right; vm_compute; reflexivity|reflexivity]|]; split; [constructor|reflexivity]|];
  split; [|split; [vm_compute; reflexivity|exact (exv_utf16 ex_dir_table)]];
  match goal with |- attr_content ?cs ?img ?data ?o ?c =>
    replace c with (file_content cs img [mkExtent (Some 30) 256] (field 8 data (o + 48))) by
      (let q := constr:(field 8 data (o + 48)) in replace q with 131072 by (vm_compute; reflexivity); match goal with Hm : exv_mft_at ?nm |- _ => change (v_cluster (exv_volume nm)) with 512; exact (ea_upper _ Hm) end) end;
  apply ac_nonresident; [vm_compute; discriminate|vm_compute; discriminate|vm_compute; discriminate|exv_valid| |vm_compute; discriminate];
  match goal with |- encodes _ _ ?x => replace x with [18; 0; 1; 30; 0; 0; 0; 0] by (vm_compute; reflexivity) end;
  apply (enc_data 0 30 256 [0; 1] [30] [] [0; 0; 0; 0]); [|apply sbytes1; lia|constructor];
  split; [repeat constructor; unfold is_byte; lia|]; split; [change (zlen [0; 1]) with 2; lia|reflexivity].
Ltac boot_at nm :=
  match goal with Hm : exv_mft_at nm |- _ => rewrite (ea_len _ Hm), (ea_boot _ Hm); idtac end;
  split; [vm_compute; discriminate|]; exists 512, 147456, 1024, 578437695752307201, (exv_data exv_rec0 0);
  split;
  [split; [vm_compute; reflexivity|split; [vm_compute; reflexivity|split; [exists 9; split; [lia|reflexivity]|lia]]|
     exists 1; split; [left; split; [vm_compute; split; discriminate|split; [exists 0; split; [lia|vm_compute; reflexivity]|vm_compute; reflexivity]]|vm_compute; repeat split; discriminate]|
     vm_compute; split; [reflexivity|discriminate]|vm_compute; repeat split; discriminate|right; split; [vm_compute; split; discriminate|vm_compute; reflexivity]|vm_compute; reflexivity]
  |change (v_record (exv_volume nm)) with 1024; split; rewrite ?(ea_rec0 _ ltac:(eassumption));
   [match goal with Hm : exv_mft_at nm |- _ => rewrite (ea_len _ Hm) end; vm_compute; split; discriminate
   |apply (ex_stored exv_rec0 None 0 (mkFile (mkRecord (exv_data exv_rec0 0) None) 0)); [apply bytes_okb_ok; vm_compute; reflexivity|vm_compute; reflexivity ..]
   |rewrite (eq_refl : field 2 exv_rec0 4 = 48), (eq_refl : field 2 exv_rec0 6 - 1 = 2); exact ex_array_clear
   |exists [], 56, [], true; cbn [app]; split; [apply walkb_ok; vm_compute; reflexivity|]; split; [constructor|];
    split; [vm_compute; reflexivity|]; split; [vm_compute; discriminate|]; split; [vm_compute; discriminate|]; split; [vm_compute; reflexivity|];
    split; [vm_compute; discriminate|];
    match goal with |- encodes _ _ ?x => replace x with [17; 28; 2; 0; 0; 0; 0; 0] by (vm_compute; reflexivity) end;
    apply (enc_data 0 2 28 [28] [2] [] [0; 0; 0; 0; 0]); [apply ubytes1, byte1; lia|apply sbytes1; lia|constructor]]].
Ltac volume_at nm :=
  split; [apply bytes_okb_ok; vm_compute; reflexivity|once (boot_at nm)|unfold U16_MAX; cbn; lia|once exv_valid|once upper_at|];
  intros n o; cbn [v_object exv_volume]; unfold exv_object;
  destruct (n =? 5) eqn:E5; [intros [= <-]; apply Z.eqb_eq in E5; subst n; exists (exv_data (exv_rec5 nm) 5); split; [rec_at (exv_rec5 nm)|left; once (describes_root nm)]|];
  destruct (n =? 11) eqn:E11; [intros [= <-]; apply Z.eqb_eq in E11; subst n; exists (exv_data exv_rec11 11); split; [rec_at exv_rec11|left; once (describes_doc)]|];
  destruct (n =? 12) eqn:E12; [intros [= <-]; apply Z.eqb_eq in E12; subst n; exists (exv_data (exv_rec12 nm) 12); split; [rec_at (exv_rec12 nm)|left; once (describes_sub)]|];
  destruct (n =? 13) eqn:E13; [intros [= <-]; apply Z.eqb_eq in E13; subst n; exists (exv_data exv_rec13 13); split; [rec_at exv_rec13|left; once (describes_in)]|];
  discriminate.

(** "sub" and "s\b". *)
Definition exv_sub : list Z := [115; 117; 98].
Definition exv_bad : list Z := [115; 92; 98].
Ltac mft_at_nm := split; try (apply list_eqb_eq); vm_compute; reflexivity.
Lemma exv_mft_sub : exv_mft_at exv_sub. Proof. mft_at_nm. Qed.
Lemma exv_mft_bad : exv_mft_at exv_bad. Proof. mft_at_nm. Qed.
Lemma exv_stored : stored_volume (exv_img exv_sub) (exv_volume exv_sub).
Proof. pose proof exv_mft_sub as Hm. volume_at exv_sub. Qed.
Lemma exv_stored_bad : stored_volume (exv_img exv_bad) (exv_volume exv_bad).
Proof. pose proof exv_mft_bad as Hm. volume_at exv_bad. Qed.
Lemma exv_closed nm : closed (exv_volume nm).
Proof.
  split; [do 2 eexists; split; reflexivity|]. intros n o l e. cbn [v_object exv_volume]. unfold exv_object.
  destruct (n =? 5); [intros [= <-] [= <-] [<-|[<-|[]]]; eexists; (split; [reflexivity|discriminate])|].
  destruct (n =? 11); [intros [= <-]; discriminate|]. destruct (n =? 12); [intros [= <-] [= <-] [<-|[]]; eexists; (split; [reflexivity|discriminate])|].
  destruct (n =? 13); [intros [= <-]; discriminate|discriminate].
Qed.
Lemma exv_plain : plain_names (exv_volume exv_sub).
Proof.
  intros n o x. cbn [v_object exv_volume]. unfold exv_object.
  assert (P : forall l : list Z, l <> [] -> forallb (fun c => negb (c =? 92)) l = true -> l <> [] /\ ~ In 92 l).
  { intros l Hl H. split; auto. intros Hin. apply (proj1 (forallb_forall _ _) H) in Hin. discriminate. }
  destruct (n =? 5); [intros [= <-] [<-|[]]; apply P; [discriminate|reflexivity]|].
  destruct (n =? 11); [intros [= <-] [<-|[<-|[]]]; (apply P; [discriminate|reflexivity])|].
  destruct (n =? 12); [intros [= <-] [<-|[]]; apply P; [discriminate|reflexivity]|].
  destruct (n =? 13); [intros [= <-] [<-|[]]; apply P; [discriminate|reflexivity]|discriminate].
Qed.
Definition exv_dev (nm : list Z) : dev := mkDev (exv_img nm) 77 [RShort 5; RShort 100; RShort 1000] [None].

(** What is printed about attributes. *)
Lemma exv_record_is nm n prot p data data' : let v := exv_volume nm in exv_mft_at nm -> slice (exv_mft nm) (n * 1024) (n * 1024 + 1024) = prot ->
  bytes_ok prot -> zlen prot = 1024 -> field 2 prot 4 = 48 -> field 2 prot 6 = 3 -> file_of_bytes prot p n = Ok (mkFile (mkRecord data p) n) ->
  numbered_record (exv_img nm) v n data' -> data' = data.
Proof.
  intros v [Em _ _ _ _ _] E Hb Hl H4 H6 Hf (_ & _ & _ & _ & Hs & _). fold v in Em. rewrite Em in Hs. change (v_record v) with 1024 in Hs. rewrite E in Hs.
  destruct (ex_stored _ _ _ _ Hb Hl H4 H6 Hf) as (Hs' & _). exact (stored_unique _ _ _ Hb Hs Hs').
Qed.
Ltac rec_is P := match goal with Hr : numbered_record _ _ ?n ?data |- _ =>
  apply (exv_record_is _ _ P None (exv_data P n)) in Hr; [subst data|assumption|vm_compute; reflexivity|apply bytes_okb_ok; vm_compute; reflexivity|vm_compute; reflexivity|vm_compute; reflexivity|
  vm_compute; reflexivity|vm_compute; reflexivity] end.
Ltac walk_is l := match goal with Hw : attr_walk ?data ?o ?offs true |- _ =>
  assert (offs = l) by (refine (proj1 (walk_fun _ _ _ _ Hw _ true _)); apply walkb_ok; vm_compute; reflexivity); subst offs end.
(** Resident and unnamed, resident and named. *)
Ltac whole_resident := split; [vm_compute; auto 20|eexists; left; split; [right; vm_compute; reflexivity|reflexivity]|
  intros _; split; [vm_compute; discriminate|eexists; split; [vm_compute; discriminate|reflexivity]]|let H := fresh in intros H; exfalso; apply H; vm_compute; reflexivity].
Ltac whole_named := split; [vm_compute; auto 20|eexists; name_at|
  intros _; split; [vm_compute; discriminate|eexists; split; [vm_compute; discriminate|reflexivity]]|let H := fresh in intros H; exfalso; apply H; vm_compute; reflexivity].
Lemma exv_encodes_in : encodes 0 [mkExtent (Some 287) 1; mkExtent (Some 286) 1] [33; 1; 31; 1; 17; 1; 255; 0].
Proof.
  apply (enc_data 0 287 1 [1] [31; 1] [mkExtent (Some 286) 1] [17; 1; 255; 0]); [apply ubytes1, byte1; lia| |];
  [split; [repeat constructor; unfold is_byte; lia|]; change (zlen [31; 1]) with 2; change (256 ^ 2) with 65536; change (65536 / 2) with 32768; cbn [le_val]; repeat split; lia|];
  apply (enc_data 287 286 1 [1] [255] [] [0]); [apply ubytes1, byte1; lia| |constructor];
  split; [repeat constructor; unfold is_byte; lia|]; change (zlen [255]) with 1; change (256 ^ 1) with 256; change (256 / 2) with 128; cbn [le_val]; repeat split; lia.
Qed.
(** None of its files has an attribute list. *)
Lemma exv_no_list n o q data nt before lo after bs offs e vs : v_object (exv_volume exv_sub) n = Some o -> placed_record (exv_img exv_sub) (exv_volume exv_sub) n q data ->
  has_list (exv_img exv_sub) (exv_volume exv_sub) n q data nt before lo after bs offs e vs -> False.
Proof.
  pose proof exv_mft_sub as Hm. intros Ho (Hr & _) [_ _ Hff]. pose proof (SpecAttrList.ff_walk _ _ _ _ _ _ _ _ _ _ _ _ Hff) as Hw. pose proof (SpecAttrList.ff_type _ _ _ _ _ _ _ _ _ _ _ _ Hff) as Ht. clear Hff.
  unfold f_data in Hw, Ht; cbn [f_rec rec_data] in Hw, Ht. assert (Hin : In lo (before ++ lo :: after)) by apply in_elt. set (l := before ++ lo :: after) in *. clearbody l. clear before after.
  revert Ho. cbn [v_object exv_volume]. unfold exv_object.
  destruct (n =? 5) eqn:E5; [intros _; apply Z.eqb_eq in E5; subst n; rec_is (exv_rec5 exv_sub); walk_is [56; 152]; repeat (destruct Hin as [<-|Hin]; [vm_compute in Ht; discriminate Ht|]); destruct Hin|].
  destruct (n =? 11) eqn:E11; [intros _; apply Z.eqb_eq in E11; subst n; rec_is exv_rec11; walk_is [56; 128; 224; 320; 348]; repeat (destruct Hin as [<-|Hin]; [vm_compute in Ht; discriminate Ht|]); destruct Hin|].
  destruct (n =? 12) eqn:E12; [intros _; apply Z.eqb_eq in E12; subst n; rec_is (exv_rec12 exv_sub); walk_is [56; 152]; repeat (destruct Hin as [<-|Hin]; [vm_compute in Ht; discriminate Ht|]); destruct Hin|].
  destruct (n =? 13) eqn:E13; [|discriminate]. intros _; apply Z.eqb_eq in E13; subst n; rec_is exv_rec13; walk_is [56; 152]; repeat (destruct Hin as [<-|Hin]; [vm_compute in Ht; discriminate Ht|]); destruct Hin.
Qed.
Lemma exv_whole : whole_attributes (exv_img exv_sub) (exv_volume exv_sub).
Proof.
  pose proof exv_mft_sub as Hm. split; [|intros n o q data nt before lo after bs offs e vs H1 H2 H3; exfalso; exact (exv_no_list _ _ _ _ _ _ _ _ _ _ _ _ H1 H2 H3)]. intros n o data offs. cbn [v_object exv_volume]. unfold exv_object.
  destruct (n =? 5) eqn:E5; [intros _ Hr Hw; apply Z.eqb_eq in E5; subst n; rec_is (exv_rec5 exv_sub); walk_is [56; 152];
    repeat (apply Forall_cons; [first [whole_resident|whole_named]|]); apply Forall_nil|].
  destruct (n =? 11) eqn:E11; [intros _ Hr Hw; apply Z.eqb_eq in E11; subst n; rec_is exv_rec11; walk_is [56; 128; 224; 320; 348];
    repeat (apply Forall_cons; [first [whole_resident|whole_named]|]); apply Forall_nil|].
  destruct (n =? 12) eqn:E12; [intros _ Hr Hw; apply Z.eqb_eq in E12; subst n; rec_is (exv_rec12 exv_sub); walk_is [56; 152];
    repeat (apply Forall_cons; [first [whole_resident|whole_named]|]); apply Forall_nil|].
  destruct (n =? 13) eqn:E13; [|discriminate]. intros _ Hr Hw; apply Z.eqb_eq in E13; subst n; rec_is exv_rec13; walk_is [56; 152].
  apply Forall_cons; [whole_resident|]. apply Forall_cons; [|apply Forall_nil].
  split; [vm_compute; auto 20|eexists; left; split; [right; vm_compute; reflexivity|reflexivity]|vm_compute; discriminate|].
  intros _. split; [vm_compute; discriminate|]. split; [vm_compute; discriminate|]. exists [mkExtent (Some 287) 1; mkExtent (Some 286) 1].
  split; [match goal with |- encodes _ _ ?x => replace x with [33; 1; 31; 1; 17; 1; 255; 0] by (vm_compute; reflexivity) end; exact exv_encodes_in|].
  split; [repeat constructor; cbn; lia|]. repeat (apply Forall_cons; [vm_compute; intuition discriminate|]); apply Forall_nil.
Qed.
Lemma exv_standard : whole_standard_information (exv_img exv_sub) (exv_volume exv_sub).
Proof.
  pose proof exv_mft_sub as Hm. split; [|intros n o q data nt before lo after bs offs e vs w H1 H2 H3; exfalso; exact (exv_no_list _ _ _ _ _ _ _ _ _ _ _ _ H1 H2 H3)]. intros n o data offs x. cbn [v_object exv_volume]. unfold exv_object.
  destruct (n =? 5) eqn:E5; [intros _ Hr Hw Hx; apply Z.eqb_eq in E5; subst n; rec_is (exv_rec5 exv_sub); walk_is [56; 152];
    repeat (destruct Hx as [<-|Hx]; [vm_compute; discriminate|]); destruct Hx|].
  destruct (n =? 11) eqn:E11.
  { intros _ Hr Hw Hx; apply Z.eqb_eq in E11; subst n; rec_is exv_rec11; walk_is [56; 128; 224; 320; 348].
    destruct Hx as [<-|Hx]; [intros _|repeat (destruct Hx as [<-|Hx]; [vm_compute; discriminate|]); destruct Hx].
    split; [vm_compute; reflexivity|]. split; [vm_compute; discriminate|]. eexists. split; [split; [vm_compute; discriminate|reflexivity]|vm_compute; discriminate]. }
  destruct (n =? 12) eqn:E12; [intros _ Hr Hw Hx; apply Z.eqb_eq in E12; subst n; rec_is (exv_rec12 exv_sub); walk_is [56; 152];
    repeat (destruct Hx as [<-|Hx]; [vm_compute; discriminate|]); destruct Hx|].
  destruct (n =? 13) eqn:E13; [|discriminate]. intros _ Hr Hw Hx; apply Z.eqb_eq in E13; subst n; rec_is exv_rec13; walk_is [56; 152].
  repeat (destruct Hx as [<-|Hx]; [vm_compute; discriminate|]); destruct Hx.
Qed.
Lemma exv_volume_record : exists data, numbered_record (exv_img exv_sub) (exv_volume exv_sub) 3 data /\ volume_record data 3 1 (Some [86; 111; 108]).
Proof.
  pose proof exv_mft_sub as Hm. exists (exv_data exv_rec3 3). split; [rec_at exv_rec3|].
  split. exists [56; 86]. split; [apply walkb_ok; vm_compute; reflexivity|]. split; [repeat constructor; vm_compute; discriminate|]. split; [known|]. split.
  - exists [56], 86, [], (zrepeat 0 8 ++ [3; 1; 0; 0]). split; [reflexivity|]. split; [constructor; [vm_compute; discriminate|constructor]|]. split; [vm_compute; reflexivity|]. split; [vm_compute; reflexivity|].
    split; [split; [vm_compute; discriminate|vm_compute; reflexivity]|]. split; [vm_compute; discriminate|split; vm_compute; reflexivity].
  - apply (lb_some _ _ [] 56 [86] (exv_units [86; 111; 108])); [reflexivity|constructor|vm_compute; reflexivity|vm_compute; reflexivity|split; [vm_compute; discriminate|vm_compute; reflexivity]|vm_compute; discriminate|apply exv_utf16].
Qed.

(** Commands: dir, cd SUB, dir, get In, cd .., get doc:aB, get /0xD, cd Doc, get x, attr_runs /13, fileinfo Doc, fsinfo, an empty
    line, x. *)
Definition ex_commands : list command :=
  [DoDir; DoCd [83; 85; 66]; DoDir; DoGet [73; 110]; DoCd [46; 46]; DoGet [100; 111; 99; 58; 97; 66]; DoGet [47; 48; 120; 68]; DoCd exv_doc; DoGet [120];
   DoAttr true [47; 49; 51]; DoFileinfo exv_doc; DoFsinfo; DoNothing; DoUnknown [120]].
Lemma exv_units_ok l : forallb (fun c => (0 <=? c) && (c <=? 65535)) l = true -> Forall unit_ok l.
Proof. intros H. apply Forall_forall. intros c Hc. apply (proj1 (forallb_forall _ _) H) in Hc. unfold unit_ok. lia. Qed.
Lemma exv_get_ok arg : Forall unit_ok arg -> (forall text n, fst (split_colon arg) = 47 :: text -> parse_number text = Some n -> v_object (exv_volume exv_sub) n <> None) ->
  command_ok (exv_img exv_sub) (exv_volume exv_sub) (DoGet arg).
Proof.
  intros Hu H. split; auto. intros file stream Hs. split; [destruct Hs as (_ & [-> | [-> _]]); auto; now apply Forall_app in Hu|].
  intros text n -> Hn. apply (H text n); [|now apply parse_number_spec].
  destruct (split_colon arg) as [a b] eqn:Es. cbn [fst]. destruct (splits_fun _ _ _ _ _ (split_colon_spec arg _ _ Es) Hs) as (E & _). exact E.
Qed.
Lemma exv_names_files arg : Forall unit_ok arg -> (forall text n, arg = 47 :: text -> parse_number text = Some n -> v_object (exv_volume exv_sub) n <> None) ->
  names_files (exv_volume exv_sub) arg.
Proof. intros Hu H. split; auto. intros text n E Hn. apply (H text n E). now apply parse_number_spec. Qed.
Ltac arg_is l := match goal with E : ?a = 47 :: ?text |- _ => first [discriminate E|
  let E' := fresh in assert (E' : text = l) by (injection E; auto); subst text; vm_compute; let K := fresh in intros [= K]; subst; discriminate] end.
Lemma exv_commands_ok : Forall (command_ok (exv_img exv_sub) (exv_volume exv_sub)) ex_commands.
Proof.
  unfold ex_commands.
  repeat (apply Forall_cons; [first [exact Logic.I|now apply exv_units_ok|apply exv_get_ok; [now apply exv_units_ok|intros text n E; arg_is [48; 120; 68]]
    |split; [apply exv_names_files; [now apply exv_units_ok|intros text n E; arg_is [49; 51]]|first [exact exv_whole|exact exv_standard]]
    |destruct exv_volume_record as (data & H1 & H2); now exists data, 3, 1, (Some [86; 111; 108])]|]). apply Forall_nil.
Qed.
