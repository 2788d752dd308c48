(** * C74: directories whose attributes are spread over several file records. *)
From Verif Require Import Base Dev Types Record DataRuns Stream NonResident Resident Attribute File Structured AttrList Upcase Index
  Spec SpecMisc SpecValues SpecIndex SpecAttrList SpecListDir BaseProofs AttributeProofs StructuredProofs AttrListProofs MiscProofs NameFindProofs
  IndexClaims FaultSessionProofs ListDirProofs StreamExamples FileExamples ValueExamples IndexExamples AttrListExamples ListDirExamples.

(** [f] is a directory with an attribute list ([listed_directory]) on a device without faults; its index (of any shape) lists the entries [l]: then opening
    the index succeeds, and iterating it, at any later time ([d2]), returns exactly [l], in order, and then [None] forever. *)
Theorem C74_listing : forall img nt ml f before lo after clean bs offs e vs root alloc l fuel d, file_with_list img nt ml f before lo after clean bs offs e vs ->
  let views := map VBase before ++ vs ++ map VBase after in
  listed_directory img nt ml f bs e views root alloc -> index_listing (cluster_size nt) root alloc l ->
  (length offs + length views + 3 < fuel)%nat -> faultless d -> d_img d = img ->
  exists d1 ix, directory_index fuel nt f d = (d1, Ok ix) /\ d_img d1 = img /\ faultless d1 /\
  forall d2, faultless d2 -> d_img d2 = img -> exists es N, map ie_slice es = l /\ forall k n, (N <= k)%nat ->
    iterate (with_dev (entries_next k nt ix)) (length es + n) (index_entries ix, d2) = map (fun e => Some (Ok e)) es ++ repeat None n.
Proof. exact listed_directory_listing. Qed.
Print Assumptions C74_listing.

(** A lookup whose answers are consistent with the order of the index returns an entry that compares equal, and [None] only if there is none. *)
Theorem C74_find : forall img nt ml f before lo after clean bs offs e vs root alloc l fuel d K (kp : list Z -> position -> res K) cmp c,
  file_with_list img nt ml f before lo after clean bs offs e vs ->
  let views := map VBase before ++ vs ++ map VBase after in
  listed_directory img nt ml f bs e views root alloc -> index_listing (cluster_size nt) root alloc l ->
  (length offs + length views + 3 < fuel)%nat -> faultless d -> d_img d = img ->
  Forall (fun e => has_key e /\ forall p, exists k, kp (key_of e) p = Ok k /\ cmp k = Ok (c e)) l -> consistent c l ->
  exists d1 ix, directory_index fuel nt f d = (d1, Ok ix) /\ d_img d1 = img /\ faultless d1 /\
  forall d2, faultless d2 -> d_img d2 = img ->
  exists N d' r, d_img d' = img /\ (forall n, (N <= n)%nat -> index_find kp cmp n nt ix d2 = (d', r)) /\
  match r with
  | Some (Ok e) => In (ie_slice e) l /\ c (ie_slice e) = Eq
  | None => Forall (fun e => c e <> Eq) l
  | _ => False
  end.
Proof. exact listed_directory_lookup. Qed.
Print Assumptions C74_find.

(** The index is sorted by name (compared unit by unit in upper case); the name is found regardless of case, or does not exist. *)
Theorem C74_file_names : forall img nt ml f before lo after clean bs offs e vs root alloc l fuel d t name,
  file_with_list img nt ml f before lo after clean bs offs e vs ->
  let views := map VBase before ++ vs ++ map VBase after in
  listed_directory img nt ml f bs e views root alloc -> index_listing (cluster_size nt) root alloc l ->
  (length offs + length views + 3 < fuel)%nat -> faultless d -> d_img d = img ->
  upcase_table nt = Some t -> zlen t = 65536 -> Forall unit_ok name ->
  Forall (fun e => exists us, named e us) l -> names_sorted (fun a b => lex_lt (upper t a) (upper t b)) l ->
  exists d1 ix, directory_index fuel nt f d = (d1, Ok ix) /\ d_img d1 = img /\ faultless d1 /\
  forall d2, faultless d2 -> d_img d2 = img ->
  exists N d' r, d_img d' = img /\ (forall n, (N <= n)%nat -> file_name_find n nt ix name d2 = (d', r)) /\
  match r with
  | Some (Ok e) => In (ie_slice e) l /\ exists us, named (ie_slice e) us /\ upper t us = upper t name
  | None => forall e us, In e l -> named e us -> upper t us <> upper t name
  | _ => False
  end.
Proof. exact listed_directory_names. Qed.
Print Assumptions C74_file_names.

(** It is different if the first part of $INDEX_ALLOCATION is in the directory's own record: what is opened is the part in the other record, as if it were the
    whole value. The index below is in order and lists the entries [l], but instead of the first of them, iteration returns an error. *)
Theorem C74_base_part_refuted : exists img nt ml f before lo after bs offs1 o offs2 vs root parts alloc ro ao l fuel d d1 ix,
  file_with_list img nt ml f before lo after true bs (offs1 ++ o :: offs2) ListDone vs /\
  Z.testbit (field 2 (f_data f) 22) 1 = true /\
  first_match (f_data f) (before ++ lo :: after) 144 I30 ro /\ attr_resident_at (f_data f) ro /\ attr_value_at (f_data f) ro root /\ index_root_ok root /\
  first_match (f_data f) (before ++ lo :: after) 160 I30 ao /\ entry_number bs o = f_number f /\
  connected img nt ml bs 160 (attr_instance_at (f_data f) ao) ListDone (o :: offs2) parts /\
  field 8 (f_data f) (ao + 48) <= extents_size (cluster_size nt) (concat parts) /\
  alloc = file_content (cluster_size nt) img (concat parts) (field 8 (f_data f) (ao + 48)) /\
  index_listing (cluster_size nt) root alloc l /\ l <> [] /\
  faultless d /\ d_img d = img /\ directory_index fuel nt f d = (d1, Ok ix) /\
  exists N x, forall k, (N <= k)%nat -> snd (snd (entries_next k nt ix (index_entries ix) d1)) = Some (Err x).
Proof.
  exists ex_lf_vol, (ex_al_ntfs ex_lf_vol), ex_al_extents, ex_lf_f1, [56], 88, [240; 424], ex_lf_list, [0; 32], 64, [96], ex_lf_views, ex_dir_root, ex_ld_parts,
    (ex_dir_alloc ex_dir_img), 240, 424, ex_dir_list, 20%nat, ex_lf_dev. do 2 eexists.
  split; [exact ex_lf_file|]. split; [vm_compute; reflexivity|]. split; [exact (proj1 ex_lf_root)|]. split; [vm_compute; reflexivity|].
  split; [split; vm_compute; [discriminate|reflexivity]|]. split; [apply ex_dir_is_directory|]. split; [exact (proj2 ex_lf_root)|]. split; [vm_compute; reflexivity|].
  split; [exact ex_lf_connected|]. split; [vm_compute; discriminate|]. split; [vm_compute; reflexivity|]. split; [exact ex_dir_listing|]. split; [discriminate|].
  split; [split; repeat constructor|]. split; [reflexivity|]. split; [vm_compute; reflexivity|]. exists 30%nat. eexists. intros k Hk. rewrite (entries_next_fuel 30 k Hk).
  - vm_compute. reflexivity.
  - vm_compute. discriminate.
Qed.
Print Assumptions C74_base_part_refuted.

(** A directory whose $INDEX_ROOT is in another record, and whose $INDEX_ALLOCATION is in two other records, with one index record in each half. The
    hypotheses about the names are those of C28_example. *)
Example C74_example : let views := map VBase [56] ++ ex_ld_views ++ map VBase [] in
  file_with_list ex_ld_vol ex_ld_ntfs ex_al_extents ex_ld_f1 [56] 88 [] true ex_ld_list [0; 32; 64; 96] ListDone ex_ld_views /\
  listed_directory ex_ld_vol ex_ld_ntfs ex_al_extents ex_ld_f1 ex_ld_list ListDone views ex_dir_root (ex_dir_alloc ex_dir_img) /\
  index_listing (cluster_size ex_ld_ntfs) ex_dir_root (ex_dir_alloc ex_dir_img) ex_dir_list /\ faultless ex_ld_dev /\ d_img ex_ld_dev = ex_ld_vol /\
  upcase_table ex_ld_ntfs = Some ex_dir_table /\ zlen ex_dir_table = 65536 /\
  exists d1 ix, directory_index 20 ex_ld_ntfs ex_ld_f1 ex_ld_dev = (d1, Ok ix) /\
    map (fun x => match x with Some (Ok e) => Some (ie_slice e) | _ => None end) (iterate (with_dev (entries_next 30 ex_ld_ntfs ix)) 4 (index_entries ix, d1)) =
      map Some ex_dir_list ++ [None] /\
    (exists e, snd (file_name_find 30 ex_ld_ntfs ix [65] d1) = Some (Ok e) /\ ie_slice e = ex_entry 30 0 (ex_key 97) []) /\
    (exists e, snd (file_name_find 30 ex_ld_ntfs ix [67] d1) = Some (Ok e) /\ ie_slice e = ex_entry 32 0 (ex_key 99) []) /\
    snd (file_name_find 30 ex_ld_ntfs ix [122] d1) = None.
Proof.
  cbv zeta. split; [exact ex_ld_file|]. split; [exact ex_ld_directory|]. split; [exact ex_dir_listing|]. split; [split; repeat constructor|]. split; [reflexivity|].
  split; [reflexivity|]. split; [vm_compute; reflexivity|].
  do 2 eexists. split; [vm_compute; reflexivity|]. split; [vm_compute; reflexivity|]. split; [eexists; split; vm_compute; reflexivity|].
  split; [eexists; split; vm_compute; reflexivity|vm_compute; reflexivity].
Qed.
