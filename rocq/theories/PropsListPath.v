(** * C73 for directories whose attributes are spread over several file records. *)
From Verif Require Import Base Dev Types Record DataRuns Stream NonResident Resident Attribute File Structured AttrList Upcase Index
  Spec SpecMisc SpecValues SpecIndex SpecAttrList SpecListDir SpecFaults SpecHoled SpecPath BaseProofs AttributeProofs IndexClaims HoledProofs ListDirProofs ListPathProofs
  StreamExamples FileExamples ValueExamples IndexExamples AttrListExamples ListDirExamples PropsIndex PropsHoled ListHoledExamples PropsListHoled PropsPath.
From Coq Require Import Lia.

(** As [C73_find]. Opening the index needs the device here, and may fail with an error of the device. If it does not, then the lookup may come at any later time
    ([d2]). *)
Theorem C73_listed_find : forall nt root before l c, bytes_ok root -> bytes_ok before -> index_listing (cluster_size nt) root before l -> consistent c l ->
  exists way, way_down (index_child (cluster_size nt) root before) (root_entries root) (zlen (root_entries root)) 0 way /\
  forall img ml f prior lo after clean bs offs e vs alloc fuel d K (kp : list Z -> position -> res K) cmp, file_with_list img nt ml f prior lo after clean bs offs e vs ->
  let views := map VBase prior ++ vs ++ map VBase after in
  listed_directory img nt ml f bs e views root alloc -> (length offs + length views + 3 < fuel)%nat -> d_img d = img -> ~ reports d Interrupted ->
  Forall (fun e => has_key e /\ forall p, exists k, kp (key_of e) p = Ok k /\ cmp k = Ok (c e)) l ->
  exists d1 r, directory_index fuel nt f d = (d1, r) /\
  ((exists k, reports d k /\ r = Err (EIo k)) \/
   exists ix, r = Ok ix /\ forall d2, d_img d2 = img -> ~ reports d2 Interrupted ->
   (same_on (cluster_size nt) root before alloc way ->
    exists N d' r, d_img d' = img /\ (forall n, (N <= n)%nat -> index_find kp cmp n nt ix d2 = (d', r)) /\
      answer_ok c l r (fun x => exists k, reports d2 k /\ x = EIo k)) /\
   ((root_is_large root = true -> alloc <> []) ->
    arrays_clear (cluster_size nt) (root_record_size root) alloc -> sizes_small (cluster_size nt) (root_record_size root) alloc ->
    same_or_damaged_on (cluster_size nt) root before alloc way ->
    exists N d' r, d_img d' = img /\ (forall n, (N <= n)%nat -> index_find kp cmp n nt ix d2 = (d', r)) /\
      answer_ok c l r (fun x => (exists k, reports d2 k /\ x = EIo k) \/ exists vcn, In vcn way /\ damaged (index_child (cluster_size nt) root alloc) vcn))).
Proof. exact listed_way. Qed.
Print Assumptions C73_listed_find.
(** [NtfsFileNameIndex::find]. *)
Theorem C73_listed_file_names : forall nt root before l t name, bytes_ok root -> bytes_ok before -> index_listing (cluster_size nt) root before l ->
  upcase_table nt = Some t -> zlen t = 65536 -> Forall unit_ok name ->
  Forall (fun e => exists us, named e us) l -> names_sorted (fun a b => lex_lt (upper t a) (upper t b)) l ->
  exists way, way_down (index_child (cluster_size nt) root before) (root_entries root) (zlen (root_entries root)) 0 way /\
  forall img ml f prior lo after clean bs offs e vs alloc fuel d, file_with_list img nt ml f prior lo after clean bs offs e vs ->
  let views := map VBase prior ++ vs ++ map VBase after in
  listed_directory img nt ml f bs e views root alloc -> (length offs + length views + 3 < fuel)%nat -> d_img d = img -> ~ reports d Interrupted ->
  exists d1 r, directory_index fuel nt f d = (d1, r) /\
  ((exists k, reports d k /\ r = Err (EIo k)) \/
   exists ix, r = Ok ix /\ forall d2, d_img d2 = img -> ~ reports d2 Interrupted ->
   (same_on (cluster_size nt) root before alloc way ->
    exists N d' r, d_img d' = img /\ (forall n, (N <= n)%nat -> file_name_find n nt ix name d2 = (d', r)) /\
      name_answer_ok t name l r (fun x => exists k, reports d2 k /\ x = EIo k)) /\
   ((root_is_large root = true -> alloc <> []) ->
    arrays_clear (cluster_size nt) (root_record_size root) alloc -> sizes_small (cluster_size nt) (root_record_size root) alloc ->
    same_or_damaged_on (cluster_size nt) root before alloc way ->
    exists N d' r, d_img d' = img /\ (forall n, (N <= n)%nat -> file_name_find n nt ix name d2 = (d', r)) /\
      name_answer_ok t name l r (fun x => (exists k, reports d2 k /\ x = EIo k) \/ exists vcn, In vcn way /\ damaged (index_child (cluster_size nt) root alloc) vcn))).
Proof. exact listed_name_way. Qed.
Print Assumptions C73_listed_file_names.

(** The directory of C67_listed_damaged_example, whose first node (with the entry "a") is torn. C28_example shows the hypotheses about the names, C73_example
    those about the ways. *)
Example C73_listed_example : let views := map VBase [56] ++ ex_ld_views ++ map VBase [] in
  file_with_list ex_lt_vol ex_ld_ntfs ex_al_extents ex_ld_f1 [56] 88 [] true ex_ld_list [0; 32; 64; 96] ListDone ex_ld_views /\
  listed_directory ex_lt_vol ex_ld_ntfs ex_al_extents ex_ld_f1 ex_ld_list ListDone views ex_dir_root (ex_dir_alloc ex_torn_img) /\
  index_listing (cluster_size ex_ld_ntfs) ex_dir_root (ex_dir_alloc ex_dir_img) ex_dir_list /\ upcase_table ex_ld_ntfs = Some ex_dir_table /\
  same_on (cluster_size ex_ld_ntfs) ex_dir_root (ex_dir_alloc ex_dir_img) (ex_dir_alloc ex_torn_img) [2] /\
  same_or_damaged_on (cluster_size ex_ld_ntfs) ex_dir_root (ex_dir_alloc ex_dir_img) (ex_dir_alloc ex_torn_img) [0; 2] /\
  d_img ex_lt_dev = ex_lt_vol /\ ~ reports ex_lt_dev Interrupted /\
  exists ix, snd (directory_index 20 ex_ld_ntfs ex_ld_f1 ex_lt_dev) = Ok ix /\
    (exists e, snd (file_name_find 30 ex_ld_ntfs ix [67] ex_lt_dev) = Some (Ok e) /\ ie_slice e = ex_entry 32 0 (ex_key 99) []) /\
    (exists e, snd (file_name_find 30 ex_ld_ntfs ix [98] ex_lt_dev) = Some (Ok e) /\ ie_slice e = ex_entry 31 1 (ex_key 66) (ex_vcn 0)) /\
    (exists x, snd (file_name_find 30 ex_ld_ntfs ix [65] ex_lt_dev) = Some (Err x)) /\ (exists x, snd (file_name_find 30 ex_ld_ntfs ix [48] ex_lt_dev) = Some (Err x)).
Proof.
  cbv zeta. split; [exact ex_lt_file|]. split; [exact ex_lt_directory|]. split; [exact ex_dir_listing|]. split; [reflexivity|].
  destruct C73_example as (_ & _ & H1 & H2 & _). split; [exact H1|]. split; [exact H2|]. split; [reflexivity|]. split; [intros [[E|[E|[]]]|[]]; discriminate E|].
  eexists. split; [vm_compute; reflexivity|].
  split; [eexists; split; [vm_compute; reflexivity|vm_compute; reflexivity]|]. split; [eexists; split; [vm_compute; reflexivity|vm_compute; reflexivity]|].
  split; eexists; vm_compute; reflexivity.
Qed.
