(** * C29, C30 and C67 for directories whose attributes are spread over several file records. *)
From Verif Require Import Base Dev Types Record DataRuns Stream NonResident Resident Attribute File Structured AttrList Upcase Index
  Spec SpecMisc SpecValues SpecIndex SpecAttrList SpecListDir SpecFaults SpecHoled BaseProofs AttributeProofs IndexClaims HoledProofs ListDirProofs ListHoledProofs
  StreamExamples FileExamples ValueExamples IndexExamples AttrListExamples ListDirExamples PropsHoled ListHoledExamples.
From Coq Require Import Lia.

(** ** C67 *)
(** As [C67_device_errors_partial]. Here opening the index needs the device, and may fail with an error of the device. If it does not, then iterating at any
    later time ([d2]) gives [l] with some stretches replaced by one error of the device each, at most as many as calls to the device fail. *)
Theorem C67_listed_partial : forall img nt ml f before lo after clean bs offs e vs root alloc fuel d, file_with_list img nt ml f before lo after clean bs offs e vs ->
  let views := map VBase before ++ vs ++ map VBase after in
  listed_directory img nt ml f bs e views root alloc -> (length offs + length views + 3 < fuel)%nat -> d_img d = img ->
  let child := index_child (cluster_size nt) root alloc in
  forall l, index_listing (cluster_size nt) root alloc l -> ~ reports d Interrupted ->
  exists d1 r, directory_index fuel nt f d = (d1, r) /\
  ((exists k, reports d k /\ r = Err (EIo k)) \/
   exists ix, r = Ok ix /\ forall d2, d_img d2 = img -> ~ reports d2 Interrupted ->
   exists es N, (errors es <= faults d2)%nat /\ gapped l (map seen es) /\
     holed child (device_lost d2) (root_entries root) (zlen (root_entries root)) 0 (map seen es) /\
     forall k n, (N <= k)%nat -> iterate (with_dev (entries_next k nt ix)) (length es + n) (index_entries ix, d2) = map Some es ++ repeat None n).
Proof. exact listed_gaps. Qed.
Print Assumptions C67_listed_partial.
(** As [C67_damaged_partial]: some nodes are damaged, and the device may have faults. *)
Theorem C67_listed_damaged_partial : forall img nt ml f before lo after clean bs offs e vs root alloc fuel d, file_with_list img nt ml f before lo after clean bs offs e vs ->
  let views := map VBase before ++ vs ++ map VBase after in
  listed_directory img nt ml f bs e views root alloc -> (length offs + length views + 3 < fuel)%nat -> d_img d = img ->
  let child := index_child (cluster_size nt) root alloc in
  (root_is_large root = true -> alloc <> []) -> arrays_clear (cluster_size nt) (root_record_size root) alloc ->
  forall l, sizes_small (cluster_size nt) (root_record_size root) alloc ->
  holed child (fun v _ => damaged child v) (root_entries root) (zlen (root_entries root)) 0 l -> ~ reports d Interrupted ->
  exists d1 r, directory_index fuel nt f d = (d1, r) /\
  ((exists k, reports d k /\ r = Err (EIo k)) \/
   exists ix, r = Ok ix /\ forall d2, d_img d2 = img -> ~ reports d2 Interrupted ->
   exists es N, holed child (fun v x => device_lost d2 v x \/ damaged child v) (root_entries root) (zlen (root_entries root)) 0 (map seen es) /\
     forall k n, (N <= k)%nat -> iterate (with_dev (entries_next k nt ix)) (length es + n) (index_entries ix, d2) = map Some es ++ repeat None n).
Proof. exact listed_damaged. Qed.
Print Assumptions C67_listed_damaged_partial.

(** The directory of C74_example: with a device that fails while the first node is being read, and with a torn first node. Either way there is one error
    instead of the first two entries. The fault on opening is in the last example. *)
Definition ex_lh_dev : dev := mkDev ex_ld_vol 0 [RShort 100; RErr OtherIo] [].
Definition ex_lt_dev : dev := mkDev ex_lt_vol 0 [RShort 100; RShort 3] [].
Lemma ex_lt_clear : arrays_clear 512 (root_record_size ex_dir_root) (ex_dir_alloc ex_torn_img).
Proof. exact (proj1 (proj2 (proj2 (proj2 (proj2 (proj2 C67_example)))))). Qed.
Example C67_listed_example : let views := map VBase [56] ++ ex_ld_views ++ map VBase [] in
  file_with_list ex_ld_vol ex_ld_ntfs ex_al_extents ex_ld_f1 [56] 88 [] true ex_ld_list [0; 32; 64; 96] ListDone ex_ld_views /\
  listed_directory ex_ld_vol ex_ld_ntfs ex_al_extents ex_ld_f1 ex_ld_list ListDone views ex_dir_root (ex_dir_alloc ex_dir_img) /\
  index_listing (cluster_size ex_ld_ntfs) ex_dir_root (ex_dir_alloc ex_dir_img) ex_dir_list /\
  d_img ex_ld_dev = ex_ld_vol /\ ~ reports ex_ld_dev Interrupted /\ d_img ex_lh_dev = ex_ld_vol /\ ~ reports ex_lh_dev Interrupted /\ faults ex_lh_dev = 1%nat /\
  (exists ix, snd (directory_index 20 ex_ld_ntfs ex_ld_f1 ex_ld_dev) = Ok ix /\
   map (option_map seen) (iterate (with_dev (entries_next 30 ex_ld_ntfs ix)) 4 (index_entries ix, ex_lh_dev)) =
     [Some (Err (EIo OtherIo)); Some (Ok (ex_entry 32 0 (ex_key 99) [])); None; None]) /\
  snd (directory_index 20 ex_ld_ntfs ex_ld_f1 ex_lh_dev) = Err (EIo OtherIo).
Proof.
  cbv zeta. split; [exact ex_ld_file|]. split; [exact ex_ld_directory|]. split; [exact ex_dir_listing|]. split; [reflexivity|].
  split; [intros [[E|[E|[]]]|[E|[]]]; discriminate E|]. split; [reflexivity|]. split; [intros [[E|[E|[]]]|[]]; discriminate E|]. split; [reflexivity|].
  split; [eexists; split; [vm_compute; reflexivity|vm_compute; reflexivity]|vm_compute; reflexivity].
Qed.
Example C67_listed_damaged_example : let views := map VBase [56] ++ ex_ld_views ++ map VBase [] in
  file_with_list ex_lt_vol ex_ld_ntfs ex_al_extents ex_ld_f1 [56] 88 [] true ex_ld_list [0; 32; 64; 96] ListDone ex_ld_views /\
  listed_directory ex_lt_vol ex_ld_ntfs ex_al_extents ex_ld_f1 ex_ld_list ListDone views ex_dir_root (ex_dir_alloc ex_torn_img) /\
  (root_is_large ex_dir_root = true -> ex_dir_alloc ex_torn_img <> []) /\ arrays_clear 512 (root_record_size ex_dir_root) (ex_dir_alloc ex_torn_img) /\
  sizes_small 512 (root_record_size ex_dir_root) (ex_dir_alloc ex_torn_img) /\
  (let child := index_child 512 ex_dir_root (ex_dir_alloc ex_torn_img) in damaged child 0 /\
   holed child (fun v _ => damaged child v) (root_entries ex_dir_root) (zlen (root_entries ex_dir_root)) 0 [Err (EIo OtherIo); Ok (ex_entry 32 0 (ex_key 99) [])]) /\
  d_img ex_lt_dev = ex_lt_vol /\ ~ reports ex_lt_dev Interrupted /\
  exists ix x, snd (directory_index 20 ex_ld_ntfs ex_ld_f1 ex_lt_dev) = Ok ix /\
    map (option_map seen) (iterate (with_dev (entries_next 30 ex_ld_ntfs ix)) 4 (index_entries ix, ex_lt_dev)) =
      [Some (Err x); Some (Ok (ex_entry 32 0 (ex_key 99) [])); None; None].
Proof.
  cbv zeta. split; [exact ex_lt_file|]. split; [exact ex_lt_directory|].
  split; [intros _ E; assert (K : zlen (ex_dir_alloc ex_torn_img) = 2048) by (vm_compute; reflexivity); rewrite E in K; discriminate K|].
  destruct C67_example as (_ & _ & _ & _ & _ & H1 & H2 & H3 & _).
  split; [exact H1|]. split; [exact H2|]. split; [split; [exact ex_torn_damaged|exact H3]|]. split; [reflexivity|]. split; [intros [[E|[E|[]]]|[]]; discriminate E|].
  do 2 eexists. split; [vm_compute; reflexivity|vm_compute; reflexivity].
Qed.

(** ** C29 and C30 *)
(** As [C29_acyclic_partial]. *)
Theorem C29_listed_partial : forall img nt ml f before lo after clean bs offs e vs root alloc fuel d, file_with_list img nt ml f before lo after clean bs offs e vs ->
  let views := map VBase before ++ vs ++ map VBase after in
  listed_directory img nt ml f bs e views root alloc -> (length offs + length views + 3 < fuel)%nat -> d_img d = img ->
  let child := index_child (cluster_size nt) root alloc in
  (root_is_large root = true -> alloc <> []) -> arrays_clear (cluster_size nt) (root_record_size root) alloc -> acyclic child -> faultless d ->
  exists d1 ix, directory_index fuel nt f d = (d1, Ok ix) /\ d_img d1 = img /\ faultless d1 /\ forall d2, faultless d2 -> d_img d2 = img ->
  (exists N, forall k n, (N <= k)%nat -> Forall (fun x => x <> Some OutOfFuel) (iterate (with_dev (entries_next k nt ix)) n (index_entries ix, d2))) /\
  forall X (kp : list Z -> position -> res X) cmp, (forall s p, kp s p <> OutOfFuel) -> (forall k, cmp k <> OutOfFuel) ->
    exists N, forall k, (N <= k)%nat -> snd (index_find kp cmp k nt ix d2) <> Some OutOfFuel.
Proof. exact listed_terminates. Qed.
Print Assumptions C29_listed_partial.
(** As [C30_iterate_partial]. *)
Theorem C30_listed_partial : forall img nt ml f before lo after clean bs offs e vs root alloc fuel d, file_with_list img nt ml f before lo after clean bs offs e vs ->
  let views := map VBase before ++ vs ++ map VBase after in
  listed_directory img nt ml f bs e views root alloc -> (length offs + length views + 3 < fuel)%nat -> d_img d = img ->
  let child := index_child (cluster_size nt) root alloc in
  (root_is_large root = true -> alloc <> []) -> arrays_clear (cluster_size nt) (root_record_size root) alloc -> acyclic child ->
  sizes_small (cluster_size nt) (root_record_size root) alloc -> no_short_entry child (root_entries root) -> faultless d ->
  exists d1 ix, directory_index fuel nt f d = (d1, Ok ix) /\ d_img d1 = img /\ faultless d1 /\ forall d2, faultless d2 -> d_img d2 = img ->
  (exists N, forall k n, (N <= k)%nat -> Forall (fun x => forall r, x = Some r -> returns r) (iterate (with_dev (entries_next k nt ix)) n (index_entries ix, d2))) /\
  forall X (kp : list Z -> position -> res X) cmp, (forall s p, returns (kp s p)) -> (forall k, returns (cmp k)) ->
    exists N, forall k r, (N <= k)%nat -> snd (index_find kp cmp k nt ix d2) = Some r -> returns r.
Proof. exact listed_no_panic. Qed.
Print Assumptions C30_listed_partial.
(** The directory of C74_example again. *)
Example C29_listed_example : let views := map VBase [56] ++ ex_ld_views ++ map VBase [] in
  file_with_list ex_ld_vol ex_ld_ntfs ex_al_extents ex_ld_f1 [56] 88 [] true ex_ld_list [0; 32; 64; 96] ListDone ex_ld_views /\
  listed_directory ex_ld_vol ex_ld_ntfs ex_al_extents ex_ld_f1 ex_ld_list ListDone views ex_dir_root (ex_dir_alloc ex_dir_img) /\
  (root_is_large ex_dir_root = true -> ex_dir_alloc ex_dir_img <> []) /\ arrays_clear 512 (root_record_size ex_dir_root) (ex_dir_alloc ex_dir_img) /\
  acyclic (index_child 512 ex_dir_root (ex_dir_alloc ex_dir_img)) /\ sizes_small 512 (root_record_size ex_dir_root) (ex_dir_alloc ex_dir_img) /\
  no_short_entry (index_child 512 ex_dir_root (ex_dir_alloc ex_dir_img)) (root_entries ex_dir_root) /\ faultless ex_ld_dev /\ d_img ex_ld_dev = ex_ld_vol.
Proof.
  cbv zeta. split; [exact ex_ld_file|]. split; [exact ex_ld_directory|].
  split; [intros _ E; assert (K : zlen (ex_dir_alloc ex_dir_img) = 2048) by (vm_compute; reflexivity); rewrite E in K; discriminate K|].
  split; [exact ex_dir_clear|]. split; [exact ex_dir_acyclic|]. split; [exact ex_dir_sizes|]. split; [exact ex_dir_long|]. split; [split; repeat constructor|reflexivity].
Qed.
