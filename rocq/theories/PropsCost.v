(** * C78: how often the reader is positioned. *)
From Coq Require Import Lia.
From Verif Require Import Base Dev Types Record DataRuns Stream NonResident Resident BootSector Attribute File AttrList Upcase Index Volume Spec SpecIndex SpecCost BaseProofs CostProofs AttrCostProofs LookupCostProofs StreamExamples FileExamples IndexExamples.

(** C78. Opening a volume takes one access, opening a file two (the record of the MFT and its own), wherever the file is, however fragmented the MFT, whatever the device does. *)
Theorem C78_opening : forall d nt n e le,
  seeks_within 1 d (fst (ntfs_new d)) /\ seeks_within 2 d (fst (ntfs_file nt n d)) /\ seeks_within 2 d (fst (ntfs_root_directory nt d)) /\
  seeks_within 2 d (fst (ie_to_file nt e d)) /\ seeks_within 2 d (fst (le_to_file nt le d)) /\
  seeks_within 2 d (fst (volume_info nt d)) /\ seeks_within 2 d (fst (volume_name nt d)).
Proof. intros. exact (conj (cost_new d) (conj (cost_file nt n d) (conj (cost_file nt 5 d) (conj (cost_ie_to_file nt e d) (conj (cost_file nt (le_number le) d) (conj (cost_volume_info nt d) (cost_volume_name nt d))))))). Qed.
Print Assumptions C78_opening.

(** Seeking in the value of an attribute, and reading a resident one, does not touch the device. *)
Theorem C78_seeking : forall v r pos n d, fst (sv_seek v pos d) = d /\ fst (sv_read (SVRes r) n d) = d.
Proof.
  intros. split; [apply still_sv_seek|]. pose proof (still_res_read r n d) as H. cbn [sv_read]. destruct (res_read r n d) as [d1 [r1 x]]. exact H.
Qed.
Print Assumptions C78_seeking.

(** A read of [n] bytes of a non-resident value takes at most one access for each extent that has some of the [n] bytes behind the position (none for holes and for the extents before and behind), and one more for each read of the device that may come short or fail. *)
Theorem C78_reading : forall cs img l enc p size ops d d1 v v1 n,
  valid_extents cs img l -> encodes 0 l enc -> 0 <= size <= U64_MAX -> d_img d = img -> Forall op_ok ops ->
  nr_new cs enc p size = Ok v -> reader_exec nr_read nr_seek v d ops = (d1, v1) ->
  let d2 := fst (nr_read v1 n d1) in
  let pos := nr_stream_position v1 in seeks_within (touched cs l pos (pos + n) + short_reads d1 d2) d1 d2.
Proof. exact cost_read. Qed.
Print Assumptions C78_reading.

(** The numbers are reached: file 2 of a volume takes two accesses, a value of two extents and a hole two, and one more with a short read. *)
Example C78_example : d_seeks (fst (ntfs_file ex_ntfs 2 (mkDev ex_vol 0 [] (repeat None 5)))) = repeat None 3 /\
  valid_extents 512 ex_img ex_extents /\ encodes 0 ex_extents ex_enc /\ touched 512 ex_extents 0 1400 = 2%nat /\ touched 512 ex_extents 600 1100 = 1%nat /\ touched 512 ex_extents 512 1024 = 0%nat /\
  match nr_new 512 ex_enc None 1400 with
  | Ok v => let d2 := fst (nr_read v 1400 (mkDev ex_img 0 [] (repeat None 5))) in
            let d3 := fst (nr_read v 1400 (mkDev ex_img 0 [RShort 7] (repeat None 5))) in
            d_seeks d2 = repeat None 3 /\ d_seeks d3 = repeat None 2 /\ short_reads (mkDev ex_img 0 [RShort 7] (repeat None 5)) d3 = 1%nat
  | _ => False
  end.
Proof.
  destruct ex_read as (H1 & H2 & _). split; [vm_compute; reflexivity|]. split; [exact H1|]. split; [exact H2|]. do 3 (split; [reflexivity|]). vm_compute. auto.
Qed.

(** Iterating over the attributes of a file without attribute list (any number of calls), searching one by type and name, and searching a data stream do not touch the device: all is in the record that was read when the file was opened. *)
Theorem C78_attributes : forall f nt offs clean, bytes_ok (f_data f) -> 24 <= zlen (f_data f) ->
  attr_walk (f_data f) (field 2 (f_data f) 20) offs clean -> no_attribute_list (f_data f) offs -> forall fuel d,
  (forall st, attrs_start f = Ok st -> forall n, snd (Nat.iter n (fun s => fst (with_dev (attrs_next fuel nt) s)) (st, d)) = d) /\
  (forall ty name, fst (find_attribute fuel nt f ty name d) = d) /\ forall stream, fst (file_data fuel nt f stream d) = d.
Proof. exact still_attributes. Qed.
Print Assumptions C78_attributes.

(** The directory of [IndexExamples] has two attributes, which are found. *)
Example C78_attributes_example : bytes_ok (f_data ex_dir) /\ 24 <= zlen (f_data ex_dir) /\
  attr_walk (f_data ex_dir) (field 2 (f_data ex_dir) 20) ex_dir_offs true /\ no_attribute_list (f_data ex_dir) ex_dir_offs /\
  (exists st, attrs_start ex_dir = Ok st /\ map (fun x => match x with Some (Ok i) => Some (ai_offset i) | _ => None end) (iterate (with_dev (attrs_next 5 ex_dir_ntfs)) 3 (st, ex_dir_dev)) = [Some 56; Some 240; None]) /\
  (exists i, find_attribute 5 ex_dir_ntfs ex_dir 160 (Some I30) ex_dir_dev = (ex_dir_dev, Ok i) /\ ai_offset i = 240).
Proof.
  destruct ex_dir_bytes as (_ & B2 & B3). repeat (split; [first [assumption|exact ex_dir_walk|exact ex_dir_no_list]|]). split.
  - eexists. split; [vm_compute; reflexivity|]. vm_compute. reflexivity.
  - eexists. split; [vm_compute; reflexivity|]. reflexivity.
Qed.

(** Looking up a name in a directory reads at most one index record on each level of the index, however many entries and records the directory has: [h] levels, each record in [c] extents, take
    at most [h * c] accesses, and one more for each read of the device that may come short. (The root of the index is in the file record.) *)
Theorem C78_lookup : forall nt img f offs clean root alloc c h fuel d, bytes_ok img -> bytes_ok (f_data f) -> 24 <= zlen (f_data f) ->
  attr_walk (f_data f) (field 2 (f_data f) 20) offs clean -> no_attribute_list (f_data f) offs -> 1 <= cluster_size nt ->
  is_directory (cluster_size nt) img (f_data f) offs root alloc -> arrays_clear (cluster_size nt) (root_record_size root) alloc ->
  record_pieces (cluster_size nt) (f_data f) offs root c -> levels (index_child (cluster_size nt) root alloc) (root_entries root) h ->
  (length offs < fuel)%nat -> faultless d -> d_img d = img ->
  exists ix, directory_index fuel nt f d = (d, Ok ix) /\
  (forall name n, let d' := fst (file_name_find n nt ix name d) in seeks_within (h * c + short_reads d d') d d') /\
  forall K (kp : list Z -> position -> res K) cmp n, let d' := fst (index_find kp cmp n nt ix d) in seeks_within (h * c + short_reads d d') d d'.
Proof. exact cost_lookup. Qed.
Print Assumptions C78_lookup.

(** The directory of [IndexExamples]: one level below the root, records of two clusters in one extent. The names in the records take one access, or two if the device returns 100 bytes first; the name in the root takes none. *)
Example C78_lookup_example : is_directory 512 ex_dir_img (f_data ex_dir) ex_dir_offs ex_dir_root (ex_dir_alloc ex_dir_img) /\
  bytes_ok ex_dir_img /\ bytes_ok (f_data ex_dir) /\ 24 <= zlen (f_data ex_dir) /\ attr_walk (f_data ex_dir) (field 2 (f_data ex_dir) 20) ex_dir_offs true /\
  no_attribute_list (f_data ex_dir) ex_dir_offs /\ arrays_clear 512 (root_record_size ex_dir_root) (ex_dir_alloc ex_dir_img) /\
  record_pieces 512 (f_data ex_dir) ex_dir_offs ex_dir_root 1 /\ levels (index_child 512 ex_dir_root (ex_dir_alloc ex_dir_img)) (root_entries ex_dir_root) 1 /\
  exists ix, snd (directory_index 10 ex_dir_ntfs ex_dir ex_dir_dev) = Ok ix /\
    let seeks name reads := d_seeks (fst (file_name_find 20 ex_dir_ntfs ix name (mkDev ex_dir_img 0 reads (repeat None 5)))) in
    seeks [65] [] = repeat None 4 /\ seeks [65] [RShort 100] = repeat None 3 /\ seeks [98] [] = repeat None 5 /\ seeks [122] [] = repeat None 4.
Proof.
  destruct ex_dir_bytes as (B1 & B2 & B3). repeat (split; [first [assumption|exact ex_dir_is_directory|exact ex_dir_walk|exact ex_dir_no_list|exact ex_dir_clear|exact ex_dir_pieces|exact ex_dir_levels]|]).
  destruct (snd (directory_index 10 ex_dir_ntfs ex_dir ex_dir_dev)) as [ix|y| |] eqn:E; [|vm_compute in E; discriminate..].
  exists ix. split; [reflexivity|]. vm_compute in E. injection E as <-. vm_compute. auto.
Qed.

(** Listing a directory reads each index record once for each reference to it (in a tree: once), however often the iterator is called and also if records turn out to be damaged: where [k] records
    of [c] extents each are reached from the root, all the calls of the iterator together take at most [k * c] accesses, and one more for each read of the device that may come short. *)
Theorem C78_listing : forall nt img f offs clean root alloc c k fuel d, bytes_ok img -> bytes_ok (f_data f) -> 24 <= zlen (f_data f) ->
  attr_walk (f_data f) (field 2 (f_data f) 20) offs clean -> no_attribute_list (f_data f) offs -> 1 <= cluster_size nt ->
  is_directory (cluster_size nt) img (f_data f) offs root alloc -> arrays_clear (cluster_size nt) (root_record_size root) alloc ->
  record_pieces (cluster_size nt) (f_data f) offs root c -> records_within (index_child (cluster_size nt) root alloc) (root_entries root) k ->
  (length offs < fuel)%nat -> faultless d -> d_img d = img ->
  exists ix, directory_index fuel nt f d = (d, Ok ix) /\
  forall j n, let d' := snd (Nat.iter n (fun s => fst (with_dev (entries_next j nt ix) s)) (index_entries ix, d)) in seeks_within (k * c + short_reads d d') d d'.
Proof. exact cost_listing. Qed.
Print Assumptions C78_listing.

(** The same directory: two records, and ten calls (three entries, then nothing) take two accesses. *)
Example C78_listing_example : record_pieces 512 (f_data ex_dir) ex_dir_offs ex_dir_root 1 /\
  records_within (index_child 512 ex_dir_root (ex_dir_alloc ex_dir_img)) (root_entries ex_dir_root) 2 /\
  exists ix, snd (directory_index 10 ex_dir_ntfs ex_dir ex_dir_dev) = Ok ix /\
    d_seeks (snd (Nat.iter 10 (fun s => fst (with_dev (entries_next 20 ex_dir_ntfs ix) s)) (index_entries ix, mkDev ex_dir_img 0 [] (repeat None 5)))) = repeat None 3.
Proof.
  split; [exact ex_dir_pieces|]. split; [exact ex_dir_records|].
  destruct (snd (directory_index 10 ex_dir_ntfs ex_dir ex_dir_dev)) as [ix|y| |] eqn:E; [|vm_compute in E; discriminate..].
  exists ix. split; [reflexivity|]. vm_compute in E. injection E as <-. vm_compute. reflexivity.
Qed.
