(** * Property C73: a lookup depends on the nodes on its way only. *)
From Verif Require Import Base Dev Types Record DataRuns Stream NonResident Resident Attribute File Structured AttrList Upcase Index
  Spec SpecMisc SpecValues SpecIndex SpecFaults SpecHoled SpecPath BaseProofs AttributeProofs NodeProofs RecordProofs IndexRecordProofs IndexProofs IndexClaims HoledProofs PathProofs
  FileExamples IndexExamples PropsIndex PropsHoled.
From Coq Require Import Lia.

(** An index has had the entries [l], with the allocation [before]. For each question [c] that is consistent with their order there is one way down the index,
    such that whatever has happened to the other nodes, the answer is still right: errors only come from the device. If nodes on the way have been damaged,
    the answer is right or an error, but never wrong (not "there is none", for instance). *)
Theorem C73_find : forall nt root before l c, bytes_ok root -> bytes_ok before -> index_listing (cluster_size nt) root before l -> consistent c l ->
  exists way, way_down (index_child (cluster_size nt) root before) (root_entries root) (zlen (root_entries root)) 0 way /\
  forall img f offs clean alloc fuel d K (kp : list Z -> position -> res K) cmp, bytes_ok img -> bytes_ok (f_data f) -> 24 <= zlen (f_data f) ->
  attr_walk (f_data f) (field 2 (f_data f) 20) offs clean -> no_attribute_list (f_data f) offs -> 1 <= cluster_size nt ->
  is_directory (cluster_size nt) img (f_data f) offs root alloc ->
  (length offs < fuel)%nat -> d_img d = img -> ~ reports d Interrupted ->
  Forall (fun e => has_key e /\ forall p, exists k, kp (key_of e) p = Ok k /\ cmp k = Ok (c e)) l ->
  (same_on (cluster_size nt) root before alloc way -> exists ix, directory_index fuel nt f d = (d, Ok ix) /\
    exists N d' r, d_img d' = img /\ (forall n, (N <= n)%nat -> index_find kp cmp n nt ix d = (d', r)) /\
      answer_ok c l r (fun x => exists k, reports d k /\ x = EIo k)) /\
  (arrays_clear (cluster_size nt) (root_record_size root) alloc -> sizes_small (cluster_size nt) (root_record_size root) alloc ->
   same_or_damaged_on (cluster_size nt) root before alloc way -> exists ix, directory_index fuel nt f d = (d, Ok ix) /\
    exists N d' r, d_img d' = img /\ (forall n, (N <= n)%nat -> index_find kp cmp n nt ix d = (d', r)) /\
      answer_ok c l r (fun x => (exists k, reports d k /\ x = EIo k) \/ exists vcn, In vcn way /\ damaged (index_child (cluster_size nt) root alloc) vcn)).
Proof. exact directory_way. Qed.
Print Assumptions C73_find.
(** [NtfsFileNameIndex::find]. *)
Theorem C73_file_names : forall nt root before l t name, bytes_ok root -> bytes_ok before -> index_listing (cluster_size nt) root before l ->
  upcase_table nt = Some t -> zlen t = 65536 -> Forall unit_ok name ->
  Forall (fun e => exists us, named e us) l -> names_sorted (fun a b => lex_lt (upper t a) (upper t b)) l ->
  exists way, way_down (index_child (cluster_size nt) root before) (root_entries root) (zlen (root_entries root)) 0 way /\
  forall img f offs clean alloc fuel d, bytes_ok img -> bytes_ok (f_data f) -> 24 <= zlen (f_data f) ->
  attr_walk (f_data f) (field 2 (f_data f) 20) offs clean -> no_attribute_list (f_data f) offs -> 1 <= cluster_size nt ->
  is_directory (cluster_size nt) img (f_data f) offs root alloc ->
  (length offs < fuel)%nat -> d_img d = img -> ~ reports d Interrupted ->
  (same_on (cluster_size nt) root before alloc way -> exists ix, directory_index fuel nt f d = (d, Ok ix) /\
    exists N d' r, d_img d' = img /\ (forall n, (N <= n)%nat -> file_name_find n nt ix name d = (d', r)) /\
      name_answer_ok t name l r (fun x => exists k, reports d k /\ x = EIo k)) /\
  (arrays_clear (cluster_size nt) (root_record_size root) alloc -> sizes_small (cluster_size nt) (root_record_size root) alloc ->
   same_or_damaged_on (cluster_size nt) root before alloc way -> exists ix, directory_index fuel nt f d = (d, Ok ix) /\
    exists N d' r, d_img d' = img /\ (forall n, (N <= n)%nat -> file_name_find n nt ix name d = (d', r)) /\
      name_answer_ok t name l r (fun x => (exists k, reports d k /\ x = EIo k) \/ exists vcn, In vcn way /\ damaged (index_child (cluster_size nt) root alloc) vcn)).
Proof. exact directory_name_way. Qed.
Print Assumptions C73_file_names.

(** The directory of C27_example, whose first node (with the entry "a") is torn: "c" is below the second node and is still found, "b" is found in the root node,
    and looking up "a" or "0" gives an error. C67_example and C28_example show the other hypotheses for it. *)
Example C73_example : bytes_ok ex_dir_root /\ bytes_ok (ex_dir_alloc ex_dir_img) /\ same_on 512 ex_dir_root (ex_dir_alloc ex_dir_img) (ex_dir_alloc ex_torn_img) [2] /\
  same_or_damaged_on 512 ex_dir_root (ex_dir_alloc ex_dir_img) (ex_dir_alloc ex_torn_img) [0; 2] /\ damaged (index_child 512 ex_dir_root (ex_dir_alloc ex_torn_img)) 0 /\
  way_down (index_child 512 ex_dir_root (ex_dir_alloc ex_dir_img)) (root_entries ex_dir_root) (zlen (root_entries ex_dir_root)) 0 [2] /\
  exists ix, snd (directory_index 10 ex_dir_ntfs ex_dir ex_torn_dev) = Ok ix /\
    (exists e, snd (file_name_find 20 ex_dir_ntfs ix [67] ex_torn_dev) = Some (Ok e) /\ ie_slice e = ex_entry 32 0 (ex_key 99) []) /\
    (exists e, snd (file_name_find 20 ex_dir_ntfs ix [98] ex_torn_dev) = Some (Ok e) /\ ie_slice e = ex_entry 31 1 (ex_key 66) (ex_vcn 0)) /\
    (exists x, snd (file_name_find 20 ex_dir_ntfs ix [65] ex_torn_dev) = Some (Err x)) /\ (exists x, snd (file_name_find 20 ex_dir_ntfs ix [48] ex_torn_dev) = Some (Err x)).
Proof.
  assert (C2 : forall data, index_child 512 ex_dir_root (ex_dir_alloc ex_dir_img) 2 data -> index_child 512 ex_dir_root (ex_dir_alloc ex_torn_img) 2 data).
  { intros data Hc. destruct (ex_dir_children 2 data Hc) as [(E & _)|(_ & ->)]; [discriminate E|]. child_at. }
  split; [apply bytes_okb_ok; vm_compute; reflexivity|]. split; [apply bytes_okb_ok; vm_compute; reflexivity|].
  split; [intros vcn data [<-|[]]; apply C2|]. split; [intros vcn [<-|[<-|[]]]; [right; exact ex_torn_damaged|left; apply C2]|]. split; [exact ex_torn_damaged|]. split.
  { apply (wd_down _ _ _ _ [0; 96] NodeDone 96 2 (ex_node_data ex_dir_node2)); [apply (node_offs_ok 10); vm_compute; reflexivity|right; left; reflexivity| |exact ex_dir_child2|constructor].
    split; [vm_compute; reflexivity|split; [vm_compute; discriminate|vm_compute; reflexivity]]. }
  eexists. split; [vm_compute; reflexivity|]. split; [eexists; split; vm_compute; reflexivity|]. split; [eexists; split; vm_compute; reflexivity|].
  split; eexists; vm_compute; reflexivity.
Qed.
