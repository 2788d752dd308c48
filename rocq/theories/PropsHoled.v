(** * Property C67: listing a directory of which some nodes cannot be read. *)
From Verif Require Import Base Dev Types Record DataRuns Stream NonResident Resident Attribute File Structured AttrList Upcase Index
  Spec SpecMisc SpecValues SpecIndex SpecFaults SpecHoled BaseProofs AttributeProofs NodeProofs RecordProofs IndexRecordProofs IndexProofs IndexClaims HoledProofs FileExamples IndexExamples.
From Coq Require Import Lia.

(** A caller goes on after errors. On a device with faults, a directory whose index lists [l] gives [l] with some stretches replaced by one error of the device each,
    at most as many as calls to the device fail; the stretches are those of [holed]: what is below a node, and the entry that refers to it. Then the iteration ends. *)
Theorem C67_device_errors_partial : forall nt img f offs clean root alloc l fuel d, bytes_ok img -> bytes_ok (f_data f) -> 24 <= zlen (f_data f) ->
  attr_walk (f_data f) (field 2 (f_data f) 20) offs clean -> no_attribute_list (f_data f) offs -> 1 <= cluster_size nt ->
  is_directory (cluster_size nt) img (f_data f) offs root alloc -> index_listing (cluster_size nt) root alloc l ->
  (length offs < fuel)%nat -> d_img d = img -> ~ reports d Interrupted ->
  exists ix, directory_index fuel nt f d = (d, Ok ix) /\
  exists es N, (errors es <= faults d)%nat /\ gapped l (map seen es) /\
    holed (index_child (cluster_size nt) root alloc) (device_lost d) (root_entries root) (zlen (root_entries root)) 0 (map seen es) /\
    forall k n, (N <= k)%nat -> iterate (with_dev (entries_next k nt ix)) (length es + n) (index_entries ix, d) = map Some es ++ repeat None n.
Proof. exact directory_gaps. Qed.
Print Assumptions C67_device_errors_partial.
(** Likewise if some nodes are damaged. The first [holed] says which shape the index has. *)
Theorem C67_damaged_partial : forall nt img f offs clean root alloc l fuel d, bytes_ok img -> bytes_ok (f_data f) -> 24 <= zlen (f_data f) ->
  attr_walk (f_data f) (field 2 (f_data f) 20) offs clean -> no_attribute_list (f_data f) offs -> 1 <= cluster_size nt ->
  is_directory (cluster_size nt) img (f_data f) offs root alloc ->
  arrays_clear (cluster_size nt) (root_record_size root) alloc -> sizes_small (cluster_size nt) (root_record_size root) alloc ->
  let child := index_child (cluster_size nt) root alloc in
  holed child (fun v _ => damaged child v) (root_entries root) (zlen (root_entries root)) 0 l ->
  (length offs < fuel)%nat -> d_img d = img -> ~ reports d Interrupted ->
  exists ix, directory_index fuel nt f d = (d, Ok ix) /\
  exists es N, holed child (fun v x => device_lost d v x \/ damaged child v) (root_entries root) (zlen (root_entries root)) 0 (map seen es) /\
    forall k n, (N <= k)%nat -> iterate (with_dev (entries_next k nt ix)) (length es + n) (index_entries ix, d) = map Some es ++ repeat None n.
Proof. exact directory_damaged. Qed.
Print Assumptions C67_damaged_partial.

(** The directory of C27_example with a device whose second read fails, and with a torn first node. *)
Definition ex_bad_dev : dev := mkDev ex_dir_img 0 [RShort 100; RErr OtherIo] [].
Definition ex_torn_node : list Z := ztake 511 ex_dir_node0 ++ [8] ++ zdrop 512 ex_dir_node0.
Definition ex_torn_img : list Z := zrepeat 0 1024 ++ ex_torn_node ++ ex_dir_node2.
Definition ex_torn_dev : dev := mkDev ex_torn_img 0 [RShort 100; RShort 3] [].

Lemma ex_torn_damaged : damaged (index_child 512 ex_dir_root (ex_dir_alloc ex_torn_img)) 0.
Proof.
  intros data ([I1 I2 I3 I4] & C & _).
  assert (E : slice (ex_dir_alloc ex_torn_img) (0 * 512) (0 * 512 + root_record_size ex_dir_root) = ex_torn_node) by (vm_compute; reflexivity).
  unfold index_array_clear in C. rewrite E in I2, C.
  assert (Hb : bytes_ok ex_torn_node) by (apply bytes_okb_ok; vm_compute; reflexivity).
  assert (K : irec_of_bytes ex_torn_node None = Ok (mkRecord data None)).
  { apply (irec_of_bytes_spec ex_torn_node None Hb); [vm_compute; split; discriminate|exact C|]. exists data. auto. }
  vm_compute in K. discriminate K.
Qed.

(** One would expect that each entry of a node that has been read is listed. It is not: the intact entry "B" of the root node is dropped along with
    what is below it, if the node below cannot be read, although [find] does find it. *)
Theorem C67_intact_refuted :
  exists ix, snd (directory_index 10 ex_dir_ntfs ex_dir ex_bad_dev) = Ok ix /\
  let b := ex_entry 31 1 (ex_key 66) (ex_vcn 0) in
  In b ex_dir_list /\ index_listing 512 ex_dir_root (ex_dir_alloc ex_dir_img) ex_dir_list /\ b = entry_bytes (root_entries ex_dir_root) 0 /\
  (exists d' e, file_name_find 20 ex_dir_ntfs ix [66] ex_bad_dev = (d', Some (Ok e)) /\ ie_slice e = b) /\
  map (option_map seen) (iterate (with_dev (entries_next 20 ex_dir_ntfs ix)) 4 (index_entries ix, ex_bad_dev)) =
     [Some (Err (EIo OtherIo)); Some (Ok (ex_entry 32 0 (ex_key 99) [])); None; None] /\
  exists x, map (option_map seen) (iterate (with_dev (entries_next 20 ex_dir_ntfs ix)) 4 (index_entries ix, ex_torn_dev)) =
     [Some (Err x); Some (Ok (ex_entry 32 0 (ex_key 99) [])); None; None].
Proof.
  eexists. split; [vm_compute; reflexivity|]. cbv zeta. split; [right; left; reflexivity|]. split; [exact ex_dir_listing|]. split; [vm_compute; reflexivity|].
  split; [do 2 eexists; split; vm_compute; reflexivity|]. split; [vm_compute; reflexivity|eexists; vm_compute; reflexivity].
Qed.
Print Assumptions C67_intact_refuted.

(** The hypotheses of both theorems hold for these. *)
Example C67_example : d_img ex_bad_dev = ex_dir_img /\ ~ reports ex_bad_dev Interrupted /\ faults ex_bad_dev = 1%nat /\
  bytes_ok ex_torn_img /\ is_directory 512 ex_torn_img (f_data ex_dir) ex_dir_offs ex_dir_root (ex_dir_alloc ex_torn_img) /\
  arrays_clear 512 (root_record_size ex_dir_root) (ex_dir_alloc ex_torn_img) /\ sizes_small 512 (root_record_size ex_dir_root) (ex_dir_alloc ex_torn_img) /\
  (let child := index_child 512 ex_dir_root (ex_dir_alloc ex_torn_img) in
   holed child (fun v _ => damaged child v) (root_entries ex_dir_root) (zlen (root_entries ex_dir_root)) 0 [Err (EIo OtherIo); Ok (ex_entry 32 0 (ex_key 99) [])]) /\
  ~ reports ex_torn_dev Interrupted.
Proof.
  split; [reflexivity|]. split; [intros [[E|[E|[]]]|[]]; discriminate E|]. split; [reflexivity|]. split; [apply bytes_okb_ok; vm_compute; reflexivity|].
  split; [is_dir 240|]. split.
  { change (root_record_size ex_dir_root) with 1024. apply ex_clear; [vm_compute; reflexivity|]. intros v [->|[->| ->]]; [left|right|left]; split; vm_compute; reflexivity. }
  split.
  { change (root_record_size ex_dir_root) with 1024. intros vcn H1 H2. assert (E : zlen (ex_dir_alloc ex_torn_img) = 2048) by (vm_compute; reflexivity). rewrite E in H2.
    assert (H : vcn = 0 \/ vcn = 1 \/ vcn = 2) by lia. destruct H as [->|[->| ->]]; split; vm_compute; discriminate. }
  split; [|intros [[E|[E|[]]]|[]]; discriminate E]. cbv zeta.
  assert (C2 : index_child 512 ex_dir_root (ex_dir_alloc ex_torn_img) 2 (ex_node_data ex_dir_node2)) by child_at.
  assert (S : forall data o, entry_fits data o -> 16 <= entry_len data o -> sound_entry data o) by (intros; split; auto).
  eapply (ho_entry_lost _ _ _ _ 0 0); try entry_is; [apply S; entry_is|split; [|split]; [entry_is|entry_is|vm_compute; reflexivity]|exact ex_torn_damaged|].
  apply ho_last; try entry_is; [apply S; entry_is|]. apply (sh_node _ _ _ _ 2 (ex_node_data ex_dir_node2)); [split; [|split]; [entry_is|entry_is|vm_compute; reflexivity]|exact C2|].
  replace [Ok (ex_entry 32 0 (ex_key 99) [])] with ([] ++ Ok (entry_bytes (ex_node_data ex_dir_node2) 64) :: []) by (vm_compute; reflexivity).
  replace (24 + field 4 (ex_node_data ex_dir_node2) 24) with 64 by (vm_compute; reflexivity). apply ho_entry; try entry_is; [apply S; entry_is|apply sh_none; vm_compute; reflexivity|].
  apply ho_last; try entry_is; [apply S; entry_is|]. apply sh_none; vm_compute; reflexivity.
Qed.
