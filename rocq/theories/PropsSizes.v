(** * C76: the sizes of the buffers for records. *)
From Verif Require Import Base Dev Types Record BootSector Attribute File Structured AttrList Index Spec SpecMisc SpecTotal BaseProofs SizeProofs StreamExamples FileExamples ValueExamples IndexExamples
  PropsRecord PropsErrors.
From Coq Require Import Lia.

(** File records (src/file.rs 143: one buffer of this size per file): for every volume that can be opened, from any device. Missing: 4096 as an upper bound, see below. *)
Theorem C76_file_records_partial : forall nt, opened nt ->
  512 <= file_record_size nt <= 266338304 /\
  (In (file_record_size nt) [1024; 2048; 4096] \/ exists k, 1 <= k <= 127 /\ file_record_size nt = k * cluster_size nt).
Proof.
  intros nt H. destruct (opened_record_size nt H) as [Hi|(k & Hk & E & Hc)].
  - split; [|auto]. destruct Hi as [<-|[<-|[<-|[]]]]; lia.
  - split; [|right; exists k; auto]. rewrite E. nia.
Qed.
Print Assumptions C76_file_records_partial.

(** A device of 512 bytes is enough to ask for 254 MiB per file. *)
Theorem C76_file_records_refuted : exists d nt, zlen (d_img d) = 512 /\ bytes_ok (d_img d) /\ faultless d /\ snd (ntfs_new d) = Ok nt /\ file_record_size nt = 266338304.
Proof.
  exists (mkDev (ex_put (ex_put example_boot 11 [0; 16; 247]) 64 [127]) 0 [] []). eexists. split; [vm_compute; reflexivity|]. split; [apply bytes_okb_ok; vm_compute; reflexivity|].
  split; [split; constructor|]. split; [vm_compute; reflexivity|vm_compute; reflexivity].
Qed.
Print Assumptions C76_file_records_refuted.

(** Index records (src/index_record.rs 69: one buffer of this size per node): a file record of 1024 bytes is enough to ask for 4 GiB. *)
Theorem C76_index_records_refuted : exists f d ix, zlen (f_data f) = 1024 /\ bytes_ok (f_data f) /\ file_of_bytes (ex_dir_record (ex_put ex_dir_root 8 [255; 255; 255; 255])) (Some 65536) 5 = Ok f /\
  faultless d /\ zlen (d_img d) = 3072 /\ snd (directory_index 16 ex_dir_ntfs f d) = Ok ix /\ ix_record_size ix = 4294967295.
Proof.
  exists (ex_dir_file (ex_put ex_dir_root 8 [255; 255; 255; 255])), ex_dir_dev. eexists. split; [vm_compute; reflexivity|]. split; [apply bytes_okb_ok; vm_compute; reflexivity|].
  split; [vm_compute; reflexivity|]. split; [split; cbn; repeat constructor|]. split; [vm_compute; reflexivity|]. split; [vm_compute; reflexivity|reflexivity].
Qed.
Print Assumptions C76_index_records_refuted.

Example C76_example : exists nt, opened nt /\ file_record_size nt = 1024.
Proof.
  eexists. split; [|]. { exists (mkDev example_boot 0 [] []). eexists. eexists. exists None. split; [apply bytes_okb_ok; vm_compute; reflexivity|]. split; [vm_compute; reflexivity|reflexivity]. }
  vm_compute. reflexivity.
Qed.
