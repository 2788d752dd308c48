(** * Proofs for C76. *)
From Coq Require Import Lia.
From Verif Require Import Base Dev Types BootSector File Spec SpecMisc SpecFaults SpecTotal BaseProofs DevProofs BootSectorProofs StackProofs.

Lemma opened_boot d d' nt : bytes_ok (d_img d) -> ntfs_new d = (d', Ok nt) -> exists b, zlen b = 512 /\ bytes_ok b /\ b = ztake 512 (d_img d) /\ ntfs_of_boot (decode_boot b) = Ok nt.
Proof.
  intros Hb H. unfold ntfs_new, mbind, mlift in H. destruct (dev_seek 0 d) as [d1 [x|e| |]] eqn:E1; try discriminate.
  assert (Hd : d_pos d1 = 0 /\ d_img d1 = d_img d) by (unfold dev_seek in E1; destruct (d_seeks d) as [|[e|] t]; inversion E1; subst; auto).
  unfold dev_read_exact in H. destruct (read_exact_any (length (d_reads d1) + 2) 512 [] d1 ltac:(lia) ltac:(lia) ltac:(lia)) as (d2 & r & E2 & _ & _ & _ & Hr). rewrite E2 in H.
  destruct Hr as [(Hl & ->)|(k & _ & _ & ->)]; [|discriminate]. destruct Hd as (Hd & Hi). rewrite Hd, Hi in *. cbn [app] in H. rewrite zdrop_0 in H by lia.
  exists (ztake 512 (d_img d)). splits; [rewrite zlen_ztake; lia|now apply bytes_ok_ztake|reflexivity|congruence].
Qed.

(** The sizes that a boot sector can give to file records. *)
Lemma opened_record_size nt : opened nt ->
  In (file_record_size nt) [1024; 2048; 4096] \/ exists k, 1 <= k <= 127 /\ file_record_size nt = k * cluster_size nt /\ 512 <= cluster_size nt <= 2097152.
Proof.
  intros (d & d' & nt0 & t & Hb & H & ->). destruct (opened_boot d d' nt0 Hb H) as (b & Hl & Hbb & _ & Hn).
  pose proof (ntfs_of_boot_spec b Hl Hbb) as Hspec. rewrite Hn in Hspec. destruct Hspec as (mft & Hd & _).
  change (file_record_size (with_table nt0 t)) with (file_record_size nt0). change (cluster_size (with_table nt0 t)) with (cluster_size nt0).
  pose proof (bd_record _ _ _ _ _ _ _ Hd) as Hr. destruct (bd_cluster _ _ _ _ _ _ _ Hd) as (spc & _ & _ & Hc).
  destruct Hr as [(Hk & ->)|(Hk & ->)].
  - right. exists (field 1 b 64). auto.
  - left. assert (field 1 b 64 = 244 \/ field 1 b 64 = 245 \/ field 1 b 64 = 246) as [->|[->| ->]] by lia; vm_compute; auto.
Qed.
