(** * Concrete devices and values for the examples and counterexamples of PropsStream.v. *)
From Verif Require Import Base Dev Types DataRuns Stream NonResident Resident Spec BaseProofs ReaderProofs NonResidentProofs ResidentProofs.

Definition ex_img : list Z := map (fun k => Z.of_nat k mod 251) (seq 0 2560).
(** one cluster at LCN 1... *)
Definition ex_extents := [mkExtent (Some 1) 1; mkExtent None 1; mkExtent (Some 3) 1].
Definition ex_enc := [17; 1; 1; 1; 1; 17; 1; 2; 0].
Definition ex_dev := mkDev ex_img 77 [RShort 2; RShort 0; RShort 40] [None; None].

Lemma ubytes1 b : is_byte b -> unsigned_bytes [b] b.
Proof.
  intros. split; [repeat constructor; apply H|]. split; [|cbn; lia].
  change (zlen [b]) with 1. lia.
Qed.
Lemma sbytes1 b : 0 <= b < 128 -> signed_bytes [b] b.
Proof.
  intros. split; [constructor; [red; lia|constructor]|]. split; [change (zlen [b]) with 1; lia|]. change (256 ^ zlen [b]) with 256.
  change (256 / 2) with 128. split; [lia|]. cbn [le_val]. rewrite Z.mod_small; lia.
Qed.
Lemma byte1 b : 0 <= b <= 255 -> is_byte b.
Proof. unfold is_byte. lia. Qed.

Lemma ex_encodes : encodes 0 ex_extents ex_enc.
Proof.
  apply (enc_data 0 1 1 [1] [1] [mkExtent None 1; mkExtent (Some 3) 1] [1; 1; 17; 1; 2; 0]).
  - apply ubytes1, byte1; lia.
  - apply sbytes1; lia.
  - apply (enc_hole 1 1 [1] [mkExtent (Some 3) 1] [17; 1; 2; 0]).
    + apply ubytes1, byte1; lia.
    + apply (enc_data 1 3 1 [1] [2] [] [0]); [apply ubytes1, byte1; lia|apply sbytes1; lia|constructor].
Qed.

Lemma ex_valid : valid_extents 512 ex_img ex_extents.
Proof.
  split.
  - lia.
  - vm_compute; discriminate.
  - repeat constructor; vm_compute; discriminate.
  - repeat constructor; vm_compute; discriminate.
  - repeat split; discriminate.
Qed.

Lemma ex_read :
  valid_extents 512 ex_img ex_extents /\ encodes 0 ex_extents ex_enc /\ faultless ex_dev /\ d_img ex_dev = ex_img /\
  exists v d1 v1 d2 v2 bs, nr_new 512 ex_enc None 1400 = Ok v /\
    reader_exec nr_read nr_seek v ex_dev [OSeek (SEnd (-900)); ORead 3; OSeek (SCurrent 7)] = (d1, v1) /\
    nr_stream_position v1 = 510 /\ nr_read v1 600 d1 = (d2, (v2, Ok bs)) /\ zlen bs = 600 /\
    bs = slice ex_img 1022 1024 ++ zrepeat 0 512 ++ slice ex_img 1536 1622.
Proof.
  split; [apply ex_valid|]. split; [apply ex_encodes|]. split; [split; repeat constructor|]. split; [reflexivity|].
  do 6 eexists. split; [vm_compute; reflexivity|]. split; [vm_compute; reflexivity|]. split; [vm_compute; reflexivity|].
  split; [vm_compute; reflexivity|]. split; vm_compute; reflexivity.
Qed.

Lemma ex_c14 : exists v, nr_new 512 ex_enc None 1400 = Ok v /\ nr_stream_position v < 1400 /\
  disk_position 512 ex_extents (nr_stream_position v) <> None /\ ~ extent_end 512 ex_extents (nr_stream_position v).
Proof.
  eexists. split; [vm_compute; reflexivity|]. split; [vm_compute; reflexivity|]. split; [vm_compute; discriminate|].
  intros (l1 & e & l2 & E & Hq). change (nr_stream_position _) with 0 in Hq.
  assert (Hf : Forall (fun e => 1 <= e_count e) (l1 ++ [e])).
  { assert (H : Forall (fun e => 1 <= e_count e) ex_extents) by (repeat constructor; cbn; lia). rewrite E in H.
    replace (l1 ++ e :: l2) with ((l1 ++ [e]) ++ l2) in H by (rewrite <- app_assoc; auto). now apply Forall_app in H. }
  assert (Hp : forall m, Forall (fun e => 1 <= e_count e) m -> 0 <= extents_size 512 m).
  { induction 1; cbn [extents_size]; lia. }
  destruct l1 as [|x l1]; cbn [app extents_size] in *.
  - apply Forall_inv in Hf. lia.
  - pose proof (Hp _ (Forall_inv_tail Hf)). apply Forall_inv in Hf. lia.
Qed.

(** Two adjacent data extents, in different places. *)
Definition ex2_extents := [mkExtent (Some 1) 1; mkExtent (Some 4) 1].
Definition ex2_enc := [17; 1; 1; 17; 1; 3; 0].
Lemma ex2_encodes : encodes 0 ex2_extents ex2_enc.
Proof.
  apply (enc_data 0 1 1 [1] [1] [mkExtent (Some 4) 1] [17; 1; 3; 0]); [apply ubytes1, byte1; lia|apply sbytes1; lia|].
  apply (enc_data 1 4 1 [1] [3] [] [0]); [apply ubytes1, byte1; lia|apply sbytes1; lia|constructor].
Qed.
Lemma ex2_valid : valid_extents 512 ex_img ex2_extents.
Proof.
  split.
  - lia.
  - vm_compute; discriminate.
  - repeat constructor; vm_compute; discriminate.
  - repeat constructor; vm_compute; discriminate.
  - repeat split; discriminate.
Qed.

Lemma ex_position : exists cs img l enc size v d d1 v1,
  valid_extents cs img l /\ encodes 0 l enc /\ faultless d /\ d_img d = img /\ nr_new cs enc None size = Ok v /\
  reader_exec nr_read nr_seek v d [ORead 512; OSeek (SCurrent 0)] = (d1, v1) /\ nr_stream_position v1 = 512 /\ 512 < size /\
  nr_data_position v1 = Some 1024 /\ disk_position cs l 512 = Some 2048.
Proof.
  exists 512, ex_img, ex2_extents, ex2_enc, 1000. eexists. exists (mkDev ex_img 0 [] []). do 2 eexists.
  split; [apply ex2_valid|]. split; [apply ex2_encodes|]. split; [split; constructor|]. split; [reflexivity|].
  split; [vm_compute; reflexivity|]. split; [vm_compute; reflexivity|]. split; [vm_compute; reflexivity|]. split; [vm_compute; reflexivity|]. split; vm_compute; reflexivity.
Qed.

Lemma ex_error_consumes : exists cs img l enc size v d d1 v1,
  valid_extents cs img l /\ encodes 0 l enc /\ d_img d = img /\ nr_new cs enc None size = Ok v /\
  nr_read v 1000 d = (d1, (v1, Err (EIo OtherIo))) /\ nr_stream_position v = 0 /\ nr_stream_position v1 = 512.
Proof.
  exists 512, ex_img, ex2_extents, ex2_enc, 1000. eexists. exists (mkDev ex_img 0 [RShort 511; RErr OtherIo] []). do 2 eexists.
  split; [apply ex2_valid|]. split; [apply ex2_encodes|]. split; [reflexivity|].
  split; [vm_compute; reflexivity|]. split; [vm_compute; reflexivity|]. split; vm_compute; reflexivity.
Qed.

Lemma ex_interrupted : exists cs img l enc size v d d1 v1 bs,
  valid_extents cs img l /\ encodes 0 l enc /\ d_img d = img /\ nr_new cs enc None size = Ok v /\
  Forall (fun e => read_ok e \/ e = RErr Interrupted) (d_reads d) /\ d_seeks d = [] /\
  nr_read_exact v 600 d = (d1, (v1, Ok bs)) /\ bs <> ztake 600 (file_content cs img l size).
Proof.
  exists 512, ex_img, [mkExtent (Some 1) 1; mkExtent (Some 2) 2], [17; 1; 1; 17; 2; 1; 0], 1500. eexists. exists (mkDev ex_img 0 [RShort 511; RErr Interrupted] []). do 3 eexists.
  split.
  { split.
    - lia.
    - vm_compute; discriminate.
    - repeat constructor; vm_compute; discriminate.
    - repeat constructor; vm_compute; discriminate.
    - repeat split; discriminate. }
  split. { apply (enc_data 0 1 1 [1] [1] [mkExtent (Some 2) 2] [17; 2; 1; 0]); [apply ubytes1, byte1; lia|apply sbytes1; lia|].
           apply (enc_data 1 2 2 [2] [1] [] [0]); [apply ubytes1, byte1; lia|apply sbytes1; lia|constructor]. }
  split; [reflexivity|]. split; [vm_compute; reflexivity|]. split; [constructor; [left; exact I|constructor; [right; reflexivity|constructor]]|]. split; [reflexivity|].
  split; [vm_compute; reflexivity|]. vm_compute. discriminate.
Qed.

Lemma ex_truncated : exists cs full l enc size v d d1 v1 bs,
  valid_extents cs full l /\ encodes 0 l enc /\ faultless d /\ d_img d = ztake (zlen full - 300) full /\
  nr_new cs enc None size = Ok v /\ nr_read v 1000 d = (d1, (v1, Ok bs)) /\
  bs <> ztake (zlen bs) (file_content cs full l size).
Proof.
  exists 512, ex_img, [mkExtent (Some 4) 1; mkExtent (Some 1) 1], [17; 1; 4; 17; 1; 253; 0], 1000. eexists. exists (mkDev (ztake (zlen ex_img - 300) ex_img) 0 [] []). do 3 eexists.
  split.
  { split.
    - lia.
    - vm_compute; discriminate.
    - repeat constructor; vm_compute; discriminate.
    - repeat constructor; vm_compute; discriminate.
    - repeat split; discriminate. }
  split. { apply (enc_data 0 4 1 [1] [4] [mkExtent (Some 1) 1] [17; 1; 253; 0]); [apply ubytes1, byte1; lia|apply sbytes1; lia|].
           apply (enc_data 4 1 1 [1] [253] [] [0]); [apply ubytes1, byte1; lia| |constructor].
           split; [apply bytes_okb_ok; reflexivity|vm_compute; repeat split; discriminate]. }
  split; [split; constructor|]. split; [reflexivity|]. split; [vm_compute; reflexivity|]. split; [vm_compute; reflexivity|]. vm_compute. discriminate.
Qed.

(** The same volume, with the part of the value that is on the cut device. *)
Definition ex_cut_extents := [mkExtent (Some 4) 1; mkExtent (Some 1) 1].
Lemma ex_cut :
  valid_extents 512 ex_img ex_cut_extents /\ encodes 0 ex_cut_extents [17; 1; 4; 17; 1; 253; 0] /\
  (forall q x, 0 <= q < 212 -> disk_position 512 ex_cut_extents q = Some x -> x < zlen ex_img - 300) /\
  reads_within 212 (file_content 512 ex_img ex_cut_extents 1000) 1000 0 [OSeek (SStart 100); ORead 112; OSeek (SEnd 0); ORead 5; OSeek (SStart 0); ORead 3] /\
  (exists x, disk_position 512 ex_cut_extents 212 = Some x /\ x = zlen ex_img - 300).
Proof.
  split.
  { split.
    - lia.
    - vm_compute; discriminate.
    - repeat constructor; vm_compute; discriminate.
    - repeat constructor; vm_compute; discriminate.
    - repeat split; discriminate. }
  split. { apply (enc_data 0 4 1 [1] [4] [mkExtent (Some 1) 1] [17; 1; 253; 0]); [apply ubytes1, byte1; lia|apply sbytes1; lia|].
           apply (enc_data 4 1 1 [1] [253] [] [0]); [apply ubytes1, byte1; lia| |constructor].
           split; [apply bytes_okb_ok; reflexivity|vm_compute; repeat split; discriminate]. }
  assert (E : zlen ex_img = 2560) by (vm_compute; reflexivity). rewrite E.
  split. { intros q x Hq. cbn [disk_position ex_cut_extents e_count e_lcn]. replace (q <? 1 * 512) with true by lia. intros H. assert (4 * 512 + q = x) by congruence. lia. }
  split. { vm_compute. repeat split; auto; discriminate. }
  exists 2260. split; [vm_compute; reflexivity|reflexivity].
Qed.
