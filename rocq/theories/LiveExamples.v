(** * Concrete volumes for the examples of PropsLive.v. *)
From Verif Require Import Base Dev Types Record DataRuns Stream NonResident Resident Attribute File Structured AttrList Spec SpecAttrList SpecLive BaseProofs ReaderProofs
  NonResidentProofs FileProofs StructuredProofs ValueProofs AttrListIterProofs StreamExamples FileExamples AttrListExamples.

(** The volume of C37 with the list in cluster 11, and the same after both parts of the value have been written to. *)
Definition exl_vol : list Z :=
  zrepeat 0 1024 ++ ex_record (ex_nonresident 128 1 4096 [17; 8; 2; 0; 0; 0; 0; 0]) ++ ex_al_base_far ++ ex_record (ex_al_attrs1 5) ++ ex_record (ex_al_attrs2 5) ++
  zrepeat 7 512 ++ (ex_al_list ++ zrepeat 6 384) ++ zrepeat 8 512 ++ zrepeat 5 512.
Lemma exl_bytes : bytes_okb exl_vol = true.
Proof. vm_compute. reflexivity. Qed.
Lemma exl_len : zlen exl_vol = 7168.
Proof. vm_compute. reflexivity. Qed.
Definition exl_nt := ex_al_ntfs ex_al_vol_far.
Lemma exl_nt_eq : exl_nt = ex_al_ntfs exl_vol.
Proof. unfold exl_nt, ex_al_ntfs. now rewrite exl_len, ex_al_vol_far_len. Qed.

Lemma exl_connected : connected exl_vol exl_nt ex_al_extents ex_al_list 128 5 ListDone [32; 64; 96] [ex_part1; ex_part2].
Proof.
  rewrite exl_nt_eq.
  eapply con_part; [reflexivity|reflexivity| |exact ex_al_holds1|discriminate|apply ex_al_part1_valid; exact exl_len|].
  { apply (ex_al_stored exl_vol exl_bytes exl_len 2 (ex_record (ex_al_attrs1 5)) ex_al_f2); try lia; vm_compute; reflexivity. }
  eapply con_part; [reflexivity|reflexivity| |exact ex_al_holds2|discriminate|apply ex_al_part2_valid; exact exl_len|].
  { apply (ex_al_stored exl_vol exl_bytes exl_len 3 (ex_record (ex_al_attrs2 5)) ex_al_f3); try lia; vm_compute; reflexivity. }
  apply con_other. left. vm_compute. discriminate.
Qed.

Definition exl_has (img : list Z) : Prop :=
  lists_parts exl_nt 1024 ex_al_list 128 5 ListDone [32; 64; 96] [ex_part1; ex_part2] img /\
  valid_extents (cluster_size exl_nt) img ex_al_list_extents /\ file_content (cluster_size exl_nt) img ex_al_list_extents 128 = ex_al_list.
Lemma exl_before : exl_has ex_al_vol_far.
Proof.
  split; [|split; [exact ex_al_list_valid|exact ex_al_list_content]].
  split; [apply bytes_okb_ok; exact ex_al_vol_far_bytes|]. exists (f_data ex_al_mft), ex_al_extents.
  split; [apply ex_al_mft_at; [exact ex_al_vol_far_len|vm_compute; reflexivity]|]. split; [apply ex_al_mft_valid; exact ex_al_vol_far_len|]. exact ex_al_connected_far.
Qed.
Lemma exl_after : exl_has exl_vol.
Proof.
  split; [|split; [|vm_compute; reflexivity]].
  - split; [apply bytes_okb_ok; exact exl_bytes|]. exists (f_data ex_al_mft), ex_al_extents.
    split; [apply ex_al_mft_at; [exact exl_len|vm_compute; reflexivity]|]. split; [apply ex_al_mft_valid; exact exl_len|]. exact exl_connected.
  - apply ex_al_valid; [exact exl_len|repeat constructor; vm_compute; discriminate| |repeat split; discriminate].
    repeat constructor; unfold extent_on_device; rewrite ?exl_len; cbn; lia.
Qed.

(** Reads before and after the change. *)
Definition exl_d := mkDev ex_al_vol_far 3 [RShort 10; RShort 100] [None].
Definition exl_e := mkDev exl_vol 0 [RShort 1] [].
Definition exl_history : list (dev * op) :=
  [(exl_d, OSeek (SStart 510)); (exl_d, ORead 3); (exl_e, OSeek (SStart 0)); (exl_e, ORead 2); (exl_d, ORead 1); (exl_e, OSeek (SStart 1534)); (exl_e, ORead 4);
   (exl_d, OSeek (SEnd (-65))); (exl_d, ORead 2)].
Definition exl_answers : list opres :=
  [RPos (Ok 510); RBytes (Ok [1; 1; 0]); RPos (Ok 0); RBytes (Ok [7; 7]); RBytes (Ok [1]); RPos (Ok 1534); RBytes (Ok [8; 8; 5; 5]); RPos (Ok 1535); RBytes (Ok [2; 3])].
Definition exl_ready (d : dev) : Prop := faultless d /\ exl_has (d_img d) /\ (length (d_reads d) <= 2)%nat.
Lemma exl_d_ready : exl_ready exl_d.
Proof. split; [split; repeat constructor|]. split; [exact exl_before|]. cbn. lia. Qed.
Lemma exl_e_ready : exl_ready exl_e.
Proof. split; [split; repeat constructor|]. split; [exact exl_after|]. cbn. lia. Qed.
Lemma exl_history_ok : Forall (fun x => faultless (fst x) /\ exl_has (d_img (fst x)) /\ op_ok (snd x) /\
  (length (d_reads (fst x)) + 2 * length (concat [ex_part1; ex_part2]) + 2 <= 20)%nat) exl_history.
Proof.
  assert (H : forall d o, exl_ready d -> op_ok o -> (fun x : dev * op => faultless (fst x) /\ exl_has (d_img (fst x)) /\ op_ok (snd x) /\
    (length (d_reads (fst x)) + 2 * length (concat [ex_part1; ex_part2]) + 2 <= 20)%nat) (d, o)).
  { intros d o (H1 & H2 & H3) Ho. cbn [fst snd]. splits; auto. change (length (concat [ex_part1; ex_part2])) with 3%nat. lia. }
  pose proof exl_d_ready as Hd. pose proof exl_e_ready as He. revert Hd He. unfold exl_history. generalize exl_d exl_e. intros d e Hd He.
  repeat (constructor; [apply H; [assumption|cbn; unfold I64_MIN, I64_MAX, U64_MAX; lia]|]). constructor.
Qed.
