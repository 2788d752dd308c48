(** * C36: two things that the iteration over attribute lists does not do. *)
From Verif Require Import Base Dev Types Record DataRuns Stream NonResident Resident Attribute File Structured AttrList
  Upcase Spec SpecIndex SpecAttrList BaseProofs AttributeProofs StreamProofs NodeProofs AttrListIterProofs StreamExamples FileExamples AttrListExamples PropsAttrList.

(** The byte at offset 7 of an entry says where its name is. The name returned is that at offset 26 in any case. *)
Theorem C36_name_offset_refuted : exists bs v, bytes_ok bs /\ list_walk bs 0 [0] ListDone /\
  26 <= field 1 bs 7 /\ field 1 bs 7 + 2 * field 1 bs 6 <= lentry_len bs 0 /\
  (forall d, iterate (with_dev alist_next) 2 (alist_of_sval (SVRes (res_new bs None)), d) = [Some (Ok v); None]) /\
  le_name v <> slice bs (field 1 bs 7) (field 1 bs 7 + 2 * field 1 bs 6).
Proof.
  exists ([128; 0; 0; 0; 40; 0; 2; 32; 0; 0; 0; 0; 0; 0; 0; 0; 41; 0; 0; 0; 0; 0; 1; 0; 3; 0; 0; 0; 0; 0; 0; 0; 97; 0; 98; 0; 0; 0; 0; 0]). eexists.
  split; [apply bytes_okb_ok; vm_compute; reflexivity|]. split; [apply (lwalk_ok 5); vm_compute; reflexivity|].
  split; [vm_compute; discriminate|]. split; [vm_compute; discriminate|]. split; [intros d; vm_compute; reflexivity|vm_compute; discriminate].
Qed.
Print Assumptions C36_name_offset_refuted.

(** A last entry whose length points behind the end of the list: it is returned if the list is non-resident, and left out without an error if a list of the same
    bytes is resident. *)
Theorem C36_cut_entry_refuted : exists cs img l enc bs v d,
  valid_extents cs img l /\ encodes 0 l enc /\ zlen bs <= extents_size cs l /\ bytes_ok bs /\ file_content cs img l (zlen bs) = bs /\
  nr_new cs enc None (zlen bs) = Ok v /\ faultless d /\ d_img d = img /\
  exists a b c, map (fun x => match x with Some (Ok e) => Some (le_number e) | _ => None end) (iterate (with_dev alist_next) 4 (alist_of_sval (SVNr v), d)) = [Some a; Some b; Some c; None] /\
    map (fun x => match x with Some (Ok e) => Some (le_number e) | _ => None end) (iterate (with_dev alist_next) 4 (alist_of_sval (SVRes (res_new bs None)), d)) = [Some a; Some b; None; None] /\
    nth 2 (iterate (with_dev alist_next) 4 (alist_of_sval (SVRes (res_new bs None)), d)) (Some Panic) = None.
Proof.
  destruct C36_example as (H1 & _ & _ & _ & _ & _ & H2 & H3 & H4 & H5 & H6 & H7).
  exists 32, ex_list_img, ex_list_extents, ex_list_enc, ex_list_cut. eexists. exists ex_list_dev. change (zlen ex_list_cut) with 90.
  split; [exact H2|]. split; [exact H3|]. split; [rewrite H4; discriminate|]. split; [exact H1|]. split; [exact H5|]. split; [vm_compute; reflexivity|]. split; [exact H6|]. split; [exact H7|].
  exists 40, 41, 42. split; [vm_compute; reflexivity|]. split; [vm_compute; reflexivity|vm_compute; reflexivity].
Qed.
Print Assumptions C36_cut_entry_refuted.
