(** * References in attribute lists: which record they lead to, and that the sequence number does not matter. *)
From Verif Require Import Base Dev Types Record DataRuns Stream NonResident Resident Attribute File Structured AttrList Upcase Index Spec SpecValues SpecMisc SpecIndex SpecAttrList
  BaseProofs ReaderProofs AttributeProofs FileProofs AttrListProofs AttrListIterProofs AttrListValueProofs FileExamples StreamExamples AttrListExamples.

Lemma list_reference_followed img nt mp mdata l d bs o e data q :
  bytes_ok img -> faultless d -> d_img d = img -> mft_position nt = Some mp -> 32 <= file_record_size nt <= U16_MAX ->
  mft_at img mp (file_record_size nt) mdata l -> valid_extents (cluster_size nt) img l ->
  bytes_ok bs -> decodes_list_entry bs o e -> record_stored img nt l (field 6 bs (o + 16)) q data ->
  let f := mkFile (mkRecord data (Some q)) (field 6 bs (o + 16)) in snd (le_to_file nt e d) = Ok f /\ f_number f = field 6 bs (o + 16) /\
  (field 2 data 16 = field 2 bs (o + 22) -> f_sequence_number f = Ok (field 2 bs (o + 22))).
Proof.
  intros Hb Hd Hi Hm Hf Hma Hv Hbs He Hr f.
  destruct (entry_file img nt mp mdata l bs Hb Hm Hf Hma Hv Hbs o e q data d Hr He (conj Hi (fun _ => Hd))) as (d' & E & _ & _ & Hl).
  split; [rewrite E; unfold f; now rewrite (dle_number _ _ _ He)|]. split; [reflexivity|].
  intros Hs. rewrite <- Hs. unfold f_sequence_number, rd_u16. apply rd_in; try lia.
Qed.

(** No code: example. The list entries of the volume have the sequence number 7, its records 1. *)
Definition fresh_list : list Z := [128; 0; 0; 0; 32; 0; 0; 26; 0; 0; 0; 0; 0; 0; 0; 0; 2; 0; 0; 0; 0; 0; 1; 0; 5; 0; 0; 0; 0; 0; 0; 0].
Definition fresh_entry : list_entry := le_of_header fresh_list [] None.
Lemma fresh_decodes : decodes_list_entry fresh_list 0 fresh_entry.
Proof. split; try reflexivity. vm_compute. split; [split; [discriminate|reflexivity]|reflexivity]. Qed.
Lemma stale_list_reference : exists img nt ml f before lo after bs offs e vs d i g,
  file_with_list img nt ml f before lo after true bs offs e vs /\ faultless d /\ d_img d = img /\
  snd (file_data 20 nt f [] d) = Ok (Some i) /\ ai_value_file i = Some g /\ f_number g = 2 /\ f_sequence_number g = Ok 1 /\
  forall o, In o offs -> entry_number bs o = 2 -> field 2 bs (o + 22) = 7.
Proof.
  exists ex_al_vol5, (ex_al_ntfs ex_al_vol5), ex_al_extents, ex_al_m1, [56], 88, [], ex_al_list5, [0; 32; 64], ListDone, ex_al_views5, (ex_al_dev ex_al_vol5).
  do 2 eexists. split; [exact ex_al_file5|]. split; [split; repeat constructor|]. split; [reflexivity|]. split; [vm_compute; reflexivity|]. split; [reflexivity|].
  split; [reflexivity|]. split; [reflexivity|]. intros o [<-|[<-|[<-|[]]]]; vm_compute; auto; discriminate.
Qed.
