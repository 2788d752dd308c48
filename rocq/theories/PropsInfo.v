(** * Properties C56 to C59: what the example program examples/ntfs-shell tells about files and volumes, and how it reads its input. *)
From Coq Require Import String.
From Verif Require Import Base Dev Types Record DataRuns Stream NonResident Resident BootSector Attribute File Structured AttrList Upcase Index Time Volume Shell
  Spec SpecMisc SpecValues SpecIndex SpecAttrList SpecVolume SpecInfo SpecInput
  BaseProofs DevProofs RecordProofs AttributeProofs FileProofs AttrListIterProofs ShellInfoProofs ShellSessionProofs ShellInputProofs
  StreamExamples FileExamples ValueExamples IndexExamples AttrListExamples VolumeExamples InfoExamples.

(** C56. [attr] shows every attribute of a file record, in order and with its extents if these are asked for; nothing is read from the device. *)
Theorem C56_attributes : forall nt data p n runs offs d, bytes_ok data -> 1 <= cluster_size nt -> 0 < p -> p + zlen data <= TWO64 -> 22 <= zlen data ->
  attr_walk data (field 2 data 20) offs true -> no_attribute_list data offs -> Forall (attr_whole (cluster_size nt) data) offs ->
  exists N ls, record_lines (cluster_size nt) runs n p data offs ls /\
    forall fuel, (N <= fuel)%nat -> attr_file fuel nt runs (mkFile (mkRecord data (Some p)) n) d = (d, (ls, Ok tt)).
Proof. exact attr_record. Qed.
Print Assumptions C56_attributes.
(** Record 13 of the volume of VolumeExamples.v: a name, and a stream with two extents. *)
Example C56_attributes_example : let data := exv_data exv_rec13 13 in
  bytes_ok data /\ 14336 + zlen data <= TWO64 /\ 22 <= zlen data /\ attr_walk data (field 2 data 20) [56; 152] true /\ no_attribute_list data [56; 152] /\
  Forall (attr_whole 512 data) [56; 152] /\
  attr_file 9 (ex_al_ntfs []) true (mkFile (mkRecord data (Some 14336)) 13) ex_info_dev = (ex_info_dev, (
    [LAttribute false 1 48 true 13 (Some 14392) 72 []; LAttribute false 1 128 false 13 (Some 14488) 700 []; LRun false 0 (Some 146944) 512; LRun false 1 (Some 146432) 512], Ok tt)).
Proof.
  intros data. split; [apply bytes_okb_ok; vm_compute; reflexivity|]. split; [vm_compute; discriminate|]. split; [vm_compute; discriminate|].
  split; [apply walkb_ok; vm_compute; reflexivity|]. split; [not_list|]. split; [exact exv_whole13|vm_compute; reflexivity].
Qed.
(** Behind an attribute list come the attributes in other records that its entries stand for. *)
Theorem C56_attribute_list : forall img nt ml n p data before lo after bs offs e vs runs, let f := mkFile (mkRecord data (Some p)) n in
  file_with_list img nt ml f before lo after true bs offs e vs -> Forall (attr_whole (cluster_size nt) data) (before ++ lo :: after) ->
  Forall (entry_whole img nt ml bs n) (SpecAttrList.entries_of data lo offs e) ->
  exists N ls, listed_lines img nt ml runs n p data before lo after bs (SpecAttrList.entries_of data lo offs e) ls /\
    forall fuel d, (N <= fuel)%nat -> faultless d -> d_img d = img -> exists d', faultless d' /\ d_img d' = img /\ attr_file fuel nt runs f d = (d', (ls, Ok tt)).
Proof. exact attr_listed. Qed.
Print Assumptions C56_attribute_list.
(** A file with standard information, an attribute list, and a stream and a part of one in two other records. *)
Example C56_attribute_list_example :
  file_with_list ex_al_vol6 (ex_al_ntfs ex_al_vol6) ex_al_extents ex_al_n1 [56] 128 [] true ex_al_list5 [0; 32; 64] ListDone ex_al_views5 /\
  Forall (attr_whole 512 (f_data ex_al_n1)) [56; 128] /\ Forall (entry_whole ex_al_vol6 (ex_al_ntfs ex_al_vol6) ex_al_extents ex_al_list5 1) [0; 32; 64] /\
  faultless (ex_al_dev ex_al_vol6) /\
  snd (attr_file 9 (ex_al_ntfs ex_al_vol6) true ex_al_n1 (ex_al_dev ex_al_vol6)) = (
    [LAttribute false 0 16 true 1 (Some 2104) 48 []; LAttribute false 1 32 true 1 (Some 2176) 96 [];
     LAttribute true 5 128 false 2 (Some 3128) 1600 []; LRun true 0 (Some 5120) 512; LRun true 1 None 512;
     LAttribute true 5 128 true 3 (Some 4152) 6 [98]], Ok tt).
Proof.
  split; [exact ex_al_file6|]. split; [repeat (apply Forall_cons; [whole_resident|]); apply Forall_nil|]. split; [exact ex_al_entries6|].
  split; [split; repeat constructor|vm_compute; reflexivity].
Qed.

(** C57. [fileinfo] tells what the file record, its standard information, its names and its streams say. *)
Theorem C57_fileinfo : forall nt n p data offs, bytes_ok data -> 32 <= zlen data -> attr_walk data (field 2 data 20) offs true -> no_attribute_list data offs ->
  Forall (info_whole data) offs -> exists N parts, Forall2 (info_line data) offs parts /\
  forall fuel d, (N <= fuel)%nat -> fileinfo_file fuel nt (mkFile (mkRecord data (Some p)) n) d = (d, (file_line n p data :: concat parts, Ok tt)).
Proof. exact fileinfo_plain. Qed.
Print Assumptions C57_fileinfo.
(** Record 11 of the volume of VolumeExamples.v. *)
Example C57_fileinfo_example : let data := exv_data exv_rec11 11 in let offs := [56; 128; 224; 320; 348] in
  bytes_ok data /\ 32 <= zlen data /\ attr_walk data (field 2 data 20) offs true /\ no_attribute_list data offs /\ Forall (info_whole data) offs /\
  fileinfo_file 9 (ex_al_ntfs []) (mkFile (mkRecord data (Some 12288)) 11) ex_info_dev = (ex_info_dev, (
    [LRecord 1024 (Some 12288) 512 1 false 11 1; LStandard 32 (-11644473600000000000) 0 (-11644473600000000000) (-11644473600000000000) None;
     LName [68] 2 5; LName exv_doc 1 5; LStream [] 4; LStream [65; 98] 4], Ok tt)).
Proof.
  intros data offs. split; [apply bytes_okb_ok; vm_compute; reflexivity|]. split; [vm_compute; discriminate|].
  split; [apply walkb_ok; vm_compute; reflexivity|]. split; [not_list|]. split; [exact exv_info11|vm_compute; reflexivity].
Qed.
(** Also those that an attribute list adds. *)
Theorem C57_fileinfo_list : forall img nt ml n p data before lo after bs offs e vs, let f := mkFile (mkRecord data (Some p)) n in
  file_with_list img nt ml f before lo after true bs offs e vs -> 32 <= zlen data ->
  Forall (at_view data info_whole) (map VBase before ++ vs ++ map VBase after) ->
  exists N parts, Forall2 (fun v part => at_view data (fun data' o => info_line data' o part) v) (map VBase before ++ vs ++ map VBase after) parts /\
    forall fuel d, (N <= fuel)%nat -> faultless d -> d_img d = img -> exists d', faultless d' /\ d_img d' = img /\
      fileinfo_file fuel nt f d = (d', (file_line n p data :: concat parts, Ok tt)).
Proof. exact fileinfo_list. Qed.
Print Assumptions C57_fileinfo_list.
(** The file of C56_attribute_list_example: both streams have the same type and instance, so the second one is taken for a part of the first (C51). *)
Example C57_fileinfo_list_example :
  file_with_list ex_al_vol6 (ex_al_ntfs ex_al_vol6) ex_al_extents ex_al_n1 [56] 128 [] true ex_al_list5 [0; 32; 64] ListDone ex_al_views5 /\ 32 <= zlen (f_data ex_al_n1) /\
  Forall (at_view (f_data ex_al_n1) info_whole) (map VBase [56] ++ ex_al_views5 ++ map VBase []) /\ faultless (ex_al_dev ex_al_vol6) /\
  snd (fileinfo_file 9 (ex_al_ntfs ex_al_vol6) ex_al_n1 (ex_al_dev ex_al_vol6)) = (
    [LRecord 1024 (Some 2048) 512 1 false 1 1; LStandard 32 (-11644473600000000000) 0 (-11644473600000000000) (-11644473600000000000) None; LStream [] 1600], Ok tt).
Proof.
  split; [exact ex_al_file6|]. split; [vm_compute; discriminate|]. split; [exact ex_al_info6|]. split; [split; repeat constructor|vm_compute; reflexivity].
Qed.

(** C58. The command and the argument in an input line. *)
Theorem C58_command : forall line c, read_command line = c <-> means line c.
Proof. exact read_command_spec. Qed.
Print Assumptions C58_command.
(** "  get  a b:c " and a line feed; "cd" and a tabulator and "x" is an unknown command, since only a space separates the argument. *)
Example C58_example : means (text "  get  a b:c " ++ [10]) (Some (DoGet (text "a b:c"))) /\ means (text "cd" ++ [9] ++ text "x") (Some (DoUnknown (text "cd" ++ [9] ++ text "x"))) /\
  means (text "quit now") None /\ means [32; 13; 10] (Some DoNothing) /\ means (text "CD x") (Some (DoUnknown (text "CD"))).
Proof. repeat split; apply C58_command; vm_compute; reflexivity. Qed.
(** The lines are carried out up to the first "exit" or "quit" or the end of the input. *)
Theorem C58_commands : forall lines cs, read_commands lines = cs <-> asks lines cs.
Proof. exact read_commands_spec. Qed.
Print Assumptions C58_commands.

(** C59. A session of input lines on a stored volume. *)
Theorem C59_text_session : forall img v lines cmds d, stored_volume img v -> closed v -> plain_names v -> faultless d -> d_img d = img ->
  asks lines cmds -> Forall (command_ok img v) cmds ->
  exists N replies, history img v [] cmds replies /\ forall fuel, (N <= fuel)%nat -> text_session fuel lines d = Ok replies.
Proof. exact text_session_ok. Qed.
Print Assumptions C59_text_session.
(** On the volume of VolumeExamples.v. *)
Example C59_example : let lines := [text "cd SUB"; text " get  In"; [10]; text "exit"; text "dir"] in
  asks lines [DoCd (text "SUB"); DoGet (text "In"); DoNothing] /\ Forall (command_ok (exv_img exv_sub) (exv_volume exv_sub)) [DoCd (text "SUB"); DoGet (text "In"); DoNothing] /\
  text_session 60 lines (exv_dev exv_sub) = Ok [(quiet, exv_sub); (mkReply [] exv_content (Ok (Done tt)), exv_sub); (quiet, exv_sub)].
Proof.
  intros lines. split; [apply C58_commands; vm_compute; reflexivity|]. split; [|vm_compute; reflexivity].
  apply Forall_cons; [now apply exv_units_ok|]. apply Forall_cons; [apply exv_get_ok; [now apply exv_units_ok|intros; discriminate]|]. apply Forall_cons; [exact Logic.I|apply Forall_nil].
Qed.
