(** * Property C60: errors of the device are reported, and never turned into wrong data. Property C61: a session on a device with faults.

    The devices have any contents and any schedule of short reads and errors, but no error of kind [Interrupted] (C14_interrupted_refuted). *)
From Verif Require Import Base Dev Types Record DataRuns Stream NonResident Resident BootSector Attribute File Structured AttrList Upcase Index Time Volume Shell
  SpecVolume SpecFaults FaultProofs FaultSessionProofs BaseProofs ShellProofs VolumeExamples FaultExamples.

(** C60. Each call gives what it would give without the faults, or the error of the device. *)
Theorem C60_open : forall d, ~ reports d Interrupted -> honest_call d ntfs_new.
Proof. exact ntfs_new_honest. Qed.
Print Assumptions C60_open.
Theorem C60_upcase_table : forall d, ~ reports d Interrupted -> forall fuel nt, honest_call d (read_upcase_table fuel nt).
Proof. exact read_upcase_table_honest. Qed.
Print Assumptions C60_upcase_table.
Theorem C60_file : forall d, ~ reports d Interrupted -> forall nt n, honest_call d (ntfs_file nt n).
Proof. exact ntfs_file_honest. Qed.
Print Assumptions C60_file.
Theorem C60_attributes : forall d, ~ reports d Interrupted -> forall fuel nt st, honest_next d (attrs_next fuel nt st).
Proof. exact attrs_next_honest. Qed.
Print Assumptions C60_attributes.
Theorem C60_attribute_list : forall d, ~ reports d Interrupted -> forall l, honest_next d (alist_next l).
Proof. exact alist_next_honest. Qed.
Print Assumptions C60_attribute_list.
Theorem C60_data : forall d, ~ reports d Interrupted -> forall fuel nt f name, honest_call d (file_data fuel nt f name).
Proof. exact file_data_honest. Qed.
Print Assumptions C60_data.
Theorem C60_name : forall d, ~ reports d Interrupted -> forall fuel nt f ns parent, honest_call d (file_name_of fuel nt f ns parent).
Proof. exact file_name_of_honest. Qed.
Print Assumptions C60_name.
Theorem C60_value : forall d, ~ reports d Interrupted -> forall nt a, honest_call d (attr_value nt a).
Proof. exact attr_value_honest. Qed.
Print Assumptions C60_value.
(** Reading and seeking in values: no wrong byte, and no wrong position. *)
Theorem C60_read : forall d, ~ reports d Interrupted -> forall fuel v n, honest_value d (av_read fuel v n).
Proof. exact av_read_honest. Qed.
Print Assumptions C60_read.
Theorem C60_read_exact : forall d, ~ reports d Interrupted -> forall fuel v n, honest_value d (rs_read_exact (av_read fuel) v n).
Proof. exact av_read_exact_honest. Qed.
Print Assumptions C60_read_exact.
Theorem C60_seek : forall d, ~ reports d Interrupted -> forall fuel v p, honest_value d (av_seek fuel v p).
Proof. exact av_seek_honest. Qed.
Print Assumptions C60_seek.
(** Structured values of any attribute. *)
Theorem C60_file_name : forall d, ~ reports d Interrupted -> forall fuel nt ty a, honest_call d (attr_structured fuel nt fn_new ty a).
Proof. exact fn_honest. Qed.
Print Assumptions C60_file_name.
Theorem C60_standard_information : forall d, ~ reports d Interrupted -> forall fuel nt ty a, honest_call d (attr_structured fuel nt si_new ty a).
Proof. exact si_honest. Qed.
Print Assumptions C60_standard_information.
Theorem C60_object_id : forall d, ~ reports d Interrupted -> forall fuel nt ty a, honest_call d (attr_structured fuel nt oi_new ty a).
Proof. exact oi_honest. Qed.
Print Assumptions C60_object_id.
(** Directories: no entry is invented, altered or passed over. *)
Theorem C60_directory : forall d, ~ reports d Interrupted -> forall fuel nt f, honest_call d (directory_index fuel nt f).
Proof. exact directory_index_honest. Qed.
Print Assumptions C60_directory.
Theorem C60_entries : forall d, ~ reports d Interrupted -> forall fuel nt ix st, honest_next d (entries_next fuel nt ix st).
Proof. exact entries_next_honest. Qed.
Print Assumptions C60_entries.
(** A file that exists is not reported as missing, nor another one found. *)
Theorem C60_find : forall d, ~ reports d Interrupted -> forall fuel nt ix name, honest_find d (file_name_find fuel nt ix name).
Proof. exact file_name_find_honest. Qed.
Print Assumptions C60_find.
(** In an index with any keys and any comparison. *)
Theorem C60_find_any : forall d, ~ reports d Interrupted -> forall X (key : list Z -> position -> res X) cmp fuel nt ix, honest_find d (index_find key cmp fuel nt ix).
Proof. exact (fun d H X => @index_find_honest d H X). Qed.
Print Assumptions C60_find_any.
Theorem C60_entry_file : forall d, ~ reports d Interrupted -> forall nt x, honest_call d (ie_to_file nt x).
Proof. exact ie_to_file_honest. Qed.
Print Assumptions C60_entry_file.
Theorem C60_volume_information : forall d, ~ reports d Interrupted -> forall nt, honest_call d (volume_info nt).
Proof. exact volume_info_honest. Qed.
Print Assumptions C60_volume_information.
Theorem C60_volume_name : forall d, ~ reports d Interrupted -> forall nt, honest_find d (volume_name nt).
Proof. exact volume_name_honest. Qed.
Print Assumptions C60_volume_name.

(** On a device whose third read fails, a file cannot be opened; on one whose 5th read fails, it can. *)
Example C60_example : ~ reports (ex_faulty_at 2) Interrupted /\
  (exists nt, snd (ntfs_new (ex_faulty_at 2)) = Ok nt /\ (exists f, snd (ntfs_file nt 5 (fst (ntfs_new (ex_faulty_at 2)))) = Err (EIo OtherIo) /\
     snd (ntfs_file nt 5 (fst (ntfs_new (ex_faulty_at 4)))) = Ok f /\ snd (ntfs_file nt 5 (fst (ntfs_new (without_faults (ex_faulty_at 2))))) = Ok f)).
Proof.
  split; [apply ex_faulty_at_ok|]. eexists. split; [vm_compute; reflexivity|]. eexists. split; [vm_compute; reflexivity|].
  split; vm_compute; reflexivity.
Qed.

(** C61. The commands of the example program, on any contents. A command that is hit by a fault ends with the error of the device, leaves the
    current directory as it is, and has printed and written a beginning of what it should have; the exception is the name of the volume. *)
Theorem C61_command : forall d fuel nt sh c, ~ reports d Interrupted ->
  let '(d1, (sh1, r)) := run_command fuel nt sh c d in let '(e1, (sh2, due)) := run_command fuel nt sh c (without_faults d) in
  d_img d1 = d_img d /\ (forall k, reports d1 k -> reports d k) /\
  (r = due /\ sh1 = sh2 /\ e1 = without_faults d1 /\ faults d1 = faults d \/
   sh1 = sh /\ (harmed d due r \/ c = DoFsinfo /\ nameless due r) /\ S (faults d1) = faults d).
Proof. exact command_honest. Qed.
Print Assumptions C61_command.
(** A session on a stored volume: each fault harms at most one command, and all others have the replies that they should have. *)
Theorem C61_session : forall img v cmds d, stored_volume img v -> closed v -> plain_names v -> d_img d = img -> ~ reports d Interrupted -> Forall (command_ok img v) cmds ->
  exists N, (exists k, reports d k /\ forall fuel, (N <= fuel)%nat -> session fuel cmds d = Err (EIo k)) \/
    exists replies n, harmed_history img v d [] cmds replies n /\ (n <= faults d)%nat /\ forall fuel, (N <= fuel)%nat -> session fuel cmds d = Ok replies.
Proof. exact session_harmed. Qed.
Print Assumptions C61_session.
(** The volume of VolumeExamples.v on a device whose 11th and 14th reads fail. *)
Example C61_example : stored_volume (exv_img exv_sub) (exv_volume exv_sub) /\ closed (exv_volume exv_sub) /\ plain_names (exv_volume exv_sub) /\
  d_img ex_faulty = exv_img exv_sub /\ ~ reports ex_faulty Interrupted /\ Forall (command_ok (exv_img exv_sub) (exv_volume exv_sub)) ex_fault_commands /\ faults ex_faulty = 2%nat /\
  session 60 ex_fault_commands ex_faulty = Ok [
    (mkReply [LEntry false exv_doc; LEntry true exv_sub] [] (Ok (Done tt)), []);
    (quiet, exv_sub);
    (mkReply [] [] (Err (EIo OtherIo)), exv_sub);
    (quiet, []);
    (mkReply [LGeometry 512 1024 (Some 1024); LVersion 3 1; LSize 512 578437695752307201 147456; LLabel None] [] (Ok (Done tt)), []);
    (mkReply [LGeometry 512 1024 (Some 1024); LVersion 3 1; LSize 512 578437695752307201 147456; LLabel (Some [86; 111; 108])] [] (Ok (Done tt)), [])].
Proof.
  split; [exact exv_stored|]. split; [apply exv_closed|]. split; [exact exv_plain|]. split; [reflexivity|]. split; [exact ex_faulty_ok|].
  split; [exact ex_fault_commands_ok|]. split; vm_compute; reflexivity.
Qed.
(** [fsinfo] shows a volume that has a name as one without a name, and no error, after a fault. *)
Theorem C61_fsinfo_refuted : exists img v d, stored_volume img v /\ closed v /\ plain_names v /\ d_img d = img /\ ~ reports d Interrupted /\ command_ok img v DoFsinfo /\
  exists fuel due r, answers img v [] DoFsinfo due [] /\ session fuel [DoFsinfo] d = Ok [(r, [])] /\ r <> due /\ re_outcome r = Ok (Done tt).
Proof. exact fsinfo_refuted. Qed.
Print Assumptions C61_fsinfo_refuted.
(** More fuel does not change the outcome of a session, nor that of a call, so that what the theorems say of some fuel holds of all further fuel. *)
Theorem C61_fuel : forall fuel fuel', (fuel <= fuel')%nat -> forall cmds d replies, session fuel cmds d = Ok replies ->
  Forall (fun r => re_outcome (fst r) <> OutOfFuel) replies -> session fuel' cmds d = Ok replies.
Proof. exact session_fuel. Qed.
Print Assumptions C61_fuel.
Theorem C61_fuel_read : forall fuel fuel', (fuel <= fuel')%nat -> forall v n d, snd (snd (av_read fuel v n d)) <> OutOfFuel -> av_read fuel' v n d = av_read fuel v n d.
Proof. exact av_read_fuel. Qed.
Print Assumptions C61_fuel_read.
Theorem C61_fuel_entries : forall fuel fuel', (fuel <= fuel')%nat -> forall nt ix st d, snd (snd (entries_next fuel nt ix st d)) <> Some OutOfFuel ->
  entries_next fuel' nt ix st d = entries_next fuel nt ix st d.
Proof. exact entries_next_fuel. Qed.
Print Assumptions C61_fuel_entries.
Theorem C61_fuel_find : forall fuel fuel', (fuel <= fuel')%nat -> forall X (key : list Z -> position -> res X) cmp nt ix d, snd (index_find key cmp fuel nt ix d) <> Some OutOfFuel ->
  index_find key cmp fuel' nt ix d = index_find key cmp fuel nt ix d.
Proof. exact (fun fuel fuel' H X => @index_find_fuel fuel fuel' H X). Qed.
Print Assumptions C61_fuel_find.
Theorem C61_fuel_attributes : forall fuel fuel', (fuel <= fuel')%nat -> forall nt st d, snd (snd (attrs_next fuel nt st d)) <> Some OutOfFuel ->
  attrs_next fuel' nt st d = attrs_next fuel nt st d.
Proof. exact attrs_next_fuel. Qed.
Print Assumptions C61_fuel_attributes.
