(** * Property C63: the files that the example program creates on the host. *)
From Verif Require Import Base Dev Types Volume Shell Host SpecVolume SpecFaults SpecHost BaseProofs ShellProofs FaultProofs FaultSessionProofs HostProofs VolumeExamples FaultExamples.

(** C63. Whatever is on the device, a session leaves the existing files as they are, and creates only files that are named by its [get] commands and
    that the host permits. *)
Theorem C63_preserves : forall allowed fuel h cmds d replies h', hosted_session allowed fuel h cmds d = Ok (replies, h') ->
  (forall name bs, has_file h name bs -> has_file h' name bs) /\
  forall name bs, has_file h' name bs -> has_file h name bs \/ no_file h name /\ allowed name = true /\ exists arg, In (DoGet arg) cmds /\ saved_as arg name.
Proof. exact session_keeps_files. Qed.
Print Assumptions C63_preserves.
(** On a stored volume the replies, prompts and files are those of the specification: a created file has the bytes of the stream. *)
Theorem C63_session : forall img v allowed h cmds d, stored_volume img v -> closed v -> plain_names v -> faultless d -> d_img d = img -> Forall (command_ok img v) cmds ->
  exists N replies h', hosted_history img v allowed [] h cmds replies h' /\ forall fuel, (N <= fuel)%nat -> hosted_session allowed fuel h cmds d = Ok (replies, h').
Proof. exact hosted_session_ok. Qed.
Print Assumptions C63_session.
(** If the device fails now and then, a created file still has no wrong bytes: it is the beginning of the data of a stream. *)
Theorem C63_faults : forall img v allowed h cmds d, stored_volume img v -> closed v -> plain_names v -> d_img d = img -> ~ reports d Interrupted -> Forall (command_ok img v) cmds ->
  exists N, (exists k, reports d k /\ forall fuel, (N <= fuel)%nat -> hosted_session allowed fuel h cmds d = Err (EIo k)) \/
    exists replies h', (forall fuel, (N <= fuel)%nat -> hosted_session allowed fuel h cmds d = Ok (replies, h')) /\
      forall name bs, has_file h' name bs -> has_file h name bs \/ no_file h name /\ saves_part img v cmds name bs.
Proof. exact hosted_session_parts. Qed.
Print Assumptions C63_faults.

(** There is a file of the name of the stream "Ab" of the document, so that it is not saved; the rest is. *)
Definition ex_host : host := [(exv_doc ++ [95; 65; 98], [1; 2; 3])].
Definition ex_get_commands : list command := [DoGet exv_doc; DoGet (exv_doc ++ [58; 65; 98]); DoCd exv_sub; DoGet exv_in; DoGet exv_in].
Lemma ex_get_commands_ok : Forall (command_ok (exv_img exv_sub) (exv_volume exv_sub)) ex_get_commands.
Proof.
  unfold ex_get_commands.
  repeat (apply Forall_cons; [first [exact Logic.I|now apply exv_units_ok|apply exv_get_ok; [now apply exv_units_ok|intros; discriminate]]|]); apply Forall_nil.
Qed.
Example C63_example : stored_volume (exv_img exv_sub) (exv_volume exv_sub) /\ closed (exv_volume exv_sub) /\ plain_names (exv_volume exv_sub) /\ faultless (exv_dev exv_sub) /\
  d_img (exv_dev exv_sub) = exv_img exv_sub /\ Forall (command_ok (exv_img exv_sub) (exv_volume exv_sub)) ex_get_commands /\
  hosted_session (fun _ => true) 60 ex_host ex_get_commands (exv_dev exv_sub) = Ok ([
    (Replied (mkReply [] [104; 105; 33; 10] (Ok (Done tt))), []);
    (CannotCreate, []);
    (Replied quiet, exv_sub);
    (Replied (mkReply [] (zrepeat 1 512 ++ zrepeat 2 188) (Ok (Done tt))), exv_sub);
    (CannotCreate, exv_sub)],
    [(exv_in, zrepeat 1 512 ++ zrepeat 2 188); (exv_doc, [104; 105; 33; 10])] ++ ex_host).
Proof.
  split; [exact exv_stored|]. split; [apply exv_closed|]. split; [exact exv_plain|]. split; [split; repeat constructor|]. split; [reflexivity|]. split; [exact ex_get_commands_ok|].
  vm_compute. reflexivity.
Qed.

(** Not so: a [get] that fails leaves no file. The output file is created first, so that a name that does not exist on the volume leaves an empty file. *)
Theorem C63_leftover_refuted : exists img v arg d, stored_volume img v /\ closed v /\ plain_names v /\ faultless d /\ d_img d = img /\ command_ok img v (DoGet arg) /\
  exists fuel r h', hosted_session (fun _ => true) fuel [] [DoGet arg] d = Ok ([(Replied r, [])], h') /\ re_outcome r = Ok (Said NoSuchFile) /\ saved_as arg arg /\ has_file h' arg [].
Proof.
  exists (exv_img exv_sub), (exv_volume exv_sub), [113], (exv_dev exv_sub). split; [exact exv_stored|]. split; [apply exv_closed|]. split; [exact exv_plain|]. split; [split; repeat constructor|].
  split; [reflexivity|]. split; [apply exv_get_ok; [now apply exv_units_ok|intros; discriminate]|].
  exists 60%nat, (says NoSuchFile), [([113], [])]. split; [vm_compute; reflexivity|]. split; [reflexivity|]. split; [exact (output_name_spec [113])|]. exists [], []. split; [reflexivity|intros []].
Qed.
Print Assumptions C63_leftover_refuted.
(** Not so: a [get] that has failed because of the device can be repeated when the device works again. The file that the first attempt has left is in
    the way. *)
Theorem C63_retry_refuted : exists img v arg d, stored_volume img v /\ closed v /\ plain_names v /\ d_img d = img /\ ~ reports d Interrupted /\ faults d = 1%nat /\ command_ok img v (DoGet arg) /\
  exists fuel k h', hosted_session (fun _ => true) fuel [] [DoGet arg; DoGet arg] d = Ok ([(Replied (mkReply [] [] (Err (EIo k))), []); (CannotCreate, [])], h').
Proof.
  exists (exv_img exv_sub), (exv_volume exv_sub), exv_doc, (ex_faulty_at 7). split; [exact exv_stored|]. split; [apply exv_closed|]. split; [exact exv_plain|]. split; [reflexivity|].
  split; [apply ex_faulty_at_ok|]. split; [vm_compute; reflexivity|]. split; [apply exv_get_ok; [now apply exv_units_ok|intros; discriminate]|].
  exists 60%nat, OtherIo, [(exv_doc, [])]. vm_compute. reflexivity.
Qed.
Print Assumptions C63_retry_refuted.
