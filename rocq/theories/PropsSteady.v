(** * Property C64: what a call gives depends on the bytes of the volume, and not on how the device delivers them.

    The devices have any contents, well-formed or not, of at most 2^64 bytes. They do not fail; C60 is about those that do. *)
From Coq Require Import Lia.
From Verif Require Import Base Dev Types Record DataRuns Stream NonResident Resident BootSector Attribute File Structured AttrList Upcase Index Time Volume Shell
  Spec SpecTotal SpecVolume SpecSteady ListTotalProofs ShellTotalProofs SteadyProofs BaseProofs ShellProofs VolumeExamples.

(** Opening a volume and a file record end in every case, so that the outcomes are the same without a condition. *)
Theorem C64_open : forall d e, same_contents d e -> bytes_ok (d_img d) -> snd (ntfs_new d) = snd (ntfs_new e).
Proof. exact ntfs_new_steady. Qed.
Print Assumptions C64_open.
Theorem C64_file : forall nt n d e, opened nt -> 0 <= n -> same_contents d e -> bytes_ok (d_img d) -> snd (ntfs_file nt n d) = snd (ntfs_file nt n e).
Proof. exact ntfs_file_steady. Qed.
Print Assumptions C64_file.
(** The other calls, with whatever arguments. *)
Theorem C64_upcase_table : forall nt, steady_call (fun fuel => read_upcase_table fuel nt).
Proof. exact upcase_steady. Qed.
Print Assumptions C64_upcase_table.
Theorem C64_attributes : forall nt st, steady_next (fun fuel => attrs_next fuel nt st).
Proof. exact attributes_steady. Qed.
Print Assumptions C64_attributes.
Theorem C64_attribute_list : forall l, steady_next (fun _ => alist_next l).
Proof. exact alist_steady. Qed.
Print Assumptions C64_attribute_list.
Theorem C64_data : forall nt f name, steady_call (fun fuel => file_data fuel nt f name).
Proof. exact data_steady. Qed.
Print Assumptions C64_data.
Theorem C64_name : forall nt f ns parent, steady_call (fun fuel => file_name_of fuel nt f ns parent).
Proof. exact name_steady. Qed.
Print Assumptions C64_name.
Theorem C64_value : forall nt a, steady_call (fun _ => attr_value nt a).
Proof. exact value_steady. Qed.
Print Assumptions C64_value.
(** Reading and seeking in values: also the length of what a read returns. *)
Theorem C64_read : forall v n, steady_value (fun fuel => av_read fuel v n).
Proof. exact read_steady. Qed.
Print Assumptions C64_read.
Theorem C64_read_exact : forall v n, steady_value (fun fuel => rs_read_exact (av_read fuel) v n).
Proof. exact read_exact_steady. Qed.
Print Assumptions C64_read_exact.
Theorem C64_seek : forall v p, steady_value (fun fuel => av_seek fuel v p).
Proof. exact seek_steady. Qed.
Print Assumptions C64_seek.
Theorem C64_file_name : forall nt ty a, steady_call (fun fuel => attr_structured fuel nt fn_new ty a).
Proof. exact fn_steady. Qed.
Print Assumptions C64_file_name.
Theorem C64_standard_information : forall nt ty a, steady_call (fun fuel => attr_structured fuel nt si_new ty a).
Proof. exact si_steady. Qed.
Print Assumptions C64_standard_information.
Theorem C64_object_id : forall nt ty a, steady_call (fun fuel => attr_structured fuel nt oi_new ty a).
Proof. exact oi_steady. Qed.
Print Assumptions C64_object_id.
(** Directories. *)
Theorem C64_directory : forall nt f, steady_call (fun fuel => directory_index fuel nt f).
Proof. exact directory_steady. Qed.
Print Assumptions C64_directory.
Theorem C64_entries : forall nt ix st, steady_next (fun fuel => entries_next fuel nt ix st).
Proof. exact entries_steady. Qed.
Print Assumptions C64_entries.
Theorem C64_find : forall nt ix name, steady_find (fun fuel => file_name_find fuel nt ix name).
Proof. exact name_find_steady. Qed.
Print Assumptions C64_find.
Theorem C64_find_any : forall X (key : list Z -> position -> res X) cmp nt ix, steady_find (fun fuel => index_find key cmp fuel nt ix).
Proof. exact (fun X => @find_steady X). Qed.
Print Assumptions C64_find_any.
Theorem C64_entry_file : forall nt x, steady_call (fun _ => ie_to_file nt x).
Proof. exact entry_file_steady. Qed.
Print Assumptions C64_entry_file.
Theorem C64_volume_information : forall nt, steady_call (fun _ => volume_info nt).
Proof. exact volume_info_steady. Qed.
Print Assumptions C64_volume_information.
Theorem C64_volume_name : forall nt, steady_find (fun _ => volume_name nt).
Proof. exact volume_name_steady. Qed.
Print Assumptions C64_volume_name.
(** A command of the example program, from any state of the shell. *)
Theorem C64_command : forall nt sh c, steady (fun x => re_outcome (snd x) <> OutOfFuel) (fun fuel => run_command fuel nt sh c).
Proof. exact command_steady. Qed.
Print Assumptions C64_command.
(** Any sequence of reads and seeks on one value. *)
Theorem C64_history : forall ops v d e fuel fuel', same_contents d e -> Forall op_ended (reader_run (av_read fuel) (av_seek fuel) v d ops) ->
  Forall op_ended (reader_run (av_read fuel') (av_seek fuel') v e ops) -> reader_run (av_read fuel) (av_seek fuel) v d ops = reader_run (av_read fuel') (av_seek fuel') v e ops.
Proof. exact history_steady. Qed.
Print Assumptions C64_history.
(** A whole session of the example program. *)
Theorem C64_session : forall cmds d e fuel fuel', same_contents d e -> session_ended (session fuel cmds d) -> session_ended (session fuel' cmds e) ->
  session fuel cmds d = session fuel' cmds e.
Proof. exact session_steady. Qed.
Print Assumptions C64_session.
(** Sessions that do not walk a directory tree end on every volume (C55), and then in the same way. *)
Theorem C64_direct_session : forall cmds d e, Forall direct cmds -> bytes_ok (d_img d) -> same_contents d e ->
  exists N x, session_ended x /\ forall fuel, (N <= fuel)%nat -> session fuel cmds d = x /\ session fuel cmds e = x.
Proof. exact direct_session_steady. Qed.
Print Assumptions C64_direct_session.
(** The volume and the commands of VolumeExamples.v on a device which returns ten bytes in each of its first 250 reads, and the first half of that volume on both devices. *)
Definition ex_slow (img : list Z) : dev := mkDev img 147000 (repeat (RShort 9) 250) [].
Definition ex_half : list Z := ztake 73728 (exv_img exv_sub).
Definition ex_endedb (x : res (list (reply * list Z))) : bool := match x with Ok l => forallb (fun r => match re_outcome (fst r) with OutOfFuel => false | _ => true end) l | OutOfFuel => false | _ => true end.
Lemma ex_endedb_ended x : ex_endedb x = true -> session_ended x.
Proof.
  destruct x as [l| | |]; cbn [ex_endedb]; intros H; (split; [discriminate|]); intros l' E; try discriminate. injection E as <-.
  apply Forall_forall. intros r Hr E. rewrite forallb_forall in H. specialize (H r Hr). now rewrite E in H.
Qed.
Example C64_example : same_contents (exv_dev exv_sub) (ex_slow (exv_img exv_sub)) /\ bytes_ok (exv_img exv_sub) /\
  session_ended (session 60 ex_commands (exv_dev exv_sub)) /\ session_ended (session 400 ex_commands (ex_slow (exv_img exv_sub))) /\
  same_contents (mkDev ex_half 0 [] []) (ex_slow ex_half) /\
  session 60 ex_commands (mkDev ex_half 0 [] []) = Err (EIo UnexpectedEof) /\ session 400 ex_commands (ex_slow ex_half) = Err (EIo UnexpectedEof).
Proof.
  assert (F : forall img, faultless (ex_slow img)).
  { intros img. split; [|apply Forall_nil]. apply Forall_forall. intros x H. apply repeat_spec in H. subst x. exact Logic.I. }
  assert (L : (zlen (exv_img exv_sub) <=? TWO64) = true) by (vm_compute; reflexivity). assert (L2 : (zlen ex_half <=? TWO64) = true) by (vm_compute; reflexivity).
  split; [split; [split; repeat constructor|]; split; [apply F|]; split; [reflexivity|apply Z.leb_le; exact L]|]. split; [apply bytes_okb_ok; vm_compute; reflexivity|].
  split; [apply ex_endedb_ended; vm_compute; reflexivity|]. split; [apply ex_endedb_ended; vm_compute; reflexivity|].
  split; [split; [split; apply Forall_nil|]; split; [apply F|]; split; [reflexivity|apply Z.leb_le; exact L2]|split; vm_compute; reflexivity].
Qed.
