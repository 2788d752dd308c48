(** * C75: the reader of the example program. *)
From Verif Require Import Base Dev Types DataRuns Stream BootSector File Structured AttrList Upcase Index Volume Shell SectorReader BufReader Spec SpecMisc SpecVolume SpecFaults SpecStack BaseProofs StackProofs SessionProgProofs StackSessionProofs VolumeExamples
  FaultExamples.
From Coq Require Import Lia.

(** Whatever the device does, and whatever bytes it holds: a program that seeks before each read gets from the stack of readers what it would get from a device with the
    same bytes that never gives fewer bytes than asked for, and on which some seeks fail. These errors are errors of the underlying device, or the end of the file. *)
Theorem C75_any_program : forall X (pr : prog X) sector cap b d, 0 < sector <= 2 ^ 62 -> 0 < cap <= I64_MAX -> sr_sector (bf_inner b) = sector ->
  zlen (d_img d) <= U64_MAX -> asks_ok pr ->
  exists errors, (forall k, In (Some k) errors -> reports d k \/ k = UnexpectedEof) /\
    on_shell_reader cap pr b d = snd (on_device pr (failing_device (d_img d) errors)).
Proof.
  intros X pr sector cap b d Hs Hc Hb Hl Ha. destruct (stack_is_device sector cap Hs Hc pr Ha b d Hb Hl) as (errors & H1 & H2). exists errors. split; auto. symmetry. apply H2.
Qed.
Print Assumptions C75_any_program.

(** Without faults, and away from the end of the device, there are no errors either. Missing: the end of the device, see below. *)
Theorem C75_same_partial : forall X (pr : prog X) sector cap b d, 0 < sector <= 2 ^ 62 -> 0 < cap <= I64_MAX -> sr_sector (bf_inner b) = sector ->
  zlen (d_img d) <= U64_MAX -> asks_ok pr -> faultless d -> keeps_away sector cap (d_img d) pr ->
  on_shell_reader cap pr b d = snd (on_device pr (plain_device (d_img d))).
Proof. intros X pr sector cap b d Hs Hc Hb Hl Ha Hf Hk. symmetry. apply (stack_keeps sector cap Hs Hc pr Ha b d Hb Hl Hf Hk). Qed.
Print Assumptions C75_same_partial.

(** Near the end every access fails, also if the bytes are there. *)
Theorem C75_near_the_end : forall sector cap b p n exact d, 0 < sector <= 2 ^ 62 -> 0 < cap <= I64_MAX -> sr_sector (bf_inner b) = sector ->
  0 <= p -> 0 <= n <= I64_MAX -> (exact = true -> 0 < n) -> zlen (d_img d) <= U64_MAX -> faultless d -> too_near sector cap (zlen (d_img d)) p n ->
  snd (snd (shell_access cap b p n exact d)) = Err (EIo UnexpectedEof).
Proof. intros sector cap b p n exact d Hs Hc. apply (stack_end sector cap Hs Hc). Qed.
Print Assumptions C75_near_the_end.

(** The library uses its reader in this way: at the three places where it reads, it seeks before. *)
Theorem C75_access_points :
  (forall d, ntfs_new d = on_device open_prog d) /\
  (forall nt p number d, file_new nt p number d =
     on_device (Access p (file_record_size nt) true (fun r => Return (let? data := r in file_of_bytes data (Some p) number))) d) /\
  (forall r n d p, run_remaining r <> 0 -> r_pos r = Some p -> p + r_sp r <= U64_MAX -> run_read r n d =
     on_device (Access (p + r_sp r) (Z.min n (run_remaining r)) false
       (fun a => Return (match a with Ok bs => (mkRun (Some p) (r_alloc r) (r_sp r + zlen bs), Ok bs) | e => (r, e) end))) d) /\
  (forall r n d, run_remaining r = 0 \/ r_pos r = None \/ (exists p, r_pos r = Some p /\ U64_MAX < p + r_sp r) -> fst (run_read r n d) = d).
Proof. exact (conj open_is_access (conj file_is_access (conj run_is_access run_is_none))). Qed.
Print Assumptions C75_access_points.

(** Structures that are read field by field after one seek, with questions for the position anywhere between (as binrw does with the boot sector): right as long as
    they are smaller than the buffer. For the others see [C42_sequential_refuted]. *)
Theorem C75_fields : forall sector cap b p l d, 0 < sector <= 2 ^ 62 -> 0 < cap <= I64_MAX -> sr_sector (bf_inner b) = sector ->
  0 <= p -> p + cap <= U64_MAX -> Forall (fun s => 0 <= step_size s) l -> total l < cap -> zlen (d_img d) <= U64_MAX ->
  shell_fields cap b p l d = Ok (right_steps (d_img d) p l) \/
  exists k, (reports d k \/ k = UnexpectedEof /\ too_near sector cap (zlen (d_img d)) (p + total l) 0) /\ shell_fields cap b p l d = Err (EIo k).
Proof. intros sector cap b p l d Hs Hc. apply (stack_fields sector cap Hs Hc). Qed.
Print Assumptions C75_fields.

(** A field at least as large as the buffer is right as well, if it is the first one after the seek; and what comes after it, if the position is asked for in between. *)
Theorem C75_large_field : forall sector cap b p n s l d, 0 < sector <= 2 ^ 62 -> 0 < cap <= I64_MAX -> sr_sector (bf_inner b) = sector ->
  0 <= p -> cap <= n <= I64_MAX -> p + n + cap <= U64_MAX -> s = Tell \/ s = Here -> Forall (fun s => 0 <= step_size s) l -> total l < cap -> zlen (d_img d) <= U64_MAX ->
  shell_fields cap b p (Field n :: s :: l) d = Ok (right_steps (d_img d) p (Field n :: s :: l)) \/
  exists k, (reports d k \/ k = UnexpectedEof /\ too_near sector cap (zlen (d_img d)) (p + n + total l) 0) /\ shell_fields cap b p (Field n :: s :: l) d = Err (EIo k).
Proof.
  intros sector cap b p n s l d Hs Hc Hb Hp Hn Hm Ht. apply (stack_large sector cap Hs Hc); auto; destruct Ht as [->| ->]; auto; discriminate.
Qed.
Print Assumptions C75_large_field.

(** Opening a volume with the example program. *)
Theorem C75_open : forall d b, faultless d -> zlen (d_img d) <= U64_MAX -> buf_new SHELL_SECTOR = Ok b ->
  on_shell_reader SHELL_BUFFER open_prog b d = if zlen (d_img d) <? 12288 then Err (EIo UnexpectedEof) else snd (ntfs_new (plain_device (d_img d))).
Proof. exact stack_open. Qed.
Print Assumptions C75_open.

(** A volume whose only bytes are a boot sector can be opened without the stack, and not with it. *)
Theorem C75_small_volume_refuted : exists d b nt, faultless d /\ buf_new SHELL_SECTOR = Ok b /\
  snd (ntfs_new d) = Ok nt /\ on_shell_reader SHELL_BUFFER open_prog b d = Err (EIo UnexpectedEof).
Proof.
  exists (plain_device exv_boot), (mkBuf [] (mkSR 4096 0)). eexists. split; [split; constructor|]. split; [vm_compute; reflexivity|].
  split; [vm_compute; reflexivity|vm_compute; reflexivity].
Qed.
Print Assumptions C75_small_volume_refuted.

(** Whole sessions of the example program, and the operations of the library, use their reader in this way. On any contents: what they give through the stack is what they
    give on a device with the same bytes, with errors of the underlying device or the end of the file. *)
Theorem C75_session : forall fuel cmds, right_through_stack (session fuel cmds).
Proof. exact session_right. Qed.
Print Assumptions C75_session.
Theorem C75_volume : right_through_stack (fun d => snd (ntfs_new d)) /\
  (forall fuel nt, right_through_stack (fun d => snd (read_upcase_table fuel nt d))) /\
  (forall nt n, right_through_stack (fun d => snd (ntfs_file nt n d))) /\
  (forall nt, right_through_stack (fun d => snd (volume_info nt d))) /\
  (forall nt, right_through_stack (fun d => snd (volume_name nt d))).
Proof.
  exact (conj (isp_right _ isp_ntfs_new) (conj (fun fuel nt => isp_right _ (isp_read_upcase fuel nt)) (conj (fun nt n => isp_right _ (isp_ntfs_file nt n))
    (conj (fun nt => isp_right _ (isp_volume_info nt)) (fun nt => isp_right _ (isp_volume_name nt)))))).
Qed.
Print Assumptions C75_volume.
Theorem C75_attributes :
  (forall fuel nt st, right_through_stack (fun d => snd (attrs_next fuel nt st d))) /\
  (forall l, right_through_stack (fun d => snd (alist_next l d))) /\
  (forall fuel nt f name, right_through_stack (fun d => snd (file_data fuel nt f name d))) /\
  (forall fuel nt f ns parent, right_through_stack (fun d => snd (file_name_of fuel nt f ns parent d))) /\
  (forall fuel nt f, right_through_stack (fun d => snd (directory_index fuel nt f d))).
Proof.
  exact (conj (fun fuel nt st => isp_right _ (isp_attrs_next nt fuel st)) (conj (fun l => isp_right _ (isp_alist_next l)) (conj (fun fuel nt f name => isp_right _ (isp_file_data fuel nt f name))
    (conj (fun fuel nt f ns parent => isp_right _ (isp_file_name_of fuel nt f ns parent)) (fun fuel nt f => isp_right _ (isp_directory_index fuel nt f)))))).
Qed.
Print Assumptions C75_attributes.
Theorem C75_values :
  (forall nt a, right_through_stack (fun d => snd (attr_value nt a d))) /\
  (forall fuel v n, right_through_stack (fun d => snd (av_read fuel v n d))) /\
  (forall fuel v n, right_through_stack (fun d => snd (rs_read_exact (av_read fuel) v n d))) /\
  (forall fuel v p, right_through_stack (fun d => snd (av_seek fuel v p d))) /\
  (forall fuel nt ty a, right_through_stack (fun d => snd (attr_structured fuel nt si_new ty a d))) /\
  (forall fuel nt ty a, right_through_stack (fun d => snd (attr_structured fuel nt fn_new ty a d))) /\
  (forall fuel nt ty a, right_through_stack (fun d => snd (attr_structured fuel nt oi_new ty a d))) /\
  (forall fuel nt ty a, right_through_stack (fun d => snd (attr_structured fuel nt vi_new ty a d))) /\
  (forall fuel nt ty a, right_through_stack (fun d => snd (attr_structured fuel nt vn_new ty a d))).
Proof.
  exact (conj (fun nt a => isp_right _ (isp_attr_value nt a)) (conj (fun fuel v n => isp_right _ (isp_av_read fuel v n)) (conj (fun fuel v n => isp_right _ (isp_av_exact fuel v n))
    (conj (fun fuel v p => isp_right _ (isp_av_seek fuel v p)) (conj (fun fuel nt ty a => isp_right _ (isp_structured fuel nt si_new ty a isp_si_new))
    (conj (fun fuel nt ty a => isp_right _ (isp_structured fuel nt fn_new ty a isp_fn_new)) (conj (fun fuel nt ty a => isp_right _ (isp_structured fuel nt oi_new ty a isp_oi_new))
    (conj (fun fuel nt ty a => isp_right _ (isp_structured fuel nt vi_new ty a isp_vi_new)) (fun fuel nt ty a => isp_right _ (isp_structured fuel nt vn_new ty a isp_vn_new)))))))))).
Qed.
Print Assumptions C75_values.
Theorem C75_indexes :
  (forall fuel nt ix st, right_through_stack (fun d => snd (entries_next fuel nt ix st d))) /\
  (forall fuel nt ix name, right_through_stack (fun d => snd (file_name_find fuel nt ix name d))) /\
  (forall X (key : list Z -> position -> res X) cmp fuel nt ix, right_through_stack (fun d => snd (index_find key cmp fuel nt ix d))) /\
  (forall fuel size v, right_through_stack (fun d => snd (index_records_next fuel size v d))) /\
  (forall nt x, right_through_stack (fun d => snd (ie_to_file nt x d))).
Proof.
  exact (conj (fun fuel nt ix st => isp_right _ (isp_entries_next fuel nt ix st)) (conj (fun fuel nt ix name => isp_right _ (isp_find fuel nt ix name))
    (conj (fun X key cmp fuel nt ix => isp_right _ (isp_index_find key cmp fuel nt ix)) (conj (fun fuel size v => isp_right _ (isp_index_records fuel size v)) (fun nt x => isp_right _ (isp_to_file nt x)))))).
Qed.
Print Assumptions C75_indexes.

(** Sessions on a stored volume, through the stack, on any device that holds it: the volume cannot be opened because of an error, or each command has the reply it should have
    (C52), except for those that have been hit by an error (C61). The errors are those of the device, or the end of the file. *)
Theorem C75_stored : forall img v cmds, stored_volume img v -> closed v -> plain_names v -> zlen img < I64_MAX -> Forall (command_ok img v) cmds ->
  exists N, forall fuel, (N <= fuel)%nat -> exists pr, performs pr (session fuel cmds) /\
    forall sector cap b d, 0 < sector <= 2 ^ 62 -> 0 < cap <= I64_MAX -> sr_sector (bf_inner b) = sector -> d_img d = img -> ~ reports d Interrupted ->
    (exists errors, (forall k, In (Some k) errors -> reports d k \/ k = UnexpectedEof) /\
      ((exists k, In (Some k) errors /\ on_shell_reader cap pr b d = Err (EIo k)) \/
       exists replies n, on_shell_reader cap pr b d = Ok replies /\ harmed_history img v (failing_device img errors) [] cmds replies n /\ (n <= faults (failing_device img errors))%nat)) /\
    (faultless d -> keeps_away sector cap img pr -> exists replies, on_shell_reader cap pr b d = Ok replies /\ history img v [] cmds replies).
Proof. exact stored_right. Qed.
Print Assumptions C75_stored.

(** A program that opens a volume and then reads the first sector of the MFT; run on the volume of the examples, through a device with short reads. *)
Definition exs_prog : prog (res (Z * list Z)) :=
  Access 0 512 true (fun r =>
    match (let? b := r in ntfs_of_boot (decode_boot b)) with
    | Ok nt => match mft_position nt with
               | Some p => Access (p mod TWO64) 512 false (fun r => Return (let? bs := r in Ok (file_record_size nt, ztake 4 bs)))
               | None => Return Panic
               end
    | Err e => Return (Err e) | Panic => Return Panic | OutOfFuel => Return OutOfFuel
    end).
Definition exs_dev : dev := mkDev (exv_img [83]) 77 [RShort 100; RShort 20; RShort 3000] [None].
Example C75_example : asks_ok exs_prog /\ faultless exs_dev /\ keeps_away 4096 8192 (d_img exs_dev) exs_prog /\ zlen (d_img exs_dev) <= U64_MAX /\
  on_shell_reader 8192 exs_prog (mkBuf [] (mkSR 4096 0)) exs_dev = Ok (1024, [70; 73; 76; 69]) /\
  too_near SHELL_SECTOR SHELL_BUFFER (zlen (d_img exs_dev)) (zlen (d_img exs_dev) - 512) 512.
Proof.
  split.
  { cbn [exs_prog asks_ok]. unfold U64_MAX, I64_MAX. split; [lia|]. split; [lia|]. intros r. destruct (let? b := r in ntfs_of_boot (decode_boot b)) as [nt|e| |]; try exact Logic.I.
    destruct (mft_position nt) as [p|]; [|exact Logic.I]. cbn [asks_ok]. pose proof (Z.mod_pos_bound p TWO64 eq_refl). unfold TWO64, U64_MAX, I64_MAX in *. split; [lia|]. split; [lia|]. intros r'. exact Logic.I. }
  split; [split; cbn; repeat constructor|].
  split; [vm_compute; repeat split; discriminate|]. split; [vm_compute; discriminate|]. split; [vm_compute; reflexivity|vm_compute; reflexivity].
Qed.
(** Fields of a file record, with a device error in the middle in the second case. *)
Definition exs_steps : list field_step := [Tell; Field 4; Here; Field 2; Tell; Field 2; Field 0; Here; Tell; Field 4].
Example C75_fields_example : Forall (fun s => 0 <= step_size s) exs_steps /\ total exs_steps < 8192 /\
  shell_fields 8192 (mkBuf [] (mkSR 4096 0)) 1024 exs_steps exs_dev = Ok ([1024; 1028; 1030; 1032; 1032], [[70; 73; 76; 69]; [48; 0]; [3; 0]; []; [0; 0; 0; 0]]) /\
  shell_fields 8192 (mkBuf [] (mkSR 4096 0)) 1024 exs_steps (mkDev (d_img exs_dev) 0 [] [None; None; Some OtherIo]) = Err (EIo OtherIo) /\
  too_near 4096 8192 12287 (1024 + total exs_steps) 0 /\ ~ too_near 4096 8192 (zlen (d_img exs_dev)) (1024 + total exs_steps) 0.
Proof.
  split; [unfold exs_steps; repeat (apply Forall_cons; [cbn; lia|]); apply Forall_nil|]. split; [vm_compute; reflexivity|]. split; [vm_compute; reflexivity|]. split; [vm_compute; reflexivity|].
  split; [vm_compute; reflexivity|vm_compute; discriminate].
Qed.
(** A large field with a buffer of 512 bytes, and sectors of 512 bytes. *)
Example C75_large_example :
  match shell_fields 512 (mkBuf [] (mkSR 512 0)) 1024 (Field 1000 :: Tell :: [Field 4; Here]) exs_dev with
  | Ok (told, [large; small]) => told = [2024; 2028] /\ large = slice (d_img exs_dev) 1024 2024 /\ small = slice (d_img exs_dev) 2024 2028 /\ small <> slice (d_img exs_dev) 1024 1028
  | _ => False
  end /\ ~ too_near 512 512 (zlen (d_img exs_dev)) 2028 0.
Proof. split; [|vm_compute; discriminate]. vm_compute. repeat split; discriminate. Qed.
(** A session on a device that satisfies the hypotheses, and its outcome on a device as in the conclusion: without errors, and with one in the second command. *)
Example C75_session_example : zlen (d_img exs_dev) < I64_MAX /\ ~ reports exs_dev Interrupted /\ sr_sector (bf_inner (mkBuf [] (mkSR 4096 0))) = 4096 /\
  session 60 [DoDir; DoFsinfo] (failing_device (d_img exs_dev) []) = Ok [
    (mkReply [LEntry false exv_doc; LEntry true [83]] [] (Ok (Done tt)), []);
    (mkReply [LGeometry 512 1024 (Some 1024); LVersion 3 1; LSize 512 578437695752307201 147456; LLabel (Some [86; 111; 108])] [] (Ok (Done tt)), [])] /\
  session 60 [DoDir; DoFsinfo] (failing_device (d_img exs_dev) (repeat None 6 ++ [Some OtherIo])) = Ok [
    (mkReply [LEntry false exv_doc; LEntry true [83]] [] (Ok (Done tt)), []); (mkReply [LGeometry 512 1024 (Some 1024)] [] (Err (EIo OtherIo)), [])].
Proof.
  split; [vm_compute; reflexivity|]. split; [intros [H|H]; cbn in H; intuition discriminate|]. split; [reflexivity|]. split; vm_compute; reflexivity.
Qed.
Example C75_stored_example : stored_volume (exv_img exv_sub) (exv_volume exv_sub) /\ closed (exv_volume exv_sub) /\ plain_names (exv_volume exv_sub) /\ zlen (exv_img exv_sub) < I64_MAX /\
  Forall (command_ok (exv_img exv_sub) (exv_volume exv_sub)) ex_fault_commands /\ d_img ex_faulty = exv_img exv_sub /\ ~ reports ex_faulty Interrupted.
Proof.
  split; [exact exv_stored|]. split; [apply exv_closed|]. split; [exact exv_plain|]. split; [vm_compute; reflexivity|]. split; [exact ex_fault_commands_ok|]. split; [reflexivity|exact ex_faulty_ok].
Qed.
