(** * Examples for C60 and C61: the volume of VolumeExamples.v on devices with faults. *)
From Verif Require Import Base Dev Types Record File Index Volume Shell SpecVolume SpecFaults BaseProofs ShellProofs ShellSessionProofs FaultProofs FaultSessionProofs VolumeExamples.
From Coq Require Import Lia.

(** A read of up to 140001 bytes. *)
Definition ex_full : rd_event := RShort (Z.to_nat 140000).
(** The 11th and the 14th read fail. *)
Definition ex_faulty : dev := mkDev (exv_img exv_sub) 77 (repeat ex_full 10 ++ [RErr OtherIo] ++ repeat ex_full 2 ++ [RErr UnexpectedEof]) [].
(** The read after the first [n] ones fails. *)
Definition ex_faulty_at (n : nat) : dev := mkDev (exv_img exv_sub) 77 (repeat ex_full n ++ [RErr OtherIo]) [].
Definition ex_fault_commands : list command := [DoDir; DoCd exv_sub; DoGet exv_in; DoCd [46; 46]; DoFsinfo; DoFsinfo].
Definition ex_volume_lines (label : option (list Z)) : list line := [LGeometry 512 1024 (Some 1024); LVersion 3 1; LSize 512 578437695752307201 147456; LLabel label].
Lemma exv_fsinfo_ok : command_ok (exv_img exv_sub) (exv_volume exv_sub) DoFsinfo.
Proof. destruct exv_volume_record as (data & H1 & H2). now exists data, 3, 1, (Some [86; 111; 108]). Qed.
Lemma ex_fault_commands_ok : Forall (command_ok (exv_img exv_sub) (exv_volume exv_sub)) ex_fault_commands.
Proof.
  unfold ex_fault_commands.
  repeat (apply Forall_cons; [first [exact Logic.I|now apply exv_units_ok|apply exv_get_ok; [now apply exv_units_ok|intros; discriminate]|exact exv_fsinfo_ok]|]); apply Forall_nil.
Qed.
Lemma ex_no_interrupted rs n : (forall e, In e rs -> e = ex_full \/ exists k, e = RErr k /\ k <> Interrupted) -> ~ reports (mkDev (exv_img exv_sub) n rs []) Interrupted.
Proof. intros H [K|K]; [|exact K]. destruct (H _ K) as [E|(k & E & Hk)]; [discriminate|]. injection E as <-. contradiction. Qed.
Lemma ex_faulty_ok : ~ reports ex_faulty Interrupted.
Proof. apply ex_no_interrupted. intros e H. cbn in H. repeat (destruct H as [<-|H]; [first [left; reflexivity|right; eexists; split; [reflexivity|discriminate]]|]). contradiction H. Qed.
Lemma ex_faulty_at_ok n : ~ reports (ex_faulty_at n) Interrupted.
Proof.
  apply ex_no_interrupted. intros e H. apply in_app_iff in H. destruct H as [H|[<-|[]]]; [left; now apply repeat_spec in H|right; eexists; split; [reflexivity|discriminate]].
Qed.

Lemma fsinfo_refuted : exists img v d, stored_volume img v /\ closed v /\ plain_names v /\ d_img d = img /\ ~ reports d Interrupted /\ command_ok img v DoFsinfo /\
  exists fuel due r, answers img v [] DoFsinfo due [] /\ session fuel [DoFsinfo] d = Ok [(r, [])] /\ r <> due /\ re_outcome r = Ok (Done tt).
Proof.
  exists (exv_img exv_sub), (exv_volume exv_sub), (ex_faulty_at 8). split; [exact exv_stored|]. split; [apply exv_closed|]. split; [exact exv_plain|]. split; [reflexivity|].
  split; [apply ex_faulty_at_ok|]. split; [exact exv_fsinfo_ok|]. exists 60%nat, (mkReply (ex_volume_lines (Some [86; 111; 108])) [] (Ok (Done tt))), (mkReply (ex_volume_lines None) [] (Ok (Done tt))).
  split; [|split; [vm_compute; reflexivity|]; split; [discriminate|reflexivity]].
  destruct (session_ok _ _ [DoFsinfo] (exv_dev exv_sub) exv_stored (exv_closed exv_sub) exv_plain) as (N & l & Hh & Hl); [split; repeat constructor|reflexivity|apply Forall_cons; [exact exv_fsinfo_ok|apply Forall_nil]|].
  assert (E : session 60 [DoFsinfo] (exv_dev exv_sub) = Ok [(mkReply (ex_volume_lines (Some [86; 111; 108])) [] (Ok (Done tt)), [])]) by (vm_compute; reflexivity).
  assert (Hle : (60 <= 60 + N)%nat) by lia. pose proof (session_fuel 60 (60 + N) Hle [DoFsinfo] _ _ E ltac:(apply Forall_cons; [discriminate|apply Forall_nil])) as E2. rewrite Hl in E2 by lia. injection E2 as ->.
  inversion Hh as [|p0 c0 r0 p' cs0 l0 Ha H2]; subst. pose proof (answers_fsinfo _ _ _ _ _ Ha) as ->. exact Ha.
Qed.
