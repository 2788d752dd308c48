(** * Properties C52 to C54: the example program examples/ntfs-shell on a whole volume. *)
From Verif Require Import Base Dev Types Record File Index Shell Spec SpecMisc SpecValues SpecIndex SpecVolume BaseProofs RecordProofs FileExamples ValueExamples IndexExamples
  ShellProofs ShellSessionProofs VolumeExamples ListedVolumeExamples.

(** C52. A volume stored on a device that works: opening it and giving any list of commands has exactly the replies and prompts that the
    commands have according to the specification, for every amount of fuel from some amount on. *)
Theorem C52_session : forall img v cmds d, stored_volume img v -> closed v -> plain_names v -> faultless d -> d_img d = img -> Forall (command_ok img v) cmds ->
  exists N replies, history img v [] cmds replies /\ forall fuel, (N <= fuel)%nat -> session fuel cmds d = Ok replies.
Proof. exact session_ok. Qed.
Print Assumptions C52_session.

(** The volume and the commands of VolumeExamples.v. *)
Example C52_example : stored_volume (exv_img exv_sub) (exv_volume exv_sub) /\ closed (exv_volume exv_sub) /\ plain_names (exv_volume exv_sub) /\ faultless (exv_dev exv_sub) /\
  d_img (exv_dev exv_sub) = exv_img exv_sub /\ Forall (command_ok (exv_img exv_sub) (exv_volume exv_sub)) ex_commands /\
  session 60 ex_commands (exv_dev exv_sub) = Ok [
    (mkReply [LEntry false exv_doc; LEntry true exv_sub] [] (Ok (Done tt)), []);
    (quiet, exv_sub);
    (mkReply [LEntry false exv_in] [] (Ok (Done tt)), exv_sub);
    (mkReply [] (zrepeat 1 512 ++ zrepeat 2 188) (Ok (Done tt)), exv_sub);
    (quiet, []);
    (mkReply [] [9; 8; 7; 6] (Ok (Done tt)), []);
    (mkReply [] (zrepeat 1 512 ++ zrepeat 2 188) (Ok (Done tt)), []);
    (says NotADirectory, []);
    (says NoSuchFile, []);
    (mkReply [LAttribute false 1 48 true 13 (Some 14392) 72 []; LAttribute false 1 128 false 13 (Some 14488) 700 []; LRun false 0 (Some 146944) 512; LRun false 1 (Some 146432) 512]
       [] (Ok (Done tt)), []);
    (mkReply [LRecord 1024 (Some 12288) 512 1 false 11 1; LStandard 32 (-11644473600000000000) 0 (-11644473600000000000) (-11644473600000000000) None;
              LName [68] 2 5; LName exv_doc 1 5; LStream [] 4; LStream [65; 98] 4] [] (Ok (Done tt)), []);
    (mkReply [LGeometry 512 1024 (Some 1024); LVersion 3 1; LSize 512 578437695752307201 147456; LLabel (Some [86; 111; 108])] [] (Ok (Done tt)), []);
    (quiet, []);
    (says NoSuchCommand, [])].
Proof.
  split; [exact exv_stored|]. split; [apply exv_closed|]. split; [exact exv_plain|]. split; [split; repeat constructor|]. split; [reflexivity|]. split; [|vm_compute; reflexivity].
  exact exv_commands_ok.
Qed.
(** A volume on which the directory "sub" and the file "in" in it have attribute lists: the index of the one and the content of the other are in
    other records, the content in two parts (ListedVolumeExamples.v). *)
Example C52_listed_example : stored_volume exw_img exw_volume /\ closed exw_volume /\ plain_names exw_volume /\ faultless exw_dev /\ d_img exw_dev = exw_img /\
  Forall (command_ok exw_img exw_volume) exw_commands /\
  session 60 exw_commands exw_dev = Ok [
    (mkReply [LEntry true exv_sub] [] (Ok (Done tt)), []);
    (quiet, exv_sub);
    (mkReply [LEntry false exv_in] [] (Ok (Done tt)), exv_sub);
    (mkReply [] (zrepeat 1 512 ++ zrepeat 2 188) (Ok (Done tt)), exv_sub);
    (mkReply [LAttribute false 3 32 true 13 (Some 14392) 128 []; LAttribute true 0 16 true 7 (Some 8248) 48 []; LAttribute true 5 128 false 7 (Some 8320) 700 [];
              LRun true 0 (Some 146944) 512; LAttribute true 5 128 false 8 (Some 9272) 0 []; LRun true 0 (Some 146432) 512;
              LAttribute false 1 48 true 13 (Some 14544) 72 []] [] (Ok (Done tt)), exv_sub);
    (mkReply [LRecord 1024 (Some 14336) 512 1 false 13 1; LStandard 32 (-11644473600000000000) 0 (-11644473600000000000) (-11644473600000000000) None;
              LStream [] 700; LName exv_in 1 12] [] (Ok (Done tt)), exv_sub);
    (mkReply [LRecord 1024 (Some 13312) 512 1 true 12 1; LStandard 32 (-11644473600000000000) 0 (-11644473600000000000) (-11644473600000000000) None;
              LName exv_sub 3 5] [] (Ok (Done tt)), exv_sub)].
Proof.
  split; [exact exw_stored|]. split; [exact exw_closed|]. split; [exact exw_plain|]. split; [split; repeat constructor|]. split; [reflexivity|].
  split; [exact exw_commands_ok|vm_compute; reflexivity].
Qed.

(** C53. On such a volume no command makes the program panic or loop: every reply is a success or one of the messages. *)
Theorem C53_no_panic_partial : forall img v cmds d, stored_volume img v -> closed v -> plain_names v -> faultless d -> d_img d = img -> Forall (command_ok img v) cmds ->
  exists N replies, length replies = length cmds /\ Forall (fun r => exists a, re_outcome (fst r) = Ok a) replies /\
    forall fuel, (N <= fuel)%nat -> session fuel cmds d = Ok replies.
Proof. exact session_no_panic. Qed.
Print Assumptions C53_no_panic_partial.
(** After any commands, going into a directory and back with ".." leaves the prompt as it was. *)
Theorem C53_up_partial : forall img v cmds name d, stored_volume img v -> closed v -> plain_names v -> faultless d -> d_img d = img ->
  Forall (command_ok img v) (cmds ++ [DoCd name; DoCd [46; 46]]) -> name <> [] -> name <> [46; 46] ->
  exists N replies r1 p1 r2 p2, length replies = length cmds /\
    (forall fuel, (N <= fuel)%nat -> session fuel (cmds ++ [DoCd name; DoCd [46; 46]]) d = Ok (replies ++ [(r1, p1); (r2, p2)])) /\
    (re_outcome r1 = Ok (Done tt) -> p2 = last (map snd replies) [] /\ r2 = quiet).
Proof. exact session_up. Qed.
Print Assumptions C53_up_partial.
(** Missing: a directory whose name contains a backslash (which a file system of a POSIX system may contain). Then ".." given twice takes the
    root directory away, and the next command panics. *)
Theorem C53_backslash_refuted : exists img v cmds d, stored_volume img v /\ closed v /\ faultless d /\ d_img d = img /\ Forall (command_ok img v) cmds /\
  exists replies r prompt, session 60 cmds d = Ok (replies ++ [(r, prompt)]) /\ re_outcome r = Panic.
Proof.
  exists (exv_img exv_bad), (exv_volume exv_bad), [DoCd exv_bad; DoCd [46; 46]; DoCd [46; 46]; DoDir], (exv_dev exv_bad).
  split; [exact exv_stored_bad|]. split; [apply exv_closed|]. split; [split; repeat constructor|]. split; [reflexivity|].
  split. { repeat (apply Forall_cons; [first [exact Logic.I|repeat constructor; discriminate]|]); apply Forall_nil. }
  exists [(quiet, exv_bad); (quiet, [115]); (quiet, [])], (mkReply [] [] Panic), []. split; [vm_compute; reflexivity|reflexivity].
Qed.
Print Assumptions C53_backslash_refuted.

(** C54. The texts that are accepted as file record numbers, and the numbers they stand for. *)
Theorem C54_numbers : forall text n, parse_number text = Some n <-> numeral text n.
Proof. exact parse_number_spec. Qed.
Print Assumptions C54_numbers.
(** "0xfF", "+12", the largest number, and one more. *)
Example C54_example : numeral [48; 120; 102; 70] 255 /\ numeral [43; 49; 50] 12 /\
  numeral [49; 56; 52; 52; 54; 55; 52; 52; 48; 55; 51; 55; 48; 57; 53; 53; 49; 54; 49; 53] 18446744073709551615 /\
  (forall n, ~ numeral [49; 56; 52; 52; 54; 55; 52; 52; 48; 55; 51; 55; 48; 57; 53; 53; 49; 54; 49; 54] n) /\ forall n, ~ numeral [48; 120] n.
Proof.
  split; [apply C54_numbers; vm_compute; reflexivity|]. split; [apply C54_numbers; vm_compute; reflexivity|]. split; [apply C54_numbers; vm_compute; reflexivity|].
  split; intros n H; apply C54_numbers in H; vm_compute in H; discriminate.
Qed.
